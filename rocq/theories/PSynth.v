From Coq Require Import ZArith List Bool Lia Sorted.
From Verif Require Import Base Num Xr MState MLoad MSynth SLoad PRate PGeom PLag PFill PCoast PLoad PLoad2 PLoad3 SSynth.
Import ListNotations.

Lemma in_last_ {A} (l : list A) z : last_ l = Ok z <-> nth_error l (length l - 1) = Some z.
Proof.
  unfold last_. destruct l as [|x s] using rev_ind; [cbn; split; discriminate|]. clear IHs.
  rewrite rev_unit, app_length, nth_error_app2 by (cbn; lia). cbn [length].
  replace (length s + 1 - 1 - length s)%nat with 0%nat by lia. cbn. split; intros E; injection E as ->; reflexivity.
Qed.

(** * Times *)
Lemma dateRange_nth a b f k t : nth_error (dateRange a b f) k = Some t -> t = (a + Z.of_nat k * f)%Z.
Proof.
  unfold dateRange. destruct (b <? a)%Z; [destruct k; discriminate|]. intros H. rewrite nth_error_map in H.
  destruct (nth_error (seq _ _) k) as [j|] eqn:E; [|discriminate]. apply nth_error_seq in E as [_ E]. cbn [Nat.add] in E.
  cbn [option_map] in H. apply Some_inj in H. subst t j. reflexivity.
Qed.
Lemma dateRange_length a b f : (a <= b)%Z -> length (dateRange a b f) = S (Z.to_nat ((b - a) / f)).
Proof. intros L. unfold dateRange. rewrite (proj2 (Z.ltb_ge _ _) L). now rewrite map_length, seq_length. Qed.
Lemma last_step a b f : (a <= b)%Z -> (0 < f)%Z ->
  (a + Z.of_nat (Z.to_nat ((b - a) / f)) * f <= b < a + (Z.of_nat (Z.to_nat ((b - a) / f)) + 1) * f)%Z.
Proof.
  intros L P. assert (0 <= (b - a) / f)%Z by (apply Z.div_pos; lia). rewrite Z2Nat.id by lia.
  pose proof (Z.div_mod (b - a) f ltac:(lia)). pose proof (Z.mod_pos_bound (b - a) f P). nia.
Qed.

(** * C72 *)
Section Tide.
  Context {F : Type} {NF : Num F}.
  Lemma tide_times start stop int (msl range : F) : (start <= stop)%Z -> (0 < int)%Z ->
    regular start int (harmonicTide start stop int msl range) /\
    exists z, nth_error (harmonicTide start stop int msl range) (length (harmonicTide start stop int msl range) - 1) = Some z /\
      (stop - int < fst z <= stop)%Z.
  Proof.
    intros L P. split.
    - intros k p H. unfold harmonicTide in H. rewrite nth_error_map in H.
      destruct (nth_error (dateRange _ _ _) k) as [t|] eqn:E; [|discriminate]. cbn [option_map] in H. apply Some_inj in H. subst p. cbn [fst].
      now apply dateRange_nth in E.
    - unfold harmonicTide at 2. rewrite map_length, dateRange_length by exact L. cbn [Nat.sub]. rewrite Nat.sub_0_r.
      unfold harmonicTide. rewrite nth_error_map.
      destruct (nth_error (dateRange start stop int) (Z.to_nat ((stop - start) / int))) as [t|] eqn:E.
      + eexists. split; [reflexivity|]. cbn [fst]. apply dateRange_nth in E. subst t.
        pose proof (last_step start stop int L P). lia.
      + apply nth_error_None in E. rewrite dateRange_length in E by exact L. lia.
  Qed.
  Lemma tide_covers start stop int (msl range : F) dtMax : (start <= stop)%Z -> (0 < int)%Z ->
    ((exists s, trimSeries start stop dtMax (harmonicTide start stop int msl range) = Ok s) <-> (int | stop - start)%Z).
  Proof.
    intros L P. destruct (tide_times start stop int msl range L P) as [Rg (z & Hz & B)]. pose proof (Rg _ _ Hz) as Ez. split.
    - intros [s Hs]. destruct (trim_asserts _ _ _ _ _ Hs) as [_ (z' & Hz' & Lz)]. rewrite Hz in Hz'. apply Some_inj in Hz'. subst z'.
      exists (Z.of_nat (length (harmonicTide start stop int msl range) - 1)). lia.
    - intros [q Hq]. apply trim_total. split.
      + destruct (nth_error (harmonicTide start stop int msl range) 0) as [a|] eqn:E.
        * exists a. split; [reflexivity|]. rewrite (Rg _ _ E). lia.
        * apply nth_error_None in E. pose proof (nth_lt _ _ _ Hz). lia.
      + exists z. split; [exact Hz|]. set (k := Z.of_nat _) in Ez. assert (q = k) by nia. nia.
  Qed.
End Tide.
Lemma period_val : @tidePeriod xr _ = Fin 44712.
Proof. unfold tidePeriod. xg. f_equal. change (12 * 60)%Z with 720%Z. lra. Qed.
Lemma secs_val ns : @secsOf xr _ ns = Fin (IZR ns / 1000000000).
Proof. unfold secsOf. xg. apply xdiv_fin. lra. Qed.
Lemma tide_val start msl range t :
  tideAt start (Fin msl) (Fin range) t = Fin (msl + range / 2 * sin (2 * PI * (IZR (t - start) / 1000000000 / 44712))).
Proof.
  unfold tideAt. rewrite period_val, secs_val. change (@f2 xr _) with (Fin 2). change (@fpi xr _) with (Fin PI).
  change (@fdiv xr _ ?a ?b) with (xdiv a b). xg. rewrite !xdiv_fin by lra. xg. f_equal. f_equal. f_equal. f_equal. lra.
Qed.
Lemma tide_range start stop int msl range : (start <= stop)%Z -> (0 <= range)%R ->
  (forall p, In p (harmonicTide start stop int (Fin msl) (Fin range)) ->
     exists v, snd p = Fin v /\ (msl - range / 2 <= v <= msl + range / 2)%R) /\
  nth_error (harmonicTide start stop int (Fin msl) (Fin range)) 0 = Some (start, Fin msl).
Proof.
  intros L Q. split.
  - intros p H. apply in_map_iff in H as (t & <- & _). cbn [snd]. rewrite tide_val. eexists. split; [reflexivity|].
    set (x := (2 * PI * _)%R). pose proof (SIN_bound x). nra.
  - unfold harmonicTide, dateRange. rewrite (proj2 (Z.ltb_ge _ _) L). cbn [seq map nth_error]. rewrite tide_val.
    replace (start + Z.of_nat 0 * int)%Z with start by lia. rewrite Z.sub_diag. do 3 f_equal.
    replace (2 * PI * (0 / 1000000000 / 44712))%R with 0%R by lra. rewrite sin_0. lra.
Qed.

(** * C73 *)
Section Setup.
  Context {F : Type} {NF : Num F}.
  Lemma default_fails us start stop int gap (inc d1 : F) rise calc :
    (f0 <? d1)%n = true -> (f0 <=? f1)%n = true -> (f1 <=? f1)%n = true -> (f1 <? f1)%n = false -> (0 < rise)%Z -> (day <= gap)%Z ->
    shotNoise us start stop int gap inc d1 f1 None rise calc = Exc EType.
  Proof.
    intros A B C D L G. unfold shotNoise, shotNoiseRaw, shotSetup. rewrite A, B, C, D. cbn [assert_ bind andb].
    rewrite (proj2 (Z.ltb_lt _ _) L). cbn [assert_ bind].
    assert (daysField gap <> 0)%Z as N.
    { unfold daysField, nsPerDay. unfold day in G. pose proof (Z.div_le_mono 86400000000000 gap 86400000000000 ltac:(lia) G). rewrite Z.div_same in H by lia. lia. }
    rewrite (proj2 (Z.eqb_neq _ _) N). reflexivity.
  Qed.
  Lemma none_never us start stop int gap (inc d1 p1 : F) rise calc r :
    shotNoise us start stop int gap inc d1 p1 None rise calc <> Ok r.
  Proof.
    intros H. unfold shotNoise in H. apply bind_ok in H as (x & H & _). unfold shotNoiseRaw in H. apply bind_ok in H as (y & H & _).
    unfold shotSetup in H. apply bind_ok in H as (? & _ & H). apply bind_ok in H as (? & _ & H). apply bind_ok in H as (? & _ & H). apply bind_ok in H as (? & _ & H).
    destruct (_ =? 0)%Z; discriminate.
  Qed.
  Lemma short_gap us start stop int gap (inc d1 p1 d2 : F) rise calc :
    (f0 <? d1)%n = true -> (f0 <=? p1)%n = true -> (p1 <=? f1)%n = true -> (f0 <? d2)%n = true -> (0 < rise)%Z -> (0 <= gap < day)%Z ->
    shotNoise us start stop int gap inc d1 p1 (Some d2) rise calc = Exc EZeroDiv.
  Proof.
    intros A B C D L G. unfold shotNoise, shotNoiseRaw, shotSetup. rewrite A, B, C, D, (proj2 (Z.ltb_lt _ _) L).
    assert (daysField gap = 0)%Z as -> by (unfold daysField, nsPerDay; unfold day in G; apply Z.div_small; lia).
    cbn [assert_ bind andb]. now destruct (p1 <? f1)%n.
  Qed.
  Lemma whole_days us start stop int gap gap' (inc d1 p1 : F) d2 rise calc : (gap / day = gap' / day)%Z ->
    shotNoise us start stop int gap inc d1 p1 d2 rise calc = shotNoise us start stop int gap' inc d1 p1 d2 rise calc.
  Proof. intros E. unfold shotNoise, shotNoiseRaw, shotSetup, daysField, nsPerDay. unfold day in E. now rewrite E. Qed.
End Setup.

(** * C74 *)
Lemma gap_val rate u : (0 < rate)%R -> (0 < u < 1)%R -> exists g, gapOf (Fin rate) (Fin u) = Ok g /\ (0 <= g)%Z.
Proof.
  intros Pr [U0 U1]. unfold gapOf. xg. rdecide. eexists. split; [reflexivity|]. unfold xlog. destruct (Rlt_dec 0 u); [|lra]. xg.
  rewrite xdiv_fin by lra. xg. set (x := (_ * _)%R).
  assert (0 <= x)%R.
  { unfold x. pose proof (ln_increasing u 1 U0 U1) as Q. rewrite ln_1 in Q. apply Rmult_le_pos; [|apply IZR_le; unfold nsPerDay; lia].
    apply Rmult_le_pos; [lra|]. left. now apply Rinv_0_lt_compat. }
  pose proof (Rfloor_spec x). apply le_IZR. destruct (Z_lt_le_dec (Rfloor x) 0) as [N|N]; [|apply IZR_le; lia].
  apply IZR_le in N || idtac. assert (Rfloor x + 1 <= 0)%Z as N' by (apply Zlt_le_succ; auto; try (apply lt_IZR; lra)). apply IZR_le in N'. rewrite plus_IZR in N'. lra.
Qed.
Lemma size_val inc w : (0 < inc)%R -> (0 <= w < 1)%R -> exists s, sizeOf (Fin inc) (Fin w) = Ok (Fin s) /\ (0 <= s)%R.
Proof.
  intros Pr [U0 U1]. unfold sizeOf. xg. rdecide. unfold xlog. destruct (Rlt_dec 0 (1 - w)); [|lra]. xg. eexists. split; [reflexivity|].
  assert (ln (1 - w) <= 0)%R; [|nra]. destruct (Req_dec w 0) as [->|N]; [rewrite Rminus_0_r, ln_1; lra|].
  pose proof (ln_increasing (1 - w) 1 ltac:(lra) ltac:(lra)) as Q. rewrite ln_1 in Q. lra.
Qed.

Definition pos (p : Z * xr) : Prop := above0 (snd p).

Lemma interp2_pos x (a b : Z * xr) : pos a -> pos b -> above0 (interp2 x a b).
Proof.
  destruct a as [ta va], b as [tb vb]. intros (ra & Ea & Pa) (rb & Eb & Pb). cbn [snd] in *. subst.
  unfold interp2. cbn [fst snd]. destruct (x <=? ta)%Z eqn:E1; [exists ra; auto|]. destruct (tb <=? x)%Z eqn:E2; [exists rb; auto|].
  apply Z.leb_gt in E1, E2. apply IZR_lt in E1, E2. xg. rewrite xdiv_fin by lra. xg. eexists. split; [reflexivity|].
  set (A := IZR ta) in *. set (B := IZR tb) in *. set (X := IZR x) in *.
  replace ((rb - ra) / (B - A) * (X - A) + ra)%R with ((rb * (X - A) + ra * (B - X)) * / (B - A))%R by (field; lra).
  apply Rmult_lt_0_compat; [nra|]. apply Rinv_0_lt_compat. lra.
Qed.
Lemma interp2_rise x ta tb s : (0 <= s)%R -> exists v, interp2 (F:=xr) x (ta, f0) (tb, Fin s) = Fin v /\ (0 <= v <= s)%R.
Proof.
  intros Ps. unfold interp2. cbn [fst snd]. destruct (x <=? ta)%Z eqn:E1; [exists 0%R; split; [reflexivity|lra]|].
  destruct (tb <=? x)%Z eqn:E2; [exists s; split; [reflexivity|lra]|].
  apply Z.leb_gt in E1, E2. apply IZR_lt in E1, E2. xg. rewrite xdiv_fin by lra. xg. eexists. split; [reflexivity|].
  set (A := IZR ta) in *. set (B := IZR tb) in *. set (X := IZR x) in *.
  replace ((s - 0) / (B - A) * (X - A) + 0)%R with (s * ((X - A) * / (B - A)))%R by (field; lra).
  assert (0 <= (X - A) * / (B - A) <= 1)%R; [|nra]. split.
  - apply Rmult_le_pos; [lra|]. left. apply Rinv_0_lt_compat. lra.
  - apply Rmult_le_reg_r with (B - A)%R; [lra|]. rewrite Rmult_assoc, Rinv_l by lra. lra.
Qed.

Lemma sorted_join (l m : list Z) : StronglySorted Z.le l -> StronglySorted Z.le m -> (forall a b, In a l -> In b m -> (a <= b)%Z) -> StronglySorted Z.le (l ++ m).
Proof.
  induction l as [|x l IH]; intros Sl Sm H; [exact Sm|]. apply StronglySorted_inv in Sl as [Sl Fl]. cbn [app]. constructor.
  - apply IH; auto. intros a b Ha Hb. apply H; [right; exact Ha|exact Hb].
  - apply Forall_app. split; [exact Fl|]. apply Forall_forall. intros b Hb. apply H; [left; reflexivity|exact Hb].
Qed.
Section Series.
  Context {F : Type}.
  Implicit Type l : list (Z * F).
  Lemma insert_In p l q : In q (insertPt p l) <-> q = p \/ In q l.
  Proof.
    induction l as [|a l IH]; cbn [insertPt].
    - cbn. intuition.
    - destruct (_ <? _)%Z; cbn [In]; [intuition|]. rewrite IH. intuition.
  Qed.
  Lemma insert_sorted p l : in_time l -> in_time (insertPt p l).
  Proof.
    unfold in_time. induction l as [|a l IH]; intros S; cbn [insertPt map].
    - repeat constructor.
    - cbn [map] in S. apply StronglySorted_inv in S as [S Fa]. destruct (fst p <? fst a)%Z eqn:E; cbn [map].
      + apply Z.ltb_lt in E. constructor; [constructor; auto|]. constructor; [lia|]. eapply Forall_impl; [|exact Fa]. cbn. intros; lia.
      + apply Z.ltb_ge in E. constructor; [auto|]. apply Forall_forall. intros t Ht. apply in_map_iff in Ht as (q & <- & Hq).
        apply insert_In in Hq as [->|Hq]; [lia|]. rewrite Forall_forall in Fa. apply Fa. now apply in_map.
  Qed.
  Lemma insert_last p l z : (fst p < fst z)%Z -> insertPt p (l ++ [z]) = insertPt p l ++ [z] \/ exists l', insertPt p (l ++ [z]) = l' ++ [z].
  Proof. intros L. right. induction l as [|a l [l' IH]]; cbn [insertPt app].
    - rewrite (proj2 (Z.ltb_lt _ _) L). exists [p]. reflexivity.
    - destruct (_ <? _)%Z; [exists (p :: a :: l); reflexivity|]. rewrite IH. exists (a :: l'). reflexivity.
  Qed.
  Lemma sorted_snoc l p : in_time l -> (forall q, In q l -> fst q <= fst p)%Z -> in_time (l ++ [p]).
  Proof.
    unfold in_time. rewrite map_app. cbn [map]. intros S H. apply sorted_join; [exact S|repeat constructor|].
    intros a b Ha Hb. apply in_map_iff in Ha as (q & <- & Hq). destruct Hb as [<-|[]]. auto.
  Qed.
  Lemma sorted_last l p q : in_time (l ++ [p]) -> In q (l ++ [p]) -> (fst q <= fst p)%Z.
  Proof.
    intros S H. apply in_app_or in H as [H|[->|[]]]; [|lia]. unfold in_time in S. rewrite map_app in S.
    induction l as [|a l IH]; [destruct H|]. cbn [map app] in S. apply StronglySorted_inv in S as [S Fa]. destruct H as [->|H]; [|auto].
    rewrite Forall_forall in Fa. apply Fa. apply in_or_app. right. left. reflexivity.
  Qed.
End Series.

Definition dec (d : R) (ns : Z) : R := exp (- d * inDays ns).
Lemma dec_val d ns : fexp ((- Fin d) * (@secsOf xr _ ns / fofZ 86400))%n = Fin (dec d ns).
Proof.
  rewrite secs_val. xg. rewrite xdiv_fin by lra. xg. unfold dec, inDays, day. f_equal. f_equal. f_equal.
  change 86400000000000%Z with (1000000000 * 86400)%Z. rewrite mult_IZR. field.
Qed.
Lemma dec_pos d ns : (0 < dec d ns)%R.
Proof. apply exp_pos. Qed.

Lemma gapTimes_In last gap rise calc t : (0 <= gap - rise)%Z -> (0 < calc)%Z -> In t (removelast (gapTimes last gap rise calc)) ->
  (last <= t <= last + gap - rise)%Z.
Proof.
  intros G C H. unfold gapTimes in H.
  replace ([(last + gap - rise)%Z; (last + gap)%Z]) with ([(last + gap - rise)%Z] ++ [(last + gap)%Z]) in H by reflexivity.
  rewrite app_assoc, removelast_last in H. apply in_app_or in H as [H|[<-|[]]]; [|lia].
  apply filter_In in H as [H _]. apply In_nth_error in H as [k H]. pose proof (nth_lt _ _ _ H) as Lk.
  pose proof (dateRange_nth _ _ _ _ _ H) as E. rewrite dateRange_length in Lk by lia.
  pose proof (last_step last (last + gap - rise) calc ltac:(lia) C) as [Q _]. nia.
Qed.
Lemma gapTimes_sorted last gap rise calc : (0 <= gap - rise)%Z -> (0 < calc)%Z -> StronglySorted Z.le (removelast (gapTimes last gap rise calc)).
Proof.
  intros G C. unfold gapTimes.
  replace ([(last + gap - rise)%Z; (last + gap)%Z]) with ([(last + gap - rise)%Z] ++ [(last + gap)%Z]) by reflexivity.
  rewrite app_assoc, removelast_last. apply sorted_join; [|repeat constructor|].
  - assert (forall l : list Z, StronglySorted Z.le l -> forall f, StronglySorted Z.le (filter f l)) as SF.
    { induction 1; intros f; cbn [filter]; [constructor|]. destruct (f a); [|auto]. constructor; [auto|]. apply Forall_forall. intros y Hy. apply filter_In in Hy as [Hy _].
      rewrite Forall_forall in H0. auto. }
    apply SF. unfold dateRange. destruct (_ <? _)%Z; [constructor|]. generalize (S (Z.to_nat ((last + gap - rise - last) / calc))). intros n.
    generalize 0%nat. induction n as [|n IH]; intros k; cbn [seq map]; [constructor|]. constructor; [apply IH|]. apply Forall_forall. intros y Hy.
    apply in_map_iff in Hy as (j & <- & Hj). apply in_seq in Hj. nia.
  - intros a b Ha [<-|[]]. apply (gapTimes_In last gap rise calc a G C). unfold gapTimes.
    replace ([(last + gap - rise)%Z; (last + gap)%Z]) with ([(last + gap - rise)%Z] ++ [(last + gap)%Z]) by reflexivity.
    rewrite app_assoc, removelast_last. apply in_or_app. left. exact Ha.
Qed.

(** The state of the event loop. *)
Record good (last : Z) (ts : list (Z * xr)) (c1 c2 : R) : Prop := {
  g_time : in_time ts;
  g_pos : Forall pos ts;
  g_last : exists l v, ts = l ++ [(last, v)];
  g_c1 : (0 <= c1)%R; g_c2 : (0 <= c2)%R; g_sum : (0 < c1 + c2)%R }.

Definition after1 (d c p s : R) (gap : Z) : R := (left_after d c gap + s * p)%R.

Section Event.
  Context (d1 d2 p1 p2 : R) (rise calc : Z) (Hr : (0 < rise)%Z) (Hc : (0 < calc)%Z) (P1 : (0 <= p1)%R) (P2 : (0 <= p2)%R).
  Context (last gap : Z) (Hg : (0 <= gap)%Z) (s : R) (Hs : (0 <= s)%R).
  Context (ts : list (Z * xr)) (c1 c2 : R) (G : good last ts c1 c2).
  Notation ev := (shotEvent (Fin d1) (Fin d2) (Fin p1) (Fin p2) rise calc last gap (Fin s) ts (Fin c1) (Fin c2)).
  Definition c1' := after1 d1 c1 p1 s gap.
  Definition c2' := after1 d2 c2 p2 s gap.

  Lemma add_last_snoc (l : list (Z * xr)) t v x : addLast x (l ++ [(t, v)]) = l ++ [(t, fadd v x)].
  Proof. unfold addLast. now rewrite rev_unit, rev_involutive. Qed.

  (** The series before the new values are appended. *)
  Lemma event_shape : exists ts0 times l v,
    ev = Ok (ts0 ++ map (fun t => (t, Fin (left_after d1 c1 (t - last) + left_after d2 c2 (t - last))%R)) times ++ [((last + gap)%Z, Fin (c1' + c2'))], Fin c1', Fin c2') /\
    ts0 = l ++ [(last, v)] /\ in_time ts0 /\ Forall pos ts0 /\ StronglySorted Z.le times /\ (forall t, In t times -> last <= t <= last + gap)%Z /\
    (rise <= gap -> ts0 = ts /\ In (last + gap - rise) times)%Z /\ ((gap < rise)%Z -> times = []).
  Proof.
    destruct G as [GT GP (l & v & Gl) G1 G2 G3].
    assert (EV : forall ts0 times, map (fun t => (t, fadd (fmul (Fin c1) (fexp ((- Fin d1) * (secsOf (t - last) / fofZ 86400))%n)) (fmul (Fin c2) (fexp ((- Fin d2) * (secsOf (t - last) / fofZ 86400))%n)))) times
        = map (fun t => (t, Fin (left_after d1 c1 (t - last) + left_after d2 c2 (t - last))%R)) times /\ ts0 = ts0 :> list (Z * xr)).
    { intros ts0 times. split; [|reflexivity]. apply map_ext. intros t. rewrite !dec_val. reflexivity. }
    assert (E1 : fadd (fmul (Fin c1) (fexp ((- Fin d1) * (secsOf (last + gap - last) / fofZ 86400))%n)) (fmul (Fin s) (Fin p1)) = Fin c1').
    { rewrite dec_val. replace (last + gap - last)%Z with gap by lia. reflexivity. }
    assert (E2 : fadd (fmul (Fin c2) (fexp ((- Fin d2) * (secsOf (last + gap - last) / fofZ 86400))%n)) (fmul (Fin s) (Fin p2)) = Fin c2').
    { rewrite dec_val. replace (last + gap - last)%Z with gap by lia. reflexivity. }
    unfold shotEvent. cbv zeta. destruct (gap <? rise)%Z eqn:Eg.
    - apply Z.ltb_lt in Eg.
      assert (exists a b, lastTwo ts = Ok (a, b) /\ pos a /\ pos b) as (a & b & EL & Pa & Pb).
      { rewrite Gl in GP |- *. apply Forall_app in GP as [GPl GPv]. apply Forall_inv in GPv. unfold lastTwo. rewrite rev_unit.
        destruct l as [|y l _] using rev_ind; [cbn [rev]; do 2 eexists; split; [reflexivity|auto]|].
        rewrite rev_unit. do 2 eexists. split; [reflexivity|]. split; [|exact GPv]. apply Forall_app in GPl as [_ Q]. now apply Forall_inv in Q. }
      rewrite EL. cbn [bind]. set (q := ((last + gap - rise)%Z, interp2 (last + gap - rise) a b)).
      assert (Pq : pos q) by (apply interp2_pos; assumption).
      destruct (insert_last q l (last, v) ltac:(cbn [fst q]; lia)) as [Q|Q]; [assert (exists l', insertPt q (l ++ [(last, v)]) = l' ++ [(last, v)]) as Q' by (eexists; exact Q); clear Q; rename Q' into Q|];
      destruct Q as [l' Q].
      all: assert (exists a', lastTwo (insertPt q ts) = Ok (a', (last, v))) as [a' EL'].
      1,3: (rewrite Gl, Q; unfold lastTwo; rewrite rev_unit; destruct (rev l'); eexists; reflexivity).
      all: rewrite EL'; cbn [bind].
      all: destruct (interp2_rise last (last + gap - rise) (last + gap) s Hs) as (w & Ew & Pw); rewrite Ew; cbn [bind removelast map app].
      all: assert (GP' : Forall pos (insertPt q ts)) by (apply Forall_forall; intros x Hx; apply insert_In in Hx as [->|Hx]; [exact Pq|]; rewrite Forall_forall in GP; auto).
      all: pose proof (insert_sorted q ts GT) as GT'.
      all: rewrite Gl, Q in GP', GT' |- *; rewrite add_last_snoc, E1, E2.
      all: exists (l' ++ [(last, fadd v (Fin w))]), [], l', (fadd v (Fin w)).
      all: split; [reflexivity|]; split; [reflexivity|].
      all: split; [unfold in_time in *; rewrite map_app in *; exact GT'|].
      all: split; [apply Forall_app in GP' as [Gl' Gv]; apply Forall_app; split; [exact Gl'|]; apply Forall_inv in Gv; destruct Gv as (rv_ & Ev & Pv); cbn [snd] in Ev; subst v; constructor; [|constructor]; exists (rv_ + w)%R; split; [reflexivity|lra]|].
      all: split; [constructor|]; split; [intros t []|]; split; [lia|reflexivity].
    - apply Z.ltb_ge in Eg. cbn [bind]. rewrite (proj1 (EV ts _)), E1, E2.
      exists ts, (removelast (gapTimes last gap rise calc)), l, v. split; [reflexivity|]. split; [exact Gl|]. split; [exact GT|]. split; [exact GP|].
      split; [apply gapTimes_sorted; lia|]. split; [intros t Ht; apply gapTimes_In in Ht; lia|]. split; [|lia]. intros _. split; [reflexivity|].
      unfold gapTimes.
      replace ([(last + gap - rise)%Z; (last + gap)%Z]) with ([(last + gap - rise)%Z] ++ [(last + gap)%Z]) by reflexivity.
      rewrite app_assoc, removelast_last. apply in_or_app. right. left. reflexivity.
  Qed.
  Lemma left_nonneg d c t : (0 <= c)%R -> (0 <= left_after d c t)%R.
  Proof. intros H. unfold left_after. pose proof (exp_pos (- d * inDays t)). nra. Qed.
  Lemma left_sum t : (0 < left_after d1 c1 t + left_after d2 c2 t)%R.
  Proof.
    destruct G as [_ _ _ G1 G2 G3]. unfold left_after. pose proof (exp_pos (- d1 * inDays t)). pose proof (exp_pos (- d2 * inDays t)).
    destruct (Req_dec c1 0) as [->|N]; nra.
  Qed.
  Lemma event_good : exists ts', ev = Ok (ts', Fin c1', Fin c2') /\ good (last + gap) ts' c1' c2'.
  Proof.
    destruct event_shape as (ts0 & times & l & v & E & El & T0 & P0 & St & Bt & _ & _). rewrite E. eexists. split; [reflexivity|].
    pose proof (left_sum gap) as LS. destruct G as [_ _ _ G1 G2 G3].
    pose proof (left_nonneg d1 c1 gap G1). pose proof (left_nonneg d2 c2 gap G2).
    assert (0 <= s * p1)%R by nra. assert (0 <= s * p2)%R by nra.
    assert (PS : (0 < c1' + c2')%R) by (unfold c1', c2', after1; lra).
    constructor.
    - unfold in_time. rewrite !map_app. apply sorted_join; [exact T0| |].
      + apply sorted_join; [rewrite map_map; cbn [fst]; rewrite map_id; exact St|repeat constructor|].
        intros a b Ha [<-|[]]. rewrite map_map in Ha. cbn [fst] in Ha. rewrite map_id in Ha. cbn [fst]. apply Bt in Ha. lia.
      + intros a b Ha Hb. assert (a <= last)%Z.
        { apply in_map_iff in Ha as (x & <- & Hx). rewrite El in T0, Hx. apply (sorted_last _ _ _ T0 Hx). }
        apply in_app_or in Hb as [Hb|[<-|[]]]; [|cbn [fst]; lia]. rewrite map_map in Hb. cbn [fst] in Hb. rewrite map_id in Hb. apply Bt in Hb. lia.
    - apply Forall_app. split; [exact P0|]. apply Forall_app. split.
      + apply Forall_forall. intros x Hx. apply in_map_iff in Hx as (t & <- & Ht). eexists. split; [reflexivity|]. apply left_sum.
      + constructor; [|constructor]. eexists. split; [reflexivity|exact PS].
    - rewrite app_assoc. do 2 eexists. reflexivity.
    - unfold c1', after1. lra.
    - unfold c2', after1. lra.
    - exact PS.
  Qed.
End Event.
