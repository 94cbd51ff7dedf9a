From Coq Require Import ZArith List Bool Lia Sorted.
From Verif Require Import Base Num Xr MState MLoad MSynth SLoad PRate PGeom PLag PFill PCoast PLoad PLoad2 PLoad3 SSynth PSynth PSynth2.
Import ListNotations.

Section Bins.
  Context {A : Type}.
  Lemma bin_filter a b (l : list (Z * A)) : inBin a b l (map snd (filter (fun p => (a <=? fst p)%Z && (fst p <? b)%Z) l)).
  Proof.
    induction l as [|[t v] l IH]; cbn [filter map fst]; [constructor|].
    destruct ((a <=? t)%Z && (t <? b)%Z) eqn:E; cbn [map snd].
    - apply andb_true_iff in E as [E1 E2]. apply Z.leb_le in E1. apply Z.ltb_lt in E2. apply bin_in; [lia|exact IH].
    - apply bin_out; [|exact IH]. apply andb_false_iff in E as [E|E]; [apply Z.leb_gt in E|apply Z.ltb_ge in E]; lia.
  Qed.
  Lemma bin_fun a b (l : list (Z * A)) r r' : inBin a b l r -> inBin a b l r' -> r = r'.
  Proof. intros H. revert r'. induction H; intros r' H'; inversion H'; subst; try lia; [reflexivity|f_equal; auto|auto]. Qed.
  Lemma bin_In a b (l : list (Z * A)) r v : inBin a b l r -> In v r <-> exists t, In (t, v) l /\ (a <= t < b)%Z.
  Proof.
    induction 1 as [|t w l r L H IH|t w l r L H IH]; cbn [In].
    - split; [tauto|]. intros (t & [] & _).
    - rewrite IH. split.
      + intros [->|(t' & I & L')]; [exists t; auto|exists t'; auto].
      + intros (t' & [Q|I] & L'); [injection Q as -> ->; now left|right; eauto].
    - rewrite IH. split; intros (t' & I & L'); [exists t'; auto|]. destruct I as [Q|I]; [injection Q as -> ->; lia|eauto].
  Qed.
End Bins.

Section Labels.
  Context {F : Type} {NF : Num F}.
  Lemma resample_times (f : Z) (l r : list (Z * F)) : (0 < f)%Z -> in_time l -> resampleMean f l = Ok r ->
    exists b t0 tz, regular b f r /\ (exists v, nth_error l 0 = Some (t0, v)) /\ (exists v, nth_error l (length l - 1) = Some (tz, v)) /\
      (b <= t0 < b + f)%Z /\ (f | b - (t0 - t0 mod day))%Z /\
      exists e v, nth_error r (length r - 1) = Some (e, v) /\ (e <= tz < e + f)%Z.
  Proof.
    intros Pf S H. unfold resampleMean in H. apply bind_ok in H as ([t0 v0] & Ha & H). apply bind_ok in H as ([tz vz] & Hz & H). cbn [fst] in H. cbv zeta in H.
    set (b := binOrigin f t0) in *. apply ix_ok in Ha. apply in_last_ in Hz.
    pose proof (Z.mod_pos_bound (t0 mod nsPerDay) f Pf) as MB.
    assert (Lz : (t0 <= tz)%Z).
    { destruct l as [|a l _] using rev_ind; [discriminate|]. rewrite app_length, nth_error_app2 in Hz by (cbn; lia). cbn [length] in Hz.
      replace (length l + 1 - 1 - length l)%nat with 0%nat in Hz by lia. injection Hz as ->.
      apply (PSynth.sorted_last l (tz, vz) (t0, v0) S). eapply nth_error_In, Ha. }
    assert (Lb : (b <= tz)%Z) by (unfold b, binOrigin; lia).
    exists b, t0, tz. apply Ok_inj in H. subst r. split; [|split; [eauto|split; [eauto|split; [unfold b, binOrigin; lia|split]]]].
    - intros k p Hp. rewrite nth_error_map in Hp. destruct (nth_error (seq _ _) k) as [j|] eqn:E; [|discriminate].
      apply nth_error_seq in E as [_ E]. cbn [Nat.add] in E. subst j. cbn [option_map] in Hp. apply Some_inj in Hp. subst p. reflexivity.
    - exists (t0 mod nsPerDay / f)%Z. pose proof (Z.div_mod (t0 mod nsPerDay) f ltac:(lia)). unfold b, binOrigin. change day with nsPerDay. lia.
    - rewrite map_length, seq_length. cbn [Nat.sub]. rewrite Nat.sub_0_r, nth_error_map.
      rewrite (proj2 (nth_error_seq 0 _ _ _) (conj (Nat.lt_succ_diag_r _) eq_refl)). cbn [option_map Nat.add].
      do 2 eexists. split; [reflexivity|]. pose proof (last_step b tz f Lb Pf). lia.
  Qed.
  Lemma resample_value (f : Z) (l r : list (Z * F)) b v xs : resampleMean f l = Ok r -> In (b, v) r -> inBin b (b + f) l xs ->
    v = match xs with [] => fnan | _ => (fsum xs / fofZ (Z.of_nat (length xs)))%n end.
  Proof.
    intros H I B. unfold resampleMean in H. apply bind_ok in H as ([t0 v0] & Ha & H). apply bind_ok in H as ([tz vz] & Hz & H).
    apply Ok_inj in H. subst r. cbv zeta in I. apply in_map_iff in I as (k & E & _). pose proof (f_equal fst E) as E1. pose proof (f_equal snd E) as E2. cbn [fst snd] in E1, E2.
    rewrite E1 in E2. subst v. unfold binMean. rewrite <- (bin_fun _ _ _ _ _ B (bin_filter _ _ l)). now destruct xs.
  Qed.
End Labels.

Lemma fsum_real xs : fsum (map Fin xs) = Fin (sumR xs).
Proof. induction xs as [|x xs IH]; [reflexivity|]. cbn [map]. unfold fsum in *. cbn [fold_right]. rewrite IH. reflexivity. Qed.
Lemma all_real (xs : list xr) : Forall above0 xs -> exists rs, xs = map Fin rs /\ Forall (fun r => (0 < r)%R) rs.
Proof.
  induction 1 as [|x xs (r & -> & P) _ (rs & -> & IH)]; [exists []; split; [reflexivity|constructor]|].
  exists (r :: rs). split; [reflexivity|constructor; assumption].
Qed.
Lemma sum_pos rs : Forall (fun r => (0 < r)%R) rs -> rs <> [] -> (0 < sumR rs)%R.
Proof.
  destruct rs as [|r rs]; [congruence|]. intros H _. apply Forall_cons_iff in H as [P H]. cbn.
  assert (0 <= sumR rs)%R; [|unfold sumR in *; lra]. induction H; cbn; [lra|]. unfold sumR in *. lra.
Qed.

(** * C87 *)
Lemma resample_mean f l r b v : Forall (fun p => above0 (snd p)) l -> resampleMean f l = Ok r -> In (b, v) r ->
  exists xs, inBin b (b + f) l (map Fin xs) /\ (xs = [] /\ v = NaN \/ exists m, v = Fin m /\ meanOf xs m /\ (0 < m)%R).
Proof.
  intros P H I. pose proof (bin_filter b (b + f) l) as B. set (ys := map snd _) in B.
  assert (Forall above0 ys) as Py.
  { apply Forall_forall. intros y Hy. apply (bin_In _ _ _ _ y B) in Hy as (t & Ht & _). rewrite Forall_forall in P. apply (P _ Ht). }
  destruct (all_real ys Py) as (rs & E & Pr). rewrite E in B. exists rs. split; [exact B|].
  rewrite (resample_value f l r b v _ H I B). destruct rs as [|x rs]; [left; split; reflexivity|right].
  change (match map Fin (x :: rs) with [] => fnan | _ :: _ => (fsum (map Fin (x :: rs)) / fofZ (Z.of_nat (length (map Fin (x :: rs)))))%n end)
    with (fsum (map Fin (x :: rs)) / fofZ (Z.of_nat (length (map Fin (x :: rs)))))%n.
  rewrite fsum_real, map_length. xg. set (n := length (x :: rs)).
  assert (0 < IZR (Z.of_nat n))%R as Pn by (apply IZR_lt; unfold n; cbn [length]; lia).
  rewrite xdiv_fin by lra. eexists. split; [reflexivity|]. split; [split; [|discriminate]|].
  - rewrite INR_IZR_INZ. fold n. field. lra.
  - apply Rdiv_lt_0_compat; [|exact Pn]. apply sum_pos; [exact Pr|discriminate].
Qed.

Lemma filter_regular {A} (b f stop : Z) (r : list (Z * A)) : (0 < f)%Z -> regular b f r ->
  exists n, filter (fun p => (fst p <=? stop)%Z) r = firstn n r /\ (forall k p, nth_error r k = Some p -> (k < n)%nat <-> (fst p <= stop)%Z).
Proof.
  intros Pf. revert b. induction r as [|[t v] r IH]; intros b R.
  - exists 0%nat. split; [reflexivity|]. intros [|k]; discriminate.
  - assert (R' : regular (b + f) f r). { intros k p H. pose proof (R (S k) p H). lia. }
    pose proof (R 0%nat _ eq_refl) as E0. cbn [fst] in E0. destruct (IH _ R') as (n & E & N). cbn [filter fst].
    destruct (t <=? stop)%Z eqn:C.
    + apply Z.leb_le in C. exists (S n). split; [cbn [firstn]; now rewrite E|]. intros [|k] p H; cbn [nth_error] in H; [injection H as <-; cbn [fst]; lia|].
      rewrite <- (N k p H). lia.
    + apply Z.leb_gt in C. exists 0%nat. split.
      * rewrite E. destruct n as [|n]; [reflexivity|]. destruct r as [|[t' v'] r]; [reflexivity|].
        pose proof (proj1 (N 0%nat _ eq_refl) ltac:(lia)). pose proof (R 1%nat _ eq_refl). cbn [fst] in *. lia.
      * intros k p H. pose proof (R k p H). lia.
Qed.

Lemma firstn_nth {A} (r : list A) n k x : nth_error (firstn n r) k = Some x -> nth_error r k = Some x.
Proof. revert r k. induction n as [|n IH]; intros [|y r] [|k] H; try discriminate; cbn [firstn nth_error] in *; auto. Qed.
Section Shot.
  Context {F : Type} {NF : Num F}.
  Context (start stop f : Z) (ts r : list (Z * F)) (last : Z) (Pf : (0 < f)%Z) (Ls : (start <= stop)%Z) (St : in_time ts)
     (Hs : exists v, In (start, v) ts) (Hl : exists v, nth_error ts (length ts - 1) = Some (last, v)) (Le : (stop <= last)%Z)
     (Hr : resampleMean f ts = Ok r).
  Lemma clip_spec : exists b t0, let r' := filter (fun p => (fst p <=? stop)%Z) r in
    regular b f r' /\ (exists v, nth_error ts 0 = Some (t0, v)) /\ (b <= t0 < b + f)%Z /\ (b <= start)%Z /\ (f | b - (t0 - t0 mod day))%Z /\
    (exists e v, nth_error r' (length r' - 1) = Some (e, v) /\ (e <= stop < e + f)%Z) /\
    (covers start stop r' <-> (f | stop - b)%Z).
  Proof.
    destruct (resample_times f ts r Pf St Hr) as (b & t0 & tz & R & (v0 & H0) & (vz & Hz) & Bb & Dv & e & v & He & Bz).
    exists b, t0. cbv zeta. destruct (filter_regular b f stop r Pf R) as (n & E & N). rewrite E.
    destruct Hs as [vs Is]. destruct Hl as [vl Il]. rewrite Hz in Il. injection Il as -> ->.
    assert (L0 : (t0 <= start)%Z).
    { destruct ts as [|a l]; [discriminate|]. injection H0 as ->. unfold in_time in St. cbn [map fst] in St. apply StronglySorted_inv in St as [_ Fa].
      destruct Is as [Q|I]; [injection Q as -> _; lia|]. rewrite Forall_forall in Fa. apply (Fa start). apply (in_map fst) in I. exact I. }
    assert (R' : regular b f (firstn n r)).
    { intros k p H. apply (R k p). exact (firstn_nth _ _ _ _ H). }
    assert (R0 : exists p0, nth_error r 0 = Some p0).
    { destruct (nth_error r 0) eqn:Q; [eauto|]. apply nth_error_None in Q. pose proof (nth_lt _ _ _ He). lia. }
    destruct R0 as [p0 R0]. assert (n0 : (0 < n)%nat). { apply (N 0%nat p0 R0). rewrite (R _ _ R0). lia. }
    assert (LN : length (firstn n r) = Nat.min n (length r)) by apply firstn_length.
    assert (EX : exists e v, nth_error (firstn n r) (length (firstn n r) - 1) = Some (e, v) /\ (e <= stop < e + f)%Z).
    { pose proof (nth_lt _ _ _ R0) as Lr. set (k := (length (firstn n r) - 1)%nat).
      destruct (nth_error (firstn n r) k) as [[ek vk]|] eqn:Ek; [|apply nth_error_None in Ek; unfold k in Ek; lia].
      assert (Ek' : nth_error r k = Some (ek, vk)) by exact (firstn_nth _ _ _ _ Ek).
      exists ek, vk. split; [reflexivity|]. pose proof (R _ _ Ek') as Rk. cbn [fst] in Rk. split.
      - apply (N k _ Ek'). unfold k. lia.
      - destruct (nth_error r (S k)) as [[e1 v1]|] eqn:E1.
        + pose proof (R _ _ E1) as R1. cbn [fst] in R1. pose proof (proj2 (N _ _ E1)) as Q. cbn [fst] in Q.
          pose proof (nth_lt _ _ _ E1). assert (~ (S k < n)%nat) by (unfold k; lia). lia.
        + apply nth_error_None in E1. pose proof (nth_lt _ _ _ Ek'). assert (k = length r - 1)%nat by lia. rewrite H1, He in Ek'. injection Ek' as -> ->. lia. }
    split; [exact R'|]. split; [eauto|]. split; [exact Bb|]. split; [lia|]. split; [exact Dv|]. split; [exact EX|].
    destruct EX as (ek & vk & Ek & Be). pose proof (R' _ _ Ek) as Rk. cbn [fst] in Rk. set (k := Z.of_nat _) in Rk. split.
    - intros [_ (z & Hz' & Lz)]. rewrite Ek in Hz'. injection Hz' as <-. cbn [fst] in Lz. exists k. lia.
    - intros [q Hq]. split.
      + exists p0. assert (F0 : nth_error (firstn n r) 0 = Some p0) by (destruct n; [lia|]; destruct r; [discriminate|exact R0]).
        split; [exact F0|]. rewrite (R' _ _ F0). lia.
      + exists (ek, vk). split; [exact Ek|]. cbn [fst]. assert (q = k) by nia. nia.
  Qed.
End Shot.

Lemma add_last_fst {F} {NF : Num F} (v : F) l : map fst (addLast v l) = map fst l.
Proof.
  unfold addLast. destruct l as [|[t x] l _] using rev_ind; [reflexivity|]. rewrite rev_unit, rev_involutive, !map_app. reflexivity.
Qed.
Lemma event_keeps {F} {NF : Num F} (d1 d2 p1 p2 : F) rise calc last gap size ts c1 c2 ts' c1' c2' t :
  shotEvent d1 d2 p1 p2 rise calc last gap size ts c1 c2 = Ok (ts', c1', c2') -> In t (map fst ts) -> In t (map fst ts').
Proof.
  intros H I. unfold shotEvent in H. cbv zeta in H. apply bind_ok in H as ([ts0 times] & E & H). apply Ok_inj in H.
  pose proof (f_equal (fun p => fst (fst p)) H) as Q. cbn [fst] in Q. subst ts'. rewrite map_app. apply in_or_app. left. clear H.
  destruct (_ <? _)%Z.
  - apply bind_ok in E as ([a b] & _ & E). apply bind_ok in E as ([a' [b' b'']] & _ & E). apply Ok_inj in E. pose proof (f_equal fst E) as Q. cbn [fst] in Q. subst ts0.
    rewrite add_last_fst. apply in_map_iff in I as (q & <- & Hq). apply in_map. apply insert_In. now right.
  - apply Ok_inj in E. pose proof (f_equal fst E) as Q. cbn [fst] in Q. now subst ts0.
Qed.
Lemma loop_keeps {F} {NF : Num F} t draws (rate inc d1 d2 p1 p2 : F) rise calc stop : forall last ts c1 c2 ts' last',
  shotLoop draws rate inc d1 d2 p1 p2 rise calc stop last ts c1 c2 = Ok (ts', last') -> In t (map fst ts) -> In t (map fst ts').
Proof.
  induction draws as [|[u w] draws IH]; intros last ts c1 c2 ts' last' H I; cbn [shotLoop] in H; destruct (last <? stop)%Z; try discriminate;
    try (apply Ok_inj in H; pose proof (f_equal fst H) as Q; cbn [fst] in Q; subst ts'; exact I).
  apply bind_ok in H as (g & _ & H). apply bind_ok in H as (s & _ & H). apply bind_ok in H as ([[ts1 k1] k2] & He & H).
  eapply IH; [exact H|]. eapply event_keeps; eassumption.
Qed.
Lemma raw_start {F} {NF : Num F} us start stop int gap (inc d1 p1 : F) d2 rise calc ts last :
  shotNoiseRaw us start stop int gap inc d1 p1 d2 rise calc = Ok (ts, last) -> exists v, In (start, v) ts.
Proof.
  intros H. unfold shotNoiseRaw in H. apply bind_ok in H as ([[[[rate p2] r1] r2] d2'] & _ & H).
  apply (loop_keeps start) in H; [|left; reflexivity]. apply in_map_iff in H as ([t v] & E & I). cbn [fst] in E. subst t. eauto.
Qed.

(** The generated series. *)
Section Whole.
  Context (us : list (xr * xr)) (start stop int gap : Z) (inc d1 p1 d2 : R) (rise calc : Z) (r : list (Z * xr)).
  Context (Hus : Forall draw us) (Hinc : (0 < inc)%R) (Hd1 : (0 < d1)%R) (Hd2 : (0 < d2)%R) (Hp : (0 <= p1 <= 1)%R)
    (Hr : (0 < rise)%Z) (Hc : (0 < calc)%Z) (Hg : (day <= gap)%Z) (Hi : (0 < int)%Z) (Ls : (start <= stop)%Z).
  Context (H : shotNoise us start stop int gap (Fin inc) (Fin d1) (Fin p1) (Some (Fin d2)) rise (Some calc) = Ok r).
  Lemma shot_series : exists ts last b t0,
    shotNoiseRaw us start stop int gap (Fin inc) (Fin d1) (Fin p1) (Some (Fin d2)) rise (Some calc) = Ok (ts, last) /\
    regular b int r /\ (exists v, nth_error ts 0 = Some (t0, v)) /\ (b <= t0 < b + int)%Z /\ (b <= start)%Z /\ (int | b - (t0 - t0 mod day))%Z /\
    (exists e v, nth_error r (length r - 1) = Some (e, v) /\ (e <= stop < e + int)%Z) /\
    (covers start stop r <-> (int | stop - b)%Z) /\
    forall c v, In (c, v) r -> exists xs, inBin c (c + int) ts (map Fin xs) /\ (xs = [] /\ v = NaN \/ exists m, v = Fin m /\ meanOf xs m /\ (0 < m)%R).
  Proof.
    unfold shotNoise in H. apply bind_ok in H as ([ts last] & E & H1). apply bind_ok in H1 as (r0 & Er & H1). apply Ok_inj in H1. subst r.
    destruct (raw_positive _ _ _ _ _ _ _ _ _ _ _ _ _ Hus Hinc Hd1 Hd2 Hp Hr Hc Hg E) as (T & P & Lz & Le).
    destruct (clip_spec start stop int ts r0 last Hi Ls T (raw_start _ _ _ _ _ _ _ _ _ _ _ _ _ E) Lz Le Er) as (b & t0 & A & B & C & D & G & I & J).
    exists ts, last, b, t0. split; [exact E|]. split; [exact A|]. split; [exact B|]. split; [exact C|]. split; [exact D|]. split; [exact G|]. split; [exact I|]. split; [exact J|].
    intros c v Hin. apply filter_In in Hin as [Hin _]. eapply resample_mean; eassumption.
  Qed.
  Lemma shot_accepted dtMax : (exists s, trimSeries start stop dtMax r = Ok s) <-> covers start stop r.
  Proof. split; [intros [s Hs]; eapply trim_asserts, Hs|intros Q; apply trim_total, Q]. Qed.
End Whole.
