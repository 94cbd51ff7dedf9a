(** Proofs about the corrections after the update (mor.py:217-441). *)
From Coq Require Import ZArith List Bool Lia Reals Lra.
From Verif Require Import Base Num Xr XEval MState MCoast MRiv MMor SPost PCoast PGeom PLag PCore PRate.
Import ListNotations.
Local Open Scope R_scope.

(** ** Tools *)
Lemma xle a b : (Fin a <=? Fin b)%n = Rleb a b. Proof. reflexivity. Qed.
Lemma xlt a b : (Fin a <? Fin b)%n = Rltb a b. Proof. reflexivity. Qed.
Lemma xofQ z p : @fofQ xr xr_num z p = Fin (IZR z / IZR (Zpos p)). Proof. reflexivity. Qed.
Lemma pymin_fin a b : pymin (Fin a) (Fin b) = Fin (Rmin a b).
Proof.
  unfold pymin. rewrite xlt. destruct (Rltb b a) eqn:E; rb; f_equal; symmetry; [apply Rmin_right|apply Rmin_left]; lra.
Qed.
Lemma pymax_fin a b : pymax (Fin a) (Fin b) = Fin (Rmax a b).
Proof.
  unfold pymax. rewrite xlt. destruct (Rltb a b) eqn:E; rb; f_equal; symmetry; [apply Rmax_right|apply Rmax_left]; lra.
Qed.
Ltac fl := cbn [tX tY0 tY1 tY2 tY3 tY4 tZ0 tZ1 tZ2 tZ3 setY0 setY1 setY2 setY3 setY4 setZ0 setZ1 setZ2 setZ3].

(** ** 1. Domain *)
Lemma domain_spec T e : inOrder T -> (3 <= length T)%nat -> forall a b, nth_error T 1 = Some a ->
  nth_error T (length T - 2) = Some b ->
  exists e', domainCheck T (Fin e) = Ok (Fin e') /\ rv (tX a) <= e' <= rv (tX b) /\
    (rv (tX a) <= e <= rv (tX b) -> e' = e) /\ (e < rv (tX a) \/ rv (tX b) < e -> e' = rv (tX a)).
Proof.
  intros [HF HO] L a b Ha Hb.
  assert (Xa : tX a = Fin (rv (tX a))) by (apply is_fin_rv; eauto).
  assert (Xb : tX b = Fin (rv (tX b))) by (apply is_fin_rv; eauto).
  assert (LE : rv (tX a) <= rv (tX b)).
  { destruct (Nat.eq_dec (length T - 2) 1) as [E|E].
    - rewrite E in Hb. rewrite Ha in Hb. apply Some_inj in Hb. subst. lra.
    - left. eapply HO; eauto. lia. }
  unfold domainCheck, ix. rewrite Ha. cbn [of_opt bind].
  assert (PN : pynth T (-2) = Ok b).
  { unfold pynth, pyix. change (-2 <? 0)%Z with true. cbv iota.
    replace (- Z.of_nat (length T) <=? -2)%Z with true by (symmetry; apply Z.leb_le; lia).
    replace (Z.to_nat (Z.of_nat (length T) + -2)) with (length T - 2)%nat by lia.
    unfold ix. rewrite Hb. reflexivity. }
  rewrite PN. cbn [bind]. rewrite Xa, Xb, !xlt.
  destruct (Rltb e (rv (tX a))) eqn:E1; rb; rewrite xlt.
  - exists (rv (tX a)). replace (Rltb (rv (tX b)) (rv (tX a))) with false by (symmetry; apply Rltb_false; lra).
    cbn [rv]. repeat split; auto; lra.
  - destruct (Rltb (rv (tX b)) e) eqn:E2; rb; eexists; (split; [reflexivity|]); cbn [rv]; repeat split; intros; lra.
Qed.
(** Whatever the arithmetic: past the right limit the end is put at the left one. *)
Lemma domain_jump {F} {NF : Num F} (T : list (tsect F)) e a b : nth_error T 1 = Some a -> pynth T (-2) = Ok b ->
  (e <? tX a)%n = false -> (tX b <? e)%n = true -> domainCheck T e = Ok (tX a).
Proof. intros Ha Hb H1 H2. unfold domainCheck, ix. rewrite Ha. cbn [of_opt bind]. rewrite H1, Hb. cbn [bind]. now rewrite H2. Qed.

(** ** 2. Cliff *)
Lemma cliff_spec P h t B x y0 y3 y4 z0 z3 :
  pBackshoreElev P = Fin B -> tX t = Fin x -> tY0 t = Fin y0 -> tY3 t = Fin y3 -> tY4 t = Fin y4 ->
  tZ0 t = Fin z0 -> tZ3 t = Fin z3 -> 0 < h -> z0 <= B ->
  (y4 < y0 -> cliffCollision P (Fin h) t = t) /\
  (y0 <= y4 -> exists u, cliffCollision P (Fin h) t =
     mkT (tX t) (Fin (u + 1/1000)) (tY1 t) (tY2 t) (Fin u) (Fin u) (tZ0 t) (tZ1 t) (tZ2 t) (tZ3 t) /\
     u <= y4 /\ y0 <= u + 1/1000 /\ (u + 1/1000 - y0) * h = (y4 - u) * (B - z0)).
Proof.
  intros HB Hx H0 H3 H4 Hz0 Hz3 Hh Hb. unfold cliffCollision. rewrite H0, H4, xle. split; intros H.
  - replace (Rleb y0 y4) with false by (symmetry; apply Rleb_false; lra). reflexivity.
  - replace (Rleb y0 y4) with true by (symmetry; apply Rleb_true; lra). cbv zeta.
    assert (D : 0 < 1 + (B - z0) / h).
    { assert (0 <= (B - z0) / h) by (apply Rmult_le_pos; [lra|left; apply Rinv_0_lt_compat; lra]). lra. }
    rewrite HB, Hz0, xofQ. xf. set (o := y4 - y0 + 1 / 1000).
    set (r := o / (1 + (B - z0) / h)). exists (y4 - r).
    assert (HR : r * (h + (B - z0)) = o * h) by (unfold r; field; split; lra).
    assert (R1 : 0 <= r) by (unfold r; apply Rmult_le_pos; [unfold o; lra|left; apply Rinv_0_lt_compat; lra]).
    assert (R2 : r <= o).
    { apply (Rmult_le_reg_r (h + (B - z0))); [lra|]. rewrite HR. apply Rmult_le_compat_l; [unfold o; lra|lra]. }
    split; [|split; [|split]].
    + unfold setY0, setY3, setY4. fl. rewrite Hz0. f_equal. f_equal. unfold o. lra.
    + lra.
    + unfold o in R2. lra.
    + replace (y4 - r + 1 / 1000 - y0) with (o - r) by (unfold o; lra). lra.
Qed.

(** ** 3. Channels of negative width *)
Lemma neg_none {F} {NF : Num F} (p : bool) (back crest : F) t :
  p && (tY1 t <? tY2 t)%n = false -> negWidth p back crest t = Ok (t, false).
Proof. intros H. unfold negWidth. now rewrite H. Qed.

(** Volume that levels the two sides of the channel. *)
Definition toLevel (crest y2 y3 z0 z2 : R) : R := if Rleb z0 z2 then (z2 - z0) * crest else (z0 - z2) * (y2 - y3).

Lemma neg_spec back crest x y0 y1 y2 y3 y4 z0 z1 z2 z3 :
  let t := withChannel x y0 y1 y2 y3 y4 z0 z1 z2 z3 in
  let v := (y2 - y1) * back in
  y1 < y2 -> y3 < y0 -> 0 < crest ->
  ((0 < back /\ (z2 < z0 -> y3 <= y2)) <-> exists r, negWidth true (Fin back) (Fin crest) t = Ok r) /\
  (0 < back -> (z2 < z0 -> y3 <= y2) ->
    (v <= toLevel crest y2 y3 z0 z2 -> z0 <= z2 ->
       exists c, negWidth true (Fin back) (Fin crest) t = Ok (withChannel x y0 y2 y2 y3 y4 c z1 z2 z3, false) /\
                 (c - z0) * crest = v /\ c <= z2) /\
    (v <= toLevel crest y2 y3 z0 z2 -> z2 < z0 ->
       exists c, negWidth true (Fin back) (Fin crest) t = Ok (withChannel x y0 y2 y2 y3 y4 z0 z1 c z3, false) /\
                 (c - z2) * (y2 - y3) = v /\ c <= z0) /\
    (toLevel crest y2 y3 z0 z2 < v ->
       exists c, negWidth true (Fin back) (Fin crest) t =
                   Ok (mkT (Fin x) (Fin y0) NaN NaN (Fin y3) (Fin y4) (Fin c) NaN NaN (Fin z3), true) /\
                 (c - Rmax z0 z2) * (y0 - y3) + toLevel crest y2 y3 z0 z2 = v /\ Rmax z0 z2 < c)).
Proof.
  intros t v Hw H30 Hc.
  assert (E : negWidth true (Fin back) (Fin crest) t =
    if Rltb 0 v then
      let lvl := if Rleb z0 z2 then (z2 - z0) * crest else (z2 - z0) * - (y2 - y3) in
      if Rleb 0 lvl then
        if Rltb lvl v then Ok (mkT (Fin x) (Fin y0) NaN NaN (Fin y3) (Fin y4)
                                   (Fin (Rmax z0 z2 + (v - lvl) / (y0 - y3))) NaN NaN (Fin z3), true)
        else if Rleb z0 z2 then Ok (withChannel x y0 y2 y2 y3 y4 (z0 + v / crest) z1 z2 z3, false)
        else Ok (mkT (Fin x) (Fin y0) (Fin y2) (Fin y2) (Fin y3) (Fin y4) (Fin z0) (Fin z1)
                     (Fin z2 + Fin v / Fin (y2 - y3))%n (Fin z3), false)
      else Exc EAssert
    else Exc EAssert).
  { unfold negWidth, t, withChannel. fl. rewrite xlt.
    replace (Rltb y1 y2) with true by (symmetry; apply Rltb_true; lra). cbn [andb]. cbv zeta. fold v.
    rewrite x0. xf. rewrite !xlt, !xle. fold v.
    unfold assert_. destruct (Rltb 0 v); [|reflexivity]. cbn [bind].
    assert (A1 : Rleb 0 (z2 - z0) = Rleb z0 z2) by (destruct (Rleb z0 z2) eqn:Q; rb; [apply Rleb_true|apply Rleb_false]; lra).
    rewrite A1. destruct (Rleb z0 z2) eqn:Q; rb.
    - xf. rewrite xle. destruct (Rleb 0 _); [|reflexivity]. cbn [bind]. rewrite xlt.
      destruct (Rltb _ v); [reflexivity|].
      unfold setZ0, setY1. fl. replace (y1 + (y2 - y1)) with y2 by lra. reflexivity.
    - replace (Rltb (z2 - z0) 0) with true by (symmetry; apply Rltb_true; lra). xf. rewrite xle.
      destruct (Rleb 0 _); [|reflexivity]. cbn [bind]. rewrite xlt.
      destruct (Rltb _ v); [reflexivity|].
      unfold setZ2, setY1. fl. replace (y1 + (y2 - y1)) with y2 by lra. reflexivity. }
  assert (V : 0 < back <-> 0 < v).
  { unfold v. split; intros.
    - apply Rmult_lt_0_compat; lra.
    - apply (Rmult_lt_reg_l (y2 - y1)); lra. }
  assert (A : (z2 < z0 -> y3 <= y2) <->
              0 <= (if Rleb z0 z2 then (z2 - z0) * crest else (z2 - z0) * - (y2 - y3))).
  { destruct (Rleb z0 z2) eqn:Q; rb; split; intros.
    - apply Rmult_le_pos; lra.
    - lra.
    - replace ((z2 - z0) * - (y2 - y3)) with ((z0 - z2) * (y2 - y3)) by ring. apply Rmult_le_pos; lra.
    - assert (0 <= (z0 - z2) * (y2 - y3)) by lra.
      destruct (Rle_lt_dec y3 y2); [auto|exfalso].
      assert (0 < (z0 - z2) * (y3 - y2)) by (apply Rmult_lt_0_compat; lra). lra. }
  assert (LV : toLevel crest y2 y3 z0 z2 = if Rleb z0 z2 then (z2 - z0) * crest else (z2 - z0) * - (y2 - y3)).
  { unfold toLevel. destruct (Rleb z0 z2); ring. }
  split.
  - rewrite E. cbv zeta. rewrite <- LV in *. split.
    + intros [H1 H2]. replace (Rltb 0 v) with true by (symmetry; apply Rltb_true; tauto).
      replace (Rleb 0 (toLevel crest y2 y3 z0 z2)) with true by (symmetry; apply Rleb_true; tauto).
      destruct (Rltb (toLevel crest y2 y3 z0 z2) v); [eexists; reflexivity|]. destruct (Rleb z0 z2); eexists; reflexivity.
    + intros (r & H). destruct (Rltb 0 v) eqn:Q1; [|discriminate].
      destruct (Rleb 0 (toLevel crest y2 y3 z0 z2)) eqn:Q2; [|discriminate]. rb. tauto.
  - intros H1 H2. rewrite E. cbv zeta. rewrite <- LV in *.
    replace (Rltb 0 v) with true by (symmetry; apply Rltb_true; tauto).
    replace (Rleb 0 (toLevel _ _ _ _ _)) with true by (symmetry; apply Rleb_true; tauto).
    split; [|split].
    + intros Hv Hz. replace (Rltb (toLevel crest y2 y3 z0 z2) v) with false by (symmetry; apply Rltb_false; lra).
      rewrite LV in Hv. replace (Rleb z0 z2) with true in * by (symmetry; apply Rleb_true; lra).
      exists (z0 + v / crest). split; [reflexivity|].
      assert (M : (z0 + v / crest - z0) * crest = v) by (field; lra). split; [exact M|].
      apply (Rmult_le_reg_r crest); [lra|]. lra.
    + intros Hv Hz. replace (Rltb (toLevel crest y2 y3 z0 z2) v) with false by (symmetry; apply Rltb_false; lra).
      rewrite LV in Hv. replace (Rleb z0 z2) with false in * by (symmetry; apply Rleb_false; lra).
      assert (y3 <> y2).
      { intros ->. replace ((z2 - z0) * - (y2 - y2)) with 0 in Hv by ring. assert (0 < v) by tauto. lra. }
      assert (y3 <= y2) by auto.
      rewrite xdivf by lra. exists (z2 + v / (y2 - y3)). split; [reflexivity|].
      assert (M : (z2 + v / (y2 - y3) - z2) * (y2 - y3) = v) by (field; lra). split; [exact M|].
      apply (Rmult_le_reg_r (y2 - y3)); [lra|]. lra.
    + intros Hv. replace (Rltb (toLevel crest y2 y3 z0 z2) v) with true by (symmetry; apply Rltb_true; lra).
      eexists. split; [reflexivity|].
      assert (0 < (v - toLevel crest y2 y3 z0 z2) / (y0 - y3)) by (apply Rmult_lt_0_compat; [lra|apply Rinv_0_lt_compat; lra]).
      split; [field; lra|lra].
Qed.

(** The list: transect by transect, with the widths and heights of before. *)
Lemma negWidths_nth {F} {NF : Num F} : forall (pres : list bool) (T0 T : list (tsect F)) r,
  negWidths pres T0 T = Ok r -> length pres = length T0 -> length T0 = length T ->
  length r = length T /\
  forall i p t0 t, nth_error pres i = Some p -> nth_error T0 i = Some t0 -> nth_error T i = Some t ->
    exists q, nth_error r i = Some q /\ negWidth p (backBarHeight t0) (crestWidth t0) t = Ok q.
Proof.
  induction pres as [|p ps IH]; intros [|t0 T0] [|t T] r H L1 L2; try discriminate L1; try discriminate L2; cbn [negWidths] in H.
  - apply Ok_inj in H. subst. split; [reflexivity|]. intros [|i]; discriminate.
  - bok H q. bok H rs. apply Ok_inj in H. subst r. cbn [length] in L1, L2.
    destruct (IH _ _ _ Ers ltac:(lia) ltac:(lia)) as [HL HN]. split; [cbn; lia|].
    intros [|i] p' t0' t' H1 H2 H3; cbn [nth_error] in H1, H2, H3 |- *.
    + apply Some_inj in H1, H2, H3. subst. eauto.
    + eauto.
Qed.
Lemma neg_step {F} {NF : Num F} (pres : list bool) (T0 T T' : list (tsect F)) pres' :
  negWidthStep pres T0 T = Ok (T', pres') -> length pres = length T0 -> length T0 = length T ->
  length T' = length T /\
  forall i p t0 t, nth_error pres i = Some p -> nth_error T0 i = Some t0 -> nth_error T i = Some t ->
    exists t' lev, nth_error T' i = Some t' /\ negWidth p (backBarHeight t0) (crestWidth t0) t = Ok (t', lev).
Proof.
  unfold negWidthStep. intros H L1 L2. bok H r. apply Ok_inj in H.
  pose proof (f_equal fst H) as H'. cbn [fst] in H'. subst T'.
  destruct (negWidths_nth _ _ _ _ Er L1 L2) as [HL HN]. split; [now rewrite map_length|].
  intros i p t0 t H1 H2 H3. destruct (HN _ _ _ _ H1 H2 H3) as ([t' lev] & Hr & HW).
  exists t', lev. split; [|exact HW]. rewrite nth_error_map, Hr. reflexivity.
Qed.
(** After the step no channel has negative width. *)
Lemma neg_shape {F} {NF : Num F} (p : bool) (b c : F) t t' lev : negWidth p b c t = Ok (t', lev) ->
  t' = t \/ (tY1 t' = fnan) \/ (tY1 t' = (tY1 t + (tY2 t - tY1 t))%n /\ tY2 t' = tY2 t).
Proof.
  unfold negWidth. destruct (p && _) eqn:Q.
  - intros H. cbv zeta in H. bok H u. bok H w.
    destruct (_ <? _)%n in H; [apply Ok_inj in H; pose proof (f_equal fst H) as H'; cbn [fst] in H'; subst t'; auto|].
    destruct (f0 <=? _)%n in H; [apply Ok_inj in H; pose proof (f_equal fst H) as H'; cbn [fst] in H'; subst t'; auto|].
    destruct (_ <? f0)%n in H; apply Ok_inj in H; pose proof (f_equal fst H) as H'; cbn [fst] in H'; subst t'; auto.
  - intros H. apply Ok_inj in H. pose proof (f_equal fst H) as H'. cbn [fst] in H'. subst t'. auto.
Qed.
Lemma neg_width (p : bool) b c (t t' : tsect xr) lev : negWidth p b c t = Ok (t', lev) ->
  p = outletPresent t -> (outletPresent t = true -> is_fin (tY1 t) /\ is_fin (tY2 t)) ->
  outletPresent t' = true -> rv (tY2 t') <= rv (tY1 t').
Proof.
  intros H Hp HF Ht. destruct (neg_shape _ _ _ _ _ _ H) as [->|[E|[E1 E2]]].
  - destruct (HF Ht) as [(a & Ha) (b' & Hb)]. unfold negWidth in H. rewrite Hp, Ht, Ha, Hb, xlt in H. cbn [andb] in H.
    rewrite Ha, Hb. cbn [rv]. destruct (Rltb a b') eqn:Q; rb; [|lra]. exfalso.
    bok H u. bok H w. revert H. cbv zeta.
    assert (W : (Fin a + (Fin b' - Fin a))%n = Fin b') by (rewrite PRate.xsub, PRate.xadd; f_equal; lra).
    rewrite W.
    assert (K : forall z l, tY1 z = Fin b' \/ tY1 z = NaN -> Ok (z, l) = Ok (t, lev) -> False).
    { intros z l Hz K. apply Ok_inj in K. pose proof (f_equal (fun q => tY1 (fst q)) K) as H'. cbn [fst] in H'.
      destruct Hz as [Hz|Hz]; rewrite Hz, Ha in H'; [|discriminate]. injection H'. lra. }
    match goal with |- (if ?c then _ else _) = _ -> _ => destruct c end; [apply K; right; reflexivity|].
    match goal with |- (if ?c then _ else _) = _ -> _ => destruct c end; [apply K; left; reflexivity|].
    match goal with |- (if ?c then _ else _) = _ -> _ => destruct c end; apply K; left; reflexivity.
  - unfold outletPresent in Ht. rewrite E in Ht. discriminate.
  - unfold outletPresent in *. rewrite E1 in Ht. rewrite E1, E2.
    assert (Ht1 : negb (fisnan (tY1 t)) = true).
    { destruct (tY1 t); try reflexivity. cbn in Ht. discriminate. }
    destruct (HF Ht1) as [(a & ->) (b' & ->)]. rewrite PRate.xsub, PRate.xadd. cbn [rv]. lra.
Qed.

(** ** 4. Elongation *)
Lemma map_changed {A} (T : list A) (m : A -> bool) (f : A -> A) (r : A -> A -> Prop) :
  (forall t, m t = true -> r t (f t)) ->
  changedAt T (map (fun t => if m t then f t else t) T) (fun i => exists t, nth_error T i = Some t /\ m t = true) r.
Proof.
  intros H. split; [apply map_length|]. intros i t t' H1 H2. rewrite nth_error_map, H1 in H2. cbn in H2. apply Some_inj in H2.
  split; intros HS.
  - destruct HS as (u & Hu & Hm). rewrite H1 in Hu. apply Some_inj in Hu. subst u. rewrite Hm in H2. subst t'. auto.
  - destruct (m t) eqn:E; [|auto]. exfalso. apply HS. eauto.
Qed.
Lemma changed_none {A} (T : list A) (S : nat -> Prop) r : (forall i, ~ S i) -> changedAt T T S r.
Proof. intros H. split; [reflexivity|]. intros i t t' H1 H2. rewrite H1 in H2. apply Some_inj in H2. split; [intros K; now apply H in K|auto]. Qed.
Lemma elong_one {F} {NF : Num F} (P : phys F) W Z t : elongated P W Z t (extendT P W Z t).
Proof. unfold elongated, extendT. fl. repeat split. Qed.

Definition beyond {F} {NF : Num F} (e0 e1 xl : F) (t : tsect F) : bool :=
  if (e0 <? e1)%n then ((xl <? tX t) && (tX t <=? e1))%n else ((tX t <? xl) && (e1 <=? tX t))%n.
Lemma extend_spec {F} {NF : Num F} (P : phys F) T e0 e1 W Zd outlet T' outlet' il tl_ nx :
  extendStep P T e0 e1 W Zd outlet = Ok (T', outlet') -> last_ outlet = Ok il -> nth_error T il = Some tl_ ->
  (if (e0 <? e1)%n then ix T (S il) else pynth T (Z.of_nat il - 1)) = Ok nx ->
  let crossed := if (e0 <? e1)%n then (tX nx <=? e1)%n else (e1 <=? tX nx)%n in
  changedAt T T' (fun i => crossed = true /\ exists t, nth_error T i = Some t /\ beyond e0 e1 (tX tl_) t = true) (elongated P W Zd) /\
  outlet' = (if crossed then outletIx T' e0 e1 else outlet).
Proof.
  intros H Hl Ht Hn crossed. unfold extendStep in H. rewrite Hl in H. cbn [bind] in H. unfold ix in H at 1. rewrite Ht in H. cbn [of_opt bind] in H.
  assert (K : forall m : tsect F -> bool, (forall t, m t = beyond e0 e1 (tX tl_) t) -> crossed = true ->
    (if existsb m T then Ok (map (fun t => if m t then extendT P W Zd t else t) T,
        outletIx (map (fun t => if m t then extendT P W Zd t else t) T) e0 e1) else Exc EIndex) = Ok (T', outlet') ->
    changedAt T T' (fun i => crossed = true /\ exists t, nth_error T i = Some t /\ beyond e0 e1 (tX tl_) t = true) (elongated P W Zd) /\
    outlet' = (if crossed then outletIx T' e0 e1 else outlet)).
  { intros m Hm Hc K. destruct (existsb m T); [|discriminate]. apply Ok_inj in K.
    pose proof (f_equal fst K) as K1. pose proof (f_equal snd K) as K2. cbn [fst snd] in K1, K2. subst T' outlet'.
    rewrite Hc. split; [|reflexivity].
    destruct (map_changed T m (extendT P W Zd) (elongated P W Zd) (fun t _ => elong_one P W Zd t)) as [L C].
    split; [exact L|]. intros i t t' H1 H2. destruct (C i t t' H1 H2) as [C1 C2]. split.
    - intros [_ (u & Hu & Hb)]. apply C1. exists u. now rewrite Hm.
    - intros N. apply C2. intros (u & Hu & Hb). apply N. split; [auto|]. exists u. now rewrite <- Hm. }
  unfold beyond in K |- *. unfold crossed in *. clear crossed. destruct (e0 <? e1)%n eqn:E; rewrite Hn in H; cbn [bind] in H.
  - destruct (tX nx <=? e1)%n eqn:C.
    + apply (K (fun t => ((tX tl_ <? tX t) && (tX t <=? e1))%n)); auto.
    + apply Ok_inj in H. pose proof (f_equal fst H) as K1. pose proof (f_equal snd H) as K2. cbn [fst snd] in K1, K2. subst.
      split; [|reflexivity]. apply changed_none. intros i [? _]. discriminate.
  - destruct (e1 <=? tX nx)%n eqn:C.
    + apply (K (fun t => ((tX t <? tX tl_) && (e1 <=? tX t))%n)); auto.
    + apply Ok_inj in H. pose proof (f_equal fst H) as K1. pose proof (f_equal snd H) as K2. cbn [fst snd] in K1, K2. subst.
      split; [|reflexivity]. apply changed_none. intros i [? _]. discriminate.
Qed.

(** ** 5. First transect of the channel meets the sea *)
Lemma seaward_spec x y0 y1 y2 y3 y4 z0 z1 z2 z3 : z2 <> z1 ->
  let t := withChannel x y0 y1 y2 y3 y4 z0 z1 z2 z3 in
  (y1 < y0 -> seawardFirst t = t) /\
  (y0 <= y1 -> exists u, seawardFirst t = withChannel x y0 (y0 - 1/1000) u y3 y4 z0 z1 z2 z3 /\
     (y1 - (y0 - 1/1000)) * (z0 - z1) = (y2 - u) * (z2 - z1)).
Proof.
  intros Hz t. unfold seawardFirst, t, withChannel. fl. rewrite xle. split; intros H.
  - replace (Rleb y0 y1) with false by (symmetry; apply Rleb_false; lra). reflexivity.
  - replace (Rleb y0 y1) with true by (symmetry; apply Rleb_true; lra). cbv zeta. rewrite xofQ. xf.
    eexists. split.
    + unfold setY2, setY1. fl. f_equal. f_equal. lra.
    + field. lra.
Qed.
Lemma seaward_step {F} {NF : Num F} (T T' : list (tsect F)) outlet : seawardFirstStep T outlet = Ok T' ->
  exists i t, nth_error outlet 0 = Some i /\ nth_error T i = Some t /\ nth_error T' i = Some (seawardFirst t) /\
    length T' = length T /\ forall j, j <> i -> nth_error T' j = nth_error T j.
Proof.
  unfold seawardFirstStep. intros H. bok H i. bok H t. apply Ok_inj in H. subst T'. apply ix_ok in Ei, Et.
  exists i, t. repeat split; auto.
  - apply nth_error_upd_eq. apply nth_error_Some. congruence.
  - apply upd_length.
  - intros j N. apply nth_error_upd_ne. auto.
Qed.

(** ** 8. Last transect of the channel meets the lagoon *)
Lemma last_spec P B x y0 y1 y2 y3 y4 z0 z1 z2 z3 : pBackshoreElev P = Fin B -> z1 < z2 -> z2 <= B ->
  let t := withChannel x y0 y1 y2 y3 y4 z0 z1 z2 z3 in
  (y3 < y2 -> lagoonLast P t = t) /\
  (y2 <= y3 -> y4 <= y2 - 1/10000 -> lagoonLast P t = withChannel x y0 y1 y2 (y2 - 1/10000) y4 z0 z1 z2 z3) /\
  (y2 <= y3 -> y2 - 1/10000 < y4 -> exists u, lagoonLast P t = withChannel x y0 y1 (u + 1/10000) u u z0 z1 z2 z3 /\
     u <= y4 /\ y2 <= u + 1/10000 /\ (u + 1/10000 - y2) * (z2 - z1) = (y4 - u) * (B - z2)).
Proof.
  intros HB Hz Hb t. unfold lagoonLast, t, withChannel. fl. rewrite xle. split; [|split]; intros H.
  - replace (Rleb y2 y3) with false by (symmetry; apply Rleb_false; lra). reflexivity.
  - intros H'. replace (Rleb y2 y3) with true by (symmetry; apply Rleb_true; lra). cbv zeta. rewrite xofQ. fl. xf. rewrite xlt.
    replace (Rltb _ y4) with false by (symmetry; apply Rltb_false; lra). reflexivity.
  - intros H'. replace (Rleb y2 y3) with true by (symmetry; apply Rleb_true; lra). cbv zeta. rewrite xofQ. fl. xf. rewrite xlt.
    replace (Rltb _ y4) with true by (symmetry; apply Rltb_true; lra). rewrite HB.
    assert (D : 0 <= (B - z2) / (z2 - z1)) by (apply Rmult_le_pos; [lra|left; apply Rinv_0_lt_compat; lra]).
    xf. set (o := y4 - (y2 - 1 / 10000)). set (r := o / (1 + (B - z2) / (z2 - z1))).
    assert (HR : r * ((z2 - z1) + (B - z2)) = o * (z2 - z1)) by (unfold r; field; split; lra).
    assert (O : 0 < o) by (unfold o; lra).
    assert (R1 : 0 < r) by (unfold r; apply Rmult_lt_0_compat; [lra|apply Rinv_0_lt_compat; lra]).
    exists (y4 - r). split.
    + unfold setY3, setY2, setY4. fl. f_equal; f_equal; unfold o; lra.
    + repeat split; try lra.
      * unfold r. assert (r < o \/ r = o) as [Q|Q].
        { destruct (Rle_lt_dec o r) as [Q|Q]; [right|auto].
          assert (K : (r - o) * ((z2 - z1) + (B - z2)) = - (o * (B - z2))) by lra.
          assert (0 <= (r - o) * ((z2 - z1) + (B - z2))) by (apply Rmult_le_pos; lra).
          assert (0 <= o * (B - z2)) by (apply Rmult_le_pos; lra).
          assert (K' : (r - o) * ((z2 - z1) + (B - z2)) = 0) by lra.
          apply Rmult_integral in K'. lra. }
        -- fold r. unfold o in Q. lra.
        -- fold r. unfold o in Q. lra.
      * replace (y4 - r + 1 / 10000 - y2) with (o - r) by (unfold o; lra). lra.
Qed.
