(** Proofs about the model of riv.py assembleChannel: conservation of lagoon storage. *)
From Coq Require Import Reals ZArith List Bool Lia Lra.
From Verif Require Import Base Num Xr MState MRiv SChan PCoast PChan PLag.
Import ListNotations.
Local Open Scope R_scope.

Lemma sum_ind k v a n :
  fold_right Rplus 0 (map (fun i => if Nat.eqb i k then v else 0) (seq a n)) =
  if (Nat.leb a k && Nat.ltb k (a + n))%bool then v else 0.
Proof.
  revert a. induction n as [|n IH]; intros a; cbn [seq map fold_right].
  - destruct (Nat.leb a k) eqn:E1; [|reflexivity]. apply Nat.leb_le in E1.
    rewrite (proj2 (Nat.ltb_ge k (a + 0))) by lia. reflexivity.
  - rewrite IH. destruct (Nat.eqb a k) eqn:E.
    + apply Nat.eqb_eq in E. subst k. rewrite (proj2 (Nat.leb_gt (S a) a)) by lia.
      rewrite Nat.leb_refl, (proj2 (Nat.ltb_lt a (a + S n))) by lia. cbn [andb]. lra.
    + apply Nat.eqb_neq in E. replace (S a + n)%nat with (a + S n)%nat by lia.
      destruct (Nat.leb a k) eqn:E1.
      * apply Nat.leb_le in E1. rewrite (proj2 (Nat.leb_le (S a) k)) by lia. lra.
      * apply Nat.leb_gt in E1. rewrite (proj2 (Nat.leb_gt (S a) k)) by lia. cbn [andb]. lra.
Qed.

Lemma sum_add {A} (f g : A -> R) l :
  fold_right Rplus 0 (map (fun i => f i + g i) l) = fold_right Rplus 0 (map f l) + fold_right Rplus 0 (map g l).
Proof. induction l as [|x l IH]; cbn [map fold_right]; [lra|]. rewrite IH. lra. Qed.

Lemma total_tab (f : nat -> R) l : (forall i x, nth_error l i = Some x -> x = Fin (f i)) ->
  total l = fold_right Rplus 0 (map f (seq 0 (length l))).
Proof.
  intros H. unfold total. revert f H. induction l as [|x l IH]; intros f H; [reflexivity|].
  cbn [map fold_right length seq]. rewrite (H 0%nat x eq_refl). cbn [rv]. f_equal.
  rewrite <- seq_shift, map_map. apply (IH (fun i => f (S i))). intros i y Hy. apply (H (S i)). exact Hy.
Qed.

Lemma total_area nr last sa ea l : (nr <= last < length l)%nat -> attachedArea nr last sa ea l ->
  total l = if Nat.eqb nr last then ea else sa + ea.
Proof.
  intros Hl H. rewrite (total_tab _ _ H).
  destruct (Nat.eqb nr last) eqn:E.
  - apply Nat.eqb_eq in E. subst last.
    rewrite (map_ext _ (fun i => if Nat.eqb i nr then ea else 0)) by (intros i; destruct (Nat.eqb i nr); reflexivity).
    rewrite sum_ind, (proj2 (Nat.ltb_lt nr (0 + length l))) by lia. reflexivity.
  - apply Nat.eqb_neq in E.
    rewrite (map_ext _ (fun i => (if Nat.eqb i nr then sa else 0) + (if Nat.eqb i last then ea else 0))).
    + rewrite sum_add, !sum_ind, !(proj2 (Nat.ltb_lt _ (0 + length l))) by lia. reflexivity.
    + intros i. destruct (Nat.eqb i last) eqn:E1; [|lra]. apply Nat.eqb_eq in E1. subst i.
      rewrite (proj2 (Nat.eqb_neq last nr)) by lia. lra.
Qed.

Lemma areaWhere_add d p q T : (forall t, In t T -> p (posX t) && q (posX t) = false)%bool ->
  areaWhere d p T + areaWhere d q T = areaWhere d (fun x => p x || q x)%bool T.
Proof.
  unfold areaWhere. induction T as [|t T IH]; intros H; cbn [map fold_right]; [lra|].
  rewrite <- IH by (intros; apply H; right; auto).
  specialize (H t (or_introl eq_refl)). destruct (p (posX t)), (q (posX t)); try discriminate; cbn [orb]; lra.
Qed.
Lemma areaWhere_ext d p q T : (forall t, In t T -> p (posX t) = q (posX t)) -> areaWhere d p T = areaWhere d q T.
Proof.
  unfold areaWhere. intros H. f_equal. apply map_ext_in. intros t Ht. rewrite H by auto. reflexivity.
Qed.

Lemma areaOn_total d T idx ts : Forall2 (fun i t => nth_error T i = Some t) idx ts ->
  areaOn d T idx = totalA d ts /\ lengthOn d T idx = totalL d ts.
Proof.
  unfold areaOn, lengthOn, totalA, totalL.
  induction 1 as [|i t idx ts Hi _ [I1 I2]]; [split; reflexivity|]. cbn [map fold_right]. rewrite Hi, I1, I2. split; reflexivity.
Qed.

Section Storage.
  Variable T : list (tsect xr).
  Hypothesis HT : grid T.
  Variables (e0 e1 d : R) (eW eElev : xr) (Closed : bool).
  Variables (RiverElev RivDep RivVel LagoonWL LagoonVel OutletDep OutletVel EndDep EndVel : list xr).
  Variable P : phys xr.
  Notation asm := (assembleChannel T (Fin e0) (Fin e1) eW eElev Closed RiverElev RivDep RivVel LagoonWL LagoonVel
                                   OutletDep OutletVel EndDep EndVel (Fin d) P).
  Notation shut := (shutAtOutlet T e0 e1 eW Closed (pMinOutletWidth P)).

  Lemma storage ch : asm = Ok ch ->
    let nr := length RiverElev in let last := (nr + length (chOnline ch) - 1)%nat in
    exists ea el,
      attachedArea nr last (areaWhere d (farSide e0) T) ea (chLagArea ch) /\
      attachedLength nr last d (lengthWhere d (farSide e0) T) el (chLagLen ch) /\
      (chClosed ch = false -> ea = areaWhere d (beyond e0) T /\ el = lengthWhere d (beyond e0) T) /\
      (~ shut -> areaOn d T (chOnline ch) + ea = areaWhere d (towardsb e0) T + areaWhere d (beyond e0) T /\
                 lengthOn d T (chOnline ch) + el = lengthWhere d (towardsb e0) T + lengthWhere d (beyond e0) T) /\
      (shut -> (forall t, In t T -> 0 <= lagW t) ->
         areaOn d T (chOnline ch) + ea = areaWhere d (nearSide e0) T /\
         lengthOn d T (chOnline ch) + el = lengthWhere d (nearSide e0) T).
  Proof.
    intros H nr last. pose proof (layout T _ _ _ _ _ _ _ _ _ _ _ _ _ _ _ _ _ H) as (HF & _ & _ & L3 & L4 & _).
    destruct (storage_attached T HT e0 e1 d eW eElev Closed RiverElev RivDep RivVel LagoonWL LagoonVel OutletDep OutletVel
                EndDep EndVel P ch H) as (sh & sa & ea & sl & el & lts & Hsh & [A1 A2] & -> & -> & HG & Hop & Hns & Hs).
    cbv zeta in A1, A2. fold nr last in A1, A2.
    destruct (areaOn_total d T _ _ HG) as [-> ->].
    exists ea, el. split; [|split; [|split; [|split]]].
    - intros i x Hx. rewrite A1 in Hx; [congruence|]. rewrite <- L3. apply nth_error_Some. congruence.
    - intros i x Hx. rewrite A2 in Hx; [congruence|]. rewrite <- L4. apply nth_error_Some. congruence.
    - intros Hc. destruct (Hop Hc) as (-> & -> & _). auto.
    - intros Hn. apply Hns. destruct sh; [|reflexivity]. exfalso. apply Hn, Hsh. reflexivity.
    - intros Hn Hw. apply Hs; [|exact Hw]. apply Hsh. exact Hn.
  Qed.

  Lemma area_length ch : asm = Ok ch ->
    length (chOnline ch) <> 0%nat /\ (length RiverElev + length (chOnline ch) <= length (chLagArea ch))%nat.
  Proof.
    intros H. pose proof (layout T _ _ _ _ _ _ _ _ _ _ _ _ _ _ _ _ _ H) as (HF & _ & _ & L3 & L4 & _).
    apply assemble_inv in H as [x0 t0 ow cl1 on1 sa sl ea1 el1 ea el lts dep0 vel0].
    split; [destruct (chOnline ch); [easy|discriminate]|].
    rewrite L3, HF. unfold flags. rewrite !app_length, !repeat_length. lia.
  Qed.

  (** With two or more online transects and the outlet not in line with the river, online and
      attached areas together are the area of the lagoon, less (open) the transect at the outlet. *)
  Lemma total_open ch : asm = Ok ch -> ~ shut -> e0 <> 0 -> (2 <= length (chOnline ch))%nat ->
    areaOn d T (chOnline ch) + total (chLagArea ch) = areaWhere d (fun x => negb (Reqb x e0)) T.
  Proof.
    intros H Hn He Hl. destruct (area_length ch H) as [_ HL].
    destruct (storage ch H) as (ea & el & A & _ & _ & Ho & _). destruct (Ho Hn) as [E _].
    assert (HB : (length RiverElev <= length RiverElev + length (chOnline ch) - 1 < length (chLagArea ch))%nat) by lia.
    rewrite (total_area _ _ _ _ _ HB A), (proj2 (Nat.eqb_neq _ _)) by lia.
    replace (areaOn d T (chOnline ch) + (areaWhere d (farSide e0) T + ea))
      with (areaWhere d (towardsb e0) T + areaWhere d (beyond e0) T + areaWhere d (farSide e0) T) by lra.
    rewrite areaWhere_add, areaWhere_add.
    - apply areaWhere_ext. intros t _. unfold towardsb, beyond, farSide.
      repeat rcase; cbn; try reflexivity; try lra; exfalso; lra.
    - intros t _. unfold towardsb, beyond, farSide. repeat rcase; cbn; try reflexivity; try lra; exfalso; lra.
    - intros t _. unfold towardsb, beyond. repeat rcase; cbn; try reflexivity; try lra; exfalso; lra.
  Qed.

  Lemma total_shut ch : asm = Ok ch -> shut -> (forall t, In t T -> 0 <= lagW t) -> e0 <> 0 -> (2 <= length (chOnline ch))%nat ->
    areaOn d T (chOnline ch) + total (chLagArea ch) = areaWhere d (fun _ => true) T.
  Proof.
    intros H Hn Hw He Hl. destruct (area_length ch H) as [_ HL].
    destruct (storage ch H) as (ea & el & A & _ & _ & _ & Hs). destruct (Hs Hn Hw) as [E _].
    assert (HB : (length RiverElev <= length RiverElev + length (chOnline ch) - 1 < length (chLagArea ch))%nat) by lia.
    rewrite (total_area _ _ _ _ _ HB A), (proj2 (Nat.eqb_neq _ _)) by lia.
    replace (areaOn d T (chOnline ch) + (areaWhere d (farSide e0) T + ea))
      with (areaWhere d (nearSide e0) T + areaWhere d (farSide e0) T) by lra.
    rewrite areaWhere_add.
    - apply areaWhere_ext. intros t _. unfold nearSide, farSide. repeat rcase; cbn; try reflexivity; try lra; exfalso; lra.
    - intros t _. unfold nearSide, farSide. repeat rcase; cbn; try reflexivity; try lra; exfalso; lra.
  Qed.

  (** A single online transect: the area on the far side of the river is dropped. *)
  Lemma total_single ch : asm = Ok ch -> ~ shut -> e0 <> 0 -> length (chOnline ch) = 1%nat ->
    areaOn d T (chOnline ch) + total (chLagArea ch) = areaWhere d (fun x => negb (Reqb x e0) && negb (farSide e0 x)) T.
  Proof.
    intros H Hn He Hl. destruct (area_length ch H) as [_ HL].
    destruct (storage ch H) as (ea & el & A & _ & _ & Ho & _). destruct (Ho Hn) as [E _].
    assert (HB : (length RiverElev <= length RiverElev + length (chOnline ch) - 1 < length (chLagArea ch))%nat) by lia.
    rewrite (total_area _ _ _ _ _ HB A), (proj2 (Nat.eqb_eq _ _)) by lia. rewrite E.
    rewrite areaWhere_add.
    - apply areaWhere_ext. intros t _. unfold towardsb, beyond, farSide. repeat rcase; cbn; try reflexivity; try lra; exfalso; lra.
    - intros t _. unfold towardsb, beyond. repeat rcase; cbn; try reflexivity; try lra; exfalso; lra.
  Qed.

  Lemma inline_single ch : asm = Ok ch -> ~ shut -> e0 = 0 -> length (chOnline ch) = 1%nat /\ chClosed ch = false.
  Proof.
    intros H Hn He. apply assemble_inv in H as [x0 t0 ow cl1 on1 sa sl ea1 el1 ea el lts dep0 vel0].
    pose proof (outlet_shut T HT e0 e1 eW Closed P _ _ _ a_out) as Hs. unfold shutBy in Hs.
    pose proof (cut_spec T (Fin d) P _ _ _ _ _ _ _ _ a_cut) as (ts1 & Hg1 & Hcut).
    assert (Hp0 : posX t0 = 0).
    { apply first_where_Some in a_x0 as ((t & Ht & HX) & _). rewrite a_t0 in Ht. apply Some_inj in Ht. subst t.
      destruct (gridF T HT t0 (nth_error_In _ _ a_t0)) as (E & _). rewrite E in HX. apply Reqb_true in HX. exact HX. }
    destruct cl1; [exfalso; apply Hn, Hs; reflexivity|].
    destruct (part_exact T HT e0 d x0 t0 a_t0 Hp0 a_w0 _ _ _ _ _ _ _ a_lag Hg1) as (_ & _ & Ho & _).
    destruct (Ho eq_refl) as (_ & _ & Hts). cbv zeta in Hts.
    assert (L : length ts1 = 1%nat).
    { assert (E : filter (fun t => towardsb e0 (posX t)) T = [t0]).
      { rewrite (only_river T HT x0 t0 a_t0 Hp0). apply filter_ext. intros t. unfold towardsb. subst e0. repeat rcase; cbn; try reflexivity; try lra; exfalso; lra. }
      destruct Hts as [->| ->]; rewrite ?rev_length, E; reflexivity. }
    pose proof (gather_length _ _ Hg1) as L1.
    destruct Hcut as [(E & _ & _ & Ec & _)|(k & t & Ht & _ & _ & E & _ & _ & _)].
    - rewrite E. split; [lia|congruence].
    - exfalso. assert (k < length ts1)%nat by (apply nth_error_Some; congruence). assert (k = 0%nat) by lia. subst k. apply a_ne. rewrite E. reflexivity.
  Qed.

  (** Outlet in line with the river and open: the left-hand lagoon is never attached, and the
      wet length of the right-hand lagoon is counted at both ends (the same section). *)
  Lemma total_inline ch : asm = Ok ch -> ~ shut -> e0 = 0 -> length (chOnline ch) = 1%nat /\
    total (chLagArea ch) = areaWhere d (Rltb 0) T /\
    nth_error (chLagLen ch) (length RiverElev) = Some (Fin (d + 2 * lengthWhere d (Rltb 0) T)).
  Proof.
    intros H Hn He. destruct (inline_single ch H Hn He) as [Hl Hc]. split; [exact Hl|]. destruct (area_length ch H) as [_ HL].
    pose proof (layout T _ _ _ _ _ _ _ _ _ _ _ _ _ _ _ _ _ H) as (HF & _ & _ & L3 & L4 & _).
    destruct (storage ch H) as (ea & el & A & B & C & _). destruct (C Hc) as [-> ->].
    assert (E : beyond e0 = Rltb 0) by (unfold beyond; subst e0; rewrite (proj2 (Rltb_false 0 0)) by lra; reflexivity).
    assert (E' : farSide e0 = Rltb 0) by (unfold farSide; subst e0; rewrite (proj2 (Rltb_false 0 0)) by lra; reflexivity).
    rewrite E, E' in *.
    split.
    - assert (HB : (length RiverElev <= length RiverElev + length (chOnline ch) - 1 < length (chLagArea ch))%nat) by lia.
    rewrite (total_area _ _ _ _ _ HB A), (proj2 (Nat.eqb_eq _ _)) by lia. reflexivity.
    - destruct (nth_error (chLagLen ch) (length RiverElev)) as [x|] eqn:Ex.
      + rewrite (B _ _ Ex), Hl. f_equal. f_equal.
        replace (length RiverElev + 1 - 1)%nat with (length RiverElev) by lia. rewrite Nat.leb_refl, Nat.eqb_refl. cbn [andb]. lra.
      + apply nth_error_None in Ex. lia.
  Qed.
End Storage.
