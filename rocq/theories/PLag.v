(** Proofs about the model of riv.py assembleChannel: online lagoon, closure, offline storage. *)
From Coq Require Import Reals ZArith List Bool Lia Lra.
From Verif Require Import Base Num Xr MState MRiv SChan PCoast PChan.
Import ListNotations.

(** * List facts *)
Lemma nth_error_firstn {A} (l : list A) n i : nth_error (firstn n l) i = if Nat.ltb i n then nth_error l i else None.
Proof.
  revert n i; induction l as [|x l IH]; intros [|n] [|i]; cbn [firstn nth_error]; auto.
  - destruct (Nat.ltb (S i) (S n)); reflexivity.
  - rewrite IH. reflexivity.
Qed.
Lemma nth_error_skipn {A} (l : list A) n i : nth_error (skipn n l) i = nth_error l (n + i).
Proof.
  revert l; induction n as [|n IH]; intros l; [reflexivity|]. destruct l as [|x l]; [destruct i; reflexivity|]. apply IH.
Qed.

Lemma nth_error_seq a n j i : nth_error (seq a n) j = Some i <-> (j < n)%nat /\ i = (a + j)%nat.
Proof.
  revert a j; induction n as [|n IH]; intros a [|j]; cbn [seq nth_error].
  - split; [discriminate|lia].
  - split; [discriminate|lia].
  - split; [intros H; apply Some_inj in H; lia|]. intros [_ ->]. f_equal. lia.
  - rewrite IH. split; intros [H1 H2]; split; lia.
Qed.
Lemma nth_error_rev {A} (l : list A) j : (j < length l)%nat -> nth_error (rev l) j = nth_error l (length l - 1 - j).
Proof.
  intros H. destruct l as [|d l0]; [cbn in H; lia|]. set (l := d :: l0) in *.
  rewrite (nth_error_nth' _ d) by (rewrite rev_length; auto). rewrite (nth_error_nth' l d) by lia.
  f_equal. rewrite rev_nth by auto. f_equal. lia.
Qed.
Lemma nth_error_arange a b j i : nth_error (arange a b) j = Some i -> i = (a + j)%nat /\ (i < b)%nat.
Proof. unfold arange. rewrite nth_error_seq. lia. Qed.
Lemma nth_error_arange_down a b j i : nth_error (arange_down a b) j = Some i -> (i + j)%nat = a /\ (b <= i)%nat.
Proof.
  unfold arange_down. intros H. assert (L : (j < length (seq b (S a - b)))%nat).
  { rewrite <- rev_length. apply nth_error_Some. congruence. }
  rewrite nth_error_rev in H by auto. rewrite seq_length in *. apply nth_error_seq in H. lia.
Qed.
Lemma nth_error_ext {A} (l m : list A) : (forall i, nth_error l i = nth_error m i) -> l = m.
Proof.
  revert m; induction l as [|x l IH]; intros [|y m] H; auto.
  - specialize (H 0%nat). discriminate.
  - specialize (H 0%nat). discriminate.
  - f_equal; [specialize (H 0%nat); cbn in H; congruence|]. apply IH. intros i. exact (H (S i)).
Qed.

Lemma gather_seq {A} (l : list A) a n : (a + n <= length l)%nat -> gather l (seq a n) = Ok (firstn n (skipn a l)).
Proof.
  revert a; induction n as [|n IH]; intros a H; cbn [seq gather]; [reflexivity|].
  destruct (skipn a l) as [|x r] eqn:E.
  - apply (f_equal (@length _)) in E. rewrite skipn_length in E. cbn in E. lia.
  - assert (Hx : nth_error l a = Some x).
    { pose proof (nth_error_skipn l a 0) as G. rewrite E, Nat.add_0_r in G. cbn in G. auto. }
    assert (Hr : skipn (S a) l = r).
    { apply nth_error_ext. intros i. pose proof (nth_error_skipn l a (S i)) as G. rewrite E in G. cbn in G. rewrite G, nth_error_skipn. f_equal. lia. }
    unfold ix. rewrite Hx. cbn [of_opt bind]. rewrite IH by lia. rewrite Hr. reflexivity.
Qed.
Lemma gather_app {A} (l : list A) i j xs ys : gather l i = Ok xs -> gather l j = Ok ys -> gather l (i ++ j) = Ok (xs ++ ys).
Proof. rewrite !gather_ok. apply Forall2_app. Qed.
Lemma gather_rev {A} (l : list A) idx xs : gather l idx = Ok xs -> gather l (rev idx) = Ok (rev xs).
Proof.
  revert xs; induction idx as [|i idx IH]; intros xs H; cbn [gather] in H.
  - apply Ok_inj in H. subst. reflexivity.
  - apply bind_ok in H as (x & Hx & H). apply bind_ok in H as (ys & Hy & H). apply Ok_inj in H. subst.
    cbn [rev]. apply gather_app; auto. cbn [gather]. rewrite Hx. reflexivity.
Qed.
Lemma gather_firstn {A} (l : list A) idx xs k : gather l idx = Ok xs -> gather l (firstn k idx) = Ok (firstn k xs).
Proof.
  revert idx xs; induction k as [|k IH]; intros idx xs H; [reflexivity|].
  destruct idx as [|i idx]; cbn [gather] in H.
  - apply Ok_inj in H. subst. reflexivity.
  - apply bind_ok in H as (x & Hx & H). apply bind_ok in H as (ys & Hy & H). apply Ok_inj in H. subst.
    cbn [firstn gather]. rewrite Hx. cbn [bind]. rewrite (IH _ _ Hy). reflexivity.
Qed.
Lemma filter_index {A} (p : A -> bool) l a n :
  (forall i x, nth_error l i = Some x -> p x = (Nat.leb a i && Nat.ltb i (a + n))%bool) -> filter p l = firstn n (skipn a l).
Proof.
  revert a n; induction l as [|x l IH]; intros a n H.
  - destruct n, a; reflexivity.
  - cbn [filter]. pose proof (H 0%nat x eq_refl) as H0. destruct a as [|a].
    + destruct n as [|n].
      * cbn in H0. rewrite H0. rewrite (IH 0%nat 0%nat); [reflexivity|].
        intros i y Hy. specialize (H (S i) y Hy). rewrite H. reflexivity.
      * cbn in H0. rewrite H0. cbn [skipn firstn]. f_equal. rewrite (IH 0%nat n); [reflexivity|].
        intros i y Hy. specialize (H (S i) y Hy). rewrite H. reflexivity.
    + cbn in H0. rewrite H0. cbn [skipn]. apply IH. intros i y Hy. specialize (H (S i) y Hy). rewrite H. reflexivity.
Qed.
Lemma In_gather {A} (l : list A) idx xs x : gather l idx = Ok xs -> In x xs -> exists i, In i idx /\ nth_error l i = Some x.
Proof.
  rewrite gather_ok. intros H. induction H as [|i y idx ys Hi Hr IH]; intros [].
  - subst. exists i. split; [left; auto|auto].
  - destruct (IH H) as (j & ? & ?). exists j. split; [right; auto|auto].
Qed.
Lemma gather_nth {A} (l : list A) idx xs j i x : gather l idx = Ok xs -> nth_error idx j = Some i -> nth_error xs j = Some x -> nth_error l i = Some x.
Proof.
  rewrite gather_ok. intros H. revert j; induction H as [|k y idx ys Hk Hr IH]; intros [|j]; cbn; try discriminate.
  - intros H1 H2. congruence.
  - apply IH.
Qed.

(** * C22 *)
Section Online.
  Context {F : Type} {NF : Num F}.
  Local Open Scope num_scope.
  Variables (T : list (tsect F)) (e0 e1 eW eElev : F) (Closed : bool).
  Variables (RiverElev RivDep RivVel LagoonWL LagoonVel OutletDep OutletVel EndDep EndVel : list F).
  Variables (Dx : F) (P : phys F).
  Notation asm := (assembleChannel T e0 e1 eW eElev Closed RiverElev RivDep RivVel LagoonWL LagoonVel
                                   OutletDep OutletVel EndDep EndVel Dx P).

  Lemma part_direction x0 cl on sa sl ea el :
    lagoonPart Dx T x0 e0 cl = Ok (on, sa, sl, ea, el) ->
    forall j i, nth_error on j = Some i -> if (e0 =? f0) || (f0 <? e0) then i = (x0 + j)%nat else (i + j)%nat = x0.
  Proof.
    unfold lagoonPart. intros H j i Hj. destruct (e0 =? f0); [|destruct (f0 <? e0)]; cbn [orb]; destruct cl;
      try (apply bind_ok in H as (k & _ & H)); apply Ok_inj in H; injection H as <- _ _ _ _.
    - apply nth_error_arange in Hj. tauto.
    - destruct j as [|j]; cbn [nth_error] in Hj; [apply Some_inj in Hj; lia|]. destruct j; discriminate.
    - apply nth_error_arange in Hj. tauto.
    - apply nth_error_arange in Hj. tauto.
    - apply nth_error_arange_down in Hj. tauto.
    - apply nth_error_arange_down in Hj. tauto.
  Qed.

  Lemma cut_spec on1 ea1 el1 cl1 on ea el cl :
    lagoonCut P Dx T on1 ea1 el1 cl1 = Ok (on, ea, el, cl) ->
    exists ts1, gather T on1 = Ok ts1 /\
    ((on = on1 /\ ea = ea1 /\ el = el1 /\ cl = cl1 /\ (forall t, In t ts1 -> (lagoonWidth t <? pMinOutletWidth P) = false)) \/
     exists k t, nth_error ts1 k = Some t /\ (lagoonWidth t <? pMinOutletWidth P) = true /\
       (forall j t, (j < k)%nat -> nth_error ts1 j = Some t -> (lagoonWidth t <? pMinOutletWidth P) = false) /\
       on = firstn k on1 /\ ea = ea1 + areaOf Dx (skipn k ts1) /\ el = el1 + lenOf Dx (skipn k ts1) /\ cl = true).
  Proof.
    unfold lagoonCut. intros H. apply bind_ok in H as (ts1 & Hg & H). exists ts1. split; [auto|].
    destruct (first_where _ ts1) as [k|] eqn:E.
    - right. apply first_where_Some in E as ((t & Ht & Hn) & Hlt). apply Ok_inj in H. injection H as <- <- <- <-.
      exists k, t. repeat split; auto.
    - left. apply Ok_inj in H. injection H as <- <- <- <-. repeat split; auto.
      intros t Ht. apply In_nth_error in Ht as (j & Hj). eapply first_where_None in E; eauto.
  Qed.

  Lemma online_run ch : asm = Ok ch ->
    exists x0 t0, nth_error T x0 = Some t0 /\ (tX t0 =? f0) = true /\
      (forall j t, (j < x0)%nat -> nth_error T j = Some t -> (tX t =? f0) = false) /\
      nth_error (chOnline ch) 0 = Some x0 /\
      forall j i, nth_error (chOnline ch) j = Some i ->
        (if (e0 =? f0) || (f0 <? e0) then i = (x0 + j)%nat else (i + j)%nat = x0) /\
        exists t, nth_error T i = Some t /\ (f0 <? tY3 t - tY4 t) = true /\ (tY3 t - tY4 t <? pMinOutletWidth P) = false.
  Proof.
    intros H. apply assemble_inv in H as [x0 t0 ow cl1 on1 sa sl ea1 el1 ea el lts dep0 vel0].
    exists x0, t0. apply first_where_Some in a_x0 as ((t & Ht & HX) & Hlt). rewrite a_t0 in Ht. apply Some_inj in Ht. subst t.
    split; [auto|]. split; [auto|]. split; [auto|].
    pose proof (cut_spec _ _ _ _ _ _ _ _ a_cut) as (ts1 & Hg1 & Hcut).
    assert (G : forall j i, nth_error (chOnline ch) j = Some i ->
        (if (e0 =? f0) || (f0 <? e0) then i = (x0 + j)%nat else (i + j)%nat = x0) /\
        exists t, nth_error T i = Some t /\ (f0 <? tY3 t - tY4 t) = true /\ (tY3 t - tY4 t <? pMinOutletWidth P) = false).
    { intros j i Hj.
      assert (Hl : exists t, nth_error lts j = Some t).
      { destruct (nth_error lts j) eqn:E; [eauto|]. apply nth_error_None in E. apply gather_length in a_lts.
        assert (j < length (chOnline ch))%nat by (apply nth_error_Some; congruence). lia. }
      destruct Hl as (t & Ht). pose proof (gather_nth _ _ _ _ _ _ a_lts Hj Ht) as HT.
      destruct Hcut as [(E & _ & _ & _ & Hn)|(k & t' & _ & _ & Hn & E & _)].
      - rewrite E in Hj. split; [eapply part_direction; eauto|]. exists t. split; [auto|]. split; [apply a_wet; eapply nth_error_In; eauto|].
        rewrite E, Hg1 in a_lts. apply Ok_inj in a_lts. subst ts1. apply Hn. eapply nth_error_In; eauto.
      - rewrite E in Hj. rewrite nth_error_firstn in Hj. destruct (Nat.ltb j k) eqn:Ejk; [|discriminate]. apply Nat.ltb_lt in Ejk.
        split; [eapply part_direction; eauto|]. exists t. split; [auto|]. split; [apply a_wet; eapply nth_error_In; eauto|].
        rewrite E, (gather_firstn _ _ _ k Hg1) in a_lts. apply Ok_inj in a_lts. subst lts.
        rewrite nth_error_firstn in Ht. rewrite (proj2 (Nat.ltb_lt _ _) Ejk) in Ht. eapply Hn; eauto. }
    split; [|exact G].
    destruct (nth_error (chOnline ch) 0) as [i|] eqn:E.
    - destruct (G 0%nat i E) as [D _]. f_equal. destruct (_ || _); lia.
    - destruct (chOnline ch); [easy|discriminate].
  Qed.
End Online.

(** * Exact arithmetic: closure and storage *)
Section Exact.
  Local Open Scope R_scope.
  Variable T : list (tsect xr).
  Hypothesis HT : grid T.
  Variables (e0 e1 d : R).

  Lemma gridF t : In t T -> tX t = Fin (posX t) /\ tY3 t = Fin (rv (tY3 t)) /\ tY4 t = Fin (rv (tY4 t)).
  Proof.
    destruct HT as [HF _]. rewrite Forall_forall in HF. intros Ht. destruct (HF t Ht) as (A & B & C).
    repeat split; apply is_fin_rv; auto.
  Qed.
  Lemma gridW t : In t T -> lagoonWidth t = Fin (lagW t).
  Proof. intros Ht. destruct (gridF t Ht) as (_ & A & B). unfold lagoonWidth. rewrite A, B. reflexivity. Qed.
  Lemma gridLt i j t u : (i < j)%nat -> nth_error T i = Some t -> nth_error T j = Some u -> posX t < posX u.
  Proof.
    destruct HT as [_ HI]. intros Hij Ht Hu. apply (HI i j); auto; rewrite nth_error_map, ?Ht, ?Hu; reflexivity.
  Qed.
  Lemma gridLe i j t u : (i <= j)%nat -> nth_error T i = Some t -> nth_error T j = Some u -> posX t <= posX u.
  Proof.
    intros H Ht Hu. destruct (Nat.eq_dec i j) as [->|N]; [rewrite Ht in Hu; apply Some_inj in Hu; subst; lra|].
    left. apply (gridLt i j); auto; lia.
  Qed.
  Lemma gridIx i j t u : nth_error T i = Some t -> nth_error T j = Some u -> posX t < posX u -> (i < j)%nat.
  Proof. intros Ht Hu H. destruct (Nat.lt_ge_cases i j) as [|G]; auto. pose proof (gridLe j i u t G Hu Ht). lra. Qed.

  Definition totalA (l : list (tsect xr)) : R := fold_right Rplus 0 (map (fun t => lagW t * d) l).
  Definition totalL (l : list (tsect xr)) : R := fold_right Rplus 0 (map (fun t => if Rltb 0 (lagW t) then d else 0) l).

  Lemma totalA_app l m : totalA (l ++ m) = totalA l + totalA m.
  Proof. unfold totalA. induction l as [|t l IH]; cbn; [lra|]. cbn in IH. rewrite IH. lra. Qed.
  Lemma totalL_app l m : totalL (l ++ m) = totalL l + totalL m.
  Proof. unfold totalL. induction l as [|t l IH]; cbn; [lra|]. cbn in IH. rewrite IH. lra. Qed.
  Lemma totalA_rev l : totalA (rev l) = totalA l.
  Proof. induction l as [|t l IH]; [reflexivity|]. cbn [rev]. rewrite totalA_app, IH. unfold totalA. cbn. lra. Qed.
  Lemma totalL_rev l : totalL (rev l) = totalL l.
  Proof. induction l as [|t l IH]; [reflexivity|]. cbn [rev]. rewrite totalL_app, IH. unfold totalL. cbn. lra. Qed.
  Lemma totalA_filter p l : totalA (filter (fun t => p (posX t)) l) = areaWhere d p l.
  Proof.
    unfold totalA, areaWhere. induction l as [|t l IH]; [reflexivity|]. cbn [filter map fold_right].
    destruct (p (posX t)); cbn [map fold_right]; rewrite IH; lra.
  Qed.
  Lemma totalL_filter p l : totalL (filter (fun t => p (posX t)) l) = lengthWhere d p l.
  Proof.
    unfold totalL, lengthWhere. induction l as [|t l IH]; [reflexivity|]. cbn [filter map fold_right].
    destruct (p (posX t)); cbn [map fold_right andb]; rewrite IH; lra.
  Qed.

  Lemma areaOf_fin l : (forall t, In t l -> In t T) -> areaOf (Fin d) l = Fin (totalA l).
  Proof.
    intros H. unfold areaOf, fnansum, fsum, totalA. induction l as [|t l IH]; [reflexivity|].
    cbn [map filter]. rewrite (gridW t) by (apply H; left; auto).
    change (Fin (lagW t) * Fin d)%n with (Fin (lagW t * d)). change (fisnan (Fin (lagW t * d))) with false.
    cbn [negb fold_right]. rewrite IH by (intros; apply H; right; auto). reflexivity.
  Qed.
  Lemma lenOf_fin l : (forall t, In t l -> In t T) -> lenOf (Fin d) l = Fin (totalL l).
  Proof.
    intros H. unfold lenOf, fnansum, fsum, totalL. induction l as [|t l IH]; [reflexivity|].
    cbn [map filter]. rewrite (gridW t) by (apply H; left; auto).
    change (f0 <? Fin (lagW t))%n with (Rltb 0 (lagW t)).
    replace (fofb (Rltb 0 (lagW t)) * Fin d)%n with (Fin (if Rltb 0 (lagW t) then d else 0))
      by (destruct (Rltb 0 (lagW t)); unfold fofb; xg; f_equal; lra).
    change (fisnan (Fin (if Rltb 0 (lagW t) then d else 0))) with false.
    cbn [negb fold_right]. rewrite IH by (intros; apply H; right; auto). reflexivity.
  Qed.

  Lemma filter_tX (p : xr -> bool) q l : (forall t, In t l -> In t T) -> (forall x, p (Fin x) = q x) ->
    filter (fun t => p (tX t)) l = filter (fun t => q (posX t)) l.
  Proof.
    intros H Hp. induction l as [|t l IH]; [reflexivity|]. cbn [filter].
    destruct (gridF t (H t (or_introl eq_refl))) as (E & _). rewrite E, Hp. rewrite IH by (intros; apply H; right; auto). reflexivity.
  Qed.

  Variables (x0 : nat) (t0 : tsect xr).
  Hypothesis Hx0 : nth_error T x0 = Some t0.
  Hypothesis Hp0 : posX t0 = 0.

  Lemma ix_lt i t : nth_error T i = Some t -> (i < x0)%nat <-> posX t < 0.
  Proof. intros Ht. rewrite <- Hp0. split; [intros; eapply gridLt; eauto|intros; eapply gridIx; eauto]. Qed.
  Lemma ix_gt i t : nth_error T i = Some t -> (x0 < i)%nat <-> 0 < posX t.
  Proof. intros Ht. rewrite <- Hp0. split; [intros; eapply gridLt; eauto|intros; eapply gridIx; eauto]. Qed.
  Lemma ix_eq i t : nth_error T i = Some t -> i = x0 <-> posX t = 0.
  Proof.
    intros Ht. pose proof (ix_lt i t Ht) as [A1 A2]. pose proof (ix_gt i t Ht) as [B1 B2]. split; intros H.
    - subst i. rewrite Hx0 in Ht. apply Some_inj in Ht. subst t. exact Hp0.
    - destruct (Nat.lt_total i x0) as [C|[C|C]]; auto; exfalso; [apply A1 in C|apply B1 in C]; lra.
  Qed.

  Lemma firstn_neg : firstn x0 T = filter (fun t => Rltb (posX t) 0) T.
  Proof.
    change (firstn x0 T) with (firstn x0 (skipn 0 T)). symmetry. apply filter_index. intros i t Ht. cbn [Nat.leb andb Nat.add].
    pose proof (ix_lt i t Ht). destruct (Nat.ltb_spec i x0) as [G|G]; [apply Rltb_true, H, G|apply Rltb_false]. destruct (Rlt_le_dec (posX t) 0) as [C|C]; auto. apply H in C. lia.
  Qed.
  Lemma skipn_pos : skipn (S x0) T = filter (fun t => Rltb 0 (posX t)) T.
  Proof.
    rewrite <- (firstn_all2 (n := length T) (skipn (S x0) T)) by (rewrite skipn_length; lia). symmetry. apply filter_index.
    intros i t Ht. assert (i < length T)%nat by (apply nth_error_Some; congruence).
    replace (Nat.ltb i (S x0 + length T)) with true by (symmetry; apply Nat.ltb_lt; lia). rewrite andb_true_r.
    pose proof (ix_gt i t Ht). destruct (Nat.leb_spec (S x0) i) as [G|G]; [apply Rltb_true, H0; lia|apply Rltb_false]. destruct (Rlt_le_dec 0 (posX t)) as [C|C]; auto. apply H0 in C. lia.
  Qed.

  Lemma skipn_nonneg : skipn x0 T = filter (fun t => Rleb 0 (posX t)) T.
  Proof.
    rewrite <- (firstn_all2 (n := length T) (skipn x0 T)) by (rewrite skipn_length; lia). symmetry. apply filter_index.
    intros i t Ht. assert (i < length T)%nat by (apply nth_error_Some; congruence).
    replace (Nat.ltb i (x0 + length T)) with true by (symmetry; apply Nat.ltb_lt; lia). rewrite andb_true_r.
    pose proof (ix_lt i t Ht) as [A B]. destruct (Nat.leb_spec x0 i) as [G|G]; [apply Rleb_true|apply Rleb_false, A, G].
    destruct (Rlt_le_dec (posX t) 0) as [C|C]; auto. apply B in C. lia.
  Qed.
  Lemma firstn_nonpos : firstn (S x0) T = filter (fun t => Rleb (posX t) 0) T.
  Proof.
    change (firstn (S x0) T) with (firstn (S x0) (skipn 0 T)). symmetry. apply filter_index. intros i t Ht. cbn [Nat.leb andb Nat.add].
    pose proof (ix_gt i t Ht) as [A B]. destruct (Nat.ltb_spec i (S x0)) as [G|G]; [apply Rleb_true|apply Rleb_false, A; lia].
    destruct (Rlt_le_dec 0 (posX t)) as [C|C]; auto. apply B in C. lia.
  Qed.

  Lemma gather_up k : (x0 <= k)%nat -> (k < length T)%nat -> gather T (arange x0 (S k)) = Ok (firstn (S k - x0) (skipn x0 T)).
  Proof. intros. apply gather_seq. lia. Qed.
  Lemma gather_down k : (k <= x0)%nat -> gather T (arange_down x0 k) = Ok (rev (firstn (S x0 - k) (skipn k T))).
  Proof.
    intros. assert (x0 < length T)%nat by (apply nth_error_Some; congruence). unfold arange_down. apply gather_rev, gather_seq. lia.
  Qed.

  Hypothesis Hw0 : (f0 <? lagoonWidth t0)%n = true.

  Lemma closed_up k ts1 : last_where (fun t => f0 <? lagoonWidth t)%n T = Some k -> gather T (arange x0 (S k)) = Ok ts1 ->
    exists rest, ts1 ++ rest = filter (fun t => Rleb 0 (posX t)) T /\ forall t, In t rest -> lagW t <= 0.
  Proof.
    intros Hk Hg. apply last_where_Some in Hk as ((tk & Htk & Hwk) & Hlt).
    assert (Hle : (x0 <= k)%nat).
    { destruct (Nat.lt_ge_cases k x0) as [C|C]; auto. rewrite (Hlt _ _ C Hx0) in Hw0. discriminate. }
    assert (Hkl : (k < length T)%nat) by (apply nth_error_Some; congruence).
    rewrite gather_up in Hg by auto. apply Ok_inj in Hg. subst ts1.
    exists (skipn (S k - x0) (skipn x0 T)). rewrite firstn_skipn. split; [apply skipn_nonneg|].
    intros t Ht. apply In_nth_error in Ht as (j & Hj). rewrite !nth_error_skipn in Hj.
    pose proof (Hlt (x0 + (S k - x0 + j))%nat t ltac:(lia) Hj) as Hw. rewrite gridW in Hw by (eapply nth_error_In; eauto).
    apply Rltb_false in Hw. exact Hw.
  Qed.
  Lemma closed_down k ts1 : first_where (fun t => f0 <? lagoonWidth t)%n T = Some k -> gather T (arange_down x0 k) = Ok ts1 ->
    exists rest, rest ++ rev ts1 = filter (fun t => Rleb (posX t) 0) T /\ forall t, In t rest -> lagW t <= 0.
  Proof.
    intros Hk Hg. apply first_where_Some in Hk as ((tk & Htk & Hwk) & Hlt).
    assert (Hle : (k <= x0)%nat).
    { destruct (Nat.lt_ge_cases x0 k) as [C|C]; auto. rewrite (Hlt _ _ C Hx0) in Hw0. discriminate. }
    rewrite gather_down in Hg by auto. apply Ok_inj in Hg. subst ts1. rewrite rev_involutive.
    exists (firstn k T). split.
    - rewrite <- firstn_nonpos. rewrite <- (firstn_skipn k (firstn (S x0) T)). f_equal.
      + rewrite firstn_firstn. f_equal. lia.
      + rewrite skipn_firstn_comm. reflexivity.
    - intros t Ht. apply In_nth_error in Ht as (j & Hj). rewrite nth_error_firstn in Hj. destruct (Nat.ltb j k) eqn:E; [|discriminate].
      apply Nat.ltb_lt in E. pose proof (Hlt _ _ E Hj) as Hw. rewrite gridW in Hw by (eapply nth_error_In; eauto).
      apply Rltb_false in Hw. exact Hw.
  Qed.
  Lemma open_up k ts1 : 0 < e0 -> last_where (fun t => tX t <? Fin e0)%n T = Some k -> gather T (arange x0 (S k)) = Ok ts1 ->
    ts1 = filter (fun t => Rleb 0 (posX t) && Rltb (posX t) e0) T.
  Proof.
    intros He Hk Hg. apply last_where_Some in Hk as ((tk & Htk & Hwk) & Hlt).
    assert (HX : forall i t, nth_error T i = Some t -> (tX t <? Fin e0)%n = Rltb (posX t) e0).
    { intros i t Ht. destruct (gridF t (nth_error_In _ _ Ht)) as (E & _). rewrite E. reflexivity. }
    assert (Hle : (x0 <= k)%nat).
    { destruct (Nat.lt_ge_cases k x0) as [C|C]; auto. pose proof (Hlt _ _ C Hx0) as G. rewrite (HX _ _ Hx0) in G. rb. lra. }
    assert (Hkl : (k < length T)%nat) by (apply nth_error_Some; congruence).
    rewrite gather_up in Hg by auto. apply Ok_inj in Hg. subst ts1. symmetry. apply filter_index.
    intros i t Ht. replace (x0 + (S k - x0))%nat with (S k) by lia.
    assert (A : Rleb 0 (posX t) = Nat.leb x0 i).
    { pose proof (ix_lt i t Ht) as [A B]. destruct (Nat.leb_spec x0 i) as [G|G]; [apply Rleb_true|apply Rleb_false, A, G].
      destruct (Rlt_le_dec (posX t) 0) as [C|C]; auto. apply B in C. lia. }
    assert (B : Rltb (posX t) e0 = Nat.ltb i (S k)).
    { rewrite (HX _ _ Htk) in Hwk. rb. destruct (Nat.ltb_spec i (S k)) as [G|G].
      - apply Rltb_true. pose proof (gridLe i k t tk ltac:(lia) Ht Htk). lra.
      - rewrite <- (HX _ _ Ht). apply (Hlt i t); [lia|auto]. }
    rewrite A, B. reflexivity.
  Qed.
  Lemma open_down k ts1 : e0 < 0 -> first_where (fun t => Fin e0 <? tX t)%n T = Some k -> gather T (arange_down x0 k) = Ok ts1 ->
    ts1 = rev (filter (fun t => Rltb e0 (posX t) && Rleb (posX t) 0) T).
  Proof.
    intros He Hk Hg. apply first_where_Some in Hk as ((tk & Htk & Hwk) & Hlt).
    assert (HX : forall i t, nth_error T i = Some t -> (Fin e0 <? tX t)%n = Rltb e0 (posX t)).
    { intros i t Ht. destruct (gridF t (nth_error_In _ _ Ht)) as (E & _). rewrite E. reflexivity. }
    assert (Hle : (k <= x0)%nat).
    { destruct (Nat.lt_ge_cases x0 k) as [C|C]; auto. pose proof (Hlt _ _ C Hx0) as G. rewrite (HX _ _ Hx0) in G. rb. lra. }
    rewrite gather_down in Hg by auto. apply Ok_inj in Hg. subst ts1. f_equal. symmetry. apply filter_index.
    intros i t Ht. replace (k + (S x0 - k))%nat with (S x0) by lia.
    assert (A : Rleb (posX t) 0 = Nat.ltb i (S x0)).
    { pose proof (ix_gt i t Ht) as [A B]. destruct (Nat.ltb_spec i (S x0)) as [G|G]; [apply Rleb_true|apply Rleb_false, A; lia].
      destruct (Rlt_le_dec 0 (posX t)) as [C|C]; auto. apply B in C. lia. }
    assert (B : Rltb e0 (posX t) = Nat.leb k i).
    { rewrite (HX _ _ Htk) in Hwk. rb. destruct (Nat.leb_spec k i) as [G|G].
      - apply Rltb_true. pose proof (gridLe k i tk t ltac:(lia) Htk Ht). lra.
      - rewrite <- (HX _ _ Ht). apply (Hlt i t); [lia|auto]. }
    rewrite A, B. reflexivity.
  Qed.
  Lemma only_river : [t0] = filter (fun t => Reqb (posX t) 0) T.
  Proof.
    assert (Hl : (x0 < length T)%nat) by (apply nth_error_Some; congruence).
    transitivity (firstn 1 (skipn x0 T)).
    - pose proof (nth_error_skipn T x0 0) as G. rewrite Nat.add_0_r, Hx0 in G. destruct (skipn x0 T) as [|a r]; [discriminate|].
      cbn in G. apply Some_inj in G. subst. reflexivity.
    - symmetry. apply filter_index. intros i t Ht. pose proof (ix_eq i t Ht) as [A B].
      destruct (Nat.eq_dec i x0) as [E|E].
      + rewrite (proj2 (Reqb_true _ _)) by auto. subst i. symmetry. apply andb_true_intro. split; [apply Nat.leb_le; lia|apply Nat.ltb_lt; lia].
      + rewrite (proj2 (Reqb_false _ _)) by auto. symmetry. apply andb_false_iff.
        destruct (Nat.lt_ge_cases i x0); [left; apply Nat.leb_gt; auto|right; apply Nat.ltb_ge; lia].
  Qed.

  Lemma filter_ext_p (p q : R -> bool) l : (forall x, p x = q x) -> filter (fun t => p (posX t)) l = filter (fun t => q (posX t)) l.
  Proof. intros H. apply filter_ext. intros t. apply H. Qed.
  Lemma filter_sub (p : tsect xr -> bool) t : In t (filter p T) -> In t T.
  Proof. rewrite filter_In. tauto. Qed.

  Lemma part_exact cl on sa sl ea el ts1 :
    lagoonPart (Fin d) T x0 (Fin e0) cl = Ok (on, sa, sl, ea, el) -> gather T on = Ok ts1 ->
    sa = Fin (areaWhere d (farSide e0) T) /\ sl = Fin (lengthWhere d (farSide e0) T) /\
    (cl = false -> ea = Fin (areaWhere d (beyond e0) T) /\ el = Fin (lengthWhere d (beyond e0) T) /\
       let l := filter (fun t => towardsb e0 (posX t)) T in (ts1 = l \/ ts1 = rev l)) /\
    (cl = true -> ea = Fin 0 /\ el = Fin 0 /\ exists rest, (ts1 ++ rest = filter (fun t => nearSide e0 (posX t)) T \/
       rest ++ rev ts1 = filter (fun t => nearSide e0 (posX t)) T) /\ forall t, In t rest -> lagW t <= 0).
  Proof.
    unfold lagoonPart. cbv zeta. intros H Hg.
    change (Fin e0 =? f0)%n with (Reqb e0 0) in H. change (f0 <? Fin e0)%n with (Rltb 0 e0) in H.
    assert (HB : forall p q, (forall x, p (Fin x) = q x) ->
      areaOf (Fin d) (filter (fun t => p (tX t)) T) = Fin (areaWhere d q T) /\
      lenOf (Fin d) (filter (fun t => p (tX t)) T) = Fin (lengthWhere d q T)).
    { intros p q Hpq. rewrite (filter_tX p q) by auto. rewrite areaOf_fin, lenOf_fin by apply filter_sub.
      rewrite totalA_filter, totalL_filter. auto. }
    assert (HR : areaOf (Fin d) (skipn (S x0) T) = Fin (areaWhere d (Rltb 0) T) /\
                 lenOf (Fin d) (skipn (S x0) T) = Fin (lengthWhere d (Rltb 0) T)).
    { rewrite skipn_pos, areaOf_fin, lenOf_fin by apply filter_sub. rewrite totalA_filter, totalL_filter. auto. }
    assert (HL : areaOf (Fin d) (firstn x0 T) = Fin (areaWhere d (fun x => Rltb x 0) T) /\
                 lenOf (Fin d) (firstn x0 T) = Fin (lengthWhere d (fun x => Rltb x 0) T)).
    { rewrite firstn_neg. rewrite areaOf_fin, lenOf_fin by apply filter_sub.
      rewrite (totalA_filter (fun x => Rltb x 0)), (totalL_filter (fun x => Rltb x 0)). auto. }
    destruct HR as [HR1 HR2]. destruct HL as [HL1 HL2]. rewrite HR1, HR2, HL1, HL2 in H.
    unfold farSide, nearSide, beyond.
    destruct (Rtotal_order e0 0) as [C|[C|C]].
    - replace (Reqb e0 0) with false in H by (symmetry; apply Reqb_false; lra).
      replace (Rltb 0 e0) with false in H |- * by (symmetry; apply Rltb_false; lra).
      replace (Rltb e0 0) with true by (symmetry; apply Rltb_true; lra).
      destruct (HB (fun x => (x <? Fin e0)%n) (fun x => Rltb x e0)) as [B1 B2]; [reflexivity|]. rewrite B1, B2 in H.
      destruct cl; apply bind_ok in H as (k & Hk & H); apply Ok_inj in H; injection H as <- <- <- <- <-.
      + split; [reflexivity|]. split; [reflexivity|]. split; [discriminate|]. intros _. split; [reflexivity|]. split; [reflexivity|].
        destruct (first_where _ T) as [k'|] eqn:E; [|discriminate]. apply Ok_inj in Hk. subst k'.
        destruct (closed_down k ts1 E Hg) as (rest & H1 & H2). exists rest. auto.
      + destruct (first_where _ T) as [k'|] eqn:E; [|discriminate]. apply Ok_inj in Hk. subst k'.
                split; [reflexivity|]. split; [reflexivity|]. split; [|discriminate]. intros _. split; [reflexivity|]. split; [reflexivity|].
        right. rewrite (open_down k ts1 C E Hg). f_equal. apply filter_ext. intros t. unfold towardsb.
        destruct (Rltb e0 (posX t) && Rleb (posX t) 0) eqn:G; [rewrite orb_true_r; reflexivity|].
        rewrite (proj2 (Reqb_false e0 0)) by lra. rewrite andb_false_r, !orb_false_r. symmetry.
        apply not_true_iff_false. intros G'. apply andb_true_iff in G' as [G1 G2]. rb. lra.
    - subst e0. rewrite (proj2 (Reqb_true 0 0) eq_refl) in H. rewrite (proj2 (Rltb_false 0 0)) by lra.
      destruct (HB (fun x => (Fin 0 <? x)%n) (Rltb 0)) as [B1 B2]; [reflexivity|]. rewrite B1, B2 in H.
      destruct cl.
      + apply bind_ok in H as (k & Hk & H); apply Ok_inj in H; injection H as <- <- <- <- <-.
        split; [reflexivity|]. split; [reflexivity|]. split; [discriminate|]. intros _. split; [reflexivity|]. split; [reflexivity|].
        destruct (last_where _ T) as [k'|] eqn:E; [|discriminate]. apply Ok_inj in Hk. subst k'.
        destruct (closed_up k ts1 E Hg) as (rest & H1 & H2). exists rest. auto.
      + apply Ok_inj in H; injection H as <- <- <- <- <-.
                split; [reflexivity|]. split; [reflexivity|]. split; [|discriminate]. intros _. split; [reflexivity|]. split; [reflexivity|].
        left. cbn [gather] in Hg. unfold ix in Hg. rewrite Hx0 in Hg. cbn [of_opt bind] in Hg. apply Ok_inj in Hg. subst ts1.
        rewrite only_river. apply filter_ext. intros t. unfold towardsb. rewrite (proj2 (Reqb_true 0 0) eq_refl), andb_true_r.
        destruct (Reqb (posX t) 0); [rewrite orb_true_r; reflexivity|]. rewrite orb_false_r. symmetry.
        apply orb_false_iff. split; apply not_true_iff_false; intros G; apply andb_true_iff in G as [G1 G2]; rb; lra.
    - replace (Reqb e0 0) with false in H by (symmetry; apply Reqb_false; lra).
      replace (Rltb 0 e0) with true in H |- * by (symmetry; apply Rltb_true; lra).
      replace (Rltb e0 0) with false by (symmetry; apply Rltb_false; lra).
      destruct (HB (fun x => (Fin e0 <? x)%n) (Rltb e0)) as [B1 B2]; [reflexivity|]. rewrite B1, B2 in H.
      destruct cl; apply bind_ok in H as (k & Hk & H); apply Ok_inj in H; injection H as <- <- <- <- <-.
      + split; [reflexivity|]. split; [reflexivity|]. split; [discriminate|]. intros _. split; [reflexivity|]. split; [reflexivity|].
        destruct (last_where _ T) as [k'|] eqn:E; [|discriminate]. apply Ok_inj in Hk. subst k'.
        destruct (closed_up k ts1 E Hg) as (rest & H1 & H2). exists rest. auto.
      + destruct (last_where _ T) as [k'|] eqn:E; [|discriminate]. apply Ok_inj in Hk. subst k'.
                split; [reflexivity|]. split; [reflexivity|]. split; [|discriminate]. intros _. split; [reflexivity|]. split; [reflexivity|].
        left. rewrite (open_up k ts1 C E Hg). apply filter_ext. intros t. unfold towardsb.
        destruct (Rleb 0 (posX t) && Rltb (posX t) e0) eqn:G; [reflexivity|].
        rewrite (proj2 (Reqb_false e0 0)) by lra. rewrite andb_false_r, !orb_false_r. symmetry. cbn [orb].
        apply not_true_iff_false. intros G'. apply andb_true_iff in G' as [G1 G2]. rb. lra.
  Qed.
End Exact.

Lemma gather_In {A} (l : list A) idx xs i x : gather l idx = Ok xs -> In i idx -> nth_error l i = Some x -> In x xs.
Proof.
  rewrite gather_ok. intros H. induction H as [|k y idx ys Hk Hr IH]; intros []; intros.
  - subst. left. congruence.
  - right. auto.
Qed.

Section Storage.
  Local Open Scope R_scope.
  Variable T : list (tsect xr).
  Hypothesis HT : grid T.
  Variables (e0 e1 d : R) (eW eElev : xr) (Closed : bool).
  Variables (RiverElev RivDep RivVel LagoonWL LagoonVel OutletDep OutletVel EndDep EndVel : list xr).
  Variable P : phys xr.
  Notation asm := (assembleChannel T (Fin e0) (Fin e1) eW eElev Closed RiverElev RivDep RivVel LagoonWL LagoonVel
                                   OutletDep OutletVel EndDep EndVel (Fin d) P).
  Notation Min := (pMinOutletWidth P).

  Lemma outletWidth_W t : outletWidth t = outW t.
  Proof. unfold outletWidth, outW. destruct (tY1 t - tY2 t)%n; reflexivity. Qed.

  Lemma outletIx_spec i : In i (outletIx T (Fin e0) (Fin e1)) <->
    exists t, nth_error T i = Some t /\ Rmin e0 e1 <= posX t <= Rmax e0 e1.
  Proof.
    unfold outletIx. change (Fin e0 <? Fin e1)%n with (Rltb e0 e1).
    assert (G : forall a b, In i (where_ (fun t => (Fin a <=? tX t) && (tX t <=? Fin b))%n T) <->
                exists t, nth_error T i = Some t /\ a <= posX t <= b).
    { intros a b. rewrite where_spec. split; intros (t & Ht & H); exists t; (split; [auto|]);
        destruct (gridF T HT t (nth_error_In _ _ Ht)) as (E & _); rewrite E in *.
      - apply andb_true_iff in H as [H1 H2]. change (Fin a <=? Fin (posX t))%n with (Rleb a (posX t)) in H1.
        change (Fin (posX t) <=? Fin b)%n with (Rleb (posX t) b) in H2. rb. lra.
      - apply andb_true_iff. change (Fin a <=? Fin (posX t))%n with (Rleb a (posX t)).
        change (Fin (posX t) <=? Fin b)%n with (Rleb (posX t) b). split; apply Rleb_true; lra. }
    destruct (Rltb e0 e1) eqn:E; rb.
    - unfold ixLR. rewrite G. rewrite Rmin_left, Rmax_right by lra. tauto.
    - unfold ixRL. rewrite <- in_rev, G. rewrite Rmin_right, Rmax_left by lra. tauto.
  Qed.

  Definition shutBy : Prop := shutAtOutlet T e0 e1 eW Closed Min.

  Lemma outlet_shut o ow cl : outletPart P T (Fin e0) (Fin e1) eW Closed = Ok (o, ow, cl) -> cl = true <-> shutBy.
  Proof.
    unfold outletPart, shutBy, shutAtOutlet. destruct Closed; intros H.
    - apply Ok_inj in H. injection H as <- <- <-. tauto.
    - apply bind_ok in H as (ts & Hg & H).
      assert (N : existsb (fun x => x <=? Min)%n (map outletWidth ts) = true <-> narrowOutlet T e0 e1 Min).
      { rewrite existsb_exists. split.
        - intros (w & Hw & Hm). apply in_map_iff in Hw as (t & <- & Ht). rewrite outletWidth_W in Hm.
          destruct (In_gather _ _ _ _ Hg Ht) as (i & Hi & Hti). apply outletIx_spec in Hi as (t' & Ht' & Hb).
          assert (t' = t) by congruence. subst t'. exists t. split; [eapply nth_error_In; eauto|]. split; auto.
        - intros (t & Ht & Hb & Hm). apply In_nth_error in Ht as (i & Hi). exists (outletWidth t). rewrite outletWidth_W. split; [|auto].
          rewrite <- outletWidth_W. apply in_map. eapply gather_In; eauto. apply outletIx_spec. eauto. }
      destruct (existsb _ (map outletWidth ts)) eqn:E1; cbn [orb] in H.
      + apply Ok_inj in H. injection H as <- <- <-. split; [intros _; right; left; tauto|reflexivity].
      + destruct (eW <=? Min)%n eqn:E2.
        * apply Ok_inj in H. injection H as <- <- <-. split; [intros _; right; right; reflexivity|reflexivity].
        * destruct (map outletWidth ts) as [|w ws]; [discriminate|]. apply Ok_inj in H.
          assert (cl = false) by congruence. subst cl. split; [discriminate|]. intros [C|[C|C]]; try discriminate. apply N in C. discriminate.
  Qed.

  Lemma towardsb_spec x : towardsb e0 x = true <-> towards e0 x.
  Proof.
    unfold towardsb, towards. rewrite !orb_true_iff, !andb_true_iff, !Rleb_true, !Rltb_true, !Reqb_true. tauto.
  Qed.

  Lemma closure ch : asm = Ok ch ->
    chClosed ch = true <-> Closed = true \/ narrowOutlet T e0 e1 Min \/ (eW <=? Min)%n = true \/ narrowLagoon T e0 Min.
  Proof.
    intros H. apply assemble_inv in H as [x0 t0 ow cl1 on1 sa sl ea1 el1 ea el lts dep0 vel0].
    pose proof (outlet_shut _ _ _ a_out) as Hs. unfold shutBy, shutAtOutlet in Hs.
    pose proof (cut_spec T (Fin d) P _ _ _ _ _ _ _ _ a_cut) as (ts1 & Hg1 & Hcut).
    assert (Hp0 : posX t0 = 0).
    { apply first_where_Some in a_x0 as ((t & Ht & HX) & _). rewrite a_t0 in Ht. apply Some_inj in Ht. subst t.
      destruct (gridF T HT t0 (nth_error_In _ _ a_t0)) as (E & _). rewrite E in HX. apply Reqb_true in HX. exact HX. }
    destruct cl1.
    - destruct Hcut as [(_ & _ & _ & -> & _)|(k & t & _ & _ & _ & _ & _ & _ & ->)]; split; auto; intros _; intuition.
    - destruct (part_exact T HT e0 d x0 t0 a_t0 Hp0 a_w0 _ _ _ _ _ _ _ a_lag Hg1) as (_ & _ & Ho & _).
      destruct (Ho eq_refl) as (_ & _ & Hts).
      assert (Hin : forall t, In t ts1 <-> In t T /\ towards e0 (posX t)).
      { intros t. rewrite <- towardsb_spec. cbv zeta in Hts. destruct Hts as [->| ->]; rewrite <- ?in_rev, filter_In; tauto. }
      assert (HW : forall t, In t T -> (lagoonWidth t <? Min)%n = (Fin (lagW t) <? Min)%n) by (intros t Ht; rewrite (gridW T HT t Ht); reflexivity).
      split.
      + intros Hc. right. right. right. destruct Hcut as [(_ & _ & _ & E & _)|(k & t & Ht & Hn & _)]; [congruence|].
        apply nth_error_In, Hin in Ht as [H1 H2]. exists t. rewrite HW in Hn by auto. auto.
      + intros [C|[C|[C|(t & H1 & H2 & H3)]]]; try (assert (false = true) by (apply Hs; tauto); discriminate).
        destruct Hcut as [(_ & _ & _ & _ & Hn)|(k & t' & _ & _ & _ & _ & _ & _ & ->)]; [|reflexivity].
        rewrite <- HW in H3 by auto. rewrite Hn in H3; [discriminate|]. apply Hin. auto.
  Qed.

  (** Where the offline area and the seepage length are attached. *)
  Definition attached (ch : chan xr) (sa ea sl el : R) : Prop :=
    let nr := length RiverElev in let last := (nr + length (chOnline ch) - 1)%nat in
    (forall i, (i < length (chFlag ch))%nat ->
       nth_error (chLagArea ch) i = Some (Fin (if Nat.eqb i last then ea else if Nat.eqb i nr then sa else 0))) /\
    (forall i, (i < length (chFlag ch))%nat ->
       nth_error (chLagLen ch) i = Some (Fin ((if Nat.leb nr i && Nat.leb i last then d else 0)
                                              + (if Nat.eqb i nr then sl else 0) + (if Nat.eqb i last then el else 0)))).

  Lemma flags_nth nr on out cl i : (i < length (flags nr on out cl))%nat -> on <> 0%nat ->
    exists k, nth_error (flags nr on out cl) i = Some k /\ Nat.eqb k 1 = (Nat.leb nr i && Nat.leb i (nr + on - 1))%bool.
  Proof.
    intros Hi Hon. unfold flags in *.
    destruct (Nat.lt_ge_cases i nr) as [C|C].
    { exists 0%nat. split.
      - rewrite nth_error_app1 by (rewrite repeat_length; auto). apply nth_error_repeat. auto.
      - rewrite (proj2 (Nat.leb_gt nr i)) by auto. reflexivity. }
    rewrite nth_error_app2 by (rewrite repeat_length; auto). rewrite repeat_length.
    rewrite (proj2 (Nat.leb_le nr i)) by auto. cbn [andb].
    destruct (Nat.lt_ge_cases i (nr + on)) as [C'|C'].
    { exists 1%nat. split.
      - rewrite nth_error_app1 by (rewrite repeat_length; lia). apply nth_error_repeat. lia.
      - rewrite (proj2 (Nat.leb_le i _)) by lia. reflexivity. }
    rewrite nth_error_app2 by (rewrite repeat_length; lia). rewrite repeat_length.
    rewrite (proj2 (Nat.leb_gt i _)) by lia.
    rewrite !app_length, !repeat_length in Hi.
    destruct cl; [cbn [length] in Hi; lia|].
    rewrite app_length, repeat_length in Hi. cbn [length] in Hi.
    assert (G : forall k, In k (repeat 2%nat out ++ [3; 4]%nat) -> Nat.eqb k 1 = false).
    { intros k Hk. apply in_app_or in Hk as [Hk|[<-|[<-|[]]]]; auto. apply repeat_spec in Hk. subst. reflexivity. }
    destruct (nth_error (repeat 2%nat out ++ [3; 4]%nat) (i - nr - on)) as [k|] eqn:E.
    - exists k. split; [reflexivity|]. apply G. eapply nth_error_In; eauto.
    - apply nth_error_None in E. rewrite app_length, repeat_length in E. cbn [length] in E. lia.
  Qed.

  Lemma storage_attached ch : asm = Ok ch ->
    exists shut sa ea sl el lts,
      (shut = true <-> shutBy) /\ attached ch sa ea sl el /\
      sa = areaWhere d (farSide e0) T /\ sl = lengthWhere d (farSide e0) T /\
      Forall2 (fun i t => nth_error T i = Some t) (chOnline ch) lts /\
      (chClosed ch = false -> ea = areaWhere d (beyond e0) T /\ el = lengthWhere d (beyond e0) T /\
         totalA d lts = areaWhere d (towardsb e0) T) /\
      (shut = false -> totalA d lts + ea = areaWhere d (towardsb e0) T + areaWhere d (beyond e0) T /\
                       totalL d lts + el = lengthWhere d (towardsb e0) T + lengthWhere d (beyond e0) T) /\
      (shut = true -> (forall t, In t T -> 0 <= lagW t) ->
         totalA d lts + ea = areaWhere d (nearSide e0) T /\ totalL d lts + el = lengthWhere d (nearSide e0) T).
  Proof.
    intros H. pose proof (layout T _ _ _ _ _ _ _ _ _ _ _ _ _ _ _ _ _ H) as (HF & L1 & _ & L3 & L4 & _).
    apply assemble_inv in H as [x0 t0 ow cl1 on1 sa sl ea1 el1 ea el lts dep0 vel0].
    pose proof (outlet_shut _ _ _ a_out) as Hs.
    pose proof (cut_spec T (Fin d) P _ _ _ _ _ _ _ _ a_cut) as (ts1 & Hg1 & Hcut).
    assert (Hp0 : posX t0 = 0).
    { apply first_where_Some in a_x0 as ((t & Ht & HX) & _). rewrite a_t0 in Ht. apply Some_inj in Ht. subst t.
      destruct (gridF T HT t0 (nth_error_In _ _ a_t0)) as (E & _). rewrite E in HX. apply Reqb_true in HX. exact HX. }
    destruct (part_exact T HT e0 d x0 t0 a_t0 Hp0 a_w0 _ _ _ _ _ _ _ a_lag Hg1) as (Esa & Esl & Ho & Hc).
    assert (Hts1 : forall t, In t ts1 -> In t T).
    { intros t Ht. destruct (In_gather _ _ _ _ Hg1 Ht) as (i & _ & Hi). eapply nth_error_In; eauto. }
    assert (Hsk : forall k t, In t (skipn k ts1) -> In t T).
    { intros k t Ht. apply Hts1. rewrite <- (firstn_skipn k ts1). apply in_or_app. auto. }
    (* online and cut part together are the candidates *)
    assert (Hsum : exists ra rl ra1 rl1, ea1 = Fin ra1 /\ el1 = Fin rl1 /\ ea = Fin ra /\ el = Fin rl /\
       totalA d lts + ra = totalA d ts1 + ra1 /\ totalL d lts + rl = totalL d ts1 + rl1 /\
       (chClosed ch = false -> lts = ts1 /\ ra = ra1 /\ rl = rl1)).
    { assert (E1 : exists ra1 rl1, ea1 = Fin ra1 /\ el1 = Fin rl1).
      { destruct cl1; [destruct (Hc eq_refl) as (-> & -> & _)|destruct (Ho eq_refl) as (-> & -> & _)]; eauto. }
      destruct E1 as (ra1 & rl1 & -> & ->).
      destruct Hcut as [(E & -> & -> & _ & _)|(k & t & _ & _ & _ & E & -> & -> & Hcl)].
      - rewrite E, Hg1 in a_lts. apply Ok_inj in a_lts. subst lts. exists ra1, rl1, ra1, rl1. repeat split; auto.
      - rewrite E, (gather_firstn _ _ _ k Hg1) in a_lts. apply Ok_inj in a_lts. subst lts.
        rewrite (areaOf_fin T HT), (lenOf_fin T HT) by apply Hsk.
        exists (ra1 + totalA d (skipn k ts1)), (rl1 + totalL d (skipn k ts1)), ra1, rl1.
        split; [reflexivity|]. split; [reflexivity|]. split; [reflexivity|]. split; [reflexivity|].
        split; [|split; [|congruence]].
        + rewrite <- (firstn_skipn k ts1) at 3. rewrite totalA_app. lra.
        + rewrite <- (firstn_skipn k ts1) at 3. rewrite totalL_app. lra. }
    destruct Hsum as (ra & rl & ra1 & rl1 & Er1 & Erl1 & Era & Erl & HA & HL & Hop).
    assert (Hon : length (chOnline ch) <> 0%nat) by (destruct (chOnline ch); [easy|discriminate]).
    exists cl1, (areaWhere d (farSide e0) T), ra, (lengthWhere d (farSide e0) T), rl, lts.
    split; [exact Hs|]. split.
    { unfold attached. cbv zeta. set (nr := length RiverElev) in *. set (last := (nr + length (chOnline ch) - 1)%nat) in *. split.
      - intros i Hi. rewrite a_area. fold nr last. rewrite Era, Esa.
        assert (Hz : nth_error (map (fun _ : xr => f0) (chElev ch)) i = Some (Fin 0)).
        { rewrite nth_error_map. destruct (nth_error (chElev ch) i) eqn:E; [reflexivity|]. apply nth_error_None in E. lia. }
        destruct (Nat.eqb i last) eqn:E1.
        + apply Nat.eqb_eq in E1. subst i. apply nth_error_upd_eq. rewrite upd_length, map_length. lia.
        + apply Nat.eqb_neq in E1. rewrite nth_error_upd_ne by auto. destruct (Nat.eqb i nr) eqn:E2.
          * apply Nat.eqb_eq in E2. subst i. apply nth_error_upd_eq. rewrite map_length. lia.
          * apply Nat.eqb_neq in E2. rewrite nth_error_upd_ne by auto. exact Hz.
      - intros i Hi. rewrite a_len. fold nr last. rewrite Erl, Esl.
        assert (Hb : nth_error (map (fun k => fofb (Nat.eqb k 1) * Fin d)%n (chFlag ch)) i
                     = Some (Fin (if Nat.leb nr i && Nat.leb i last then d else 0))).
        { rewrite HF in Hi |- *. destruct (flags_nth _ _ _ _ _ Hi Hon) as (k & Hk & Ek). rewrite nth_error_map, Hk. cbn [option_map].
          fold last in Ek. fold nr in Ek. rewrite Ek. f_equal. unfold fofb. destruct (_ && _); xg; f_equal; lra. }
        set (base := map _ (chFlag ch)) in *.
        assert (H1 : nth_error (upd_with base nr (fun x => x + Fin (lengthWhere d (farSide e0) T))%n) i =
                     Some (Fin ((if Nat.leb nr i && Nat.leb i last then d else 0) + (if Nat.eqb i nr then lengthWhere d (farSide e0) T else 0)))).
        { destruct (Nat.eqb i nr) eqn:E2.
          - apply Nat.eqb_eq in E2. subst i. rewrite nth_error_upd_with_eq, Hb. cbn [option_map]. reflexivity.
          - apply Nat.eqb_neq in E2. rewrite nth_error_upd_with_ne, Hb by auto. f_equal. f_equal. lra. }
        destruct (Nat.eqb i last) eqn:E1.
        + apply Nat.eqb_eq in E1. subst i. rewrite nth_error_upd_with_eq, H1. cbn [option_map]. reflexivity.
        + apply Nat.eqb_neq in E1. rewrite nth_error_upd_with_ne, H1 by auto. f_equal. f_equal. lra. }
    split; [reflexivity|]. split; [reflexivity|]. split; [apply gather_ok; exact a_lts|].
    assert (HtA : cl1 = false -> totalA d ts1 = areaWhere d (towardsb e0) T /\ totalL d ts1 = lengthWhere d (towardsb e0) T).
    { intros E. destruct (Ho E) as (_ & _ & Hts). cbv zeta in Hts.
      destruct Hts as [->| ->]; rewrite ?totalA_rev, ?totalL_rev, totalA_filter, totalL_filter; auto. }
    split; [|split].
    - intros Hcl. destruct (Hop Hcl) as (-> & -> & ->).
      assert (E : cl1 = false) by (eapply cut_closed; eauto).
      destruct (Ho E) as (Ee & El & _). destruct (HtA E) as [HtA1 _]. rewrite Er1 in Ee. rewrite Erl1 in El.
      injection Ee as ->. injection El as ->. auto.
    - intros E. destruct (Ho E) as (Ee & El & _). destruct (HtA E) as [HtA1 HtA2]. rewrite Er1 in Ee. rewrite Erl1 in El.
      injection Ee as ->. injection El as ->. split; lra.
    - intros E Hnn. destruct (Hc E) as (Ee & El & rest & Hrest & Hdry). rewrite Er1 in Ee. rewrite Erl1 in El.
      injection Ee as ->. injection El as ->.
      assert (HrT : forall t, In t rest -> In t T).
      { intros t Ht. assert (In t (filter (fun t => nearSide e0 (posX t)) T)) as G by (destruct Hrest as [<-|<-]; apply in_or_app; auto).
        apply filter_In in G. tauto. }
      assert (Z : totalA d rest = 0 /\ totalL d rest = 0).
      { clear Hrest. induction rest as [|t rest IH]; [split; reflexivity|].
        destruct IH as [I1 I2]; [intros; apply Hdry; right; auto|intros; apply HrT; right; auto|].
        assert (W : lagW t = 0) by (pose proof (Hdry t (or_introl eq_refl)); pose proof (Hnn t (HrT t (or_introl eq_refl))); lra).
        unfold totalA, totalL in *. cbn [map fold_right]. rewrite I1, I2, W. rewrite (proj2 (Rltb_false 0 0)) by lra. split; lra. }
      destruct Z as [Z1 Z2].
      rewrite <- (totalA_filter d (nearSide e0)), <- (totalL_filter d (nearSide e0)).
      destruct Hrest as [<-|<-]; rewrite totalA_app, totalL_app, ?totalA_rev, ?totalL_rev, Z1, Z2; split; lra.
  Qed.
End Storage.
