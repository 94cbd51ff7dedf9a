(** Proofs about core.py interpolate_at. *)
From Coq Require Import ZArith List Bool Lia Reals Lra Sorting.Sorted.
From Verif Require Import Base Num Xr MState MMor MCore SCore.
Import ListNotations.
Local Open Scope Z_scope.

Lemma last_rev {A} (l : list A) : last_ l = of_opt EIndex (hd_error (rev l)).
Proof. unfold last_. destruct (rev l); reflexivity. Qed.
Lemma ix_hd {A} (l : list A) : ix l 0 = of_opt EIndex (hd_error l).
Proof. destruct l; reflexivity. Qed.

Section Gen.
  Context {F : Type} {NF : Num F}.
  Lemma interp_raises (s : series F) new :
    (exists e, interpolateAt s new = Exc e) <->
    new = [] \/ (exists a, hd_error new = Some a /\ Forall (fun p => a < fst p) s)
    \/ (exists b, hd_error (rev new) = Some b /\ Forall (fun p => fst p < b) s).
  Proof.
    unfold interpolateAt. rewrite ix_hd, last_rev. destruct new as [|a r] eqn:En.
    - split; [auto|]. intros _. exists EIndex. reflexivity.
    - rewrite <- En. cbn [hd_error]. destruct (hd_error (rev new)) as [b|] eqn:Eb.
      2: { exfalso. rewrite En in Eb. cbn [rev] in Eb. destruct (rev r); discriminate. }
      replace (hd_error new) with (Some a) by (subst; reflexivity). cbn [of_opt bind].
      assert (Q1 : forall p : Z * F, (fst p <=? a) = false <-> a < fst p) by (intros; rewrite Z.leb_gt; lia).
      assert (Q2 : forall p : Z * F, (b <=? fst p) = false <-> fst p < b) by (intros; rewrite Z.leb_gt; lia).
      destruct (last_where (fun p => fst p <=? a) s) as [i|] eqn:E1; cbn [of_opt bind].
      + destruct (first_where (fun p => b <=? fst p) s) as [j|] eqn:E2; cbn [of_opt bind].
        * split; [intros (e & E); discriminate|]. intros [C|[(a' & Ha & C)|(b' & Hb & C)]]; [subst; discriminate| |].
          -- exfalso. injection Ha as <-. apply last_where_Some in E1. destruct E1 as ((p & Hp & Hle) & _).
             rewrite Forall_forall in C. apply nth_error_In in Hp. apply C in Hp. apply Q1 in Hp. congruence.
          -- exfalso. injection Hb as <-. apply first_where_Some in E2. destruct E2 as ((p & Hp & Hle) & _).
             rewrite Forall_forall in C. apply nth_error_In in Hp. apply C in Hp. apply Q2 in Hp. congruence.
        * split; [|intros _; exists EIndex; reflexivity]. intros _. right. right. exists b. split; [auto|].
          rewrite Forall_forall. intros p Hp. apply Q2. apply In_nth_error in Hp. destruct Hp as (k & Hk). eapply first_where_None in E2; eauto.
      + split; [|intros _; exists EIndex; reflexivity]. intros _. right. left. exists a. split; [auto|].
        rewrite Forall_forall. intros p Hp. apply Q1. apply In_nth_error in Hp. destruct Hp as (k & Hk). eapply last_where_None in E1; eauto.
  Qed.
  Lemma interp_exc (s : series F) new e : interpolateAt s new = Exc e -> e = EIndex.
  Proof.
    unfold interpolateAt. rewrite ix_hd, last_rev.
    destruct (hd_error new); cbn [of_opt bind]; [|congruence].
    destruct (hd_error (rev new)); cbn [of_opt bind]; [|congruence].
    destruct (last_where _ s); cbn [of_opt bind]; [|congruence].
    destruct (first_where _ s); cbn [of_opt bind]; congruence.
  Qed.
  Lemma interp_length (s : series F) new l : interpolateAt s new = Ok l -> length l = length new.
  Proof.
    unfold interpolateAt. intros H. apply bind_ok in H. destruct H as (a & _ & H). apply bind_ok in H. destruct H as (b & _ & H).
    apply bind_ok in H. destruct H as (i & _ & H). apply bind_ok in H. destruct H as (j & _ & H). apply Ok_inj in H. subst. apply map_length.
  Qed.
End Gen.

(** ** Exact values *)
Definition lt_t (p q : Z * R) := fst p < fst q.

Lemma sorted_app_l {A} (R : A -> A -> Prop) l m : StronglySorted R (l ++ m) -> StronglySorted R l.
Proof.
  induction l as [|x l IH]; cbn; intros H; [constructor|]. apply StronglySorted_inv in H. destruct H as [H1 H2].
  constructor; [auto|]. apply Forall_app in H2. tauto.
Qed.
Lemma sorted_app_r {A} (R : A -> A -> Prop) l m : StronglySorted R (l ++ m) -> StronglySorted R m.
Proof. induction l as [|x l IH]; cbn; intros H; [auto|]. apply StronglySorted_inv in H. tauto. Qed.

Lemma data_ok s : filter (fun p : Z * xr => negb (fisnan (snd p))) (data s) = data s.
Proof. induction s as [|p s IH]; [auto|]. change (data (p :: s)) with ((fst p, Fin (snd p)) :: data s). cbn [filter snd]. change (fisnan (Fin (snd p))) with false. cbn [negb]. rewrite IH. reflexivity. Qed.

Lemma cut_at s t : ordered s -> (forall v, ~ In (t, v) s) ->
  exists A B, s = A ++ B /\ Forall (fun p => fst p < t) A /\ Forall (fun p => t < fst p) B.
Proof.
  induction s as [|p s IH]; intros Hs Hn.
  - exists [], []. repeat constructor.
  - apply StronglySorted_inv in Hs. destruct Hs as [Hs Hp].
    destruct (Z.lt_trichotomy (fst p) t) as [L|[E|G]].
    + destruct IH as (A & B & E & HA & HB); [auto|intros v C; apply (Hn v); right; auto|].
      exists (p :: A), B. subst. repeat split; auto.
    + exfalso. apply (Hn (snd p)). left. destruct p; cbn in *; congruence.
    + exists [], (p :: s). repeat split; auto. constructor; [auto|]. eapply Forall_impl; [|exact Hp]. cbn. intros; lia.
Qed.

Lemma filter_all {A} (p : A -> bool) l : Forall (fun x => p x = true) l -> filter p l = l.
Proof. induction 1; cbn; [auto|]. rewrite H, IHForall. auto. Qed.
Lemma filter_none {A} (p : A -> bool) l : Forall (fun x => p x = false) l -> filter p l = [].
Proof. induction 1; cbn; [auto|]. rewrite H, IHForall. auto. Qed.
Lemma Forall_data (P : Z -> Prop) s : Forall (fun p => P (fst p)) s -> Forall (fun p : Z * xr => P (fst p)) (data s).
Proof. intros H. unfold data. apply Forall_map. cbn. exact H. Qed.
Lemma find_data s t : ordered s ->
  (exists v, In (t, v) s /\ find (fun p : Z * xr => Z.eqb (fst p) t) (data s) = Some (t, Fin v)) \/
  ((forall v, ~ In (t, v) s) /\ find (fun p : Z * xr => Z.eqb (fst p) t) (data s) = None).
Proof.
  induction s as [|[u v] s IH]; intros Hs; [right; split; auto|].
  apply StronglySorted_inv in Hs. destruct Hs as [Hs Hp]. cbn. destruct (Z.eqb_spec u t) as [->|N].
  - left. exists v. split; [left; auto|]. reflexivity.
  - destruct (IH Hs) as [(w & H1 & H2)|[H1 H2]].
    + left. exists w. split; [auto|]. exact H2.
    + right. split; [|exact H2]. intros w [C|C]; [congruence|]. apply (H1 w C).
Qed.

Lemma value_curve sel t : ordered sel ->
  (exists p, In p sel /\ fst p <= t) -> (exists p, In p sel /\ t <= fst p) ->
  exists v, valueAt (data sel) t = Fin v /\ curve sel t v.
Proof.
  intros Hs (p & Hp & Lp) (q & Hq & Lq). unfold valueAt. rewrite data_ok.
  destruct (find_data sel t Hs) as [(v & H1 & H2)|[H1 H2]]; rewrite H2.
  - exists v. split; [reflexivity|]. constructor; auto.
  - destruct (cut_at sel t Hs H1) as (A & B & E & HA & HB). subst sel.
    unfold data. rewrite map_app. fold (data A). fold (data B). rewrite !filter_app.
    rewrite (filter_all _ (data A)), (filter_none _ (data B)), (filter_none _ (data A)), (filter_all _ (data B)).
    2: { apply (Forall_data (fun z => (t <? z) = true)). eapply Forall_impl; [|exact HB]. intros. apply Z.ltb_lt. auto. }
    2: { apply (Forall_data (fun z => (t <? z) = false)). eapply Forall_impl; [|exact HA]. cbn; intros. apply Z.ltb_ge. lia. }
    2: { apply (Forall_data (fun z => (z <? t) = false)). eapply Forall_impl; [|exact HB]. cbn; intros. apply Z.ltb_ge. lia. }
    2: { apply (Forall_data (fun z => (z <? t) = true)). eapply Forall_impl; [|exact HA]. intros. apply Z.ltb_lt. auto. }
    rewrite app_nil_r. cbn [app].
    destruct B as [|[t2 v2] B].
    { exfalso. rewrite app_nil_r in Hq. rewrite Forall_forall in HA. apply HA in Hq. cbn in Hq. lia. }
    destruct A as [|p1 A'] using rev_ind.
    { exfalso. cbn in Hp. rewrite Forall_forall in HB. apply HB in Hp. cbn in Hp. lia. }
    clear IHA'. destruct p1 as [t1 v1]. unfold data. rewrite map_app, rev_app_distr. cbn [map rev app fst snd].
    apply Forall_app in HA. destruct HA as [_ HA]. apply Forall_inv in HA. apply Forall_inv in HB. cbn in HA, HB.
    eexists. split.
    2: { eapply curve_between with (l1 := A') (l2 := B) (v1 := v1) (v2 := v2); [rewrite <- app_assoc; reflexivity|split; eassumption]. }
    change (fofZ t2 - fofZ t1)%n with (Fin (IZR t2 - IZR t1)). change (Fin v2 - Fin v1)%n with (Fin (v2 - v1)).
    change (fofZ t - fofZ t1)%n with (Fin (IZR t - IZR t1)).
    assert (N : (IZR t2 - IZR t1 <> 0)%R). { apply Rgt_not_eq. assert (IZR t1 < IZR t2)%R by (apply IZR_lt; lia). lra. }
    rewrite xdiv_fin by exact N. cbn [fmul fadd xr_num xmul xadd]. f_equal. rewrite !minus_IZR. field. exact N.
Qed.

Lemma slice_parts {A} (l : list A) a b : exists pre post, l = pre ++ slice l a b ++ post.
Proof.
  exists (firstn a l), (skipn (b - a) (skipn a l)). unfold slice.
  rewrite firstn_skipn. symmetry. apply firstn_skipn.
Qed.
Lemma slice_map {A B} (f : A -> B) l a b : slice (map f l) a b = map f (slice l a b).
Proof. unfold slice. rewrite skipn_map, firstn_map. reflexivity. Qed.
Lemma slice_nth {A} (l : list A) a b i x : nth_error l i = Some x -> (a <= i < b)%nat -> In x (slice l a b).
Proof.
  intros H Hi. unfold slice. apply nth_error_In with (n := (i - a)%nat).
  rewrite <- (firstn_skipn a l) in H.
  assert (L : (a <= length l)%nat). { apply Nat.lt_le_incl. eapply Nat.le_lt_trans; [apply Hi|]. apply nth_error_Some. rewrite firstn_skipn in H. congruence. }
  rewrite nth_error_app2 in H by (rewrite firstn_length; lia). rewrite firstn_length, Nat.min_l in H by lia.
  rewrite <- (firstn_skipn (b - a) (skipn a l)) in H.
  rewrite nth_error_app1 in H; [exact H|].
  assert (Q : (i - a < length (skipn a l))%nat) by (apply nth_error_Some; rewrite <- (firstn_skipn (b - a) (skipn a l)); congruence).
  rewrite firstn_length. lia.
Qed.

Lemma curve_widen pre sel post t v : curve sel t v -> curve (pre ++ sel ++ post) t v.
Proof.
  intros [v' H|l1 t1 v1 t2 v2 l2 H L].
  - constructor. apply in_or_app. right. apply in_or_app. left. auto.
  - eapply curve_between with (l1 := pre ++ l1) (l2 := l2 ++ post); [|exact L]. subst. rewrite <- !app_assoc. cbn. reflexivity.
Qed.

Lemma interp_exact s new a b : ordered s -> spanned new a b ->
  (exists p, In p s /\ fst p <= a) -> (exists q, In q s /\ b <= fst q) ->
  exists vs, interpolateAt (data s) new = Ok (map Fin vs) /\ Forall2 (curve s) new vs.
Proof.
  intros Hs (Ha & Hb & Hn) (p & Hp & Lp) (q & Hq & Lq).
  unfold interpolateAt. rewrite ix_hd, last_rev, Ha, Hb. cbn [of_opt bind].
  destruct (last_where (fun p => fst p <=? a) (data s)) as [i|] eqn:E1.
  2: { exfalso. apply In_nth_error in Hp. destruct Hp as (k & Hk).
       assert (D : nth_error (data s) k = Some (fst p, Fin (snd p))) by (unfold data; rewrite nth_error_map, Hk; reflexivity).
       eapply last_where_None in E1; [|exact D]. cbn in E1. apply Z.leb_gt in E1. lia. }
  destruct (first_where (fun p => b <=? fst p) (data s)) as [j|] eqn:E2.
  2: { exfalso. apply In_nth_error in Hq. destruct Hq as (k & Hk).
       assert (D : nth_error (data s) k = Some (fst q, Fin (snd q))) by (unfold data; rewrite nth_error_map, Hk; reflexivity).
       rewrite first_where_None in E2. apply E2 in D. cbn in D. apply Z.leb_gt in D. lia. }
  cbn [of_opt bind].
  apply last_where_Some in E1. destruct E1 as ((p1 & P1 & P2) & _). apply first_where_Some in E2. destruct E2 as ((q1 & Q1 & Q2) & Q3).
  unfold data in P1, Q1. rewrite nth_error_map in P1, Q1.
  destruct (nth_error s i) as [p2|] eqn:Ei; [|discriminate]. destruct (nth_error s j) as [q2|] eqn:Ej; [|discriminate].
  apply Some_inj in P1, Q1. subst p1 q1. cbn [fst] in P2, Q2. apply Z.leb_le in P2, Q2.
  destruct new as [|n0 new0] eqn:En; [discriminate|]. rewrite <- En in *.
  assert (AB : a <= b). { rewrite Forall_forall in Hn. specialize (Hn a). assert (In a new). { subst new. cbn in Ha. injection Ha as ->. left. auto. } apply Hn in H. lia. }
  assert (Hij : (i <= j)%nat).
  { apply Nat.nlt_ge. intros C.
    assert (D : nth_error (data s) j = Some (fst q2, Fin (snd q2))) by (unfold data; rewrite nth_error_map, Ej; reflexivity).
    assert (S2 : fst q2 < fst p2).
    { clear -Hs Ei Ej C. revert i j Ei Ej C. induction s as [|x s IH]; intros i j Ei Ej C; [destruct i; discriminate|].
      apply StronglySorted_inv in Hs. destruct Hs as [Hs Hx]. destruct i as [|i]; [lia|]. destruct j as [|j].
      - cbn in Ei, Ej. injection Ej as ->. rewrite Forall_forall in Hx. apply Hx. eapply nth_error_In; eauto.
      - cbn in Ei, Ej. eapply IH; eauto. lia. }
    lia. }
  unfold data. rewrite slice_map. fold (data (slice s i (S j))).
  destruct (slice_parts s i (S j)) as (pre & post & Es).
  assert (Hsel : ordered (slice s i (S j))). { unfold ordered in *. rewrite Es in Hs. apply sorted_app_r in Hs. apply sorted_app_l in Hs. exact Hs. }
  assert (I1 : In p2 (slice s i (S j))) by (eapply slice_nth; eauto; lia).
  assert (I2 : In q2 (slice s i (S j))) by (eapply slice_nth; eauto; lia).
  clear Ha Hb En. induction new as [|t new IH].
  - exists []. split; [reflexivity|constructor].
  - apply Forall_cons_iff in Hn. destruct Hn as [Ht Hn]. destruct (IH Hn) as (vs & V1 & V2).
    destruct (value_curve (slice s i (S j)) t Hsel) as (v & W1 & W2).
    + exists p2. split; [auto|lia].
    + exists q2. split; [auto|lia].
    + exists (v :: vs). split; [|constructor; [rewrite Es; apply curve_widen; exact W2|exact V2]].
      cbn [map]. rewrite W1. apply Ok_inj in V1. rewrite V1. reflexivity.
Qed.

Lemma curve_range s t v : curve s t v ->
  exists p q, In p s /\ In q s /\ fst p <= t <= fst q /\ (Rmin (snd p) (snd q) <= v <= Rmax (snd p) (snd q))%R.
Proof.
  intros [v' H|l1 t1 v1 t2 v2 l2 -> L].
  - exists (t, v'), (t, v'). cbn. repeat split; auto; try lia; [rewrite Rmin_left by lra|rewrite Rmax_left by lra]; lra.
  - exists (t1, v1), (t2, v2). cbn. split; [apply in_or_app; right; left; auto|]. split; [apply in_or_app; right; right; left; auto|].
    split; [lia|].
    assert (A : (0 < IZR (t - t1) / IZR (t2 - t1) < 1)%R).
    { assert (0 < IZR (t - t1))%R by (apply (IZR_lt 0); lia). assert (0 < IZR (t2 - t1))%R by (apply (IZR_lt 0); lia).
      assert (IZR (t - t1) < IZR (t2 - t1))%R by (apply IZR_lt; lia).
      split; [apply Rdiv_lt_0_compat; auto|]. apply Rmult_lt_reg_r with (IZR (t2 - t1)); [auto|]. unfold Rdiv. rewrite Rmult_assoc, Rinv_l by lra. lra. }
    set (w := (IZR (t - t1) / IZR (t2 - t1))%R) in *.
    destruct (Rle_dec v1 v2); [rewrite Rmin_left, Rmax_right by lra|rewrite Rmin_right, Rmax_left by lra]; split; nra.
Qed.
Lemma curve_unique s t v w : ordered s -> curve s t v -> curve s t w -> v = w.
Proof.
  assert (U : forall s p q, ordered s -> In p s -> In q s -> fst p = fst q -> p = q).
  { clear. induction s as [|x s IH]; intros p q Hs Hp Hq E; [destruct Hp|]. apply StronglySorted_inv in Hs. destruct Hs as [Hs Hx].
    rewrite Forall_forall in Hx. destruct Hp as [->|Hp], Hq as [->|Hq]; auto.
    - apply Hx in Hq. lia. - apply Hx in Hp. lia. }
  assert (M : forall s l1 p q l2 r, ordered s -> s = l1 ++ p :: q :: l2 -> In r s -> fst p < fst r < fst q -> False).
  { clear. intros s l1 p q l2 r Hs -> Hr H. unfold ordered in Hs.
    assert (A : forall x, In x l1 -> fst x < fst p).
    { intros x Hx. clear -Hs Hx. induction l1 as [|y l1 IH]; [destruct Hx|]. cbn in Hs. apply StronglySorted_inv in Hs. destruct Hs as [Hs Hy].
      destruct Hx as [->|Hx]; [|auto]. rewrite Forall_forall in Hy. apply Hy. apply in_or_app. right. left. auto. }
    apply sorted_app_r in Hs. apply StronglySorted_inv in Hs. destruct Hs as [Hs Hp]. apply StronglySorted_inv in Hs. destruct Hs as [_ Hq].
    rewrite Forall_forall in Hq. apply in_app_or in Hr. destruct Hr as [Hr|[->|[->|Hr]]]; try lia.
    - apply A in Hr. lia. - apply Hq in Hr. lia. }
  intros Hs Hv Hw. inversion Hv as [v' H1|l1 t1 v1 t2 v2 l2 H1 L1]; inversion Hw as [w' H2|m1 s1 w1 s2 w2 m2 H2 L2]; subst.
  - specialize (U _ _ _ Hs H1 H2 eq_refl). congruence.
  - exfalso. eapply (M _ m1 (s1, w1) (s2, w2) m2 (t, v)); eauto.
  - exfalso. eapply (M _ l1 (t1, v1) (t2, v2) l2 (t, w)); eauto.
  - assert (I1 : In (t1, v1) (m1 ++ (s1, w1) :: (s2, w2) :: m2)) by (rewrite <- H2; apply in_or_app; right; left; auto).
    assert (I2 : In (t2, v2) (m1 ++ (s1, w1) :: (s2, w2) :: m2)) by (rewrite <- H2; apply in_or_app; right; right; left; auto).
    assert (J1 : In (s1, w1) (l1 ++ (t1, v1) :: (t2, v2) :: l2)) by (rewrite H2; apply in_or_app; right; left; auto).
    assert (J2 : In (s2, w2) (l1 ++ (t1, v1) :: (t2, v2) :: l2)) by (rewrite H2; apply in_or_app; right; right; left; auto).
    assert (E1 : t1 = s1).
    { destruct (Z.lt_trichotomy t1 s1) as [C|[C|C]]; auto; exfalso.
      - eapply (M _ l1 (t1, v1) (t2, v2) l2 (s1, w1)); eauto. cbn. lia.
      - eapply (M _ m1 (s1, w1) (s2, w2) m2 (t1, v1)); eauto; [apply in_or_app; right; cbn; auto|]. cbn. lia. }
    assert (E2 : t2 = s2).
    { destruct (Z.lt_trichotomy t2 s2) as [C|[C|C]]; auto; exfalso.
      - eapply (M _ m1 (s1, w1) (s2, w2) m2 (t2, v2)); eauto; [apply in_or_app; right; cbn; auto|]. cbn. lia.
      - eapply (M _ l1 (t1, v1) (t2, v2) l2 (s2, w2)); eauto. cbn. lia. }
    subst s1 s2.
    assert (V1 : (t1, v1) = (t1, w1)) by (eapply (U _ _ _ Hs); [apply in_or_app; right; left; reflexivity|exact J1|reflexivity]).
    assert (V2 : (t2, v2) = (t2, w2)) by (eapply (U _ _ _ Hs); [apply in_or_app; right; right; left; reflexivity|exact J2|reflexivity]).
    injection V1 as ->. injection V2 as ->. reflexivity.
Qed.
