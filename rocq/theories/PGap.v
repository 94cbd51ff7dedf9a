(** Proofs about core.py interpolate_at on series with missing records. *)
From Coq Require Import ZArith List Bool Lia Reals Lra Sorting.Sorted.
From Verif Require Import Base Num Xr MState MMor MCore SCore SGap PInterp PLag.
Import ListNotations.
Local Open Scope Z_scope.

Lemma known_data s : filter (fun p : Z * xr => negb (fisnan (snd p))) (asData s) = data (known s).
Proof.
  induction s as [|[t [v|]] s IH]; [reflexivity| |]; unfold asData in *; cbn [map filter known fst snd].
  - change (fisnan (Fin v)) with false. cbn [negb]. unfold data in *. cbn [map fst snd]. rewrite IH. reflexivity.
  - change (fisnan NaN) with true. cbn [negb]. exact IH.
Qed.
Lemma known_in s t v : In (t, v) (known s) <-> In (t, Some v) s.
Proof.
  induction s as [|[u [w|]] s IH]; cbn [known In]; [tauto| |].
  - rewrite IH. split; intros [E|E]; auto; left; congruence.
  - rewrite IH. split; auto. intros [E|E]; [discriminate|auto].
Qed.
Lemma known_ordered s : inOrder s -> ordered (known s).
Proof.
  unfold inOrder, ordered. induction 1 as [|[u [w|]] s Hs IH Hf]; cbn [known]; [constructor| |exact IH].
  constructor; [exact IH|]. rewrite Forall_forall in *. intros [t v] Hi. apply known_in in Hi. apply Hf in Hi. exact Hi.
Qed.

Lemma value_same (a b : list (Z * xr)) t :
  filter (fun p => negb (fisnan (snd p))) a = filter (fun p => negb (fisnan (snd p))) b -> valueAt a t = valueAt b t.
Proof. intros E. unfold valueAt. rewrite E. reflexivity. Qed.

Lemma value_filled s t : inOrder s -> filled (known s) t (valueAt (asData s) t).
Proof.
  intros Hs. apply known_ordered in Hs.
  assert (E : valueAt (asData s) t = valueAt (data (known s)) t) by (apply value_same; rewrite known_data, data_ok; reflexivity).
  rewrite E. clear E. set (l := known s) in *. clearbody l. clear s.
  destruct (find_data l t Hs) as [(v & H1 & H2)|[H1 H2]].
  { unfold valueAt. rewrite data_ok, H2. cbn [snd]. constructor. constructor. exact H1. }
  destruct (cut_at l t Hs H1) as (A & B & E & HA & HB).
  destruct A as [|p1 A'] using rev_ind.
  - cbn in E. subst B. unfold valueAt. rewrite data_ok, H2.
    rewrite (filter_none _ (data l)). 2: { apply (Forall_data (fun z => (z <? t) = false)). eapply Forall_impl; [|exact HB]. cbn; intros. apply Z.ltb_ge. lia. }
    cbn [rev]. change (@fnan xr _) with NaN. apply filled_before. intros u v Hi. rewrite Forall_forall in HB. apply HB in Hi. exact Hi.
  - clear IHA'. destruct B as [|q B].
    + rewrite app_nil_r in E. subst l. destruct p1 as [u v]. unfold valueAt. rewrite data_ok, H2.
      rewrite (filter_all _ (data (A' ++ [(u, v)]))). 2: { apply (Forall_data (fun z => (z <? t) = true)). eapply Forall_impl; [|exact HA]. cbn; intros. apply Z.ltb_lt. lia. }
      rewrite (filter_none _ (data (A' ++ [(u, v)]))). 2: { apply (Forall_data (fun z => (t <? z) = false)). eapply Forall_impl; [|exact HA]. cbn; intros. apply Z.ltb_ge. lia. }
      unfold data. rewrite map_app, rev_app_distr. cbn [map rev app fst snd].
      eapply filled_after; [reflexivity|]. apply Forall_app in HA. destruct HA as [_ HA]. apply Forall_inv in HA. exact HA.
    + destruct (value_curve l t Hs) as (v & V1 & V2).
      * exists p1. split; [subst l; apply in_or_app; left; apply in_or_app; right; left; reflexivity|].
        apply Forall_app in HA. destruct HA as [_ HA]. apply Forall_inv in HA. lia.
      * exists q. split; [subst l; apply in_or_app; right; left; reflexivity|]. apply Forall_inv in HB. lia.
      * rewrite V1. constructor. exact V2.
Qed.

Lemma order_nth (s : list record) : inOrder s -> forall i j p q, nth_error s i = Some p -> nth_error s j = Some q -> (i < j)%nat -> fst p < fst q.
Proof.
  induction 1 as [|x s Hs IH Hf]; intros i j p q Hi Hj L; [destruct i; discriminate|].
  destruct j as [|j]; [lia|]. cbn in Hj. destruct i as [|i].
  - cbn in Hi. apply Some_inj in Hi. subst x. rewrite Forall_forall in Hf. apply Hf. eapply nth_error_In; eauto.
  - cbn in Hi. eapply IH; eauto. lia.
Qed.
Lemma order_inj (s : list record) i j p q : inOrder s -> nth_error s i = Some p -> nth_error s j = Some q -> fst p = fst q -> i = j.
Proof.
  intros Hs Hi Hj E. destruct (Nat.lt_trichotomy i j) as [L|[L|L]]; auto.
  - pose proof (order_nth s Hs _ _ _ _ Hi Hj L). lia.
  - pose proof (order_nth s Hs _ _ _ _ Hj Hi L). lia.
Qed.

Lemma slice_during (s : list record) i j lo hi p q : inOrder s -> nth_error s i = Some p -> nth_error s j = Some q ->
  fst p = lo -> fst q = hi -> slice s i (S j) = during lo hi s.
Proof.
  intros Hs Hi Hj <- <-. unfold during, slice.
  rewrite <- (firstn_skipn i s) at 2. rewrite filter_app.
  rewrite (filter_none _ (firstn i s)).
  2: { rewrite Forall_forall. intros x Hx. apply In_nth_error in Hx as (k & Hk).
       rewrite nth_error_firstn in Hk. destruct (Nat.ltb k i) eqn:K; [|discriminate]. apply Nat.ltb_lt in K.
       pose proof (order_nth s Hs _ _ _ _ Hk Hi K). apply andb_false_iff. left. apply Z.leb_gt. lia. }
  cbn [app]. rewrite <- (firstn_skipn (S j - i) (skipn i s)) at 2. rewrite filter_app.
  rewrite filter_all, filter_none, app_nil_r; [reflexivity| |].
  - rewrite Forall_forall. intros x Hx. apply In_nth_error in Hx as (k & Hk). rewrite !nth_error_skipn in Hk.
    assert (L : (j < i + (S j - i + k))%nat) by lia. pose proof (order_nth s Hs _ _ _ _ Hj Hk L). apply andb_false_iff. right. apply Z.leb_gt. lia.
  - rewrite Forall_forall. intros x Hx. apply In_nth_error in Hx as (k & Hk). rewrite nth_error_firstn in Hk.
    destruct (Nat.ltb k (S j - i)) eqn:K; [|discriminate]. apply Nat.ltb_lt in K. rewrite nth_error_skipn in Hk.
    apply andb_true_iff. split; apply Z.leb_le.
    + destruct (Nat.eq_dec k 0) as [->|N]; [rewrite Nat.add_0_r in Hk; rewrite Hi in Hk; apply Some_inj in Hk; subst; lia|].
      assert (L : (i < i + k)%nat) by lia. pose proof (order_nth s Hs _ _ _ _ Hi Hk L). lia.
    + destruct (Nat.eq_dec (i + k) j) as [E|N]; [rewrite E in Hk; rewrite Hj in Hk; apply Some_inj in Hk; subst; lia|].
      assert (L : (i + k < j)%nat) by lia. pose proof (order_nth s Hs _ _ _ _ Hk Hj L). lia.
Qed.

Lemma during_order lo hi s : inOrder s -> inOrder (during lo hi s).
Proof.
  unfold inOrder, during. induction 1 as [|x s Hs IH Hf]; cbn [filter]; [constructor|].
  destruct ((lo <=? fst x) && (fst x <=? hi))%bool; [|exact IH]. constructor; [exact IH|].
  rewrite Forall_forall in *. intros y Hy. apply filter_In in Hy. apply Hf. tauto.
Qed.
Lemma time_nth (s : list record) k p : nth_error s k = Some p -> In (fst p) (map fst s).
Proof. intros H. apply in_map. eapply nth_error_In; eauto. Qed.
Lemma asData_nth s k : nth_error (asData s) k = option_map (fun p => (fst p, match snd p with Some v => Fin v | None => NaN end)) (nth_error s k).
Proof. apply nth_error_map. Qed.

Lemma gap_exact s new a b lo hi : inOrder s -> hd_error new = Some a -> hd_error (rev new) = Some b -> window s a b lo hi ->
  exists vs, interpolateAt (asData s) new = Ok vs /\ Forall2 (filled (known (during lo hi s))) new vs.
Proof.
  intros Hs Ha Hb (I1 & L1 & M1 & I2 & L2 & M2).
  unfold interpolateAt. rewrite ix_hd, last_rev, Ha, Hb. cbn [of_opt bind].
  apply in_map_iff in I1 as (p & E1 & P1). apply In_nth_error in P1 as (i & P1).
  apply in_map_iff in I2 as (q & E2 & Q1). apply In_nth_error in Q1 as (j & Q1).
  assert (FI : last_where (fun p : Z * xr => fst p <=? a) (asData s) = Some i).
  { destruct (last_where (fun p : Z * xr => fst p <=? a) (asData s)) as [i'|] eqn:E.
    - apply last_where_Some in E as ((x & X1 & X2) & X3). rewrite asData_nth in X1.
      destruct (nth_error s i') as [p'|] eqn:P'; [|discriminate]. cbn [option_map] in X1. apply Some_inj in X1. subst x. cbn [fst] in X2. apply Z.leb_le in X2.
      assert (fst p' <= fst p) by (rewrite E1; apply M1; [eapply time_nth; eauto|auto]).
      destruct (Nat.lt_trichotomy i i') as [L|[L|L]]; [|congruence|].
      + pose proof (order_nth s Hs _ _ _ _ P1 P' L). lia.
      + exfalso. specialize (X3 i _ L (eq_trans (asData_nth s i) (f_equal _ P1))). cbn in X3. apply Z.leb_gt in X3. lia.
    - exfalso. pose proof (proj1 (last_where_None _ _) E i _ (eq_trans (asData_nth s i) (f_equal _ P1))) as E'. clear E. rename E' into E. cbn in E. apply Z.leb_gt in E. lia. }
  assert (FJ : first_where (fun p : Z * xr => b <=? fst p) (asData s) = Some j).
  { destruct (first_where (fun p : Z * xr => b <=? fst p) (asData s)) as [j'|] eqn:E.
    - apply first_where_Some in E as ((x & X1 & X2) & X3). rewrite asData_nth in X1.
      destruct (nth_error s j') as [p'|] eqn:P'; [|discriminate]. cbn [option_map] in X1. apply Some_inj in X1. subst x. cbn [fst] in X2. apply Z.leb_le in X2.
      assert (fst q <= fst p') by (rewrite E2; apply M2; [eapply time_nth; eauto|auto]).
      destruct (Nat.lt_trichotomy j j') as [L|[L|L]]; [|congruence|].
      + exfalso. specialize (X3 j _ L (eq_trans (asData_nth s j) (f_equal _ Q1))). cbn in X3. apply Z.leb_gt in X3. lia.
      + pose proof (order_nth s Hs _ _ _ _ P' Q1 L). lia.
    - exfalso. rewrite first_where_None in E. specialize (E j _ (eq_trans (asData_nth s j) (f_equal _ Q1))). cbn in E. apply Z.leb_gt in E. lia. }
  rewrite FI, FJ. cbn [of_opt bind]. eexists. split; [reflexivity|].
  pose proof (slice_during s i j lo hi p q Hs P1 Q1 E1 E2) as SD. unfold asData. rewrite slice_map. unfold record in *. rewrite SD.
  fold (asData (during lo hi s)). clear Ha Hb. induction new as [|t new IH]; cbn [map]; constructor; auto.
  apply value_filled. apply during_order. exact Hs.
Qed.

Lemma filled_nan l t v : ordered l -> filled l t v -> (v = NaN <-> forall u w, In (u, w) l -> t < u).
Proof.
  intros Hl H. split; [|].
  - intros ->. inversion H; auto.
  - intros B. destruct H as [v [v' I|l1 t1 v1 t2 v2 l2 E L]|l' u v E L|_]; [| | |reflexivity]; exfalso.
    + apply B in I. lia.
    + assert (I : In (t1, v1) l) by (rewrite E; apply in_or_app; right; left; reflexivity). apply B in I. lia.
    + assert (I : In (u, v) l) by (rewrite E; apply in_or_app; right; left; reflexivity). apply B in I. lia.
Qed.

Lemma gap_nan s new a b lo hi vs k t : inOrder s -> hd_error new = Some a -> hd_error (rev new) = Some b -> window s a b lo hi ->
  interpolateAt (asData s) new = Ok vs -> nth_error new k = Some t -> t <= b ->
  (nth_error vs k = Some NaN <-> forall u w, In (u, Some w) s -> lo <= u -> t < u).
Proof.
  intros Hs Ha Hb Hw HI Hk Hle. destruct (gap_exact s new a b lo hi Hs Ha Hb Hw) as (vs' & E & FF). rewrite E in HI. apply Ok_inj in HI. subst vs'.
  assert (V : exists v, nth_error vs k = Some v /\ filled (known (during lo hi s)) t v).
  { clear -FF Hk. revert k Hk. induction FF as [|x y l l' Hxy FF IH]; intros k Hk; [destruct k; discriminate|].
    destruct k; cbn in *; [apply Some_inj in Hk; subst; eauto|auto]. }
  destruct V as (v & V1 & V2). rewrite V1. apply filled_nan in V2; [|apply known_ordered; apply during_order; exact Hs].
  transitivity (v = NaN); [split; congruence|]. rewrite V2. destruct Hw as (_ & _ & _ & _ & L2 & _).
  split; intros G u w Hi.
  - intros Hlo. destruct (Z_lt_le_dec t u) as [?|N]; [auto|]. apply (G u w). apply known_in. apply filter_In. split; [exact Hi|]. cbn [fst].
    apply andb_true_iff. split; apply Z.leb_le; lia.
  - apply known_in in Hi. apply filter_In in Hi as [Hi B]. cbn [fst] in B. apply andb_true_iff in B as [B _]. apply Z.leb_le in B. eauto.
Qed.

(** A series with one missing record. *)
Definition exGap : list record := [(0, Some 1%R); (10, None); (20, Some 3%R)].
Lemma exGap_order : inOrder exGap.
Proof. repeat (constructor; cbn; try lia). Qed.
Lemma exGap_window : window exGap 12 14 10 20 /\ window exGap 5 6 0 10 /\ window exGap 5 15 0 20.
Proof. unfold window, exGap; cbn. repeat split; try lia; auto; intros u [<-|[<-|[<-|[]]]]; lia. Qed.

Lemma one_filled l t v w : filled l t v -> ordered l -> curve l t w -> v = Fin w.
Proof.
  intros [v' C|l' u v' E L|B] Hl W.
  - f_equal. eapply curve_unique; eauto.
  - exfalso. assert (A : forall p, In p l -> fst p < t).
    { intros p Hp. subst l. apply in_app_or in Hp as [Hp|[<-|[]]]; [|exact L]. clear -Hp Hl L.
      induction l' as [|x l' IH]; [destruct Hp|]. cbn in Hl. apply StronglySorted_inv in Hl as [Hl Hf]. destruct Hp as [->|Hp]; [|auto].
      rewrite Forall_forall in Hf. specialize (Hf (u, v')). cbn in Hf. assert (fst p < u) by (apply Hf; apply in_or_app; right; left; reflexivity). lia. }
    destruct W as [w I|l1 t1 v1 t2 v2 l2 E' L'].
    + apply A in I. cbn in I. lia.
    + assert (I : In (t2, v2) l) by (rewrite E'; apply in_or_app; right; right; left; reflexivity). apply A in I. cbn in I. lia.
  - exfalso. destruct W as [w I|l1 t1 v1 t2 v2 l2 E' L'].
    + apply B in I. lia.
    + assert (I : In (t1, v1) l) by (rewrite E'; apply in_or_app; right; left; reflexivity). apply B in I. lia.
Qed.

(** Valued records on both sides of the missing one, and yet no value. *)
Lemma gap_bridged : interpolateAt (asData exGap) [12; 14] = Ok [NaN; NaN].
Proof. reflexivity. Qed.
(** The value at a time depends on what else is asked for. *)
Lemma gap_depends : interpolateAt (asData exGap) [5; 6] = Ok [Fin 1; Fin 1] /\
  interpolateAt (asData exGap) [5; 15] = Ok [Fin (3/2); Fin (5/2)].
Proof.
  split; [reflexivity|]. destruct exGap_window as (_ & _ & W).
  destruct (gap_exact exGap [5; 15] 5 15 0 20 exGap_order eq_refl eq_refl W) as (vs & E & FF). rewrite E. f_equal.
  change (known (during 0 20 exGap)) with [(0, 1%R); (20, 3%R)] in FF.
  assert (O : ordered [(0, 1%R); (20, 3%R)]) by (repeat (constructor; cbn; try lia)).
  inversion FF as [|? x ? l F1 F2 E1 E2]; subst. inversion F2 as [|? y ? l' F3 F4 E3 E4]; subst. inversion F4; subst.
  f_equal; [|f_equal].
  - apply (one_filled _ _ _ _ F1 O). replace (3/2)%R with (1 + (3 - 1) * (IZR (5 - 0) / IZR (20 - 0)))%R by (cbn; lra).
    apply (curve_between _ _ [] 0 1%R 20 3%R []); [reflexivity|lia].
  - apply (one_filled _ _ _ _ F3 O). replace (5/2)%R with (1 + (3 - 1) * (IZR (15 - 0) / IZR (20 - 0)))%R by (cbn; lra).
    apply (curve_between _ _ [] 0 1%R 20 3%R []); [reflexivity|lia].
Qed.
