(** Left and right exchanged: lists, channel, storing. *)
From Coq Require Import ZArith List Bool Reals Lra Lia Permutation.
From Verif Require Import Base Num Xr MState MCoast MRiv MMor MOut MCore SShift SMirror PShift.
Import ListNotations.

(** ** Lists read backwards *)
Section Lists.
  Lemma where_from_shift {A} (p : A -> bool) l k : where_from k p l = map (Nat.add k) (where_ p l).
  Proof.
    unfold where_. assert (G : forall l k j, where_from (k + j) p l = map (Nat.add k) (where_from j p l)).
    { clear. induction l as [|x l IH]; intros k j; [reflexivity|]. cbn [where_from]. rewrite plus_n_Sm, IH. destruct (p x); reflexivity. }
    rewrite <- G, Nat.add_0_r. reflexivity.
  Qed.
  Lemma where_app {A} (p : A -> bool) l m : where_ p (l ++ m) = where_ p l ++ map (Nat.add (length l)) (where_ p m).
  Proof.
    rewrite <- where_from_shift. unfold where_. assert (G : forall l k, where_from k p (l ++ m) = where_from k p l ++ where_from (length l + k) p m).
    { clear. induction l as [|x l IH]; intros k; [reflexivity|]. cbn [app where_from length]. rewrite IH, <- plus_n_Sm. destruct (p x); reflexivity. }
    rewrite G, Nat.add_0_r. reflexivity.
  Qed.
  Lemma where_lt {A} (p : A -> bool) l i : In i (where_ p l) -> (i < length l)%nat.
  Proof.
    assert (G : forall l k i, In i (where_from k p l) -> (k <= i < k + length l)%nat).
    { clear. induction l as [|x l IH]; intros k i H; cbn in *; [tauto|]. destruct (p x); [destruct H as [<-|H]; [lia|]|]; apply IH in H; lia. }
    intros H. apply G in H. lia.
  Qed.
  Lemma where_true {A} (p : A -> bool) l i : In i (where_ p l) -> exists x, nth_error l i = Some x /\ p x = true.
  Proof.
    assert (G : forall l k i, In i (where_from k p l) -> exists x, nth_error l (i - k) = Some x /\ p x = true).
    { clear. induction l as [|x l IH]; intros k i H; cbn [where_from] in *; [destruct H|].
      destruct (p x) eqn:E; [destruct H as [<-|H]; [rewrite Nat.sub_diag; exists x; auto|]|];
      (assert (B := H); apply IH in B; destruct B as (y & B1 & B2); exists y; split; [|exact B2];
        assert (K : (S k <= i)%nat) by (rewrite where_from_shift in H; apply in_map_iff in H; destruct H as (j & <- & _); lia);
        replace (i - k)%nat with (S (i - S k)) by lia; exact B1). }
    intros H. apply G in H. rewrite Nat.sub_0_r in H. exact H.
  Qed.
  Lemma where_rev {A} (p : A -> bool) l : where_ p (rev l) = rev (map (fromEnd (length l)) (where_ p l)).
  Proof.
    induction l as [|x l IH]; [reflexivity|]. cbn [rev length]. rewrite where_app, IH, rev_length.
    assert (E : where_ p (x :: l) = (if p x then [0%nat] else []) ++ map S (where_ p l)).
    { unfold where_ at 1. cbn [where_from]. rewrite where_from_shift. destruct (p x); reflexivity. }
    rewrite E, map_app, rev_app_distr. f_equal.
    - f_equal. rewrite map_map. apply map_ext. intros i. unfold fromEnd. lia.
    - unfold where_. cbn [where_from]. destruct (p x); cbn; [f_equal; unfold fromEnd; lia|reflexivity].
  Qed.
  Lemma nth_fromEnd {A} (l : list A) i : (i < length l)%nat -> nth_error (rev l) (fromEnd (length l) i) = nth_error l i.
  Proof.
    intros H. destruct (nth_error l i) as [x|] eqn:E; [|apply nth_error_None in E; lia].
    assert (K := nth_error_nth _ _ x E). rewrite nth_error_nth' with (d := x) by (rewrite rev_length; unfold fromEnd; lia).
    f_equal. rewrite rev_nth by (unfold fromEnd; lia). rewrite <- K. f_equal; [unfold fromEnd; lia|exact K].
  Qed.
  Lemma where_ext {A} (p q : A -> bool) : (forall x, p x = q x) -> forall l, where_ p l = where_ q l.
  Proof. intros H l. unfold where_. generalize 0%nat. induction l as [|x l IH]; intros k; [reflexivity|]. cbn [where_from]. rewrite H, IH. reflexivity. Qed.
  Lemma ix_fromEnd {A} (l : list A) i : (i < length l)%nat -> ix (rev l) (fromEnd (length l) i) = ix l i.
  Proof. intros H. unfold ix. rewrite nth_fromEnd by exact H. reflexivity. Qed.
  Lemma fromEnd_twice n i : (i < n)%nat -> fromEnd n (fromEnd n i) = i. Proof. unfold fromEnd. lia. Qed.
  Lemma fromEnd_lt n i : (i < n)%nat -> (fromEnd n i < n)%nat. Proof. unfold fromEnd. lia. Qed.
  Lemma gather_fromEnd {A} (l : list A) n idx : length l = n -> Forall (fun i => (i < n)%nat) idx -> gather (rev l) (map (fromEnd n) idx) = gather l idx.
  Proof.
    intros <- H. induction idx as [|i idx IH]; [reflexivity|]. inversion H; subst. cbn [map gather]. rewrite ix_fromEnd, IH by assumption. reflexivity.
  Qed.
  Lemma gather_lt {A} (l : list A) idx xs : gather l idx = Ok xs -> Forall (fun i => (i < length l)%nat) idx.
  Proof.
    revert xs. induction idx as [|i idx IH]; intros xs H; [constructor|]. cbn [gather] in H. apply bind_ok in H. destruct H as (x & Hx & H).
    apply bind_ok in H. destruct H as (ys & Hy & _). constructor; [|eapply IH; eauto]. unfold ix in Hx. destruct (nth_error l i) eqn:E; [|discriminate].
    apply nth_error_Some. congruence.
  Qed.
  Lemma first_rev {A} (p : A -> bool) l : first_where p (rev l) = option_map (fromEnd (length l)) (last_where p l).
  Proof. unfold first_where, last_where. rewrite where_rev, <- map_rev. apply nth_error_map. Qed.
  Lemma last_rev {A} (p : A -> bool) l : last_where p (rev l) = option_map (fromEnd (length l)) (first_where p l).
  Proof. unfold first_where, last_where. rewrite where_rev, rev_involutive. apply nth_error_map. Qed.
  Lemma filter_rev {A} (p : A -> bool) l : filter p (rev l) = rev (filter p l).
  Proof. induction l as [|x l IH]; [reflexivity|]. cbn [rev filter]. rewrite filter_app, IH. cbn [filter]. destruct (p x); cbn [rev]; [reflexivity|apply app_nil_r]. Qed.
  Lemma forallb_rev {A} (p : A -> bool) l : forallb p (rev l) = forallb p l.
  Proof. induction l as [|x l IH]; [reflexivity|]. cbn [rev forallb]. rewrite forallb_app, IH. cbn. rewrite andb_true_r, andb_comm. reflexivity. Qed.
  Lemma skipn_rev' {A} (l : list A) x0 : (x0 < length l)%nat -> skipn (S (fromEnd (length l) x0)) (rev l) = rev (firstn x0 l).
  Proof. intros H. rewrite skipn_rev. f_equal. f_equal. unfold fromEnd. lia. Qed.
  Lemma firstn_rev' {A} (l : list A) x0 : (x0 < length l)%nat -> firstn (fromEnd (length l) x0) (rev l) = rev (skipn (S x0) l).
  Proof. intros H. rewrite firstn_rev. f_equal. f_equal. unfold fromEnd. lia. Qed.
  Lemma scat_fromEnd {A} n idx (vs : list A) i : Forall (fun j => (j < n)%nat) idx -> (i < n)%nat -> scat (map (fromEnd n) idx) vs (fromEnd n i) = scat idx vs i.
  Proof.
    intros H L. revert vs. induction H as [|j idx Hj H IH]; intros vs; [reflexivity|]. destruct vs as [|v vs]; [reflexivity|]. cbn [map scat].
    rewrite IH. destruct (Nat.eqb_spec j i) as [->|N]; [rewrite Nat.eqb_refl; reflexivity|].
    destruct (Nat.eqb_spec (fromEnd n j) (fromEnd n i)) as [E|_]; [exfalso; apply N; unfold fromEnd in E; lia|reflexivity].
  Qed.
  Lemma nth_ext_len {A} (l m : list A) : length l = length m -> (forall i, (i < length l)%nat -> nth_error l i = nth_error m i) -> l = m.
  Proof.
    revert m. induction l as [|x l IH]; intros [|y m] E H; try discriminate; [reflexivity|]. f_equal.
    - specialize (H 0%nat ltac:(cbn; lia)). cbn in H. congruence.
    - apply IH; [cbn in E; lia|]. intros i Hi. exact (H (S i) ltac:(cbn; lia)).
  Qed.
  Lemma mapi_rev {A B} (f g : nat -> A -> B) l : (forall i x, (i < length l)%nat -> g (fromEnd (length l) i) x = f i x) -> mapi g (rev l) = rev (mapi f l).
  Proof.
    intros H. apply nth_ext_len; [rewrite rev_length, !mapi_length, rev_length; reflexivity|]. rewrite mapi_length, rev_length. intros i Hi.
    assert (E : i = fromEnd (length l) (fromEnd (length l) i)) by (symmetry; apply fromEnd_twice; exact Hi).
    assert (L := fromEnd_lt _ _ Hi). rewrite E. set (j := fromEnd (length l) i) in *. rewrite nth_error_mapi, nth_fromEnd by exact L.
    replace (fromEnd (length l) j) with (fromEnd (length (mapi f l)) j) by (rewrite mapi_length; reflexivity).
    rewrite nth_fromEnd by (rewrite mapi_length; exact L). rewrite nth_error_mapi. destruct (nth_error l j); cbn; [|reflexivity]. f_equal. rewrite mapi_length. apply H. exact L.
  Qed.
  Lemma seq_fromEnd n : map (fromEnd n) (seq 0 n) = rev (seq 0 n).
  Proof.
    apply nth_ext_len; [rewrite map_length, rev_length; reflexivity|]. rewrite map_length, seq_length. intros i Hi.
    rewrite nth_error_map. rewrite <- (fromEnd_twice n i Hi) at 2. pose proof (nth_fromEnd (seq 0 n) (fromEnd n i)) as K. rewrite seq_length in K.
    rewrite K by (apply fromEnd_lt; exact Hi). assert (N : forall j, (j < n)%nat -> nth_error (seq 0 n) j = Some j).
    { intros j Hj. rewrite nth_error_nth' with (d := 0%nat) by (rewrite seq_length; exact Hj). rewrite seq_nth by exact Hj. reflexivity. }
    rewrite !N by (try apply fromEnd_lt; exact Hi). reflexivity.
  Qed.
  Lemma arange_up n x0 k : (x0 < n)%nat -> (k < n)%nat -> arange_down (fromEnd n x0) (fromEnd n k) = map (fromEnd n) (arange x0 (S k)).
  Proof.
    intros H1 H2. unfold arange, arange_down. replace (S (fromEnd n x0) - fromEnd n k)%nat with (S k - x0)%nat by (unfold fromEnd; lia).
    destruct (le_lt_dec x0 k) as [L|L]; [|replace (S k - x0)%nat with 0%nat by lia; reflexivity].
    remember (S k - x0)%nat as m. assert (E : (x0 + m = S k)%nat) by lia. clear Heqm L. revert x0 H1 E. induction m as [|m IH]; intros x0 H1 E; [reflexivity|].
    rewrite seq_S, rev_app_distr. cbn [rev app seq map]. f_equal; [unfold fromEnd; lia|]. destruct m as [|m]; [reflexivity|]. apply IH; lia.
  Qed.
  Lemma arange_dn n x0 k : (x0 < n)%nat -> (k < n)%nat -> arange (fromEnd n x0) (S (fromEnd n k)) = map (fromEnd n) (arange_down x0 k).
  Proof.
    intros H1 H2. pose proof (arange_up n (fromEnd n x0) (fromEnd n k) (fromEnd_lt _ _ H1) (fromEnd_lt _ _ H2)) as K. rewrite !fromEnd_twice in K by assumption.
    rewrite K, map_map. rewrite <- (map_id (arange (fromEnd n x0) (S (fromEnd n k)))) at 1. apply map_ext_in. intros i Hi. symmetry. apply fromEnd_twice.
    unfold arange in Hi. apply in_seq in Hi. unfold fromEnd in *. lia.
  Qed.
End Lists.

(** ** Numbers of the other sign *)
Section Sign.
  Local Open Scope R_scope.
  Ltac rb := unfold Rltb, Rleb, Reqb; repeat (match goal with |- context [Rlt_dec ?a ?b] => destruct (Rlt_dec a b) | |- context [Rle_dec ?a ?b] => destruct (Rle_dec a b) | |- context [Req_EM_T ?a ?b] => destruct (Req_EM_T a b) end); try reflexivity; try (exfalso; lra).
  Lemma opp_ltb (a b : xr) : (xopp a <? xopp b)%n = (b <? a)%n.
  Proof. destruct a, b; cbn; try reflexivity. rb. Qed.
  Lemma opp_leb (a b : xr) : (xopp a <=? xopp b)%n = (b <=? a)%n.
  Proof. destruct a, b; cbn; try reflexivity. rb. Qed.
  Lemma opp_ltb0 (a : xr) : (f0 <? xopp a)%n = (a <? f0)%n.
  Proof. destruct a; cbn; try reflexivity. rb. Qed.
  Lemma opp_eqb0 (a : xr) : (xopp a =? f0)%n = (a =? f0)%n.
  Proof. destruct a; cbn; try reflexivity. rb. Qed.
  Lemma opp_opp (a : xr) : xopp (xopp a) = a.
  Proof. destruct a; cbn; try reflexivity. rewrite Ropp_involutive. reflexivity. Qed.
  Lemma opp_ltbr (a b : xr) : (xopp a <? b)%n = (xopp b <? a)%n.
  Proof. rewrite <- (opp_opp b) at 1. rewrite opp_ltb. reflexivity. Qed.
  Lemma add_comm (a b : xr) : (a + b = b + a)%n.
  Proof. destruct a, b; cbn; try reflexivity. f_equal. lra. Qed.
  Lemma add_assoc (a b c : xr) : (a + (b + c) = a + b + c)%n.
  Proof. destruct a, b, c; cbn; try reflexivity. f_equal. lra. Qed.
  Lemma opp_add (a b : xr) : (xopp a + xopp b = xopp (a + b))%n.
  Proof. destruct a, b; cbn; try reflexivity. f_equal. lra. Qed.
  Lemma opp_sub (a b : xr) : (xopp a - xopp b = xopp (a - b))%n.
  Proof. destruct a, b; cbn; try reflexivity. f_equal. lra. Qed.
  Lemma sub_flip (a b : xr) : (a - b = xopp (b - a))%n.
  Proof. destruct a, b; cbn; try reflexivity. f_equal. lra. Qed.
  Lemma sgn_opp x : sgn_inf (- x) = xopp (sgn_inf x).
  Proof. unfold sgn_inf. rb. Qed.
  Lemma opp_mul (a b : xr) : (xopp a * b = xopp (a * b))%n.
  Proof.
    destruct a, b; cbn; try reflexivity; try (rewrite sgn_opp; try rewrite opp_opp; reflexivity); try (rewrite ?Ropp_involutive, ?sgn_opp, ?opp_opp; reflexivity). f_equal. lra.
  Qed.
  Lemma mul_opp (a b : xr) : (a * xopp b = xopp (a * b))%n.
  Proof.
    destruct a, b; cbn; try reflexivity; try (rewrite ?Ropp_involutive, ?sgn_opp, ?opp_opp; reflexivity). f_equal. lra.
  Qed.
  Lemma opp_div (a b : xr) : (xopp a / b = xopp (a / b))%n.
  Proof.
    destruct a, b; cbn; try reflexivity; try (destruct (Rltb _ _); reflexivity); try (f_equal; lra).
    destruct (Req_EM_T r0 0); [apply sgn_opp|cbn; f_equal; unfold Rdiv; lra].
  Qed.
  Lemma opp_atan (a : xr) : fatan (xopp a) = xopp (fatan a).
  Proof. destruct a; cbn; try reflexivity; [rewrite atan_opp; reflexivity|f_equal; lra]. Qed.
  Lemma opp_sin (a : xr) : fsin (xopp a) = xopp (fsin a).
  Proof. destruct a; cbn; try reflexivity. rewrite sin_neg. reflexivity. Qed.
  Lemma opp_cos (a : xr) : fcos (xopp a) = fcos a.
  Proof. destruct a; cbn; try reflexivity. rewrite cos_neg. reflexivity. Qed.
  Lemma opp_asin (a : xr) : fasin (xopp a) = xopp (fasin a).
  Proof.
    destruct a; cbn; try reflexivity.
    destruct (Rle_dec (-1) (- r)), (Rle_dec (- r) 1), (Rle_dec (-1) r), (Rle_dec r 1); try (exfalso; lra); try reflexivity. cbn. rewrite asin_opp. reflexivity.
  Qed.
  Lemma isnan_opp (a : xr) : fisnan (xopp a) = fisnan a. Proof. destruct a; reflexivity. Qed.
  Lemma sum_perm (l m : list xr) : Permutation l m -> fsum l = fsum m.
  Proof.
    induction 1 as [|x l m _ IH|x y l|l m k _ IH1 _ IH2]; cbn [fsum fold_right] in *; [reflexivity| | |congruence].
    - unfold fsum in *. rewrite IH. reflexivity.
    - rewrite !add_assoc, (add_comm y x). reflexivity.
  Qed.
  Lemma nansum_rev (l : list xr) : fnansum (rev l) = fnansum l.
  Proof. unfold fnansum. rewrite filter_rev. apply sum_perm, Permutation_sym, Permutation_rev. Qed.
  Lemma floor_opp x d : 0 < d -> (forall k, x <> IZR k * d) -> Rfloor (- x / d) = (- Rfloor (x / d) - 1)%Z.
  Proof.
    intros D N. apply Rfloor_unique. destruct (Rfloor_spec (x / d)) as [A B]. rewrite minus_IZR, opp_IZR. replace (- x / d) with (- (x / d)) by (unfold Rdiv; lra).
    split; [lra|]. assert (IZR (Rfloor (x / d)) <> x / d); [|lra]. intros E. apply (N (Rfloor (x / d))). rewrite E. field. lra.
  Qed.
  Lemma floor_grid k d : 0 < d -> Rfloor (IZR k * d / d) = k.
  Proof. intros D. apply Rfloor_unique. replace (IZR k * d / d) with (IZR k) by (field; lra). lra. Qed.
End Sign.

(** ** The channel *)
Section Chan.
  Local Open Scope num_scope.
  Implicit Types T : list (tsect xr).
  Notation mir := acrossT.
  Lemma across_length T : length (across T) = length T. Proof. unfold across. rewrite rev_length, map_length. reflexivity. Qed.
  Lemma gather_across T idx : Forall (fun i => (i < length T)%nat) idx -> gather (across T) (map (fromEnd (length T)) idx) = thenDo (map mir) (gather T idx).
  Proof. intros H. unfold across. rewrite gather_fromEnd by (rewrite ?map_length; auto). apply gather_map. Qed.
  Lemma where_across p q T : (forall t, p (mir t) = q t) -> where_ p (across T) = rev (map (fromEnd (length T)) (where_ q T)).
  Proof. intros H. unfold across. rewrite where_rev, map_length. rewrite (where_map mir p q) by (intros; auto). reflexivity. Qed.
  Lemma first_across p q T : (forall t, p (mir t) = q t) -> first_where p (across T) = option_map (fromEnd (length T)) (last_where q T).
  Proof. intros H. unfold across. rewrite first_rev, map_length. rewrite (lastw_map mir p q) by (intros; auto). reflexivity. Qed.
  Lemma last_across p q T : (forall t, p (mir t) = q t) -> last_where p (across T) = option_map (fromEnd (length T)) (first_where q T).
  Proof. intros H. unfold across. rewrite last_rev, map_length. rewrite (first_map mir p q) by (intros; auto). reflexivity. Qed.
  Lemma filter_across p q T : (forall t, p (mir t) = q t) -> filter p (across T) = across (filter q T).
  Proof. intros H. unfold across. rewrite filter_rev. f_equal. apply (filter_map mir). intros; auto. Qed.
  Lemma area_across Dx T : areaOf Dx (across T) = areaOf Dx T.
  Proof. unfold areaOf, across. rewrite map_rev, nansum_rev, map_map. reflexivity. Qed.
  Lemma len_across Dx T : lenOf Dx (across T) = lenOf Dx T.
  Proof. unfold lenOf, across. rewrite map_rev, nansum_rev, map_map. reflexivity. Qed.
  Lemma skipn_across T x0 : (x0 < length T)%nat -> skipn (S (fromEnd (length T) x0)) (across T) = across (firstn x0 T).
  Proof. intros H. unfold across. replace (fromEnd (length T) x0) with (fromEnd (length (map mir T)) x0) by (rewrite map_length; reflexivity).
    rewrite skipn_rev' by (rewrite map_length; exact H). rewrite firstn_map. reflexivity. Qed.
  Lemma firstn_across T x0 : (x0 < length T)%nat -> firstn (fromEnd (length T) x0) (across T) = across (skipn (S x0) T).
  Proof. intros H. unfold across. replace (fromEnd (length T) x0) with (fromEnd (length (map mir T)) x0) by (rewrite map_length; reflexivity).
    rewrite firstn_rev' by (rewrite map_length; exact H). rewrite skipn_map. reflexivity. Qed.

  (** At most one transect at a position. *)
  Lemma where_one p T c : NoDup (map tX T) -> (forall t, p t = true -> tX t = c) -> (length (where_ p T) <= 1)%nat.
  Proof.
    intros N H. assert (G : forall T k, NoDup (map tX T) -> (length (where_from k p T) <= 1)%nat /\ (~ In c (map tX T) -> where_from k p T = [])).
    { clear N T. induction T as [|t U IH]; intros k N; [cbn; auto|]. cbn [where_from map] in *. apply NoDup_cons_iff in N; destruct N as [N1 N2]. destruct (IH (S k) N2) as [A B].
      destruct (p t) eqn:E.
      - apply H in E. subst c. rewrite (B N1). split; [cbn; lia|]. intros K. exfalso. apply K. left. reflexivity.
      - split; [exact A|]. intros K. apply B. intros Q. apply K. right. exact Q. }
    apply (proj1 (G T 0%nat N)).
  Qed.
  Lemma one_rev {A} (l : list A) : (length l <= 1)%nat -> rev l = l.
  Proof. destruct l as [|x [|y l]]; cbn; intros H; try reflexivity; lia. Qed.
  Lemma x0_across T : NoDup (map tX T) -> x0Ix (across T) = thenDo (fromEnd (length T)) (x0Ix T).
  Proof.
    intros N. unfold x0Ix. rewrite (first_across _ (fun t => tX t =? f0)) by (intros t; apply opp_eqb0).
    unfold last_where, first_where. rewrite one_rev.
    - destruct (nth_error _ 0); reflexivity.
    - apply (where_one _ T (Fin 0) N). intros t E. cbn in E. unfold xeqb in E. destruct (tX t); try discriminate. apply Reqb_true in E. subst; reflexivity.
  Qed.
  Lemma x0_lt T x0 : x0Ix T = Ok x0 -> (x0 < length T)%nat.
  Proof. unfold x0Ix, first_where. destruct (where_ _ T) as [|i l] eqn:E; cbn; [discriminate|]. intros H. apply Ok_inj in H. subst i. eapply where_lt. rewrite E. left. reflexivity. Qed.
  Lemma first_lt {A} (p : A -> bool) l k : first_where p l = Some k -> (k < length l)%nat.
  Proof. unfold first_where. intros H. apply nth_error_In in H. eapply where_lt; eauto. Qed.
  Lemma lastw_lt {A} (p : A -> bool) l k : last_where p l = Some k -> (k < length l)%nat.
  Proof. unfold last_where. intros H. apply nth_error_In, in_rev in H. eapply where_lt; eauto. Qed.

  Lemma outletIx_across T e0 e1 : NoDup (map tX T) -> outletIx (across T) (xopp e0) (xopp e1) = map (fromEnd (length T)) (outletIx T e0 e1).
  Proof.
    intros N. unfold outletIx. rewrite opp_ltb. unfold ixLR, ixRL.
    rewrite (where_across (fun t => (xopp e0 <=? tX t) && (tX t <=? xopp e1)) (fun t => (e1 <=? tX t) && (tX t <=? e0))).
    2:{ intros t. cbn [acrossT tX]. rewrite !opp_leb. apply andb_comm. }
    rewrite (where_across (fun t => (xopp e1 <=? tX t) && (tX t <=? xopp e0)) (fun t => (e0 <=? tX t) && (tX t <=? e1))).
    2:{ intros t. cbn [acrossT tX]. rewrite !opp_leb. apply andb_comm. }
    destruct (e1 <? e0) eqn:A, (e0 <? e1) eqn:B.
    - exfalso. destruct e0, e1; try discriminate. cbn in A, B. apply Rltb_true in A, B. lra.
    - rewrite map_rev. reflexivity.
    - rewrite rev_involutive. reflexivity.
    - (* neither: the same position, or no number *)
      rewrite rev_involutive. assert (E : forall t, (e0 <=? tX t) && (tX t <=? e1) = (e1 <=? tX t) && (tX t <=? e0)).
      { intros t. destruct e0, e1; try discriminate; try reflexivity; try (destruct (tX t); cbn; rewrite ?andb_false_r; reflexivity). cbn in A, B. apply Rltb_false in A, B. replace r0 with r by lra. reflexivity. }
      rewrite (where_ext _ _ E). f_equal. symmetry. apply one_rev. apply (where_one _ T e0 N). intros t H. apply andb_prop in H. destruct H as [H1 H2].
      destruct e0, e1, (tX t); cbn in *; try discriminate; try reflexivity. apply Rltb_false in A, B. apply Rleb_true in H1, H2. f_equal. lra.
  Qed.
End Chan.
