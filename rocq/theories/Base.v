(** Shared vocabulary of the model: exceptions as values, numpy-style list
    operations.  Nothing in this file models a particular line of /repo; it is
    the small part of Python/numpy that the modelled functions are written in. *)
From Coq Require Export List Arith ZArith Lia Bool.
Export ListNotations.
Set Implicit Arguments.

(** Python exceptions that the modelled code can raise.  [EFuel] is not a Python
    exception: it marks a [while] loop that had not finished when the fuel given
    to the model ran out, so "[EFuel] for every fuel" means "does not terminate". *)
Inductive exn :=
| EIndex        (* IndexError *)
| EAssert       (* AssertionError *)
| EValue        (* ValueError *)
| EType         (* TypeError *)
| EZeroDiv      (* ZeroDivisionError *)
| EUnbound      (* UnboundLocalError *)
| EConflict     (* the bare Exception of out.py:50 and out.py:533 *)
| EFile         (* FileNotFoundError *)
| EKey          (* KeyError *)
| EConfig       (* loadmod.ConfigError *)
| EFuel.

Inductive res (A : Type) :=
| Ok (a : A)
| Exc (e : exn).
Arguments Ok {A} _.
Arguments Exc {A} _.

Definition bind {A B} (r : res A) (k : A -> res B) : res B :=
  match r with Ok a => k a | Exc e => Exc e end.

Notation "'let!' x ':=' r 'in' k" := (bind r (fun x => k))
  (at level 200, x pattern, r at level 100, k at level 200, right associativity).

(** [assert cond] *)
Definition assert_ (b : bool) : res unit := if b then Ok tt else Exc EAssert.

Definition of_opt {A} (e : exn) (o : option A) : res A :=
  match o with Some a => Ok a | None => Exc e end.

(** [l[i]] for a non-negative index. *)
Definition ix {A} (l : list A) (i : nat) : res A := of_opt EIndex (nth_error l i).

(** Python's index convention: [-n <= z < n], negative counts from the end. *)
Definition pyix (n : nat) (z : Z) : option nat :=
  if (z <? 0)%Z then
    if (- Z.of_nat n <=? z)%Z then Some (Z.to_nat (Z.of_nat n + z)) else None
  else if (z <? Z.of_nat n)%Z then Some (Z.to_nat z) else None.

Definition pynth {A} (l : list A) (z : Z) : res A :=
  match pyix (length l) z with
  | Some i => ix l i
  | None => Exc EIndex
  end.

(** [l[-1]] *)
Definition last_ {A} (l : list A) : res A := of_opt EIndex (nth_error (rev l) 0).

Fixpoint mapi_from {A B} (k : nat) (f : nat -> A -> B) (l : list A) : list B :=
  match l with
  | [] => []
  | x :: r => f k x :: mapi_from (S k) f r
  end.
Definition mapi {A B} (f : nat -> A -> B) (l : list A) : list B := mapi_from 0 f l.

Fixpoint map2 {A B C} (f : A -> B -> C) (l : list A) (m : list B) : list C :=
  match l, m with
  | x :: l', y :: m' => f x y :: map2 f l' m'
  | _, _ => []
  end.

(** [np.where(mask)[0]] *)
Fixpoint where_from {A} (k : nat) (p : A -> bool) (l : list A) : list nat :=
  match l with
  | [] => []
  | x :: r => if p x then k :: where_from (S k) p r else where_from (S k) p r
  end.
Definition where_ {A} (p : A -> bool) (l : list A) : list nat := where_from 0 p l.

(** [np.where(mask)[0][0]] and [np.where(mask)[0][-1]]; [None] is IndexError. *)
Definition first_where {A} (p : A -> bool) (l : list A) : option nat :=
  nth_error (where_ p l) 0.
Definition last_where {A} (p : A -> bool) (l : list A) : option nat :=
  nth_error (rev (where_ p l)) 0.

(** [l[mask]] for a mask of the same length. *)
Fixpoint filter2 {A} (mask : list bool) (l : list A) : list A :=
  match mask, l with
  | b :: ms, x :: r => if b then x :: filter2 ms r else filter2 ms r
  | _, _ => []
  end.

(** [l[i] = v] *)
Fixpoint upd {A} (l : list A) (i : nat) (v : A) : list A :=
  match l, i with
  | [], _ => []
  | _ :: r, 0 => v :: r
  | x :: r, S j => x :: upd r j v
  end.

Definition upd_with {A} (l : list A) (i : nat) (f : A -> A) : list A :=
  match nth_error l i with Some x => upd l i (f x) | None => l end.

Definition memb (i : nat) (l : list nat) : bool := existsb (Nat.eqb i) l.

(** The value that [dst[idx] op= vals] pairs with destination [i]
    ([None]: index [i] is not in [idx]).  Fancy indexing with distinct indices. *)
Fixpoint scat {A} (idx : list nat) (vals : list A) (i : nat) : option A :=
  match idx, vals with
  | j :: idx', v :: vals' => if Nat.eqb j i then Some v else scat idx' vals' i
  | _, _ => None
  end.

(** [l[i] for i in idx] (fancy indexing); IndexError when out of range. *)
Fixpoint gather {A} (l : list A) (idx : list nat) : res (list A) :=
  match idx with
  | [] => Ok []
  | i :: r => let! x := ix l i in let! xs := gather l r in Ok (x :: xs)
  end.

(** [np.arange(a, b)] and [np.arange(a, b-1, -1)] on indices. *)
Definition arange (a b : nat) : list nat := seq a (b - a).
Definition arange_down (a b : nat) : list nat := rev (seq b (S a - b)).

Fixpoint all_ok {A} (l : list (res A)) : res (list A) :=
  match l with
  | [] => Ok []
  | r :: rs => let! x := r in let! xs := all_ok rs in Ok (x :: xs)
  end.

(** * Facts about these operations *)

Lemma Ok_inj {A} (a b : A) : Ok a = Ok b -> a = b.
Proof. intros H; injection H; auto. Qed.

Lemma Some_inj {A} (a b : A) : Some a = Some b -> a = b.
Proof. intros H; injection H; auto. Qed.

Lemma bind_ok {A B} (r : res A) (k : A -> res B) b :
  bind r k = Ok b -> exists a, r = Ok a /\ k a = Ok b.
Proof. destruct r; simpl; [eauto|discriminate]. Qed.

Lemma assert_ok b u : assert_ b = Ok u -> b = true.
Proof. destruct b; simpl; congruence. Qed.

Lemma mapi_from_length {A B} (f : nat -> A -> B) l k : length (mapi_from k f l) = length l.
Proof. revert k; induction l as [|x l IH]; intros k; simpl; auto. Qed.

Lemma mapi_length {A B} (f : nat -> A -> B) l : length (mapi f l) = length l.
Proof. apply mapi_from_length. Qed.

Lemma nth_error_mapi_from {A B} (f : nat -> A -> B) l k i :
  nth_error (mapi_from k f l) i = option_map (f (k + i)) (nth_error l i).
Proof.
  revert k i; induction l as [|x l IH]; intros k [|i]; simpl; auto.
  - now rewrite Nat.add_0_r.
  - rewrite IH. now rewrite <- plus_n_Sm.
Qed.

Lemma nth_error_mapi {A B} (f : nat -> A -> B) l i :
  nth_error (mapi f l) i = option_map (f i) (nth_error l i).
Proof. apply nth_error_mapi_from. Qed.

Lemma map2_length {A B C} (f : A -> B -> C) l m : length (map2 f l m) = min (length l) (length m).
Proof. revert m; induction l as [|x l IH]; intros [|y m]; simpl; auto. Qed.

Lemma nth_error_map2 {A B C} (f : A -> B -> C) l m i :
  nth_error (map2 f l m) i =
  match nth_error l i, nth_error m i with Some x, Some y => Some (f x y) | _, _ => None end.
Proof.
  revert m i; induction l as [|x l IH]; intros [|y m] [|i]; simpl; auto.
  destruct (nth_error l i); auto.
Qed.

Lemma upd_length {A} (l : list A) i v : length (upd l i v) = length l.
Proof. revert i; induction l as [|x l IH]; intros [|i]; simpl; auto. Qed.

Lemma nth_error_upd_eq {A} (l : list A) i v : i < length l -> nth_error (upd l i v) i = Some v.
Proof. revert i; induction l as [|x l IH]; intros [|i] H; simpl in *; try lia; auto. apply IH; lia. Qed.

Lemma nth_error_upd_ne {A} (l : list A) i j v : i <> j -> nth_error (upd l i v) j = nth_error l j.
Proof. revert i j; induction l as [|x l IH]; intros [|i] [|j] H; simpl; auto; try congruence. Qed.

Lemma upd_with_length {A} (l : list A) i f : length (upd_with l i f) = length l.
Proof. unfold upd_with; destruct (nth_error l i); auto using upd_length. Qed.

Lemma nth_error_upd_with_eq {A} (l : list A) i f :
  nth_error (upd_with l i f) i = option_map f (nth_error l i).
Proof.
  unfold upd_with; destruct (nth_error l i) eqn:E; simpl; auto.
  apply nth_error_upd_eq. apply nth_error_Some; congruence.
Qed.

Lemma nth_error_upd_with_ne {A} (l : list A) i j f :
  i <> j -> nth_error (upd_with l i f) j = nth_error l j.
Proof. intros H; unfold upd_with; destruct (nth_error l i); auto using nth_error_upd_ne. Qed.

Lemma memb_In i l : memb i l = true <-> In i l.
Proof.
  unfold memb; rewrite existsb_exists; split.
  - intros (x & H & E); apply Nat.eqb_eq in E; subst; auto.
  - intros H; exists i; rewrite Nat.eqb_refl; auto.
Qed.

Lemma ix_ok {A} (l : list A) i x : ix l i = Ok x <-> nth_error l i = Some x.
Proof. unfold ix; destruct (nth_error l i); simpl; split; congruence. Qed.

Lemma pyix_bound n z i : pyix n z = Some i -> i < n.
Proof.
  unfold pyix; destruct (z <? 0)%Z eqn:E1.
  - apply Z.ltb_lt in E1. destruct (- Z.of_nat n <=? z)%Z eqn:E2; [|discriminate].
    apply Z.leb_le in E2. intros H; inversion H; lia.
  - apply Z.ltb_ge in E1. destruct (z <? Z.of_nat n)%Z eqn:E2; [|discriminate].
    apply Z.ltb_lt in E2. intros H; inversion H; lia.
Qed.

Lemma pyix_nonneg n i : i < n -> pyix n (Z.of_nat i) = Some i.
Proof.
  intros H; unfold pyix.
  destruct (Z.of_nat i <? 0)%Z eqn:E; [apply Z.ltb_lt in E; lia|].
  destruct (Z.of_nat i <? Z.of_nat n)%Z eqn:E2; [|apply Z.ltb_ge in E2; lia].
  now rewrite Nat2Z.id.
Qed.

Lemma where_from_spec {A} (p : A -> bool) l k i :
  In i (where_from k p l) <-> k <= i /\ exists x, nth_error l (i - k) = Some x /\ p x = true.
Proof.
  revert k; induction l as [|x l IH]; intros k; simpl.
  - split; [tauto|]. intros (_ & y & H & _). destruct (i - k); discriminate.
  - assert (Hr : In i (where_from (S k) p l) <->
                 k <> i /\ k <= i /\ exists y, nth_error (x :: l) (i - k) = Some y /\ p y = true).
    { rewrite IH. split.
      - intros (H & y & Hy & Hp). split; [lia|split; [lia|]]. exists y.
        replace (i - k) with (S (i - S k)) by lia. simpl; auto.
      - intros (Hne & H & y & Hy & Hp). split; [lia|]. exists y.
        replace (i - k) with (S (i - S k)) in Hy by lia. simpl in Hy; auto. }
    destruct (p x) eqn:Ep; simpl; rewrite Hr.
    + split.
      * intros [<-|H]; [|tauto]. split; [lia|]. exists x. rewrite Nat.sub_diag; auto.
      * intros (H & y & Hy & Hp). destruct (Nat.eq_dec k i); [auto|right; eauto].
    + split; [tauto|]. intros (H & y & Hy & Hp).
      destruct (Nat.eq_dec k i) as [->|Hn]; [|eauto].
      rewrite Nat.sub_diag in Hy; simpl in Hy. congruence.
Qed.

Lemma where_spec {A} (p : A -> bool) l i :
  In i (where_ p l) <-> exists x, nth_error l i = Some x /\ p x = true.
Proof.
  unfold where_; rewrite where_from_spec, Nat.sub_0_r. split; [tauto|]. intros H; split; [lia|auto].
Qed.

Lemma where_from_lt {A} (p : A -> bool) l k i : In i (where_from k p l) -> k <= i.
Proof. rewrite where_from_spec; tauto. Qed.

From Coq Require Import Sorted.
Lemma where_from_sorted {A} (p : A -> bool) l k : StronglySorted lt (where_from k p l).
Proof.
  revert k; induction l as [|x l IH]; intros k; simpl; [constructor|].
  destruct (p x); [constructor; auto|auto].
  apply Forall_forall; intros j Hj. apply where_from_lt in Hj; lia.
Qed.

Lemma first_where_Some {A} (p : A -> bool) l i :
  first_where p l = Some i <->
  (exists x, nth_error l i = Some x /\ p x = true) /\
  (forall j x, j < i -> nth_error l j = Some x -> p x = false).
Proof.
  unfold first_where. pose proof (where_from_sorted p l 0) as Hs. fold (where_ p l) in Hs.
  pose proof (where_spec p l) as Hsp.
  destruct (where_ p l) as [|a r] eqn:E; simpl.
  - split; [discriminate|]. intros ((x & H1 & H2) & _). exfalso. apply (Hsp i); eauto.
  - split.
    + intros H; inversion H; subst a. split.
      * apply Hsp; left; auto.
      * intros j x Hj Hx. destruct (p x) eqn:Ep; auto.
        assert (In j (i :: r)) as [->|Hin] by (apply Hsp; eauto); [lia|].
        inversion Hs as [|? ? _ HF]; subst. rewrite Forall_forall in HF. apply HF in Hin; lia.
    + intros ((x & H1 & H2) & Hlt). f_equal.
      assert (In i (a :: r)) as [->|Hin] by (apply Hsp; eauto); auto.
      inversion Hs as [|? ? _ HF]; subst. rewrite Forall_forall in HF. specialize (HF _ Hin).
      destruct (proj1 (Hsp a) (or_introl eq_refl)) as (y & Hy & Hpy).
      rewrite (Hlt a y HF Hy) in Hpy. discriminate.
Qed.

Lemma first_where_None {A} (p : A -> bool) l :
  first_where p l = None <-> forall j x, nth_error l j = Some x -> p x = false.
Proof.
  unfold first_where. pose proof (where_spec p l) as Hsp.
  destruct (where_ p l) as [|a r]; simpl; split; try discriminate; auto.
  - intros _ j x Hx. destruct (p x) eqn:E; auto. exfalso; apply (Hsp j); eauto.
  - intros H. destruct (proj1 (Hsp a) (or_introl eq_refl)) as (y & Hy & Hpy).
    rewrite (H _ _ Hy) in Hpy; discriminate.
Qed.

Lemma nth_error_rev0 {A} (l : list A) x : nth_error (rev l) 0 = Some x <-> exists l', l = l' ++ [x].
Proof.
  split.
  - intros H. destruct (rev l) as [|y r] eqn:E; [discriminate|]. simpl in H; inversion H; subst.
    exists (rev r). rewrite <- (rev_involutive l), E. reflexivity.
  - intros (l' & ->). rewrite rev_app_distr. reflexivity.
Qed.

Lemma last_where_Some {A} (p : A -> bool) l i :
  last_where p l = Some i ->
  (exists x, nth_error l i = Some x /\ p x = true) /\
  (forall j x, i < j -> nth_error l j = Some x -> p x = false).
Proof.
  unfold last_where. rewrite nth_error_rev0. intros (l' & E).
  pose proof (where_from_sorted p l 0) as Hs. fold (where_ p l) in Hs.
  pose proof (where_spec p l) as Hsp. rewrite E in *.
  split; [apply Hsp, in_or_app; right; simpl; auto|].
  intros j x Hj Hx. destruct (p x) eqn:Ep; auto.
  assert (Hin : In j (l' ++ [i])) by (apply Hsp; eauto).
  apply in_app_or in Hin. destruct Hin as [Hin|[->|[]]]; [|lia].
  clear - Hs Hin Hj. induction l' as [|a l' IH]; [destruct Hin|].
  simpl in Hs. inversion Hs as [|? ? Hs' HF]; subst. destruct Hin as [->|Hin]; auto.
  rewrite Forall_forall in HF. assert (Hi : In i (l' ++ [i])) by (apply in_or_app; right; left; reflexivity).
  specialize (HF i Hi). lia.
Qed.

Lemma last_where_None {A} (p : A -> bool) l :
  last_where p l = None <-> forall j x, nth_error l j = Some x -> p x = false.
Proof.
  unfold last_where. pose proof (where_spec p l) as Hsp.
  destruct (where_ p l) as [|a r]; split; auto.
  - intros _ j x Hx. destruct (p x) eqn:E; auto. exfalso; apply (Hsp j); eauto.
  - intros H. destruct (rev (a :: r)) eqn:E; [|discriminate].
    apply (f_equal (@length _)) in E; rewrite rev_length in E; discriminate.
  - intros H. destruct (proj1 (Hsp a) (or_introl eq_refl)) as (y & Hy & Hpy).
    rewrite (H _ _ Hy) in Hpy; discriminate.
Qed.

Lemma gather_ok {A} (l : list A) idx xs :
  gather l idx = Ok xs <-> Forall2 (fun i x => nth_error l i = Some x) idx xs.
Proof.
  revert xs; induction idx as [|i r IH]; intros xs; simpl.
  - split; [intros H; inversion H; constructor|intros H; inversion H; auto].
  - split.
    + intros H. apply bind_ok in H as (x & Hx & H). apply bind_ok in H as (ys & Hys & H).
      inversion H; subst. constructor; [now apply ix_ok|now apply IH].
    + intros H; inversion H as [|? x ? ys Hx Hr]; subst.
      apply ix_ok in Hx; rewrite Hx; simpl. apply IH in Hr; rewrite Hr. reflexivity.
Qed.

Lemma gather_length {A} (l : list A) idx xs : gather l idx = Ok xs -> length xs = length idx.
Proof. rewrite gather_ok. intros H; induction H; simpl; auto. Qed.

Lemma scat_In {A} (idx : list nat) (vals : list A) i v :
  scat idx vals i = Some v -> In i idx.
Proof.
  revert vals; induction idx as [|j idx IH]; intros [|w vals]; simpl; try discriminate.
  destruct (Nat.eqb j i) eqn:E; [apply Nat.eqb_eq in E; auto|eauto].
Qed.

Lemma scat_notin {A} (idx : list nat) (vals : list A) i :
  ~ In i idx -> scat idx vals i = None.
Proof.
  intros H; destruct (scat idx vals i) eqn:E; auto. apply scat_In in E; tauto.
Qed.

Lemma scat_nth {A} (idx : list nat) (vals : list A) k i :
  NoDup idx -> length idx <= length vals -> nth_error idx k = Some i ->
  scat idx vals i = nth_error vals k.
Proof.
  revert vals k; induction idx as [|j idx IH]; intros [|w vals] [|k] Hnd Hl H; simpl in *; try discriminate; try lia.
  - inversion H; now rewrite Nat.eqb_refl.
  - inversion Hnd; subst. destruct (Nat.eqb j i) eqn:E.
    + apply Nat.eqb_eq in E; subst. exfalso; eauto using nth_error_In.
    + apply IH; auto; lia.
Qed.
