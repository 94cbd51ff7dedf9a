(** Specification vocabulary for the initial state and the boundary series. *)
From Coq Require Import Reals List ZArith Sorted.
From Verif Require Import Base Num Xr MState.
Import ListNotations.

(** [n] is [x] rounded up. *)
Definition ceiling (x : R) (n : R) : Prop := (n - 1 < x <= n)%R.
(** Consecutive positions differ by [d]. *)
Definition spaced (d : R) (l : list R) : Prop :=
  forall i a b, nth_error l i = Some a -> nth_error l (S i) = Some b -> (b - a = d)%R.

(** [l'] keeps exactly the elements of [l] whose index satisfies [keep], in order. *)
Definition keeps {A} (keep : nat -> Prop) (l l' : list A) : Prop :=
  exists idx, StronglySorted lt idx /\ (forall i, In i idx <-> (i < length l)%nat /\ keep i) /\ gather l idx = Ok l'.

(** The records of a boundary series that loadModel keeps. *)
Definition retained (start stop dtMax : Z) (times : list Z) (i : nat) : Prop :=
  match i with
  | O => exists t, nth_error times 1 = Some t /\ (start < t)%Z
  | S j => exists t, nth_error times j = Some t /\ (t < stop + dtMax)%Z
  end.
(** A series covers a period. *)
Definition covers {A} (start stop : Z) (s : list (Z * A)) : Prop :=
  (exists a, nth_error s 0 = Some a /\ (fst a <= start)%Z) /\
  (exists z, nth_error s (length s - 1) = Some z /\ (stop <= fst z)%Z).
Definition ordered_times {A} (s : list (Z * A)) : Prop :=
  forall i a b, nth_error s i = Some a -> nth_error s (S i) = Some b -> (fst a < fst b)%Z.

(** A transect has a channel. *)
Definition chanHere (t : tsect xr) : Prop := tY1 t <> NaN.
