(** Specification vocabulary for core.py. *)
From Coq Require Import ZArith List Reals Sorting.Sorted.
From Verif Require Import Base Num Xr.
Import ListNotations.
Local Open Scope Z_scope.

(** A time series with real values; times strictly increase. *)
Definition ordered (s : list (Z * R)) : Prop := StronglySorted (fun p q => fst p < fst q) s.
Definition data (s : list (Z * R)) : list (Z * xr) := map (fun p => (fst p, Fin (snd p))) s.

(** [v] is the value at time [t] of the piecewise-linear curve through [s]. *)
Inductive curve (s : list (Z * R)) (t : Z) : R -> Prop :=
| curve_at v : In (t, v) s -> curve s t v
| curve_between l1 t1 v1 t2 v2 l2 :
    s = l1 ++ (t1, v1) :: (t2, v2) :: l2 -> t1 < t < t2 ->
    curve s t (v1 + (v2 - v1) * (IZR (t - t1) / IZR (t2 - t1)))%R.

(** Requested times lie between the first and the last of them. *)
Definition spanned (new : list Z) (a b : Z) : Prop :=
  hd_error new = Some a /\ hd_error (rev new) = Some b /\ Forall (fun t => a <= t <= b) new.
