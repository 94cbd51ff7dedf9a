(** Specification vocabulary: time series with missing records. *)
From Coq Require Import ZArith List Reals Sorting.Sorted.
From Verif Require Import Base Num Xr SCore.
Import ListNotations.
Local Open Scope Z_scope.

(** Records: a time and a value, or no value. *)
Definition record := (Z * option R)%type.
Definition inOrder (s : list record) : Prop := StronglySorted (fun p q => fst p < fst q) s.
(** How the program sees them: a missing value is NaN. *)
Definition asData (s : list record) : list (Z * xr) :=
  map (fun p => (fst p, match snd p with Some v => Fin v | None => NaN end)) s.
(** The records that have a value. *)
Fixpoint known (s : list record) : list (Z * R) :=
  match s with
  | [] => []
  | (t, Some v) :: r => (t, v) :: known r
  | (_, None) :: r => known r
  end.
(** [lo] is the time of the last record not after [a], [hi] that of the first not before [b]. *)
Definition window (s : list record) (a b lo hi : Z) : Prop :=
  In lo (map fst s) /\ lo <= a /\ (forall u, In u (map fst s) -> u <= a -> u <= lo) /\
  In hi (map fst s) /\ b <= hi /\ (forall u, In u (map fst s) -> b <= u -> hi <= u).
Definition during (lo hi : Z) (s : list record) : list record :=
  filter (fun p => (lo <=? fst p) && (fst p <=? hi))%bool s.
(** The value at [t] given the valued records [l]: on the curve through them; the last
    value beyond the last one; nothing before the first one. *)
Inductive filled (l : list (Z * R)) (t : Z) : xr -> Prop :=
| filled_curve v : curve l t v -> filled l t (Fin v)
| filled_after l' u v : l = l' ++ [(u, v)] -> u < t -> filled l t (Fin v)
| filled_before : (forall u v, In (u, v) l -> t < u) -> filled l t NaN.
