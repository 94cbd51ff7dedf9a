(** Specification vocabulary: the height of a polyline over a point. *)
From Coq Require Import List Reals ZArith.
From Verif Require Import Base Num Xr.
Import ListNotations.
Local Open Scope R_scope.

(** Nodes from left to right. *)
Definition rightward (l : list (R * R)) : Prop := ForallOrdPairs (fun a b => fst a < fst b) l.
(** [(x, y)] is on the polyline, which is continued level beyond its ends. *)
Inductive on_line (l : list (R * R)) (x y : R) : Prop :=
| ol_left p : nth_error l 0 = Some p -> x <= fst p -> y = snd p -> on_line l x y
| ol_right p : nth_error l (length l - 1) = Some p -> fst p <= x -> y = snd p -> on_line l x y
| ol_mid i p q : nth_error l i = Some p -> nth_error l (S i) = Some q -> fst p <= x <= fst q ->
    (y - snd p) * (fst q - fst p) = (snd q - snd p) * (x - fst p) -> on_line l x y.
Definition nodes (l : list (R * R)) : list (xr * xr) := map (fun a => (Fin (fst a), Fin (snd a))) l.
(** The polyline spans [lo] to [hi]. *)
Definition spans (l : list (R * R)) (lo hi : R) : Prop :=
  (exists p, In p l /\ fst p = lo) /\ (exists p, In p l /\ fst p = hi) /\ forall p, In p l -> lo <= fst p <= hi.
(** [l] has [n] positions, the multiples of [d] from [a] (included) to [z] (excluded). *)
Definition multiples (d a z : R) (l : list R) : Prop :=
  exists k, (forall i x, nth_error l i = Some x -> x = (IZR k + INR i) * d) /\
    (IZR k - 1) * d < a <= IZR k * d /\ (IZR k + INR (length l) - 1) * d < z <= (IZR k + INR (length l)) * d.
