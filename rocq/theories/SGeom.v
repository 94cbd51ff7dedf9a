(** Specifications for geom.py, written over real numbers only (no model function). *)
From Coq Require Import Reals List.
From Verif Require Import Xr.
Import ListNotations.
Local Open Scope R_scope.

Definition pt2 := (R * R)%type.
(** A point with finite coordinates. *)
Definition fp (p : pt2) : xr * xr := (Fin (fst p), Fin (snd p)).

Definition dist2 (p q : pt2) : R := (fst p - fst q) * (fst p - fst q) + (snd p - snd q) * (snd p - snd q).

(** Ends of a segment on different sides of X = x ("left" is strict). *)
Definition crosses (p q : pt2) (x : R) : Prop :=
  (fst p < x <= fst q) \/ (fst q < x <= fst p).

(** [c] lists, in order along the polyline, one point (x, y) of each crossing segment. *)
Inductive crossings (x : R) : list pt2 -> list R -> Prop :=
| cr_nil : crossings x [] []
| cr_one p : crossings x [p] []
| cr_skip p q l c : ~ crosses p q x -> crossings x (q :: l) c -> crossings x (p :: q :: l) c
| cr_hit p q l c y : crosses p q x ->
    (y - snd p) * (fst q - fst p) = (x - fst p) * (snd q - snd p) ->
    Rmin (snd p) (snd q) <= y <= Rmax (snd p) (snd q) ->
    crossings x (q :: l) c -> crossings x (p :: q :: l) (y :: c).

(** [e] is on the straight line through [a] and [b]. *)
Definition on_line (a b e : pt2) : Prop :=
  (fst b - fst a) * (snd e - snd a) = (snd b - snd a) * (fst e - fst a).

(** [e] is on the [j]-th segment of the line with nodes (TX[i], TY[i]). *)
Definition on_seg (TX TY : list R) (j : nat) (e : pt2) : Prop :=
  exists t0 t1 y0 y1,
    nth_error TX j = Some t0 /\ nth_error TX (S j) = Some t1 /\
    nth_error TY j = Some y0 /\ nth_error TY (S j) = Some y1 /\
    t0 <= fst e <= t1 /\ on_line (t0, y0) (t1, y1) e.

Definition increasing (l : list R) : Prop :=
  forall i a b, nth_error l i = Some a -> nth_error l (S i) = Some b -> a < b.

(** [e] lies in a segment of the trim line, its left end excluded. *)
Definition in_some_seg (TX : list R) (e : R) : Prop :=
  exists i t0 t1, nth_error TX i = Some t0 /\ nth_error TX (S i) = Some t1 /\ t0 < e <= t1.
(** The trim line is straight: y = m x + c over the positions [TX]. *)
Definition straight (m c : R) (TX : list R) : list R := map (fun t => m * t + c) TX.
(** The end segment through [a] and [b], extended, meets y = m x + c in one point, at x. *)
Definition meets (a b : pt2) (m c x : R) : Prop :=
  on_line a b (x, m * x + c) /\ (fst a - fst b) * m <> snd a - snd b.
