(** Specification vocabulary for drawings (visualise.py, animate.py). *)
From Coq Require Import ZArith List Reals.
From Verif Require Import Base Num Xr MState.
Import ListNotations.
Local Open Scope R_scope.

(** Distance along the channel to cross-section [i]. *)
Fixpoint chainage (dx : list R) (i : nat) {struct i} : R :=
  match i, dx with
  | S i, d :: r => d + chainage r i
  | _, _ => 0
  end.

(** A line with [n] points, the [i]-th being [(x i, y i)]. *)
Definition drawn (l : list (xr * xr)) (n : nat) (x y : nat -> R) : Prop :=
  length l = n /\ forall i, (i < n)%nat -> nth_error l i = Some (Fin (x i), Fin (y i)).

(** Value of an array at [i], mean over reach [i]. *)
Definition at_ (l : list R) (i : nat) : R := nth i l 0.
Definition mean (f : nat -> R) (i : nat) : R := (f i + f (S i)) / 2.

(** Energy head for gravity [g], from the mean level and the mean velocity of a reach. *)
Definition head (g : R) (z h v : list R) (i : nat) : R :=
  mean (fun j => at_ z j + at_ h j) i + mean (at_ v) i * mean (at_ v) i / (2 * g).

(** Bedload per second to bedload per hour. *)
Definition hourly (x : R) : R := x * 3600.

(** A line through the points [p]; read from the sea, it never turns back. *)
Definition through (l : list (xr * xr)) (p : list (R * R)) : Prop := l = map (fun a => (Fin (fst a), Fin (snd a))) p.
Definition landward (p : list (R * R)) : Prop := ForallOrdPairs (fun a b => fst b <= fst a) p.
(** Two consecutive points; a level stretch. *)
Definition segment (p : list (R * R)) (a b : R * R) : Prop := exists l r, p = l ++ a :: b :: r.
Definition level (p : list (R * R)) (a b z : R) : Prop := segment p (a, z) (b, z).

(** A transect: with a channel ([Some (y1, y2)]) or without. *)
Record tgeom := mkTg { gY0 : R; gChan : option (R * R); gY3 : R; gY4 : R; gZ0 : R; gZ1 : R; gZ2 : R; gZ3 : R }.
Definition transect_is (t : tsect xr) (g : tgeom) : Prop :=
  tY0 t = Fin (gY0 g) /\ tY3 t = Fin (gY3 g) /\ tY4 t = Fin (gY4 g) /\ tZ0 t = Fin (gZ0 g) /\ tZ3 t = Fin (gZ3 g) /\
  match gChan g with
  | None => tY2 t = NaN
  | Some (y1, y2) => tY1 t = Fin y1 /\ tY2 t = Fin y2 /\ tZ1 t = Fin (gZ1 g) /\ tZ2 t = Fin (gZ2 g)
  end.
(** Features in order from the sea to the cliff. *)
Definition ordered (g : tgeom) : Prop :=
  gY4 g <= gY3 g /\ match gChan g with None => gY3 g <= gY0 g | Some (y1, y2) => gY3 g <= y2 <= y1 /\ y1 <= gY0 g end.
(** A closed outline whose lower edge is at -100. *)
Definition closed_below (f l : list (xr * xr)) : Prop :=
  exists a z, nth_error l 0 = Some a /\ nth_error l (length l - 1) = Some z /\
    f = l ++ [(fst z, Fin (-100)); (fst a, Fin (-100)); a].
