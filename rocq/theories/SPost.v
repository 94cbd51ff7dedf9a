(** Specification vocabulary for the corrections applied after the rates
    (mor.py:217-692). *)
From Coq Require Import ZArith List Bool Reals.
From Verif Require Import Base Num Xr MState.
Import ListNotations.
Local Open Scope R_scope.

(** A transect with a channel, and one without, made of numbers. *)
Definition withChannel (x y0 y1 y2 y3 y4 z0 z1 z2 z3 : R) : tsect xr :=
  mkT (Fin x) (Fin y0) (Fin y1) (Fin y2) (Fin y3) (Fin y4) (Fin z0) (Fin z1) (Fin z2) (Fin z3).
Definition noChannel (t : tsect xr) : Prop := tY1 t = NaN /\ tY2 t = NaN.
(** Positions in increasing order, all numbers. *)
Definition inOrder (T : list (tsect xr)) : Prop :=
  (forall i t, nth_error T i = Some t -> is_fin (tX t)) /\
  forall i j t u, nth_error T i = Some t -> nth_error T j = Some u -> (i < j)%nat -> rv (tX t) < rv (tX u).
(** [l] lists, without repetition and in the order given by [up], the transects
    satisfying [p]. *)
Definition lists {A} (T : list A) (p : A -> Prop) (up : bool) (l : list nat) : Prop :=
  (forall i, In i l <-> exists t, nth_error T i = Some t /\ p t) /\
  forall a b i j, nth_error l a = Some i -> nth_error l b = Some j -> (a < b)%nat ->
                  if up then (i < j)%nat else (j < i)%nat.
(** A new stretch of channel behind the spit (elongation of the outlet). *)
Definition elongated {F} {NF : Num F} (P : phys F) (W Zend : F) (t t' : tsect F) : Prop :=
  tX t' = tX t /\ tY0 t' = tY0 t /\ tY3 t' = tY3 t /\ tY4 t' = tY4 t /\ tZ3 t' = tZ3 t /\
  tY1 t' = (tY0 t - pSpitWidth P)%n /\ tY2 t' = (tY1 t' - W)%n /\
  tZ0 t' = pBeachTopElev P /\ tZ1 t' = Zend /\ tZ2 t' = tZ0 t.
(** The channel becomes lagoon. *)
Definition converted {F} {NF : Num F} (t t' : tsect F) : Prop :=
  tX t' = tX t /\ tY0 t' = tY0 t /\ tY1 t' = fnan /\ tY2 t' = fnan /\ tY3 t' = tY1 t /\ tY4 t' = tY4 t /\
  tZ0 t' = tZ0 t /\ tZ1 t' = fnan /\ tZ2 t' = fnan /\ tZ3 t' = tZ1 t.
(** Same transect but for the channel of an update. *)
Definition changedAt {A} (T T' : list A) (S : nat -> Prop) (r : A -> A -> Prop) : Prop :=
  length T' = length T /\
  forall i t t', nth_error T i = Some t -> nth_error T' i = Some t' -> (S i -> r t t') /\ (~ S i -> t' = t).
(** Nearest to [e] among those satisfying [S]; the first of equals. *)
Definition nearest (T : list (tsect xr)) (e : R) (S : nat -> Prop) (b : nat) : Prop :=
  S b /\ forall i t u, S i -> nth_error T b = Some t -> nth_error T i = Some u ->
    Rabs (rv (tX t) - e) <= Rabs (rv (tX u) - e) /\ ((i < b)%nat -> Rabs (rv (tX t) - e) < Rabs (rv (tX u) - e)).
(** Positions [lo..hi] of the connected channel contain [i]. *)
Definition joined (cc : option (Z * Z)) (i : nat) : Prop :=
  match cc with Some (lo, hi) => (lo <= Z.of_nat i <= hi)%Z | None => False end.
(** Open lagoon all the way between the river and transect [i]. *)
Definition openTo (open : list bool) (x0 i : nat) : Prop :=
  forall j, ((x0 < j <= i)%nat \/ (i <= j < x0)%nat) -> nth_error open j = Some true.
