(** Specification vocabulary for the plan view (visualise.py). *)
From Coq Require Import List Bool Reals.
From Verif Require Import Base Num Xr MState SLine.
Import ListNotations.

(** Plotting position of a feature on every transect. *)
Definition feature {F} (c : tsect F -> F) (T : list (tsect F)) : list (F * F) := map (fun t => (tX t, c t)) T.
(** A transect with a lagoon: the cliff is landward of the lagoon edge. *)
Definition has_lagoon {F} {NF : Num F} (t : tsect F) : Prop := (tY4 t <? tY3 t)%n = true.
(** The pen is lifted between two pieces of a line. *)
Definition lifted {F} {NF : Num F} : F * F := (fnan, fnan).
Definition pieces {F} {NF : Num F} (l a b : list (F * F)) : Prop := l = a ++ lifted :: b.
(** First and last point. *)
Definition starts {A} (l : list A) (a : A) : Prop := nth_error l 0 = Some a.
Definition ends {A} (l : list A) (a : A) : Prop := nth_error l (length l - 1) = Some a.
Definition loop {A} (l : list A) : Prop := exists a, starts l a /\ ends l a /\ 1 < length l.
(** Every point of a line is on the polyline and meets a condition on x. *)
Definition along (l : list (xr * xr)) (p : list (R * R)) (c : R -> Prop) : Prop :=
  forall i a, nth_error l i = Some a -> exists x y, a = (Fin x, Fin y) /\ on_line p x y /\ c x.
