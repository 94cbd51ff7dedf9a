(** Specification vocabulary: what stays the same during a run. *)
From Coq Require Import ZArith List Bool Reals.
From Verif Require Import Base Num MState MOut.

(** Shoreline, lagoon edge and cliff are numbers at every transect. *)
Definition mapped {F} {NF : Num F} (T : list (tsect F)) : Prop :=
  forall t, In t T -> fisnan (tY0 t) = false /\ fisnan (tY3 t) = false /\ fisnan (tY4 t) = false.
