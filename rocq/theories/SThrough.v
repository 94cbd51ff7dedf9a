(** Specification vocabulary: updates with a closed outlet and without channels that get through. *)
From Coq Require Import ZArith List Bool Reals.
From Verif Require Import Base Num Xr MState SMor STouch.
Import ListNotations.
Local Open Scope R_scope.

(** The arrays fit together: entries per transect, per segment between two transects and per section
    of the channel (of which the first is a boundary); one transect at the river. *)
Definition fits (T : list (tsect xr)) (RiverElev : list xr) (online : list nat) (LagoonWL : list xr) (fl : list nat)
           (l c : list R) (OW : list bool) : Prop :=
  (2 <= length T)%nat /\ length LagoonWL = length T /\ S (length l) = length T /\ length c = length T /\ length OW = length T /\
  length online = length (flagged true fl 1) /\ (forall i, In i online -> (i < length T)%nat) /\
  length RiverElev = S (length (flagged true fl 0)) /\ (0 < length (flagged true fl 0))%nat /\
  (exists t, In t T /\ tX t = Fin 0) /\ Forall is_fin LagoonWL.

(** A barrier without channel that has a width, reaches above the closure depth and stands above the bed of
    the lagoon by more than twice the largest change in an update. *)
Definition sturdy (P : phys xr) (cap : R) (t : tsect xr) : Prop :=
  hasChannel t = false /\ 0 < rv (barWidth t) /\ 0 < rv (pClosureDepth P) + rv (tZ0 t) /\ 2 * cap < rv (tZ0 t) - rv (tZ3 t).
