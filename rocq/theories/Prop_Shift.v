Set Warnings "-inexact-float".
(** C119: where cross-shore positions are measured from does not matter. *)
From Coq Require Import ZArith List Bool Reals Floats.
From Verif Require Import Base Num Xr Flt MState MCoast MRiv MMor MOut MCore SAdapt SShift PShift PShift2 PShiftEx Sim SimEx PCapEx PPostEx PQuietEx PLedgerEx.
Import ListNotations.
Local Open Scope R_scope.

(** mor.py:12-695 in exact arithmetic: from the moved coast the update gives the moved result, with the same time step, river, outlet ends
    and breach; where it fails it fails in the same way. *)
Theorem C119_update : forall c fuel j1 j2 (P : phys xr) N TP T e0 e1 W Zend RiverElev online outlet LagoonWL OutletDep CW CD fl closed LST q CST OW dt,
  updateMorphology fuel j1 j2 P N TP (map (movedT (byMetres c)) T) e0 e1 W Zend RiverElev online outlet LagoonWL OutletDep CW CD fl closed LST q CST OW dt =
  thenDo (movedUpdate (byMetres c)) (updateMorphology fuel j1 j2 P N TP T e0 e1 W Zend RiverElev online outlet LagoonWL OutletDep CW CD fl closed LST q CST OW dt).
Proof. exact update_moved. Qed.
Print Assumptions C119_update.

(** core.py:35-60: the first variables of a run. *)
Theorem C119_start : forall c (v : env xr) T e0 e1 W Z0 River RWL RV LWL LVel OD OV ED EV closed,
  init v (map (movedT (byMetres c)) T) e0 e1 W Z0 River RWL RV LWL LVel OD OV ED EV closed =
  thenDo (movedRun (byMetres c)) (init v T e0 e1 W Z0 River RWL RV LWL LVel OD OV ED EV closed).
Proof. exact init_moved. Qed.
Print Assumptions C119_start.

(** core.py:107-235: any number of passes, records included. *)
Theorem C119_passes : forall c af o (v : env xr) n k s,
  steps af n k o v (movedRun (byMetres c) s) = thenDo (movedRun (byMetres c)) (steps af n k o v s).
Proof. exact steps_moved. Qed.
Print Assumptions C119_passes.

(** The whole loop. *)
Theorem C119_loop : forall c af o (v : env xr) n k s,
  loop af n k o v (movedRun (byMetres c) s) = thenDo (movedRun (byMetres c)) (loop af n k o v s).
Proof. exact loop_moved. Qed.
Print Assumptions C119_loop.

(** Refuted: that the same holds of doubles.  Measured from far enough away, the shore gets another direction. *)
Theorem C119_rounded_refuted : drift (map (movedT (fun y => y + 1e17)%float) (pair 0%float)) <> drift (pair 0%float).
Proof. exact rounded_refuted. Qed.
Print Assumptions C119_rounded_refuted.

(** An update in which the river breaks through the barrier, measured from a line 100 m further inland. *)
Theorem C119_example : exists o, cutFrom (exCoast 0) = Ok o /\ cutFrom (map (movedT (byMetres 100)) (exCoast 0)) = Ok (movedUpdate (byMetres 100) o) /\
  oT o <> exCoast 0 /\ map tY3 (oT (movedUpdate (byMetres 100) o)) = [Fin 70; Fin 70; Fin 70; Fin 70].
Proof. exact moved_case. Qed.
Print Assumptions C119_example.
