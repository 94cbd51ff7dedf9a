Set Warnings "-inexact-float".
(** C121: from which level heights are measured does not matter, as long as no channel merges with the lagoon and nothing lies below -9999.9 m. *)
From Coq Require Import ZArith List Bool Reals Floats.
From Verif Require Import Base Num Xr Flt MState MCoast MRiv MMor MOut MCore SAdapt SShift SRaise PRaise2 PRaiseEx Sim SimEx PCapEx PPostEx PQuietEx PLedgerEx.
Import ListNotations.
Local Open Scope R_scope.

(** riv.py:9-71: steady flow over a raised bed into a raised sea has the same depths and velocities. *)
Theorem C121_steady : forall c dx z b rough q w (N : nump xr),
  solveSteady dx (map (byMetres c) z) b rough q (byMetres c w) N = solveSteady dx z b rough q w N.
Proof. exact steady_raised. Qed.
Print Assumptions C121_steady.

(** riv.py:73-304: so has unsteady flow, seepage through the barrier included. *)
Theorem C121_unsteady : forall c solve z B la ll closed h V dx dt Qs Ws (N : nump xr) P r, nTheta N = Fin r ->
  solveFullPreissmann solve (map (byMetres c) z) B la ll closed h V dx dt Qs (map (byMetres c) Ws) N (raisedPars (byMetres c) (byMetres (- c)) P) =
  solveFullPreissmann solve z B la ll closed h V dx dt Qs Ws N P.
Proof. exact unsteady_raised. Qed.
Print Assumptions C121_unsteady.

(** riv.py:306-520: the assembled channel differs in its bed only. *)
Theorem C121_channel : forall c T e0 e1 eW eE closed River a b LWL d e f g h Dx (P : phys xr),
  assembleChannel (map (raisedT (byMetres c)) T) e0 e1 eW (byMetres c eE) closed (map (byMetres c) River) a b (map (byMetres c) LWL) d e f g h Dx (raisedPars (byMetres c) (byMetres (- c)) P) =
  thenDo (raisedChannel (byMetres c)) (assembleChannel T e0 e1 eW eE closed River a b LWL d e f g h Dx P).
Proof. exact channel_raised. Qed.
Print Assumptions C121_channel.

(** mor.py:12-695: the update of the raised coast is the raised update, failures included, when the transects are calm once corrected. *)
Theorem C121_update : forall c fuel j1 j2 (P : phys xr) N TP T e0 e1 W Zend RiverElev online outlet LagoonWL OutletDep CW CD fl closed LST q CST OW dt,
  (forall T1, corrected fuel P N TP T e0 e1 W Zend RiverElev online outlet LagoonWL OutletDep CW CD fl closed LST q CST OW dt = Ok T1 -> Forall (calm (byMetres c)) T1) ->
  updateMorphology fuel j1 j2 (raisedPars (byMetres c) (byMetres (- c)) P) N TP (map (raisedT (byMetres c)) T) e0 e1 W (byMetres c Zend) (map (byMetres c) RiverElev) online outlet
    (map (byMetres c) LagoonWL) OutletDep CW CD fl closed LST q CST OW dt =
  thenDo (raisedUpdate (byMetres c)) (updateMorphology fuel j1 j2 P N TP T e0 e1 W Zend RiverElev online outlet LagoonWL OutletDep CW CD fl closed LST q CST OW dt).
Proof. exact update_raised. Qed.
Print Assumptions C121_update.

(** core.py:35-60: the first variables of a run. *)
Theorem C121_start : forall c (v : env xr) T e0 e1 W Z0 River RWL RV LWL LVel OD OV ED EV closed,
  init (raisedSetup (byMetres c) (byMetres (- c)) v) (map (raisedT (byMetres c)) T) e0 e1 W (byMetres c Z0) (map (byMetres c) River) (map (byMetres c) RWL) RV (map (byMetres c) LWL) LVel OD OV ED EV closed =
  thenDo (raisedRun (byMetres c)) (init v T e0 e1 W Z0 River RWL RV LWL LVel OD OV ED EV closed).
Proof. exact init_raised. Qed.
Print Assumptions C121_start.

(** core.py:107-235: any number of passes, records included, when the transects are calm in each of them. *)
Theorem C121_passes : forall c af o (v : env xr) r n k s, nTheta (vN v) = Fin r ->
  (forall m s1 T1, (m < n)%nat -> steps af m k o v s = Ok s1 -> correctedPass af (o (k + m)%nat) v s1 = Ok T1 -> Forall (calm (byMetres c)) T1) ->
  steps af n k o (raisedSetup (byMetres c) (byMetres (- c)) v) (raisedRun (byMetres c) s) = thenDo (raisedRun (byMetres c)) (steps af n k o v s).
Proof. exact steps_raised. Qed.
Print Assumptions C121_passes.

(** mor.py:455-457: a section merging with the lagoon gets a bed that depends on the level, unless channel and lagoon only just touch. *)
Theorem C121_merge : forall c x y0 y1 y2 y3 y4 z0 z1 z2 z3, y4 < y1 -> exists z,
  tZ3 (dissolve (mkT (Fin x) (Fin y0) (Fin y1) (Fin y2) (Fin y3) (Fin y4) (Fin z0) (Fin z1) (Fin z2) (Fin z3))) = Fin z /\
  tZ3 (dissolve (raisedT (byMetres c) (mkT (Fin x) (Fin y0) (Fin y1) (Fin y2) (Fin y3) (Fin y4) (Fin z0) (Fin z1) (Fin z2) (Fin z3)))) = Fin (z + c * (1 + (y3 - y2) / (y1 - y4))).
Proof. exact merge_raised. Qed.
Print Assumptions C121_merge.

(** Refuted: that the level never matters.  Ten metres up, the merged bed comes out at 9.75 m instead of below 9 m. *)
Theorem C121_merge_refuted :
  bedsAfter (raisedPars (byF 10%float) (byF (-10)%float) (simP 0.001%float)) (map (raisedT (byF 10%float)) touching) 9%float [11; 11]%float [11; 11; 11; 11; 11]%float = Some [9; 9; 9; 9.75; 9]%float /\
  exists l, bedsAfter (simP 0.001%float) touching (-1)%float [1; 1]%float [1; 1; 1; 1; 1]%float = Some l /\ PrimFloat.ltb (nth 3 (map (byF 10%float) l) 0%float) 9%float = true.
Proof. exact merge_refuted. Qed.
Print Assumptions C121_merge_refuted.

(** Refuted: that any level will do.  Measured from 16384 m higher up, transects without lagoon seem flooded and the pass fails. *)
Theorem C121_low_refuted : outcome (shortPass 0%float) = None /\ outcome (shortPass (-8192)%float) = None /\ outcome (shortPass (-16384)%float) = Some EIndex.
Proof. exact low_refuted. Qed.
Print Assumptions C121_low_refuted.

(** An update in which the river breaks through the barrier, measured from 100 m further down. *)
Theorem C121_example : exists o, cutHigh restP (exCoast 0) (Fin 0) [Fin 1; Fin 1] [Fin 2; Fin 2; Fin 4; Fin 2] = Ok o /\
  cutHigh (raisedPars (byMetres 100) (byMetres (-100)) restP) (map (raisedT (byMetres 100)) (exCoast 0)) (Fin 100) [Fin 101; Fin 101] [Fin 102; Fin 102; Fin 104; Fin 102] = Ok (raisedUpdate (byMetres 100) o) /\
  oT o <> exCoast 0 /\ map tZ0 (oT (raisedUpdate (byMetres 100) o)) = [Fin 103; Fin 103; Fin 103; Fin 103].
Proof. exact raised_case. Qed.
Print Assumptions C121_example.

(** Its transects are calm. *)
Theorem C121_calm_example : forall T1, corrected 10 restP pushNum slowTP (exCoast 0) NaN (Fin 1) (Fin 5) (Fin 0) [Fin 1; Fin 1] [1]%nat [] [Fin 2; Fin 2; Fin 4; Fin 2] [] [Fin 5; Fin 5; Fin 5] [Fin 1; Fin 1; Fin 1] [0;0;1]%nat true
   (map Fin [0.8; 0; 0]) (map Fin [0.2; 0.1]) (map Fin [0; 0; 0; 0]) [false;false;false;false] (sec 15) = Ok T1 -> Forall (calm (byMetres 100)) T1.
Proof. exact cut_calm. Qed.
Print Assumptions C121_calm_example.
