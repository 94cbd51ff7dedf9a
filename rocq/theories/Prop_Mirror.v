Set Warnings "-inexact-float".
(** C124: the water, the waves and the transport know no left and right; the coast does. *)
From Coq Require Import ZArith List Bool Reals Floats.
From Verif Require Import Base Num Xr Flt MState MCoast MRiv MMor MOut MCore SAdapt SShift SMirror PMirror PMirror2 PMirror3 Sim SimEx PCoreEx PMirrorEx.
Import ListNotations.

(** riv.py:306-520: the channel through the mirrored coast is the mirror image of the channel; it fails alike. *)
Theorem C124_channel : forall (T : list (tsect xr)) e0 e1 eW eE Cl RE RD RV LWL LVel OD OV ED EV Dx P, NoDup (map tX T) -> beside e0 -> Cl = true \/ betweenGrid e0 e1 Dx ->
  length LWL = length T -> length LVel = length T -> length OD = length T -> length OV = length T ->
  assembleChannel (across T) (xopp e0) (xopp e1) eW eE Cl RE RD RV (rev LWL) (rev LVel) (rev OD) (rev OV) ED EV Dx P =
  thenDo (acrossChan (length T)) (assembleChannel T e0 e1 eW eE Cl RE RD RV LWL LVel OD OV ED EV Dx P).
Proof. exact assemble_across. Qed.
Print Assumptions C124_channel.

(** riv.py:522-566: so is the water handed back to the transects. *)
Theorem C124_stored : forall dep vel on out flag (LE : list xr) cl, Forall (fun i => (i < length LE)%nat) on -> Forall (fun i => (i < length LE)%nat) out ->
  storeHydraulics dep vel (map (fromEnd (length LE)) on) (map (fromEnd (length LE)) out) flag (rev LE) cl =
  thenDo (fun r => match r with (a, b, c, d, e, f) => (rev a, rev b, rev c, rev d, e, f) end) (storeHydraulics dep vel on out flag LE cl).
Proof. exact store_across. Qed.
Print Assumptions C124_stored.

(** riv.py:616-642: so is the bedload. *)
Theorem C124_bedload : forall (bed : list xr) n on out flag cl, Forall (fun i => (i < n)%nat) on -> Forall (fun i => (i < n)%nat) out ->
  storeBedload bed n (map (fromEnd n) on) (map (fromEnd n) out) flag cl =
  thenDo (fun r => (rev (fst (fst r)), rev (snd (fst r)), snd r)) (storeBedload bed n on out flag cl).
Proof. exact storeBedload_across. Qed.
Print Assumptions C124_bedload.

(** coast.py: waves from the other side on the mirrored shoreline carry the same sediment the other way. *)
Theorem C124_longshore : forall (Y : list xr) Dx pow per len E P,
  longShoreTransport (rev Y) Dx pow per len (xopp E) P = rev (map xopp (longShoreTransport Y Dx pow per len E P)).
Proof. exact lst_across. Qed.
Print Assumptions C124_longshore.

(** coast.py: each transect is overtopped as before. *)
Theorem C124_overtopping : forall P r sl (T : list (tsect xr)), overtopping P r sl (across T) = thenDo (fun q => (rev (fst q), rev (snd q))) (overtopping P r sl T).
Proof. exact overtop_across. Qed.
Print Assumptions C124_overtopping.

(** core.py: negated records of the wave direction are read as negated directions. *)
Theorem C124_waves : forall (s : list (Z * xr)) ts, interpolateAt (acrossSeries s) ts = thenDo (map xopp) (interpolateAt s ts).
Proof. exact interpolate_across. Qed.
Print Assumptions C124_waves.

(** core.py:107-235: after a pass on the mirrored coast the water is the mirror image of the water after the pass, and so is the record but for the coast in it. *)
Theorem C124_pass : forall fuel o (v : env xr) (s a b : state xr), twoSided v s -> step fuel o v s = Ok a -> step fuel o (acrossSetup v) (acrossRun s) = Ok b ->
  waterAcross a b /\ (forall w w', gOuts a = gOuts s ++ [w] -> gOuts b = gOuts s ++ [w'] -> recordAcross w w').
Proof. exact step_across. Qed.
Print Assumptions C124_pass.

(** An outlet channel that starts in front of the river: the mirrored channel has another lagoon beside it. *)
Theorem C124_facing_refuted : areaOf (chanOf lopsided 0 30) = Some 4000%float /\ areaOf (chanAcross lopsided 0 30) = Some 2400%float.
Proof. exact chan_facing. Qed.
Print Assumptions C124_facing_refuted.

(** An outlet channel that ends at a transect: the mirrored channel is 20 m longer. *)
Theorem C124_grid_refuted : lengthOf (chanOf lopsided 10 40) = Some 180%float /\ lengthOf (chanAcross lopsided 10 40) = Some 200%float.
Proof. exact chan_grid. Qed.
Print Assumptions C124_grid_refuted.

(** The coast is not mirrored: the shoreline at the outlet moves further in one of the two passes. *)
Theorem C124_coast_refuted : exists x y, shoreAt 5 mirPass = Some (x, y) /\ PrimFloat.ltb y x = true.
Proof. exact mir_shore. Qed.
Print Assumptions C124_coast_refuted.

(** A coast that meets the hypotheses, and the water of a pass in doubles. *)
Theorem C124_example : forall v : env xr, nDx (vN v) = Fin 20 -> twoSided v (mirStart v).
Proof. exact mir_met. Qed.
Print Assumptions C124_example.
Theorem C124_example_water : waterMirrored mirPass = true.
Proof. exact mir_water. Qed.
Print Assumptions C124_example_water.
Theorem C124_example_depths : depthsOf mirPass = Some ([false; false; false; false; false; true; false; false; false], [false; false; false; true; false; false; false; false; false]).
Proof. exact mir_depths. Qed.
Print Assumptions C124_example_depths.
Theorem C124_example_channel : areaOf (chanOf lopsided 10 30) = areaOf (chanAcross lopsided 10 30) /\ lengthOf (chanOf lopsided 10 30) = lengthOf (chanAcross lopsided 10 30) /\
  areaOf (chanOf lopsided 10 30) = Some 4000%float /\
  thruOf (chanOf lopsided 10 30) = Some ([4], [5]) /\ thruOf (chanAcross lopsided 10 30) = Some ([4], [3]).
Proof. exact chan_beside. Qed.
Print Assumptions C124_example_channel.
