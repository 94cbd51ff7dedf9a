Set Warnings "-inexact-float".
(** C125: without outlet and channels the coast knows no left and right either, until the next pass. *)
From Coq Require Import ZArith List Bool Reals Floats.
From Verif Require Import Base Num Xr Flt MState MCoast MRiv MMor MOut MCore SAdapt STouch SMirror PMirror PMirror5 PMirror6 Sim SimEx PCoreEx PMirrorEx PMirrorEx2.
Import ListNotations.

(** mor.py:11-412: the update of the mirrored coast without outlet and channels is the mirror image of the update, if it opens none; then the outlet starts nowhere in both. *)
Theorem C125_update : forall fuel j1 j2 P N TP (T : list (tsect xr)) e0 e1 f0' f1' W Z RE on LWL OD OD' CW CD fl LST q CST OW dt m,
  NoDup (map tX T) -> (forall t, In t T -> hasChannel t = false) -> Forall (fun i => (i < length T)%nat) on -> (forall i, j1 i = true) -> (forall i, j2 i = true) ->
  updateMorphology fuel j1 j2 P N TP T e0 e1 W Z RE on [] LWL OD CW CD fl true LST q CST OW dt = Ok m -> oBreach m = false ->
  exists m', updateMorphology fuel j1 j2 P N TP (across T) f0' f1' W Z RE (map (fromEnd (length T)) on) [] (rev LWL) OD' CW CD fl true (rev (map xopp LST)) q (rev CST) (rev OW) dt = Ok m' /\
    oT m' = across (oT m) /\ oRiver m' = oRiver m /\ oDt m' = oDt m /\ oW m' = oW m /\ oZ m' = oZ m /\ oBreach m' = false /\ oE0 m = NaN /\ oE0 m' = NaN.
Proof. exact update_across. Qed.
Print Assumptions C125_update.

(** core.py:107-235: a pass that begins and ends with a closed outlet, and no channels: the mirrored pass gets through and leaves the mirror image, coast included. *)
Theorem C125_pass : forall fuel o (v : env xr) (s a : state xr), twoSided v s -> gClosed s = true -> (forall t, In t (gT s) -> hasChannel t = false) ->
  (forall i, oJunk1 o i = true) -> (forall i, oJunk2 o i = true) -> step fuel o v s = Ok a -> gClosed a = true ->
  exists b, step fuel o (acrossSetup v) (acrossRun s) = Ok b /\ waterAcross a b /\ gT b = across (gT a) /\ gRiver b = gRiver a /\ gW b = gW a /\ gZ b = gZ a /\ gTime b = gTime a /\ gDt b = gDt a /\
    gClosed b = true /\ gE0 a = NaN /\ gE0 b = NaN.
Proof. exact step_closed. Qed.
Print Assumptions C125_pass.

(** riv.py:306-520: when the outlet starts nowhere the lagoon is followed to the left of the river, whatever the coast. *)
Theorem C125_leftwards : forall (T : list (tsect xr)) e1 eW eE RE RD RV LWL LVel OD OV ED EV Dx P c k t, NoDup (map tX T) -> nth_error T k = Some t -> tX t = Fin 0 ->
  assembleChannel T NaN e1 eW eE true RE RD RV LWL LVel OD OV ED EV Dx P = Ok c -> forall i, In i (chOnline c) -> (i <= k)%nat.
Proof. exact leftwards. Qed.
Print Assumptions C125_leftwards.

(** So the pass after that is not mirrored: the level at the left end of the lagoon and the level at its image differ by more than 0.125 m. *)
Theorem C125_next_refuted : exists x y, levelsAt 0 (nextPass shutPass) = Some (x, y) /\ PrimFloat.ltb (x + 0.125)%float y = true.
Proof. exact next_water. Qed.
Print Assumptions C125_next_refuted.

(** A coast that meets the hypotheses, and a pass in doubles over a bent shoreline that moves. *)
Theorem C125_example : forall v : env xr, twoSided v (mirShut v) /\ gClosed (mirShut v) = true /\ (forall t, In t (gT (mirShut v)) -> hasChannel t = false).
Proof. exact shut_met. Qed.
Print Assumptions C125_example.
Theorem C125_example_pass : coastMirrored shutPass = true /\ waterMirrored shutPass = true /\ movedF shutPass 3 = true.
Proof. exact shut_coast. Qed.
Print Assumptions C125_example_pass.
