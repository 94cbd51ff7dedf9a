(** C101, continued: the coast a cold start begins with. *)
From Coq Require Import ZArith List Bool String Floats.
From Verif Require Import Base Num Flt Sim SimEx MState MGeom MOut MCoast MRiv MMor MCore MLoad MSynth MConf SConf SStart PConfEx PStart PStartEx.
Import ListNotations.
Local Open Scope string_scope.

(** Without shapefiles: every transect, the river bed and the outlet end. *)
Theorem C101_straight : forall (F : Type) (NF : Num F) (X : conv F) (W : world F) r32 file m c, loadModel X W r32 file = Ok m -> validate X (wdConf W file) = Ok c ->
    c "HotStart" "InitialConditionsNetCDF" = Some CNone -> c "SpatialInputs" "Shoreline" = Some CNone ->
    exists lb ob ow be l r b,
      c "InitialConditions" "LagoonBed" = Some (CF lb) /\ c "InitialConditions" "OutletBed" = Some (CF ob) /\
      c "InitialConditions" "OutletWidth" = Some (CF ow) /\ c "InitialConditions" "BarrierElev" = Some (CF be) /\
      c "SpatialInputs" "ShorelineLengthLeft" = Some (CF l) /\ c "SpatialInputs" "ShorelineLengthRight" = Some (CF r) /\
      c "SpatialInputs" "BeachWidth" = Some (CF b) /\
      mdT m = map (fun x => if feqb x f0 then mouthAt (pSpitWidth (mdP m)) ow (pRiverWidth (mdP m)) lb ob be x else beachAt b lb be x)
                  (farange (fmul (fofZ (ffloor (fdiv (fopp l) (nDx (mdN m))))) (nDx (mdN m))) (fadd r (nDx (mdN m))) (nDx (mdN m))) /\
      mdRiver m = rev (farange lb (fadd lb (fmul (pRiverSlope (mdP m)) (pUpstreamLength (mdP m)))) (fmul (pRiverSlope (mdP m)) (nDx (mdN m)))) /\
      mdE0 m = f0 /\ mdE1 m = f0 /\ mdW m = ow /\ mdZ m = ob.
Proof. exact @straight_start. Qed.
Print Assumptions C101_straight.

(** With shapefiles: which lines and which initial levels go into the transects of C86. *)
Theorem C101_shapes : forall (F : Type) (NF : Num F) (X : conv F) (W : world F) r32 file m c sh, loadModel X W r32 file = Ok m -> validate X (wdConf W file) = Ok c ->
    c "HotStart" "InitialConditionsNetCDF" = Some CNone -> c "SpatialInputs" "Shoreline" = Some (CS sh) ->
    exists lb ob ow be shore inflow lagoon cliff outlet pt,
      c "InitialConditions" "LagoonBed" = Some (CF lb) /\ c "InitialConditions" "OutletBed" = Some (CF ob) /\
      c "InitialConditions" "OutletWidth" = Some (CF ow) /\ c "InitialConditions" "BarrierElev" = Some (CF be) /\
      wdShp W (joinPath (dirName file) sh) = Some (mkShp 3 [shore]) /\
      (exists n, c "SpatialInputs" "RiverLocation" = Some (CS n) /\ wdShp W (joinPath (dirName file) n) = Some (mkShp 1 [inflow])) /\
      nth_error inflow 0 = Some pt /\
      (exists n, c "SpatialInputs" "BarrierBackshore" = Some (CS n) /\ wdShp W (joinPath (dirName file) n) = Some (mkShp 3 [lagoon])) /\
      (exists n, c "SpatialInputs" "CliffToe" = Some (CS n) /\ wdShp W (joinPath (dirName file) n) = Some (mkShp 3 [cliff])) /\
      (exists n, c "SpatialInputs" "OutletLocation" = Some (CS n) /\ wdShp W (joinPath (dirName file) n) = Some (mkShp 3 [outlet])) /\
      shapeShore (mdP m) (mkIni lb ob ow be) (nDx (mdN m)) (wdFit W shore) pt shore lagoon cliff outlet =
        Ok (mdT m, mdE0 m, mdE1 m, ow, ob, mdOrigin m, mdDir m) /\
      mdRiver m = rev (farange lb (fadd lb (fmul (pRiverSlope (mdP m)) (pUpstreamLength (mdP m)))) (fmul (pRiverSlope (mdP m)) (nDx (mdN m)))) /\
      mdW m = ow /\ mdZ m = ob.
Proof. exact @shape_start. Qed.
Print Assumptions C101_shapes.

Theorem C101_straight_example : (exists c, @validate float sim_num exX (written exEntries) = Ok c /\
    c "HotStart" "InitialConditionsNetCDF" = Some CNone /\ c "SpatialInputs" "Shoreline" = Some CNone) /\
  sizeOf (exLoad exEntries exFile) = Some (16, 1).
Proof. exact ex_straight. Qed.
Theorem C101_shapes_example : (exists c, @validate float sim_num exX (written exShpEntries) = Ok c /\
    c "HotStart" "InitialConditionsNetCDF" = Some CNone /\ c "SpatialInputs" "Shoreline" = Some (CS "shore.shp")) /\
  sizeOf exShpLoad = Some (13, 5).
Proof. exact ex_shapes. Qed.
