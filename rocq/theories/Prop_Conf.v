(** C97-C101: loadmod.py and configspec.cnf, from the configuration file to the first step. *)
From Coq Require Import Reals ZArith List Bool String Ascii Floats.
From Verif Require Import Base Num Xr Flt MState MGeom MOut MCoast MRiv MMor MCore MLoad MSynth MConf Sim SimEx SConf SLoad SRun SAdapt
  PConf PConf2 PConf3 PConf4 PConfEx PConfEx2.
Import ListNotations.
Local Open Scope string_scope.

(** ** C97: what a configuration file must contain *)
Theorem C97_accepted : forall (F : Type) (NF : Num F) (X : conv F) r, (exists c, validate X r = Ok c) <-> wellFormed X r.
Proof. exact @valid_iff. Qed.
Print Assumptions C97_accepted.

Theorem C97_meaning : forall (F : Type) (NF : Num F) (X : conv F) r c s k v, validate X r = Ok c -> knownKey s k -> (c s k = Some v <-> means X r s k v).
Proof. exact @conf_means. Qed.
Print Assumptions C97_meaning.

Theorem C97_error : forall (F : Type) (NF : Num F) (X : conv F) r e, validate X r = Exc e -> e = EConfig.
Proof. exact @valid_exc. Qed.
Print Assumptions C97_error.

Theorem C97_required : forall (F : Type) (NF : Num F) (X : conv F) r s k, In (s, k) requiredKeys -> r s k = None -> validate X r = Exc EConfig.
Proof. exact @required_missing. Qed.
Print Assumptions C97_required.

Theorem C97_limits : forall (X : conv xr) r c s k lo hi v, validate X r = Ok c -> In (s, k, lo, hi) floatLimits -> c s k = Some v ->
  v = CNone \/ exists x, v = CF x /\ notBelow lo x /\ notAbove hi x.
Proof. exact @conf_limits. Qed.
Print Assumptions C97_limits.

Theorem C97_unknown : forall (F : Type) (NF : Num F) (X : conv F) r r', (forall s k, knownKey s k -> r s k = r' s k) ->
    match validate X r, validate X r' with
    | Ok c, Ok c' => forall s k, c s k = c' s k
    | Exc e, Exc e' => e = e'
    | _, _ => False
    end.
Proof. exact @unknown_ignored. Qed.
Print Assumptions C97_unknown.

(** Refuted: an accepted number is within the limits of its key. *)
Theorem C97_nan_refuted : exists r c, @validate float sim_num exX r = Ok c /\ c "NumericalParameters" "Dx" = Some (CF PrimFloat.nan) /\
  In ("NumericalParameters", "Dx", Some (0%Z, 1%positive), None) floatLimits /\ PrimFloat.leb 0 PrimFloat.nan = false.
Proof. exact @ex_nan. Qed.
Print Assumptions C97_nan_refuted.

(** Refuted: a misspelt key is reported. *)
Theorem C97_typo_refuted : exists c, @validate float sim_num exX (written exTypo) = Ok c /\ c "PhysicalParameters" "ShorelineErosionRate" = Some (CF 0%float) /\
  written exTypo "PhysicalParameters" "ShoreLineErosionRate" = Some (RStr "0.5").
Proof. exact @ex_typo. Qed.
Print Assumptions C97_typo_refuted.

Theorem C97_example : wellFormed decX (written exEntries) /\ exists c, @validate float sim_num exX (written exEntries) = Ok c.
Proof. exact (conj ex_formed ex_valid). Qed.

(** ** C98: the parameters of a loaded model *)
Theorem C98_parameters : forall (F : Type) (NF : Num F) (X : conv F) (W : world F) r32 file m, loadModel X W r32 file = Ok m ->
    wdIsFile W file = true /\ exists c, validate X (wdConf W file) = Ok c /\
    Forall (fun kf => c "PhysicalParameters" (fst kf) = Some (CF (snd kf (mdP m)))) physicalKeys /\
    Forall (fun kf => c "NumericalParameters" (fst kf) = Some (CF (snd kf (mdN m)))) numericalKeys /\
    (exists z, c "NumericalParameters" "MaxIt" = Some (CI z) /\ nMaxIt (mdN m) = Z.to_nat z) /\
    (exists t, c "Time" "EndTime" = Some (CS t) /\ txTime X t = Ok (tEnd (mdTP m))) /\
    Forall (fun kz => exists x, c (fst (fst kz)) (snd (fst kz)) = Some (CF x) /\ tdSec X x = Ok (snd kz))
      [("Time", "HydDt", tHydDt (mdTP m)); ("Time", "MorDtMin", tMorDtMin (mdTP m)); ("Time", "MorDtMax", tMorDtMax (mdTP m));
       ("OutputOptions", "OutInt", mdOutInt m); ("OutputOptions", "TsOutInt", mdTsInt m); ("OutputOptions", "LogInt", mdLogInt m);
       ("OutputOptions", "PlotInt", mdPlotInt m)].
Proof. exact @load_params. Qed.
Print Assumptions C98_parameters.

Theorem C98_example : exists m, exLoad exEntries exFile = Ok m.
Proof. exact ex_loads. Qed.

(** ** C99: starting a run *)
Theorem C99_sound : forall (F : Type) (NF : Num F) (X : conv F) (W : world F) r32 file m, loadModel X W r32 file = Ok m ->
    (feqb (fmul (fmul (fsub (pRhoSed (mdP m)) (pRhoSea (mdP m))) (pGravity (mdP m))) (fsub f1 (pVoidRatio (mdP m)))) f0 = false /\
     feqb (fmul (fmul (pRhoSea (mdP m)) (fpow (pGravity (mdP m)) (fofQ 15 10))) (fpow (pGammaRatio (mdP m)) (fofZ 2))) f0 = false /\
     feqb (fsub (pTargetBarWidth (mdP m)) (pSpitWidth (mdP m))) f0 = false /\ derive (mdP m) = mdP m) /\
    (exists s, covers (tStart (mdTP m)) (tEnd (mdTP m)) s /\ trimSeries (tStart (mdTP m)) (tEnd (mdTP m)) (tMorDtMax (mdTP m)) s = Ok (mdFlow m)) /\
    (exists s, covers (tStart (mdTP m)) (tEnd (mdTP m)) s /\ trimSeries (tStart (mdTP m)) (tEnd (mdTP m)) (tMorDtMax (mdTP m)) s = Ok (mdWaves m)) /\
    (exists s, covers (tStart (mdTP m)) (tEnd (mdTP m)) s /\ trimSeries (tStart (mdTP m)) (tEnd (mdTP m)) (tMorDtMax (mdTP m)) s = Ok (mdSea m)).
Proof. exact @load_sound. Qed.
Print Assumptions C99_sound.

Theorem C99_missing : forall (F : Type) (NF : Num F) (X : conv F) (W : world F) r32 file, wdIsFile W file = false -> start X W r32 file = Exc EFile.
Proof. exact @start_missing. Qed.
Print Assumptions C99_missing.

Theorem C99_invalid : forall (F : Type) (NF : Num F) (X : conv F) (W : world F) r32 file, wdIsFile W file = true -> ~ wellFormed X (wdConf W file) -> start X W r32 file = Exc EConfig.
Proof. exact @start_invalid. Qed.
Print Assumptions C99_invalid.

Theorem C99_clock : forall (F : Type) (NF : Num F) (X : conv F) (W : world F) r32 file v s, start X W r32 file = Ok (v, s) -> gTime s = tStart (vTP v) /\ gDt s = tMorDtMin (vTP v) /\ gOuts s = [] /\ gTs s = [].
Proof. exact @start_clock. Qed.
Print Assumptions C99_clock.

Theorem C99_run : forall (F : Type) (NF : Num F) (X : conv F) (W : world F) r32 file v s af n o s', start X W r32 file = Ok (v, s) -> steps af n 0 o v s = Ok s' -> run af n o v s'.
Proof. exact @start_run. Qed.
Print Assumptions C99_run.

Theorem C99_stuck : forall (F : Type) (NF : Num F) (X : conv F) (W : world F) r32 file v s, start X W r32 file = Ok (v, s) -> (0 < tHydDt (vTP v))%Z -> (tMorDtMin (vTP v) < tHydDt (vTP v))%Z ->
    forall af o s', step af o v s <> Ok s'.
Proof. exact @start_stuck. Qed.
Print Assumptions C99_stuck.

Theorem C99_backwards : forall (F : Type) (NF : Num F) (X : conv F) (W : world F) r32 file v s, start X W r32 file = Ok (v, s) -> (tEnd (vTP v) < tStart (vTP v))%Z ->
    forall af fuel o, loop af fuel 0 o v s = Ok s /\ gOuts s = [] /\ gTs s = [].
Proof. exact @start_backwards. Qed.
Print Assumptions C99_backwards.

(** Refuted: a model that loads and starts can do a step. *)
Theorem C99_runs_refuted : exists v s, exStart (("Time", "MorDtMin", "4") :: exEntries) = Ok (v, s) /\
  forall af o s', @step float sim_num af o v s <> Ok s'.
Proof. exact @ex_stuck. Qed.
Print Assumptions C99_runs_refuted.

(** Refuted: a model that loads has an end after its start. *)
Theorem C99_order_refuted : exists v s, exStart exBack = Ok (v, s) /\ (tEnd (vTP v) < tStart (vTP v))%Z /\
  forall af fuel o, @loop float sim_num af fuel 0 o v s = Ok s.
Proof. exact @ex_back. Qed.
Print Assumptions C99_order_refuted.

Theorem C99_example : clockOf (exDo exEntries 2) = Ok (sec 2880, sec 1920).
Proof. exact ex_runs. Qed.

(** ** C100: names of result files *)
Theorem C100_names : forall (F : Type) (NF : Num F) (X : conv F) (W : world F) r32 file m c dir base ext, loadModel X W r32 file = Ok m -> validate X (wdConf W file) = Ok c -> fileIn dir base ext file ->
    (c "OutputOptions" "OutFile" = Some CNone -> mdOut m = base ++ "_outputs.nc") /\
    (c "OutputOptions" "TsOutFile" = Some CNone -> mdTsOut m = base ++ "_TSoutputs.nc") /\
    (forall n, c "OutputOptions" "OutFile" = Some (CS n) -> mdOut m = n) /\
    (forall n, c "OutputOptions" "TsOutFile" = Some (CS n) -> mdTsOut m = n).
Proof. exact @out_default. Qed.
Print Assumptions C100_names.

Theorem C100_differ : forall (F : Type) (NF : Num F) (X : conv F) (W : world F) r32 file m c, loadModel X W r32 file = Ok m -> validate X (wdConf W file) = Ok c ->
    c "OutputOptions" "OutFile" = Some CNone -> c "OutputOptions" "TsOutFile" = Some CNone -> mdOut m <> mdTsOut m.
Proof. exact @out_differ. Qed.
Print Assumptions C100_differ.

Theorem C100_shared : forall (F : Type) (NF : Num F) (X : conv F) (W : world F) r32 d1 d2 base ext f1 f2 m1 m2 c1 c2, fileIn d1 base ext f1 -> fileIn d2 base ext f2 ->
    loadModel X W r32 f1 = Ok m1 -> loadModel X W r32 f2 = Ok m2 -> validate X (wdConf W f1) = Ok c1 -> validate X (wdConf W f2) = Ok c2 ->
    c1 "OutputOptions" "OutFile" = Some CNone -> c2 "OutputOptions" "OutFile" = Some CNone ->
    mdOut m1 = mdOut m2.
Proof. exact @out_clash. Qed.
Print Assumptions C100_shared.

(** Refuted: configurations in different directories have different result files; the two files of one configuration differ. *)
Theorem C100_distinct_refuted : namesOf (exLoad exAbs "/home/run1/Base.cnf") = Ok ("Base_outputs.nc", "Base_TSoutputs.nc") /\
  namesOf (exLoad exAbs "/home/run2/Base.cnf") = Ok ("Base_outputs.nc", "Base_TSoutputs.nc").
Proof. exact @ex_clash. Qed.
Print Assumptions C100_distinct_refuted.

Theorem C100_two_refuted : namesOf (exLoad (("OutputOptions", "OutFile", "a.nc") :: ("OutputOptions", "TsOutFile", "a.nc") :: exEntries) exFile) = Ok ("a.nc", "a.nc").
Proof. exact @ex_same_name. Qed.
Print Assumptions C100_two_refuted.

Theorem C100_example : fileIn "/home/hapua" "Synthetic.v2" "cnf" exFile /\ exists m, exLoad exEntries exFile = Ok m.
Proof. exact (conj ex_name ex_loads). Qed.

(** ** C101: where the data come from *)
Theorem C101_flow : forall (F : Type) (NF : Num F) (X : conv F) (W : world F) r32 file m c n dir base ext path, loadModel X W r32 file = Ok m -> validate X (wdConf W file) = Ok c ->
    c "BoundaryConditions" "RiverFlow" = Some (CS n) -> ~ sameWord n "shotnoise" -> fileIn dir base ext file -> resolved dir n path ->
    exists s, wdSeries W path = Ok s /\ trimSeries (tStart (mdTP m)) (tEnd (mdTP m)) (tMorDtMax (mdTP m)) s = Ok (mdFlow m).
Proof. exact @flow_input. Qed.
Print Assumptions C101_flow.

Theorem C101_sea : forall (F : Type) (NF : Num F) (X : conv F) (W : world F) r32 file m c n dir base ext path, loadModel X W r32 file = Ok m -> validate X (wdConf W file) = Ok c ->
    c "BoundaryConditions" "SeaLevel" = Some (CS n) -> ~ sameWord n "harmonic" -> fileIn dir base ext file -> resolved dir n path ->
    exists s, wdSeries W path = Ok s /\ trimSeries (tStart (mdTP m)) (tEnd (mdTP m)) (tMorDtMax (mdTP m)) s = Ok (mdSea m).
Proof. exact @sea_input. Qed.
Print Assumptions C101_sea.

Theorem C101_waves : forall (F : Type) (NF : Num F) (X : conv F) (W : world F) r32 file m c n dir base ext path, loadModel X W r32 file = Ok m -> validate X (wdConf W file) = Ok c ->
    c "BoundaryConditions" "WaveConditions" = Some (CS n) -> fileIn dir base ext file -> resolved dir n path ->
    exists rows s, wdWaves W path = Ok rows /\
      Forall2 (fun p q => fst q = fst p /\ wrDir (snd q) = waveDir (mdDir m) (wrDir (snd p)) /\ wrPow (snd q) = wrPow (snd p) /\
                          wrPer (snd q) = wrPer (snd p) /\ wrLen (snd q) = wrLen (snd p) /\ wrHs (snd q) = wrHs (snd p)) rows s /\
      trimSeries (tStart (mdTP m)) (tEnd (mdTP m)) (tMorDtMax (mdTP m)) s = Ok (mdWaves m).
Proof. exact @wave_input. Qed.
Print Assumptions C101_waves.

Theorem C101_hot : forall (F : Type) (NF : Num F) (X : conv F) (W : world F) r32 file m c n dir base ext path, loadModel X W r32 file = Ok m -> validate X (wdConf W file) = Ok c ->
    c "HotStart" "InitialConditionsNetCDF" = Some (CS n) -> fileIn dir base ext file -> resolved dir n path ->
    exists f o deg t want st h, wdNc W path = Some (f, o, deg) /\ c "HotStart" "HotStartTime" = Some (CS t) /\ txTime X t = Ok want /\
      (exists t', c "Time" "StartTime" = Some (CS t') /\ txTime X t' = Ok st) /\
      hotLoad r32 f want st (match c "HotStart" "ContinueSimulation" with Some (CB b) => b | _ => false end) (nDx (mdN m)) = Ok h /\
      mdOrigin m = o /\ mdDir m = deg2rad deg /\ tStart (mdTP m) = htStart h /\
      h = mkHot (mdT m) (mdE0 m) (mdE1 m) (mdW m) (mdZ m) (mdRiver m) (mdRWL m) (mdRVel m) (mdLWL m) (mdLVel m)
                (mdODep m) (mdOVel m) (mdEDep m) (mdEVel m) (mdClosed m) (tStart (mdTP m)).
Proof. exact @hot_input. Qed.
Print Assumptions C101_hot.

Theorem C101_tide : forall (F : Type) (NF : Num F) (X : conv F) (W : world F) r32 file m c n t0, loadModel X W r32 file = Ok m -> validate X (wdConf W file) = Ok c ->
    c "BoundaryConditions" "SeaLevel" = Some (CS n) -> sameWord n "harmonic" ->
    (exists t, c "Time" "StartTime" = Some (CS t) /\ txTime X t = Ok t0) ->
    exists x int msl range, c "HarmonicTideParameters" "SeaLevelDt" = Some (CF x) /\ tdMin X x = Ok int /\
      c "HarmonicTideParameters" "MeanSeaLevel" = Some (CF msl) /\ c "HarmonicTideParameters" "TidalRange" = Some (CF range) /\
      trimSeries (tStart (mdTP m)) (tEnd (mdTP m)) (tMorDtMax (mdTP m)) (harmonicTide t0 (tEnd (mdTP m)) int msl range) = Ok (mdSea m) /\
      (0 < int)%Z /\ (t0 <= tStart (mdTP m))%Z /\ (int | tEnd (mdTP m) - t0)%Z.
Proof. exact @sea_tide. Qed.
Print Assumptions C101_tide.

Theorem C101_range : forall (F : Type) (NF : Num F) (X : conv F) (W : world F) r32 file m c n, loadModel X W r32 file = Ok m -> validate X (wdConf W file) = Ok c ->
    c "BoundaryConditions" "SeaLevel" = Some (CS n) -> sameWord n "harmonic" -> c "HarmonicTideParameters" "TidalRange" <> Some CNone.
Proof. exact @tide_needs_range. Qed.
Print Assumptions C101_range.

Theorem C101_shotnoise : forall (F : Type) (NF : Num F) (X : conv F) (W : world F) r32 file m c n k, loadModel X W r32 file = Ok m -> validate X (wdConf W file) = Ok c ->
    c "BoundaryConditions" "RiverFlow" = Some (CS n) -> sameWord n "shotnoise" ->
    In k ["MeanDaysBetweenEvents"; "MeanEventIncrease"; "FastDecayRate"; "FastFlowProp"; "SlowDecayRate"; "RisingLimbTime"] ->
    c "ShotnoiseHydrographParameters" k <> Some CNone.
Proof. exact @shot_needs. Qed.
Print Assumptions C101_shotnoise.

Theorem C101_cold : forall (F : Type) (NF : Num F) (X : conv F) (W : world F) r32 file m c, loadModel X W r32 file = Ok m -> validate X (wdConf W file) = Ok c ->
    c "HotStart" "InitialConditionsNetCDF" = Some CNone ->
    mdClosed m = false /\ mdLWL m = map (fun _ => f0) (mdT m) /\ mdLVel m = map (fun _ => f0) (mdT m) /\
    mdODep m = map (fun _ => f0) (mdT m) /\ mdOVel m = map (fun _ => f0) (mdT m) /\ mdEDep m = [f0; f0] /\ mdEVel m = [f0; f0] /\
    mdRWL m = map (fun _ => f0) (mdRiver m) /\ mdRVel m = map (fun _ => f0) (mdRiver m) /\
    (exists t, c "Time" "StartTime" = Some (CS t) /\ txTime X t = Ok (tStart (mdTP m))) /\
    (c "SpatialInputs" "Shoreline" = Some CNone -> mdOrigin m = (f0, f0) /\ mdDir m = f0 /\
      forall k, In k ["ShorelineLengthLeft"; "ShorelineLengthRight"; "BeachWidth"] -> c "SpatialInputs" k <> Some CNone).
Proof. exact @cold_start. Qed.
Print Assumptions C101_cold.

Theorem C101_hot_only : forall (F : Type) (NF : Num F) (X : conv F) (W : world F) r r' r32 file c c' n, validate X r = Ok c -> validate X r' = Ok c' ->
    c "HotStart" "InitialConditionsNetCDF" = Some (CS n) ->
    (forall s k, s <> "SpatialInputs" -> s <> "InitialConditions" -> r s k = r' s k) ->
    loadModel X (withConf W r) r32 file = loadModel X (withConf W r') r32 file.
Proof. exact @hot_only. Qed.
Print Assumptions C101_hot_only.

(** Refuted: a simulation with synthetic tide can be continued from results before the configured start. *)
Theorem C101_continue_refuted : startOf (exHotLoad (exHotEntries "1 Sep 2000" "yes")) = Ok (sec 960) /\
  startOf (exHotLoad (exHotEntries "1 Sep 2000" "no")) = Ok (sec 0) /\
  startOf (exHotLoad (exCsvSea (exHotEntries "1 Sep 2000 06:00" "yes"))) = Ok (sec 960) /\
  startOf (exHotLoad (exHotEntries "1 Sep 2000 06:00" "yes")) = Exc EAssert.
Proof. exact @ex_hot. Qed.
Print Assumptions C101_continue_refuted.

Theorem C101_example_hot_only : exists m, exHotLoad (exHotEntries "1 Sep 2000" "yes") = Ok m /\ exHotLoad (exOther (exHotEntries "1 Sep 2000" "yes")) = Ok m.
Proof. exact ex_hot_only. Qed.
Theorem C101_example_shotnoise : isOk (exLoad ((sSN, "SlowDecayRate", "0.015") :: shotEntries) exFile) = true /\ isOk (exLoad shotEntries exFile) = false.
Proof. exact ex_shot. Qed.
