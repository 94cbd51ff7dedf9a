(** Specification vocabulary for the configuration file.  The three tables are
    /repo/hapuamod/configspec.cnf, read separately from the table in MConf.v. *)
From Coq Require Import Reals ZArith List Bool String Ascii.
From Verif Require Import Base Num Xr MState MConf.
Import ListNotations.
Local Open Scope string_scope.

(** Words that differ at most in capitals (ASCII). *)
Inductive sameWord : string -> string -> Prop :=
| same_nil : sameWord "" ""
| same_char c a b : sameWord a b -> sameWord (String c a) (String c b)
| same_capital c d a b : 65 <= nat_of_ascii c <= 90 -> nat_of_ascii d = nat_of_ascii c + 32 -> sameWord a b ->
    sameWord (String c a) (String d b).

Section Spec.
  Context {F : Type} {NF : Num F}.
  Definition requiredKeys : list (string * string) :=
    [("", "ModelName");
     ("BoundaryConditions", "RiverFlow");
     ("BoundaryConditions", "WaveConditions");
     ("BoundaryConditions", "SeaLevel");
     ("InitialConditions", "OutletWidth");
     ("InitialConditions", "OutletBed");
     ("InitialConditions", "LagoonBed");
     ("InitialConditions", "BarrierElev");
     ("Time", "StartTime");
     ("Time", "EndTime");
     ("Time", "HydDt");
     ("Time", "MorDtMin");
     ("Time", "MorDtMax");
     ("PhysicalParameters", "Kcoef");
     ("PhysicalParameters", "WaveDataDepth");
     ("PhysicalParameters", "ClosureDepth");
     ("PhysicalParameters", "BeachSlope");
     ("PhysicalParameters", "RiverSlope");
     ("PhysicalParameters", "GrainSize");
     ("PhysicalParameters", "UpstreamLength");
     ("PhysicalParameters", "RiverWidth");
     ("PhysicalParameters", "RoughnessManning");
     ("PhysicalParameters", "GrainRoughness");
     ("PhysicalParameters", "WidthDepthRatio");
     ("PhysicalParameters", "BackshoreElev");
     ("PhysicalParameters", "MaxOutletElev");
     ("PhysicalParameters", "BeachTopElev");
     ("PhysicalParameters", "SpitWidth");
     ("PhysicalParameters", "TargetBarHeight");
     ("PhysicalParameters", "TargetBarWidth");
     ("PhysicalParameters", "MinOutletWidth");
     ("NumericalParameters", "Dx");
     ("OutputOptions", "OutInt");
     ("OutputOptions", "TsOutInt");
     ("OutputOptions", "LogInt")].
  Definition defaultValues : list (string * string * cval F) :=
    [("ShotnoiseHydrographParameters", "MeanDaysBetweenEvents", CNone);
     ("ShotnoiseHydrographParameters", "MeanEventIncrease", CNone);
     ("ShotnoiseHydrographParameters", "FastDecayRate", CNone);
     ("ShotnoiseHydrographParameters", "SlowDecayRate", CNone);
     ("ShotnoiseHydrographParameters", "FastFlowProp", CNone);
     ("ShotnoiseHydrographParameters", "RisingLimbTime", CNone);
     ("ShotnoiseHydrographParameters", "HydrographDt", CF (fofQ 60%Z 1%positive));
     ("ShotnoiseHydrographParameters", "RandomSeed", CNone);
     ("ShotnoiseHydrographParameters", "HydrographStart", CNone);
     ("HarmonicTideParameters", "MeanSeaLevel", CF (fofQ 0%Z 1%positive));
     ("HarmonicTideParameters", "TidalRange", CNone);
     ("HarmonicTideParameters", "SeaLevelDt", CF (fofQ 60%Z 1%positive));
     ("HotStart", "InitialConditionsNetCDF", CNone);
     ("HotStart", "HotStartTime", CNone);
     ("HotStart", "ContinueSimulation", CB false);
     ("SpatialInputs", "Shoreline", CNone);
     ("SpatialInputs", "RiverLocation", CNone);
     ("SpatialInputs", "BarrierBackshore", CNone);
     ("SpatialInputs", "CliffToe", CNone);
     ("SpatialInputs", "OutletLocation", CNone);
     ("SpatialInputs", "ShorelineLengthLeft", CNone);
     ("SpatialInputs", "ShorelineLengthRight", CNone);
     ("SpatialInputs", "BeachWidth", CNone);
     ("PhysicalParameters", "RhoSed", CF (fofQ 2650%Z 1%positive));
     ("PhysicalParameters", "RhoSea", CF (fofQ 1025%Z 1%positive));
     ("PhysicalParameters", "RhoRiv", CF (fofQ 1000%Z 1%positive));
     ("PhysicalParameters", "VoidRatio", CF (fofQ 3%Z 10%positive));
     ("PhysicalParameters", "Gravity", CF (fofQ 981%Z 100%positive));
     ("PhysicalParameters", "GammaRatio", CF (fofQ 5%Z 10%positive));
     ("PhysicalParameters", "CritShieldsStress", CF (fofQ 495%Z 10000%positive));
     ("PhysicalParameters", "MPM_coef", CF (fofQ 397%Z 100%positive));
     ("PhysicalParameters", "MPM_exp", CF (fofQ 15%Z 10%positive));
     ("PhysicalParameters", "OT_coef", CF (fofQ 2%Z 10000%positive));
     ("PhysicalParameters", "OT_exp", CF (fofQ 2%Z 1%positive));
     ("PhysicalParameters", "OutletSedSpreadDist", CF (fofQ 100%Z 1%positive));
     ("PhysicalParameters", "OutletBankEroFac", CF (fofQ 0%Z 1%positive));
     ("PhysicalParameters", "BarrierPermeability", CF (fofQ 0%Z 1%positive));
     ("PhysicalParameters", "ShorelineErosionRate", CF (fofQ 0%Z 1%positive));
     ("NumericalParameters", "Beta", CF (fofQ 105%Z 100%positive));
     ("NumericalParameters", "Theta", CF (fofQ 7%Z 10%positive));
     ("NumericalParameters", "Psi", CF (fofQ 4%Z 10%positive));
     ("NumericalParameters", "ErrTol", CF (fofQ 1%Z 1000%positive));
     ("NumericalParameters", "MaxIt", CI 30);
     ("NumericalParameters", "WarnTol", CF (fofQ 1%Z 10%positive));
     ("NumericalParameters", "MaxMorChange", CF (fofQ 5%Z 100%positive));
     ("OutputOptions", "OutFile", CNone);
     ("OutputOptions", "TsOutFile", CNone);
     ("OutputOptions", "PlotInt", CF (fofQ 0%Z 1%positive))].
  Definition floatLimits : list (string * string * option (Z * positive) * option (Z * positive)) :=
    [("ShotnoiseHydrographParameters", "MeanDaysBetweenEvents", Some (0%Z, 1%positive), None);
     ("ShotnoiseHydrographParameters", "MeanEventIncrease", Some (0%Z, 1%positive), None);
     ("ShotnoiseHydrographParameters", "FastDecayRate", Some (0%Z, 1%positive), None);
     ("ShotnoiseHydrographParameters", "SlowDecayRate", Some (0%Z, 1%positive), None);
     ("ShotnoiseHydrographParameters", "FastFlowProp", Some (0%Z, 1%positive), Some (1%Z, 1%positive));
     ("ShotnoiseHydrographParameters", "RisingLimbTime", Some (0%Z, 1%positive), None);
     ("ShotnoiseHydrographParameters", "HydrographDt", Some (0%Z, 1%positive), None);
     ("HarmonicTideParameters", "MeanSeaLevel", None, None);
     ("HarmonicTideParameters", "TidalRange", None, None);
     ("HarmonicTideParameters", "SeaLevelDt", Some (0%Z, 1%positive), None);
     ("SpatialInputs", "ShorelineLengthLeft", Some (0%Z, 1%positive), None);
     ("SpatialInputs", "ShorelineLengthRight", Some (0%Z, 1%positive), None);
     ("SpatialInputs", "BeachWidth", Some (0%Z, 1%positive), None);
     ("InitialConditions", "OutletWidth", Some (0%Z, 1%positive), None);
     ("InitialConditions", "OutletBed", None, None);
     ("InitialConditions", "LagoonBed", None, None);
     ("InitialConditions", "BarrierElev", None, None);
     ("Time", "HydDt", Some (0%Z, 1%positive), None);
     ("Time", "MorDtMin", Some (0%Z, 1%positive), None);
     ("Time", "MorDtMax", Some (0%Z, 1%positive), None);
     ("PhysicalParameters", "Kcoef", Some (0%Z, 1%positive), None);
     ("PhysicalParameters", "RhoSed", Some (0%Z, 1%positive), None);
     ("PhysicalParameters", "RhoSea", Some (0%Z, 1%positive), None);
     ("PhysicalParameters", "RhoRiv", Some (0%Z, 1%positive), None);
     ("PhysicalParameters", "VoidRatio", Some (0%Z, 1%positive), Some (1%Z, 1%positive));
     ("PhysicalParameters", "Gravity", Some (0%Z, 1%positive), None);
     ("PhysicalParameters", "GammaRatio", Some (0%Z, 1%positive), None);
     ("PhysicalParameters", "WaveDataDepth", Some (0%Z, 1%positive), None);
     ("PhysicalParameters", "ClosureDepth", Some (0%Z, 1%positive), None);
     ("PhysicalParameters", "BeachSlope", Some (0%Z, 1%positive), None);
     ("PhysicalParameters", "RiverSlope", Some (0%Z, 1%positive), Some (1%Z, 1%positive));
     ("PhysicalParameters", "GrainSize", Some (0%Z, 1%positive), Some (1%Z, 1%positive));
     ("PhysicalParameters", "CritShieldsStress", Some (0%Z, 1%positive), Some (1%Z, 10%positive));
     ("PhysicalParameters", "MPM_coef", Some (0%Z, 1%positive), None);
     ("PhysicalParameters", "MPM_exp", Some (0%Z, 1%positive), None);
     ("PhysicalParameters", "UpstreamLength", Some (0%Z, 1%positive), None);
     ("PhysicalParameters", "RiverWidth", Some (0%Z, 1%positive), None);
     ("PhysicalParameters", "RoughnessManning", Some (0%Z, 1%positive), Some (3%Z, 10%positive));
     ("PhysicalParameters", "GrainRoughness", Some (0%Z, 1%positive), Some (3%Z, 10%positive));
     ("PhysicalParameters", "WidthDepthRatio", Some (1%Z, 1%positive), None);
     ("PhysicalParameters", "BackshoreElev", Some (0%Z, 1%positive), None);
     ("PhysicalParameters", "MaxOutletElev", None, None);
     ("PhysicalParameters", "OT_coef", Some (0%Z, 1%positive), None);
     ("PhysicalParameters", "OT_exp", Some (1%Z, 1%positive), None);
     ("PhysicalParameters", "BeachTopElev", Some (0%Z, 1%positive), None);
     ("PhysicalParameters", "SpitWidth", Some (0%Z, 1%positive), None);
     ("PhysicalParameters", "TargetBarHeight", Some (0%Z, 1%positive), None);
     ("PhysicalParameters", "TargetBarWidth", Some (0%Z, 1%positive), None);
     ("PhysicalParameters", "MinOutletWidth", Some (0%Z, 1%positive), None);
     ("PhysicalParameters", "OutletSedSpreadDist", Some (0%Z, 1%positive), None);
     ("PhysicalParameters", "OutletBankEroFac", Some (0%Z, 1%positive), Some (1%Z, 1%positive));
     ("PhysicalParameters", "BarrierPermeability", Some (0%Z, 1%positive), None);
     ("PhysicalParameters", "ShorelineErosionRate", None, None);
     ("NumericalParameters", "Dx", Some (0%Z, 1%positive), None);
     ("NumericalParameters", "Beta", Some (0%Z, 1%positive), None);
     ("NumericalParameters", "Theta", Some (0%Z, 1%positive), Some (1%Z, 1%positive));
     ("NumericalParameters", "Psi", Some (0%Z, 1%positive), Some (5%Z, 10%positive));
     ("NumericalParameters", "ErrTol", Some (0%Z, 1%positive), None);
     ("NumericalParameters", "WarnTol", Some (0%Z, 1%positive), None);
     ("NumericalParameters", "MaxMorChange", Some (0%Z, 1%positive), None);
     ("OutputOptions", "OutInt", Some (0%Z, 1%positive), None);
     ("OutputOptions", "TsOutInt", Some (0%Z, 1%positive), None);
     ("OutputOptions", "LogInt", Some (0%Z, 1%positive), None);
     ("OutputOptions", "PlotInt", Some (0%Z, 1%positive), None)].
  Definition intLimits : list (string * string * option Z) :=
    [("ShotnoiseHydrographParameters", "RandomSeed", None); ("NumericalParameters", "MaxIt", Some 1%Z)].
  Definition booleanKeys : list (string * string) := [("HotStart", "ContinueSimulation")].
  Definition textKeys : list (string * string) :=
    [("", "ModelName"); ("BoundaryConditions", "RiverFlow"); ("BoundaryConditions", "WaveConditions");
     ("BoundaryConditions", "SeaLevel"); ("ShotnoiseHydrographParameters", "HydrographStart");
     ("HotStart", "InitialConditionsNetCDF"); ("HotStart", "HotStartTime"); ("SpatialInputs", "Shoreline");
     ("SpatialInputs", "RiverLocation"); ("SpatialInputs", "BarrierBackshore"); ("SpatialInputs", "CliffToe");
     ("SpatialInputs", "OutletLocation"); ("Time", "StartTime"); ("Time", "EndTime"); ("OutputOptions", "OutFile");
     ("OutputOptions", "TsOutFile")].
  (** The known keys. *)
  Definition knownKey (s k : string) : Prop :=
    In (s, k) textKeys \/ In (s, k) booleanKeys \/ (exists lo, In (s, k, lo) intLimits) \/
    (exists lo hi, In (s, k, lo, hi) floatLimits).

  (** Not smaller than [lo], not larger than [hi]; NaN is neither. *)
  Definition within (lo hi : option (Z * positive)) (x : F) : Prop :=
    (forall z p, lo = Some (z, p) -> fltb x (fofQ z p) = false) /\
    (forall z p, hi = Some (z, p) -> fltb (fofQ z p) x = false).
  Definition saysTrue (t : string) : Prop := exists w, In w ["on"; "1"; "true"; "yes"] /\ sameWord t w.
  Definition saysFalse (t : string) : Prop := exists w, In w ["off"; "0"; "false"; "no"] /\ sameWord t w.

  (** A file the specification allows. *)
  Definition wellFormed (X : conv F) (r : rawconf) : Prop :=
    (forall s k, In (s, k) requiredKeys -> r s k <> None) /\
    (forall s k v, In (s, k) textKeys -> r s k = Some v -> exists t, v = RStr t) /\
    (forall s k v, In (s, k) booleanKeys -> r s k = Some v -> exists t, v = RStr t /\ (saysTrue t \/ saysFalse t)) /\
    (forall s k lo v, In (s, k, lo) intLimits -> r s k = Some v ->
       exists t z, v = RStr t /\ txI X t = Some z /\ forall l, lo = Some l -> (l <= z)%Z) /\
    (forall s k lo hi v, In (s, k, lo, hi) floatLimits -> r s k = Some v ->
       exists t x, v = RStr t /\ txF X t = Some x /\ within lo hi x).

  (** The value a well-formed file gives a known key. *)
  Definition means (X : conv F) (r : rawconf) (s k : string) (v : cval F) : Prop :=
    (r s k = None /\ In (s, k, v) defaultValues) \/
    exists t, r s k = Some (RStr t) /\
      ((In (s, k) textKeys /\ v = CS t) \/
       (In (s, k) booleanKeys /\ exists b, v = CB b /\ if b then saysTrue t else saysFalse t) \/
       ((exists lo, In (s, k, lo) intLimits) /\ exists z, txI X t = Some z /\ v = CI z) \/
       ((exists lo hi, In (s, k, lo, hi) floatLimits) /\ exists x, txF X t = Some x /\ v = CF x)).

  (** Which entry of the loaded parameters belongs to which key. *)
  Definition physicalKeys : list (string * (phys F -> F)) :=
    [("Kcoef", pKcoef); ("RhoSed", pRhoSed); ("RhoSea", pRhoSea); ("RhoRiv", pRhoRiv); ("VoidRatio", pVoidRatio);
     ("Gravity", pGravity); ("GammaRatio", pGammaRatio); ("WaveDataDepth", pWaveDataDepth); ("ClosureDepth", pClosureDepth);
     ("BeachSlope", pBeachSlope); ("RiverSlope", pRiverSlope); ("GrainSize", pGrainSize);
     ("CritShieldsStress", pCritShields); ("MPM_coef", pMPM_coef); ("MPM_exp", pMPM_exp);
     ("UpstreamLength", pUpstreamLength); ("RiverWidth", pRiverWidth); ("RoughnessManning", pRoughness);
     ("GrainRoughness", pGrainRoughness); ("WidthDepthRatio", pWidthDepthRatio); ("BackshoreElev", pBackshoreElev);
     ("MaxOutletElev", pMaxOutletElev); ("OT_coef", pOT_coef); ("OT_exp", pOT_exp); ("BeachTopElev", pBeachTopElev);
     ("SpitWidth", pSpitWidth); ("TargetBarHeight", pTargetBarHeight); ("TargetBarWidth", pTargetBarWidth);
     ("MinOutletWidth", pMinOutletWidth); ("OutletSedSpreadDist", pOutletSedSpreadDist);
     ("OutletBankEroFac", pOutletBankEroFac); ("BarrierPermeability", pBarrierPermeability);
     ("ShorelineErosionRate", pShorelineErosionRate)].
  Definition numericalKeys : list (string * (nump F -> F)) :=
    [("Dx", nDx); ("Beta", nBeta); ("Theta", nTheta); ("Psi", nPsi); ("ErrTol", nErrTol); ("WarnTol", nWarnTol);
     ("MaxMorChange", nMaxMorChange)].
End Spec.

(** The characters of a name. *)
Definition contains (c : ascii) (s : string) : Prop := In c (list_ascii_of_string s).
Definition lacks (c : ascii) (s : string) : Prop := ~ contains c s.
(** Configuration file [base].[ext] in directory [dir]. *)
Definition fileIn (dir base ext file : string) : Prop :=
  file = dir ++ "/" ++ base ++ "." ++ ext /\ dir <> "" /\ (forall d, dir <> d ++ "/") /\
  lacks "/" base /\ lacks "/" ext /\ lacks "." ext /\ exists c, contains c base /\ c <> "."%char.
(** The same surroundings with another content of the configuration file. *)
Definition withConf {F} {NF : Num F} (W : world F) (r : rawconf) : world F :=
  mkWorld (wdIsFile W) (fun _ => r) (wdNc W) (wdShp W) (wdFit W) (wdSeries W) (wdWaves W) (wdDraws W).

(** A value respects the limits of its key; NaN respects all limits. *)
Definition notBelow (lo : option (Z * positive)) (x : xr) : Prop :=
  match lo, x with Some (z, p), Fin r => (IZR z / IZR (Zpos p) <= r)%R | Some _, NInf => False | _, _ => True end.
Definition notAbove (hi : option (Z * positive)) (x : xr) : Prop :=
  match hi, x with Some (z, p), Fin r => (r <= IZR z / IZR (Zpos p))%R | Some _, PInf => False | _, _ => True end.
(** Where an input named [n] in a configuration file in directory [dir] is looked for. *)
Definition resolved (dir n path : string) : Prop :=
  (n <> "" /\ (forall r, n <> "/" ++ r) /\ path = dir ++ "/" ++ n) \/ (exists r, n = "/" ++ r /\ path = n).
