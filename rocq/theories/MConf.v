(** Model of /repo/hapuamod/loadmod.py: validation of the configuration (with
    /repo/hapuamod/configspec.cnf) and the whole of loadModel.

    Arguments that stand for the outside world: conversion of text to numbers and
    instants and of numbers to durations, the contents of the files, np.polyfit and
    the random draws.  Not modelled: logging. *)
From Coq Require Import ZArith List Bool String Ascii.
From Verif Require Import Base Num MState MGeom MOut MCoast MRiv MMor MCore MLoad MSynth.
Import ListNotations.
Local Open Scope string_scope.

(** ** Paths (posixpath), for ASCII names *)
Definition isc (c : ascii) (d : ascii) : bool := Ascii.eqb c d.
Fixpoint hasc (c : ascii) (s : string) : bool :=
  match s with "" => false | String d r => isc d c || hasc c r end.
Definition slash : ascii := "/". Definition dot : ascii := ".".
(** os.path.split(s)[1] *)
Fixpoint baseName (s : string) : string :=
  match s with
  | "" => ""
  | String c r => if hasc slash r then baseName r else if isc c slash then r else s
  end.
(** os.path.split(s)[0]: up to the last slash, trailing slashes removed unless there is
    nothing else *)
Fixpoint dirRaw (s : string) : string :=
  match s with "" => "" | String c r => if hasc slash r || isc c slash then String c (dirRaw r) else "" end.
Fixpoint rstrip (c : ascii) (s : string) : string :=
  match s with
  | "" => ""
  | String d r => match rstrip c r with "" => if isc d c then "" else String d "" | r' => String d r' end
  end.
Definition dirName (s : string) : string :=
  match rstrip slash (dirRaw s) with "" => dirRaw s | d => d end.
(** os.path.splitext(s)[0] of a name without slash; leading dots are no extension *)
Fixpoint stemFrom (lead : bool) (s : string) : string :=
  match s with
  | "" => ""
  | String c r => if isc c dot && negb lead && negb (hasc dot r) then "" else String c (stemFrom (lead && isc c dot) r)
  end.
Definition stem (s : string) : string := stemFrom true s.
(** os.path.join(a, b) *)
Fixpoint endsc (c : ascii) (s : string) : bool :=
  match s with "" => false | String d "" => isc d c | String _ r => endsc c r end.
Definition joinPath (a b : string) : string :=
  match b with
  | String c _ => if isc c slash then b else if (String.eqb a "") || endsc slash a then a ++ b else a ++ "/" ++ b
  | "" => if (String.eqb a "") || endsc slash a then a else a ++ "/"
  end.
(** str.lower *)
Definition lowc (c : ascii) : ascii :=
  let n := nat_of_ascii c in if (Nat.leb 65 n && Nat.leb n 90)%bool then ascii_of_nat (n + 32) else c.
Fixpoint lower (s : string) : string := match s with "" => "" | String c r => String (lowc c) (lower r) end.

Section Conf.
  Context {F : Type} {NF : Num F}.

  (** ** configspec.cnf *)
  (** What is written behind a key: text, or a list (text with commas) or a section. *)
  Inductive raw := RStr (s : string) | ROther.
  (** A parsed configuration file: section and key; keys are unique (ConfigObj raises otherwise). *)
  Definition rawconf := string -> string -> option raw.
  Definition lit := (Z * positive)%type.
  Inductive vtype := TStr | TFloat (lo hi : option lit) | TInt (lo : option Z) | TBool.
  (** The default: none (the key is required), None, or a value.  Simplification: default
      values are stored converted; each passes its own check. *)
  Inductive dflt := DReq | DNone | DF (x : lit) | DI (z : Z) | DB (b : bool).
  Record centry := mkC { cSec : string; cKey : string; cTyp : vtype; cDef : dflt }.

  Definition zl (z : Z) : lit := (z, 1%positive).
  Definition pos0 : vtype := TFloat (Some (zl 0)) None.
  Definition upto (z : Z) (p : positive) : vtype := TFloat (Some (zl 0)) (Some (z, p)).
  Definition anyF : vtype := TFloat None None.
  Definition sBC := "BoundaryConditions". Definition sSN := "ShotnoiseHydrographParameters".
  Definition sHT := "HarmonicTideParameters". Definition sHS := "HotStart". Definition sSI := "SpatialInputs".
  Definition sIC := "InitialConditions". Definition sTi := "Time". Definition sPP := "PhysicalParameters".
  Definition sNP := "NumericalParameters". Definition sOO := "OutputOptions".
  (** configspec.cnf:1-105 *)
  Definition cspec : list centry := [
    mkC "" "ModelName" TStr DReq;
    mkC sBC "RiverFlow" TStr DReq; mkC sBC "WaveConditions" TStr DReq; mkC sBC "SeaLevel" TStr DReq;
    mkC sSN "MeanDaysBetweenEvents" pos0 DNone; mkC sSN "MeanEventIncrease" pos0 DNone;
    mkC sSN "FastDecayRate" pos0 DNone; mkC sSN "SlowDecayRate" pos0 DNone;
    mkC sSN "FastFlowProp" (upto 1 1) DNone; mkC sSN "RisingLimbTime" pos0 DNone;
    mkC sSN "HydrographDt" pos0 (DF (zl 60)); mkC sSN "RandomSeed" (TInt None) DNone; mkC sSN "HydrographStart" TStr DNone;
    mkC sHT "MeanSeaLevel" anyF (DF (zl 0)); mkC sHT "TidalRange" anyF DNone; mkC sHT "SeaLevelDt" pos0 (DF (zl 60));
    mkC sHS "InitialConditionsNetCDF" TStr DNone; mkC sHS "HotStartTime" TStr DNone; mkC sHS "ContinueSimulation" TBool (DB false);
    mkC sSI "Shoreline" TStr DNone; mkC sSI "RiverLocation" TStr DNone; mkC sSI "BarrierBackshore" TStr DNone;
    mkC sSI "CliffToe" TStr DNone; mkC sSI "OutletLocation" TStr DNone; mkC sSI "ShorelineLengthLeft" pos0 DNone;
    mkC sSI "ShorelineLengthRight" pos0 DNone; mkC sSI "BeachWidth" pos0 DNone;
    mkC sIC "OutletWidth" pos0 DReq; mkC sIC "OutletBed" anyF DReq; mkC sIC "LagoonBed" anyF DReq; mkC sIC "BarrierElev" anyF DReq;
    mkC sTi "StartTime" TStr DReq; mkC sTi "EndTime" TStr DReq; mkC sTi "HydDt" pos0 DReq; mkC sTi "MorDtMin" pos0 DReq; mkC sTi "MorDtMax" pos0 DReq;
    mkC sPP "Kcoef" pos0 DReq; mkC sPP "RhoSed" pos0 (DF (zl 2650)); mkC sPP "RhoSea" pos0 (DF (zl 1025)); mkC sPP "RhoRiv" pos0 (DF (zl 1000));
    mkC sPP "VoidRatio" (upto 1 1) (DF (3%Z, 10%positive)); mkC sPP "Gravity" pos0 (DF (981%Z, 100%positive)); mkC sPP "GammaRatio" pos0 (DF (5%Z, 10%positive));
    mkC sPP "WaveDataDepth" pos0 DReq; mkC sPP "ClosureDepth" pos0 DReq; mkC sPP "BeachSlope" pos0 DReq;
    mkC sPP "RiverSlope" (upto 1 1) DReq; mkC sPP "GrainSize" (upto 1 1) DReq; mkC sPP "CritShieldsStress" (upto 1 10) (DF (495%Z, 10000%positive));
    mkC sPP "MPM_coef" pos0 (DF (397%Z, 100%positive)); mkC sPP "MPM_exp" pos0 (DF (15%Z, 10%positive)); mkC sPP "UpstreamLength" pos0 DReq;
    mkC sPP "RiverWidth" pos0 DReq; mkC sPP "RoughnessManning" (upto 3 10) DReq; mkC sPP "GrainRoughness" (upto 3 10) DReq;
    mkC sPP "WidthDepthRatio" (TFloat (Some (zl 1)) None) DReq; mkC sPP "BackshoreElev" pos0 DReq; mkC sPP "MaxOutletElev" anyF DReq;
    mkC sPP "OT_coef" pos0 (DF (2%Z, 10000%positive)); mkC sPP "OT_exp" (TFloat (Some (zl 1)) None) (DF (zl 2)); mkC sPP "BeachTopElev" pos0 DReq;
    mkC sPP "SpitWidth" pos0 DReq; mkC sPP "TargetBarHeight" pos0 DReq; mkC sPP "TargetBarWidth" pos0 DReq; mkC sPP "MinOutletWidth" pos0 DReq;
    mkC sPP "OutletSedSpreadDist" pos0 (DF (zl 100)); mkC sPP "OutletBankEroFac" (upto 1 1) (DF (zl 0));
    mkC sPP "BarrierPermeability" pos0 (DF (zl 0)); mkC sPP "ShorelineErosionRate" anyF (DF (zl 0));
    mkC sNP "Dx" pos0 DReq; mkC sNP "Beta" pos0 (DF (105%Z, 100%positive)); mkC sNP "Theta" (upto 1 1) (DF (7%Z, 10%positive));
    mkC sNP "Psi" (upto 5 10) (DF (4%Z, 10%positive)); mkC sNP "ErrTol" pos0 (DF (1%Z, 1000%positive)); mkC sNP "MaxIt" (TInt (Some 1%Z)) (DI 30);
    mkC sNP "WarnTol" pos0 (DF (1%Z, 10%positive)); mkC sNP "MaxMorChange" pos0 (DF (5%Z, 100%positive));
    mkC sOO "OutFile" TStr DNone; mkC sOO "TsOutFile" TStr DNone; mkC sOO "OutInt" pos0 DReq; mkC sOO "TsOutInt" pos0 DReq;
    mkC sOO "LogInt" pos0 DReq; mkC sOO "PlotInt" pos0 (DF (zl 0)) ].

  (** ** Validation (configobj, validate) *)
  (** Conversions of text (float, int, pd.to_datetime) and of a number of seconds, minutes
      or days to a duration (pd.Timedelta). *)
  Record conv := mkConv {
    txF : string -> option F; txI : string -> option Z; txTime : string -> res Z;
    tdSec : F -> res Z; tdMin : F -> res Z; tdDay : F -> res Z
  }.
  Inductive cval := CNone | CS (s : string) | CF (x : F) | CI (z : Z) | CB (b : bool).
  Definition litF (l : lit) : F := fofQ (fst l) (snd l).
  (** validate.bool_dict *)
  Definition txB (s : string) : option bool :=
    let l := lower s in
    if existsb (String.eqb l) ["on"; "1"; "true"; "yes"] then Some true
    else if existsb (String.eqb l) ["off"; "0"; "false"; "no"] then Some false else None.
  (** validate.is_string, is_float, is_integer, is_boolean: None is a failed check.  The
      range checks are [value < min] and [value > max], so NaN passes them. *)
  Definition checkVal (X : conv) (t : vtype) (s : string) : option cval :=
    match t with
    | TStr => Some (CS s)
    | TFloat lo hi =>
      match txF X s with
      | None => None
      | Some x =>
        if match lo with Some l => fltb x (litF l) | None => false end then None
        else if match hi with Some h => fltb (litF h) x | None => false end then None
        else Some (CF x)
      end
    | TInt lo =>
      match txI X s with
      | None => None
      | Some z => if match lo with Some l => (z <? l)%Z | None => false end then None else Some (CI z)
      end
    | TBool => match txB s with Some b => Some (CB b) | None => None end
    end.
  Definition defVal (d : dflt) : option cval :=
    match d with
    | DReq => None | DNone => Some CNone | DF x => Some (CF (litF x)) | DI z => Some (CI z) | DB b => Some (CB b)
    end.
  (** Validator.check for one key *)
  Definition entryVal (X : conv) (r : rawconf) (e : centry) : option cval :=
    match r (cSec e) (cKey e) with
    | None => defVal (cDef e)
    | Some (RStr s) => checkVal X (cTyp e) s
    | Some ROther => None
    end.
  Definition conf := string -> string -> option cval.
  (** loadmod.py:239-249: the converted values, or ConfigError.  Keys that are not in the
      specification are ignored. *)
  Definition validate (X : conv) (r : rawconf) : res conf :=
    if forallb (fun e => match entryVal X r e with Some _ => true | None => false end) cspec
    then Ok (fun s k => match find (fun e => String.eqb (cSec e) s && String.eqb (cKey e) k) cspec with
                        | Some e => entryVal X r e
                        | None => None
                        end)
    else Exc EConfig.

  (** Config[s][k] used as a number, an integer, a string; None gives TypeError. *)
  Definition getF (c : conf) (s k : string) : res F :=
    match c s k with Some (CF x) => Ok x | Some _ => Exc EType | None => Exc EKey end.
  Definition getI (c : conf) (s k : string) : res Z :=
    match c s k with Some (CI x) => Ok x | Some _ => Exc EType | None => Exc EKey end.
  Definition getS (c : conf) (s k : string) : res string :=
    match c s k with Some (CS x) => Ok x | Some _ => Exc EType | None => Exc EKey end.
  Definition optS (c : conf) (s k : string) : option string :=
    match c s k with Some (CS x) => Some x | _ => None end.
  Definition optF (c : conf) (s k : string) : option F :=
    match c s k with Some (CF x) => Some x | _ => None end.
  Definition optI (c : conf) (s k : string) : option Z :=
    match c s k with Some (CI x) => Some x | _ => None end.
  Definition flag (c : conf) (s k : string) : bool :=
    match c s k with Some (CB b) => b | _ => false end.

  (** loadmod.py:257-262 *)
  Definition timeOf (X : conv) (c : conf) : res timep :=
    let! a := getS c sTi "StartTime" in let! a := txTime X a in
    let! z := getS c sTi "EndTime" in let! z := txTime X z in
    let! h := getF c sTi "HydDt" in let! h := tdSec X h in
    let! m := getF c sTi "MorDtMin" in let! m := tdSec X m in
    let! x := getF c sTi "MorDtMax" in let! x := tdSec X x in
    Ok (mkTime a z h m x).

  (** loadmod.py:267-282.  The four derived entries are filled by [derive] (MLoad.v);
      Python raises ZeroDivisionError for the three zero divisors.  Simplification: a
      power too large for a float (OverflowError) is not modelled. *)
  Definition physOf (c : conf) : res (phys F) :=
    let g := getF c sPP in
    let! kc := g "Kcoef" in let! rs := g "RhoSed" in let! rw := g "RhoSea" in let! rr := g "RhoRiv" in
    let! vr := g "VoidRatio" in let! gr := g "Gravity" in let! ga := g "GammaRatio" in let! wd := g "WaveDataDepth" in
    let! cd := g "ClosureDepth" in let! bs := g "BeachSlope" in let! sl := g "RiverSlope" in let! gs := g "GrainSize" in
    let! cs := g "CritShieldsStress" in let! mc := g "MPM_coef" in let! me := g "MPM_exp" in let! ul := g "UpstreamLength" in
    let! rwd := g "RiverWidth" in let! rm := g "RoughnessManning" in let! gro := g "GrainRoughness" in let! wdr := g "WidthDepthRatio" in
    let! be := g "BackshoreElev" in let! mo := g "MaxOutletElev" in let! oc := g "OT_coef" in let! oe := g "OT_exp" in
    let! bt := g "BeachTopElev" in let! sw := g "SpitWidth" in let! th := g "TargetBarHeight" in let! tw := g "TargetBarWidth" in
    let! mw := g "MinOutletWidth" in let! sd := g "OutletSedSpreadDist" in let! ef := g "OutletBankEroFac" in
    let! bp := g "BarrierPermeability" in let! er := g "ShorelineErosionRate" in
    if feqb (fmul (fmul (fsub rs rw) gr) (fsub f1 vr)) f0 then Exc EZeroDiv
    else if feqb (fmul (fmul rw (fpow gr (fofQ 15 10))) (fpow ga (fofZ 2))) f0 then Exc EZeroDiv
    else if feqb (fsub tw sw) f0 then Exc EZeroDiv
    else Ok (derive (mkPhys rs rw rr gr kc vr ga wd cd bs sl gs cs mc me ul rwd rm gro wdr be mo oc oe bt sw th tw mw sd ef bp er
                            fnan fnan fnan fnan)).

  (** loadmod.py:285 *)
  Definition numOf (c : conf) : res (nump F) :=
    let g := getF c sNP in
    let! dx := g "Dx" in let! be := g "Beta" in let! th := g "Theta" in let! ps := g "Psi" in let! et := g "ErrTol" in
    let! mi := getI c sNP "MaxIt" in let! wt := g "WarnTol" in let! mm := g "MaxMorChange" in
    Ok (mkNum dx be th ps et (Z.to_nat mi) wt mm).

  (** loadmod.py:291 *)
  Definition iniOf (c : conf) : res (inicond F) :=
    let g := getF c sIC in
    let! lb := g "LagoonBed" in let! ob := g "OutletBed" in let! ow := g "OutletWidth" in let! be := g "BarrierElev" in
    Ok (mkIni lb ob ow be).

  (** ** Files *)
  (** shapefile.Reader: shape type and shapes *)
  Record shp := mkShp { shType : Z; shShapes : list (list (F * F)) }.
  (** One row of the wave file: EDir_h, WavePower, WavePeriod, Wlen_h, Hsig_Offshore. *)
  Record wrow := mkWr { wrDir : F; wrPow : F; wrPer : F; wrLen : F; wrHs : F }.
  Record world := mkWorld {
    wdIsFile : string -> bool;
    wdConf : string -> rawconf;
    wdNc : string -> option (ncfile F * (F * F) * F);       (* with ModelOrigin and ModelOrientation *)
    wdShp : string -> option shp;
    wdFit : list (F * F) -> F * F;
    wdSeries : string -> res (list (Z * F));
    wdWaves : string -> res (list (Z * wrow));
    wdDraws : option Z -> list (F * F)                       (* draws after seeding *)
  }.
  (** A shapefile that must hold one shape of type [ty]: loadmod.py:372-427 *)
  Definition oneShape (W : world) (dir : string) (name : option string) (ty : Z) : res (list (F * F)) :=
    match name with
    | None => Exc EType
    | Some n =>
      let! s := of_opt EFile (wdShp W (joinPath dir n)) in
      let! _ := assert_ (shType s =? ty)%Z in
      match shShapes s with [l] => Ok l | _ => Exc EAssert end
    end.

  (** What loadModel returns (loadmod.py:701-706), without the model name. *)
  Record model := mkModel {
    mdFlow : list (Z * F); mdWaves : list (Z * wrow); mdSea : list (Z * F); mdOrigin : F * F; mdDir : F;
    mdT : list (tsect F); mdRiver : list F; mdE0 : F; mdE1 : F; mdW : F; mdZ : F; mdRWL : list F; mdRVel : list F;
    mdLWL : list F; mdLVel : list F; mdODep : list F; mdOVel : list F; mdEDep : list F; mdEVel : list F; mdClosed : bool;
    mdTP : timep; mdP : phys F; mdN : nump F; mdOut : string; mdTsOut : string;
    mdOutInt : Z; mdTsInt : Z; mdLogInt : Z; mdPlotInt : Z
  }.
  (** The spatial part of it: origin, orientation, state, start time. *)
  Definition spatial := ((F * F) * F * hot F)%type.

  (** loadmod.py:571-579: hydraulic variables of a cold start *)
  Definition cold (T : list (tsect F)) (e0 e1 W Z0 : F) (river : list F) (start : Z) : hot F :=
    let z := map (fun _ => f0) T in
    let zr := map (fun _ => f0) river in
    mkHot T e0 e1 W Z0 river zr zr z z z z [f0; f0] [f0; f0] false start.

  (** loadmod.py:288-298: np.arange with step zero raises ZeroDivisionError *)
  Definition riverOf (P : phys F) (Dx : F) (I : inicond F) : res (list F) :=
    if feqb (fmul (pRiverSlope P) Dx) f0 then Exc EZeroDiv else Ok (iniRiver P Dx I).

  (** loadmod.py:288-579, 642-646.  [r32]: float32 rounding of the stored positions.
      Simplifications: the second half of the hot start (642-646) is taken together with the
      first; HotStartTime None raises TypeError. *)
  Definition spatialOf (X : conv) (W : world) (r32 : F -> F) (c : conf) (dir : string) (P : phys F) (Dx : F) (start : Z) : res spatial :=
    match optS c sHS "InitialConditionsNetCDF" with
    | Some n =>
      let! (f, o, deg) := of_opt EFile (wdNc W (joinPath dir n)) in
      let! t := getS c sHS "HotStartTime" in
      let! want := txTime X t in
      let! h := hotLoad r32 f want start (flag c sHS "ContinueSimulation") Dx in
      Ok (o, deg2rad deg, h)
    | None =>
      let! ic := iniOf c in
      let! river := riverOf P Dx ic in
      match optS c sSI "Shoreline" with
      | None =>
        match optF c sSI "ShorelineLengthLeft", optF c sSI "ShorelineLengthRight", optF c sSI "BeachWidth" with
        | Some l, Some r, Some b =>
          let '(T, e0, e1, w, z) := straightShore P ic Dx l r b in
          Ok ((f0, f0), f0, cold T e0 e1 w z river start)
        | _, _, _ => Exc EAssert
        end
      | Some sh =>
        let! shore := oneShape W dir (Some sh) 3 in
        let! inflow := oneShape W dir (optS c sSI "RiverLocation") 1 in
        let! inflow := ix inflow 0 in
        let! lagoon := oneShape W dir (optS c sSI "BarrierBackshore") 3 in
        let! cliff := oneShape W dir (optS c sSI "CliffToe") 3 in
        let! outlet := oneShape W dir (optS c sSI "OutletLocation") 3 in
        let! (T, e0, e1, w, z, o, d) := shapeShore P ic Dx (wdFit W shore) inflow shore lagoon cliff outlet in
        Ok (o, d, cold T e0 e1 w z river start)
      end
    end.

  (** loadmod.py:585-608.  pd.Timedelta of a float number of minutes or days; an output
      interval that is not positive is refused by pandas (date_range, resample). *)
  Definition flowOf (X : conv) (W : world) (c : conf) (dir : string) (start stop : Z) : res (list (Z * F)) :=
    let! n := getS c sBC "RiverFlow" in
    if String.eqb (lower n) "shotnoise" then
      let! s := match optS c sSN "HydrographStart" with Some t => txTime X t | None => Ok start end in
      let! i := getF c sSN "HydrographDt" in let! i := tdMin X i in
      let! g := getF c sSN "MeanDaysBetweenEvents" in let! g := tdDay X g in
      let! m := getF c sSN "MeanEventIncrease" in
      let! d1 := getF c sSN "FastDecayRate" in
      let! p1 := getF c sSN "FastFlowProp" in
      let! r := getF c sSN "RisingLimbTime" in let! r := tdDay X r in
      if (i <=? 0)%Z then Exc EValue
      else shotNoise (wdDraws W (optI c sSN "RandomSeed")) s stop i g m d1 p1 (optF c sSN "SlowDecayRate") r None
    else wdSeries W (joinPath dir n).

  (** loadmod.py:610-621 *)
  Definition wavesOf (W : world) (c : conf) (dir : string) (shoreNorm : F) : res (list (Z * wrow)) :=
    let! n := getS c sBC "WaveConditions" in
    let! l := wdWaves W (joinPath dir n) in
    Ok (map (fun p => (fst p, mkWr (waveDir shoreNorm (wrDir (snd p))) (wrPow (snd p)) (wrPer (snd p)) (wrLen (snd p)) (wrHs (snd p)))) l).

  (** loadmod.py:623-638 *)
  Definition seaOf (X : conv) (W : world) (c : conf) (dir : string) (start stop : Z) : res (list (Z * F)) :=
    let! n := getS c sBC "SeaLevel" in
    if String.eqb (lower n) "harmonic" then
      let! i := getF c sHT "SeaLevelDt" in let! i := tdMin X i in
      let! m := getF c sHT "MeanSeaLevel" in
      let! r := getF c sHT "TidalRange" in
      if (i <=? 0)%Z then Exc EValue else Ok (harmonicTide start stop i m r)
    else wdSeries W (joinPath dir n).

  (** loadmod.py:677-684 *)
  Definition outNames (c : conf) (file : string) : string * string :=
    let b := stem (baseName file) in
    (match optS c sOO "OutFile" with Some n => n | None => b ++ "_outputs.nc" end,
     match optS c sOO "TsOutFile" with Some n => n | None => b ++ "_TSoutputs.nc" end).

  (** loadmod.py:225-706 *)
  Definition loadModel (X : conv) (W : world) (r32 : F -> F) (file : string) : res model :=
    if negb (wdIsFile W file) then Exc EFile
    else
      let! c := validate X (wdConf W file) in
      let dir := dirName file in
      let! TP := timeOf X c in
      let! P := physOf c in
      let! N := numOf c in
      let! (o, d, h) := spatialOf X W r32 c dir P (nDx N) (tStart TP) in
      let! flow := flowOf X W c dir (tStart TP) (tEnd TP) in
      let! waves := wavesOf W c dir d in
      let! sea := seaOf X W c dir (tStart TP) (tEnd TP) in
      let TP := mkTime (htStart h) (tEnd TP) (tHydDt TP) (tMorDtMin TP) (tMorDtMax TP) in
      let! flow := trimSeries (tStart TP) (tEnd TP) (tMorDtMax TP) flow in
      let! waves := trimSeries (tStart TP) (tEnd TP) (tMorDtMax TP) waves in
      let! sea := trimSeries (tStart TP) (tEnd TP) (tMorDtMax TP) sea in
      let! oi := getF c sOO "OutInt" in let! oi := tdSec X oi in
      let! ti := getF c sOO "TsOutInt" in let! ti := tdSec X ti in
      let! li := getF c sOO "LogInt" in let! li := tdSec X li in
      let! pi := getF c sOO "PlotInt" in let! pi := tdSec X pi in
      let (out, ts) := outNames c file in
      Ok (mkModel flow waves sea o d (htT h) (htRiver h) (htE0 h) (htE1 h) (htW h) (htZ h) (htRWL h) (htRVel h)
                  (htLWL h) (htLVel h) (htODep h) (htOVel h) (htEDep h) (htEVel h) (htClosed h) TP P N out ts oi ti li pi).

  (** core.py:28-33: the loaded model as the fixed data of a run *)
  Definition col (f : wrow -> F) (l : list (Z * wrow)) : series F := map (fun p => (fst p, f (snd p))) l.
  Definition envOf (m : model) : env F :=
    mkEnv (mdP m) (mdN m) (mdTP m) (mdFlow m) (mdSea m)
          (mkWaves (col wrDir (mdWaves m)) (col wrPow (mdWaves m)) (col wrPer (mdWaves m)) (col wrLen (mdWaves m)) (col wrHs (mdWaves m)))
          (mdOutInt m) (mdTsInt m).
  (** core.py:28-106: load and start *)
  Definition start (X : conv) (W : world) (r32 : F -> F) (file : string) : res (env F * state F) :=
    let! m := loadModel X W r32 file in
    let! s := init (envOf m) (mdT m) (mdE0 m) (mdE1 m) (mdW m) (mdZ m) (mdRiver m) (mdRWL m) (mdRVel m)
                   (mdLWL m) (mdLVel m) (mdODep m) (mdOVel m) (mdEDep m) (mdEVel m) (mdClosed m) in
    Ok (envOf m, s).
End Conf.
Arguments rawconf : clear implicits. Arguments conv : clear implicits. Arguments cval : clear implicits. Arguments world : clear implicits.
Arguments model : clear implicits. Arguments conf : clear implicits. Arguments shp : clear implicits. Arguments wrow : clear implicits.
