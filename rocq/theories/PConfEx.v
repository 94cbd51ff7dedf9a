Set Warnings "-inexact-float".
(** Examples for the loading of a configuration: /repo/inputs/SimplifiedSynthetic.cnf with a
    shorter coast, river and period. *)
From Coq Require Import ZArith List Bool Floats String Ascii.
From Verif Require Import Base Num Flt Sim SimEx MState MGeom MOut MCoast MRiv MMor MCore MLoad MSynth MConf SConf SRun SAdapt SOut PConf PConf2 PConf3 PConf4.
Import ListNotations.
Local Open Scope string_scope.

(** Decimal numbers such as -1.25 and the word nan. *)
Definition digit (c : ascii) : option Z :=
  let n := nat_of_ascii c in if (Nat.leb 48 n && Nat.leb n 57)%bool then Some (Z.of_nat n - 48)%Z else None.
Fixpoint digits (s : string) (acc den : Z) (frac : bool) : option (Z * Z) :=
  match s with
  | "" => Some (acc, den)
  | String c r =>
    match digit c with
    | Some d => digits r (10 * acc + d)%Z (if frac then 10 * den else den)%Z frac
    | None => if isc c dot && negb frac then digits r acc den true else None
    end
  end.
Definition decimal (s : string) : option (Z * Z) :=
  match s with
  | "" => None
  | String c r => if isc c "-" then match digits r 0 1 false with Some (a, d) => Some (- a, d)%Z | None => None end else digits s 0 1 false
  end.
Definition exF (s : string) : option float :=
  if String.eqb (lower s) "nan" then Some PrimFloat.nan
  else match decimal s with Some (a, d) => Some (PrimFloat.div (zfloat a) (zfloat d)) | None => None end.
Definition exI (s : string) : option Z := match decimal s with Some (a, 1%Z) => Some a | _ => None end.
Definition exDates : list (string * Z) := [("1 Sep 2000", 0%Z); ("1 Sep 2000 06:00", 21600%Z); ("31 Aug 2000", (-86400)%Z)].
Definition exTime (s : string) : res Z :=
  match find (fun p => String.eqb (fst p) s) exDates with Some p => Ok (sec (snd p)) | None => Exc EValue end.
Definition exDur (unit : float) (x : float) : res Z :=
  if PrimFloat.is_nan x then Exc EValue else Ok (float_floor (PrimFloat.mul (PrimFloat.mul x unit) 1e9)).
Definition exX : conv float := @mkConv float exF exI exTime (exDur 1) (exDur 60) (exDur 86400).

Definition entries := list (string * string * string).
Definition exEntries : entries :=
  [("", "ModelName", "Hurunui hapua");
   (sBC, "RiverFlow", "LagoonInflow.csv"); (sBC, "WaveConditions", "WaveDataRotated.csv"); (sBC, "SeaLevel", "Harmonic");
   (sHT, "TidalRange", "1.44"); (sHT, "SeaLevelDt", "30");
   (sSI, "ShorelineLengthLeft", "200"); (sSI, "ShorelineLengthRight", "100"); (sSI, "BeachWidth", "40");
   (sIC, "OutletWidth", "35"); (sIC, "OutletBed", "-1.0"); (sIC, "LagoonBed", "-1.0"); (sIC, "BarrierElev", "3.5");
   (sTi, "StartTime", "1 Sep 2000"); (sTi, "EndTime", "1 Sep 2000 06:00"); (sTi, "HydDt", "5"); (sTi, "MorDtMin", "15"); (sTi, "MorDtMax", "3840");
   (sPP, "Kcoef", "0.017"); (sPP, "RhoSed", "2650"); (sPP, "VoidRatio", "0.4"); (sPP, "WaveDataDepth", "10.0"); (sPP, "ClosureDepth", "5.0");
   (sPP, "BeachSlope", "0.13"); (sPP, "RiverSlope", "0.003"); (sPP, "GrainSize", "0.018"); (sPP, "UpstreamLength", "100"); (sPP, "RiverWidth", "100");
   (sPP, "RoughnessManning", "0.04"); (sPP, "GrainRoughness", "0.035"); (sPP, "WidthDepthRatio", "30"); (sPP, "BackshoreElev", "10");
   (sPP, "MaxOutletElev", "-2.0"); (sPP, "OT_coef", "0.00015"); (sPP, "BeachTopElev", "2"); (sPP, "SpitWidth", "10"); (sPP, "TargetBarHeight", "5.5");
   (sPP, "TargetBarWidth", "90"); (sPP, "MinOutletWidth", "1.0"); (sPP, "OutletBankEroFac", "0.5"); (sPP, "BarrierPermeability", "0.001");
   (sNP, "Dx", "20"); (sNP, "Beta", "0"); (sNP, "MaxMorChange", "0.1");
   (sOO, "OutInt", "10800"); (sOO, "TsOutInt", "900"); (sOO, "LogInt", "3600")].
(** Later entries first. *)
Definition written (l : entries) : rawconf := fun s k =>
  match find (fun e => String.eqb (fst (fst e)) s && String.eqb (snd (fst e)) k) l with Some e => Some (RStr (snd e)) | None => None end.
Definition exFile : string := "/home/hapua/Synthetic.v2.cnf".
Definition exSeries (n : string) : res (list (Z * float)) :=
  if String.eqb n "/home/hapua/LagoonInflow.csv" then Ok [(sec (-90000), 60%float); (sec 90000, 60%float)] else Exc EFile.
Definition exWaves (n : string) : res (list (Z * wrow float)) :=
  if String.eqb n "/home/hapua/WaveDataRotated.csv"
  then let w := mkWr 10%float 1000%float 8%float 70%float 1%float in Ok [(sec (-90000), w); (sec 90000, w)] else Exc EFile.
Definition exDraws (_ : option Z) : list (float * float) := repeat (0.5, 0.5)%float 40.
Definition exWorldNc (nc : string -> option (ncfile float * (float * float) * float)) (l : entries) : world float :=
  @mkWorld float (fun _ => true) (fun _ => written l) nc (fun _ => None) (fun _ => (0, 0)%float) exSeries exWaves exDraws.
Definition exWorld : entries -> world float := exWorldNc (fun _ => None).
Definition exLoad (l : entries) (file : string) : res (model float) := @loadModel float sim_num exX (exWorld l) (fun x => x) file.
Definition exStart (l : entries) : res (env float * state float) := @start float sim_num exX (exWorld l) (fun x => x) exFile.
Definition exDo (l : entries) (n : nat) : res (state float) :=
  match exStart l with Ok (v, s) => @steps float sim_num 40 n 0 simOr v s | Exc e => Exc e end.

(** ** Loading *)
Definition isOk {A} (r : res A) : bool := match r with Ok _ => true | Exc _ => false end.
Lemma isOk_ex {A} (r : res A) : isOk r = true -> exists a, r = Ok a.
Proof. destruct r; [eauto|discriminate]. Qed.
Lemma ex_valid : exists c, @validate float sim_num exX (written exEntries) = Ok c.
Proof. apply isOk_ex. vm_compute. reflexivity. Qed.
Lemma ex_loads : exists m, exLoad exEntries exFile = Ok m.
Proof. apply isOk_ex. vm_compute. reflexivity. Qed.
Definition clockOf (r : res (state float)) : res (Z * Z) := match r with Ok s => Ok (gTime s, gDt s) | Exc e => Exc e end.
Lemma ex_runs : clockOf (exDo exEntries 2) = Ok (sec 2880, sec 1920).
Proof. vm_compute. reflexivity. Qed.
Lemma ex_name : fileIn "/home/hapua" "Synthetic.v2" "cnf" exFile.
Proof.
  split; [reflexivity|]. split; [discriminate|]. split.
  { intros d H. assert (E : endsc slash (d ++ "/") = true) by (clear; induction d as [|c [|e d] IH]; [reflexivity|reflexivity|exact IH]).
    rewrite <- H in E. discriminate. }
  unfold lacks, contains. cbn. repeat split; try (intros H; repeat destruct H as [H|H]; try discriminate; exact H).
  exists "S"%char. split; [left; reflexivity|discriminate].
Qed.

(** ** Accepted although unusable *)
(** A transect spacing that is not a number is accepted. *)
Lemma ex_nan : exists r c, @validate float sim_num exX r = Ok c /\ c "NumericalParameters" "Dx" = Some (CF PrimFloat.nan) /\
  In ("NumericalParameters", "Dx", Some (0%Z, 1%positive), None) floatLimits /\ PrimFloat.leb 0 PrimFloat.nan = false.
Proof.
  exists (written (("NumericalParameters", "Dx", "NaN") :: exEntries)).
  assert (V : isOk (@validate float sim_num exX (written (("NumericalParameters", "Dx", "NaN") :: exEntries))) = true) by (vm_compute; reflexivity).
  apply isOk_ex in V as (c & V). exists c. split; [exact V|]. split.
  - etransitivity; [exact (conf_entry (NF := sim_num) exX _ c (mkC sNP "Dx" pos0 DReq) V ltac:(unfold cspec; repeat (first [left; reflexivity|right])))|]. vm_compute. reflexivity.
  - split; [unfold floatLimits; repeat (first [left; reflexivity|right])|reflexivity].
Qed.
(** A misspelt optional key: the default is used and nothing reported. *)
Definition exTypo : entries := ("PhysicalParameters", "ShoreLineErosionRate", "0.5") :: exEntries.
Lemma ex_typo : exists c, @validate float sim_num exX (written exTypo) = Ok c /\ c "PhysicalParameters" "ShorelineErosionRate" = Some (CF 0%float) /\
  written exTypo "PhysicalParameters" "ShoreLineErosionRate" = Some (RStr "0.5").
Proof.
  assert (V : isOk (@validate float sim_num exX (written exTypo)) = true) by (vm_compute; reflexivity).
  apply isOk_ex in V as (c & V). exists c. split; [exact V|]. split; [|reflexivity].
  etransitivity; [exact (conf_entry (NF := sim_num) exX _ c (mkC sPP "ShorelineErosionRate" anyF (DF (zl 0))) V ltac:(unfold cspec; repeat (first [left; reflexivity|right])))|]. vm_compute. reflexivity.
Qed.
(** A morphological step below the hydraulic step. *)
Definition timesOf (r : res (env float * state float)) : res (Z * Z * Z * Z) :=
  match r with Ok (v, _) => Ok (tStart (vTP v), tEnd (vTP v), tHydDt (vTP v), tMorDtMin (vTP v)) | Exc e => Exc e end.
Lemma times_ok r a b c d : timesOf r = Ok (a, b, c, d) ->
  exists v s, r = Ok (v, s) /\ tStart (vTP v) = a /\ tEnd (vTP v) = b /\ tHydDt (vTP v) = c /\ tMorDtMin (vTP v) = d.
Proof. destruct r as [[v s]|]; [|discriminate]. cbn. intros H. apply Ok_inj in H. inversion H; subst. exists v, s. auto. Qed.
Lemma ex_stuck : exists v s, exStart (("Time", "MorDtMin", "4") :: exEntries) = Ok (v, s) /\
  forall af o s', @step float sim_num af o v s <> Ok s'.
Proof.
  assert (E : timesOf (exStart (("Time", "MorDtMin", "4") :: exEntries)) = Ok (0%Z, sec 21600, sec 5, sec 4)) by (vm_compute; reflexivity).
  apply times_ok in E as (v & s & E & _ & _ & H & M). exists v, s. split; [exact E|]. intros af o s'.
  eapply (start_stuck (NF := sim_num)); [exact E| |]; rewrite H, ?M; reflexivity.
Qed.
(** An end before the start, with series that reach from the start to the end. *)
Definition exBack : entries := ("Time", "EndTime", "31 Aug 2000") :: ("BoundaryConditions", "SeaLevel", "LagoonInflow.csv") :: exEntries.
Lemma ex_back : exists v s, exStart exBack = Ok (v, s) /\ (tEnd (vTP v) < tStart (vTP v))%Z /\
  forall af fuel o, @loop float sim_num af fuel 0 o v s = Ok s.
Proof.
  assert (E : timesOf (exStart exBack) = Ok (0%Z, sec (-86400), sec 5, sec 15)) by (vm_compute; reflexivity).
  apply times_ok in E as (v & s & E & S & T & _). exists v, s. split; [exact E|]. rewrite S, T. split; [reflexivity|]. intros af fuel o.
  eapply (start_backwards (NF := sim_num)); [exact E|]. rewrite S, T. reflexivity.
Qed.

(** ** Output names *)
Definition exAbs : entries :=
  ("BoundaryConditions", "RiverFlow", "/home/hapua/LagoonInflow.csv") :: ("BoundaryConditions", "WaveConditions", "/home/hapua/WaveDataRotated.csv") :: exEntries.
Definition namesOf (r : res (model float)) : res (string * string) := match r with Ok m => Ok (mdOut m, mdTsOut m) | Exc e => Exc e end.
Lemma ex_clash : namesOf (exLoad exAbs "/home/run1/Base.cnf") = Ok ("Base_outputs.nc", "Base_TSoutputs.nc") /\
  namesOf (exLoad exAbs "/home/run2/Base.cnf") = Ok ("Base_outputs.nc", "Base_TSoutputs.nc").
Proof. split; vm_compute; reflexivity. Qed.
Lemma ex_same_name : namesOf (exLoad (("OutputOptions", "OutFile", "a.nc") :: ("OutputOptions", "TsOutFile", "a.nc") :: exEntries) exFile) = Ok ("a.nc", "a.nc").
Proof. vm_compute. reflexivity. Qed.

(** ** Sources *)
Definition shotEntries : entries :=
  ([("BoundaryConditions", "RiverFlow", "ShotNoise"); (sSN, "MeanDaysBetweenEvents", "15"); (sSN, "MeanEventIncrease", "100"); (sSN, "FastDecayRate", "0.3");
   (sSN, "FastFlowProp", "0.85"); (sSN, "RisingLimbTime", "1.0"); (sSN, "RandomSeed", "1")] ++ exEntries)%list.
Lemma ex_shot : isOk (exLoad ((sSN, "SlowDecayRate", "0.015") :: shotEntries) exFile) = true /\ isOk (exLoad shotEntries exFile) = false.
Proof. split; vm_compute; reflexivity. Qed.

(** ** From a configuration to results, and from the results to a hot start *)
Definition exSaved : res (ncfile float) :=
  let! s := exDo (("OutputOptions", "OutInt", "900") :: exEntries) 2 in
  @writeAll float sim_num (fun x => x) (mkNc (map tX (gT s)) (List.length (gRiver s)) [] (fun _ _ => None)) (gOuts s).
Definition placed (r : res (ncfile float)) : option (ncfile float * (float * float) * float) :=
  match r with Ok f => Some (f, (0, 0)%float, 0%float) | Exc _ => None end.
Definition exNc (n : string) : option (ncfile float * (float * float) * float) :=
  if String.eqb n "/home/hapua/First_outputs.nc" then placed exSaved else None.
Definition exHotEntries (start cont : string) : entries :=
  ([("Time", "StartTime", start); ("HotStart", "InitialConditionsNetCDF", "First_outputs.nc"); ("HotStart", "HotStartTime", "1 Sep 2000"); ("HotStart", "ContinueSimulation", cont)] ++ exEntries)%list.
Definition exHotLoad (l : entries) : res (model float) := @loadModel float sim_num exX (exWorldNc exNc l) (fun x => x) exFile.
Definition startOf (r : res (model float)) : res Z := match r with Ok m => Ok (tStart (mdTP m)) | Exc e => Exc e end.
Definition exCsvSea : entries -> entries := cons ("BoundaryConditions", "SeaLevel", "LagoonInflow.csv").
(** Continuing saved results from 16 minutes; from before the configured start only with sea levels from a file. *)
Lemma ex_hot : startOf (exHotLoad (exHotEntries "1 Sep 2000" "yes")) = Ok (sec 960) /\
  startOf (exHotLoad (exHotEntries "1 Sep 2000" "no")) = Ok (sec 0) /\
  startOf (exHotLoad (exCsvSea (exHotEntries "1 Sep 2000 06:00" "yes"))) = Ok (sec 960) /\
  startOf (exHotLoad (exHotEntries "1 Sep 2000 06:00" "yes")) = Exc EAssert.
Proof. split; [vm_compute; reflexivity|]. split; [vm_compute; reflexivity|]. split; vm_compute; reflexivity. Qed.
Definition exOther : entries -> entries := cons ("InitialConditions", "BarrierElev", "7").
Lemma hotLoad_eq l : exHotLoad l = @loadModel float sim_num exX (@withConf float sim_num (exWorldNc exNc []) (written l)) (fun x => x) exFile.
Proof. reflexivity. Qed.
Lemma other_hot l m c c' n : @validate float sim_num exX (written l) = Ok c -> @validate float sim_num exX (written (exOther l)) = Ok c' ->
  c "HotStart" "InitialConditionsNetCDF" = Some (CS n) -> exHotLoad l = Ok m -> exHotLoad (exOther l) = Ok m.
Proof.
  intros V V' N L. rewrite <- L, !hotLoad_eq. symmetry. eapply (hot_only (NF := sim_num)); eauto.
  intros s k N1 N2. unfold exOther, written. cbn [find fst snd]. rewrite (proj2 (String.eqb_neq "InitialConditions" s)) by congruence. reflexivity.
Qed.
Lemma ex_hot_only : exists m, exHotLoad (exHotEntries "1 Sep 2000" "yes") = Ok m /\ exHotLoad (exOther (exHotEntries "1 Sep 2000" "yes")) = Ok m.
Proof.
  assert (V : isOk (@validate float sim_num exX (written (exHotEntries "1 Sep 2000" "yes"))) = true) by (vm_compute; reflexivity).
  assert (V' : isOk (@validate float sim_num exX (written (exOther (exHotEntries "1 Sep 2000" "yes")))) = true) by (vm_compute; reflexivity).
  assert (L : isOk (exHotLoad (exHotEntries "1 Sep 2000" "yes")) = true) by (vm_compute; reflexivity).
  apply isOk_ex in V as (c & V). apply isOk_ex in V' as (c' & V'). apply isOk_ex in L as (m & L). exists m. split; [exact L|].
  assert (N : c "HotStart" "InitialConditionsNetCDF" = Some (CS "First_outputs.nc")).
  { etransitivity; [exact (conf_entry (NF := sim_num) exX _ c (mkC sHS "InitialConditionsNetCDF" TStr DNone) V ltac:(unfold cspec; repeat (first [left; reflexivity|right])))|]. vm_compute. reflexivity. }
  exact (other_hot _ _ _ _ _ V V' N L).
Qed.
