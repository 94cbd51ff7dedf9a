(** Proofs about file names and about the sources of a loaded model. *)
From Coq Require Import ZArith List Bool String Ascii Lia.
From Verif Require Import Base Num MState MGeom MOut MCoast MRiv MMor MCore MLoad MSynth MConf SConf SLoad SRun PConf PConf2 PCore PLoad PLoad2 PSynth.
Import ListNotations.
Local Open Scope string_scope.

(** ** Names *)
Lemma hasc_in c s : hasc c s = true <-> contains c s.
Proof.
  unfold contains. induction s as [|d s IH]; cbn [hasc list_ascii_of_string In]; [split; [discriminate|tauto]|].
  rewrite orb_true_iff, IH. unfold isc. rewrite Ascii.eqb_eq. tauto.
Qed.
Lemma hasc_lacks c s : lacks c s -> hasc c s = false.
Proof. unfold lacks. rewrite <- hasc_in. destruct (hasc c s); [tauto|reflexivity]. Qed.
Lemma hasc_app c a b : hasc c (a ++ b) = hasc c a || hasc c b.
Proof. induction a as [|d a IH]; cbn; [reflexivity|]. rewrite IH. apply orb_assoc. Qed.
Lemma app_nil_str a : a ++ "" = a.
Proof. induction a as [|c a IH]; cbn; congruence. Qed.

Lemma base_split d n : hasc slash n = false -> baseName (d ++ "/" ++ n) = n.
Proof.
  intros H. induction d as [|c d IH].
  - cbn [append baseName]. rewrite H. reflexivity.
  - cbn [append baseName] in *. rewrite hasc_app. cbn [append hasc]. change (isc "/" slash) with true. cbn [orb]. rewrite orb_true_r. exact IH.
Qed.
Lemma base_plain n : hasc slash n = false -> baseName n = n.
Proof. destruct n as [|c n]; [reflexivity|]. cbn [hasc baseName]. intros H. apply orb_false_iff in H as [A B]. rewrite B, A. reflexivity. Qed.
Lemma raw_plain n : hasc slash n = false -> dirRaw n = "".
Proof. destruct n as [|c n]; [reflexivity|]. cbn [hasc dirRaw]. intros H. apply orb_false_iff in H as [A B]. rewrite B, A. reflexivity. Qed.
Lemma raw_split d n : hasc slash n = false -> dirRaw (d ++ "/" ++ n) = d ++ "/".
Proof.
  intros H. induction d as [|c d IH].
  - cbn [append dirRaw]. rewrite H. change (isc "/" slash) with true. cbn [orb]. rewrite raw_plain by auto. reflexivity.
  - cbn [append dirRaw] in *. rewrite hasc_app. cbn [append hasc]. change (isc "/" slash) with true. cbn [orb]. rewrite orb_true_r. cbn [orb]. f_equal. exact IH.
Qed.
Lemma rstrip_end c d : rstrip c (d ++ String c "") = rstrip c d.
Proof.
  induction d as [|e d IH]; cbn [append rstrip].
  - unfold isc. rewrite Ascii.eqb_refl. reflexivity.
  - rewrite IH. reflexivity.
Qed.
Lemma rstrip_same c d : endsc c d = false -> rstrip c d = d.
Proof.
  induction d as [|e d IH]; [reflexivity|]. intros H. cbn [rstrip]. destruct d as [|f d].
  - cbn in H. cbn. rewrite H. reflexivity.
  - change (endsc c (String e (String f d))) with (endsc c (String f d)) in H. rewrite (IH H). reflexivity.
Qed.
Lemma ends_split c d : endsc c d = true -> exists e, d = e ++ String c "".
Proof.
  induction d as [|f d IH]; [discriminate|]. destruct d as [|g d].
  - cbn. unfold isc. rewrite Ascii.eqb_eq. intros ->. exists "". reflexivity.
  - intros H. change (endsc c (String f (String g d))) with (endsc c (String g d)) in H. apply IH in H as (e & E). exists (String f e). cbn. congruence.
Qed.
Lemma not_ends d : (forall e, d <> e ++ "/") -> endsc slash d = false.
Proof. intros H. destruct (endsc slash d) eqn:E; [|reflexivity]. apply ends_split in E as (e & E). destruct (H e E). Qed.
Lemma dir_split d n : d <> "" -> (forall e, d <> e ++ "/") -> hasc slash n = false -> dirName (d ++ "/" ++ n) = d.
Proof.
  intros N E H. unfold dirName. rewrite raw_split by auto. change "/" with (String slash ""). rewrite rstrip_end, rstrip_same by (apply not_ends; auto).
  destruct d; [congruence|reflexivity].
Qed.
Lemma stem_split lead b e : hasc dot e = false -> (lead = false \/ exists c, contains c b /\ c <> "."%char) -> stemFrom lead (b ++ "." ++ e) = b.
Proof.
  intros He. revert lead. induction b as [|c b IH]; intros lead H.
  - destruct H as [->|(c & [] & _)]. cbn [append stemFrom]. change (isc "." dot) with true. rewrite He. reflexivity.
  - cbn [append stemFrom]. assert (D : hasc dot (b ++ "." ++ e) = true).
    { rewrite hasc_app. cbn [append hasc]. change (isc "." dot) with true. cbn [orb]. apply orb_true_r. }
    cbn [append] in D. rewrite D. cbn [negb]. rewrite andb_false_r. f_equal. apply IH. destruct H as [->|(x & Hx & Nx)]; [left; reflexivity|].
    cbn in Hx. destruct Hx as [->|Hx]; [|right; eauto]. left. unfold isc, dot. rewrite (proj2 (Ascii.eqb_neq x ".") Nx). apply andb_false_r.
Qed.
Lemma join_rel d n : d <> "" -> (forall e, d <> e ++ "/") -> n <> "" -> (forall r, n <> "/" ++ r) -> joinPath d n = d ++ "/" ++ n.
Proof.
  intros D E N R. unfold joinPath. destruct n as [|c n]; [congruence|].
  unfold isc. destruct (Ascii.eqb_spec c slash) as [->|Hc]; [exfalso; apply (R n); reflexivity|].
  rewrite (not_ends d E). destruct (String.eqb_spec d ""); [congruence|]. reflexivity.
Qed.
Lemma join_abs d r : joinPath d ("/" ++ r) = "/" ++ r.
Proof. reflexivity. Qed.

Lemma file_parts dir base ext file : fileIn dir base ext file -> dirName file = dir /\ stem (baseName file) = base.
Proof.
  intros (-> & D & E & B & X & Xd & O).
  assert (N : hasc slash (base ++ "." ++ ext) = false).
  { rewrite hasc_app. cbn [append hasc]. change (isc "." slash) with false. cbn [orb]. rewrite (hasc_lacks _ _ B : hasc slash base = false), (hasc_lacks _ _ X : hasc slash ext = false). reflexivity. }
  split; [apply dir_split; auto|]. rewrite base_split by auto. apply stem_split; [apply (hasc_lacks "." ext); auto|auto].
Qed.

Lemma app_inj_l a b c : a ++ b = a ++ c -> b = c.
Proof. induction a as [|x a IH]; cbn; [auto|]. intros H. inversion H. auto. Qed.

Section Load.
  Context {F : Type} {NF : Num F}.
  Implicit Types (X : conv F) (W : world F) (c : conf F).

  (** ** Output names *)
  Lemma out_default (X : conv F) (W : world F) r32 file m c dir base ext : loadModel X W r32 file = Ok m -> validate X (wdConf W file) = Ok c -> fileIn dir base ext file ->
    (c "OutputOptions" "OutFile" = Some CNone -> mdOut m = base ++ "_outputs.nc") /\
    (c "OutputOptions" "TsOutFile" = Some CNone -> mdTsOut m = base ++ "_TSoutputs.nc") /\
    (forall n, c "OutputOptions" "OutFile" = Some (CS n) -> mdOut m = n) /\
    (forall n, c "OutputOptions" "TsOutFile" = Some (CS n) -> mdTsOut m = n).
  Proof.
    intros H V I. apply load_inv in H as (c' & TP & P & N & o & d & h & flow & waves & sea & L).
    pose proof (l_conf _ _ _ _ _ _ _ _ _ _ _ _ _ _ _ L) as V'. rewrite V in V'. apply Ok_inj in V'. subst c'.
    pose proof (l_names _ _ _ _ _ _ _ _ _ _ _ _ _ _ _ L) as Q. unfold outNames in Q. apply file_parts in I as [_ I]. rewrite I in Q.
    assert (Q1 := f_equal fst Q). assert (Q2 := f_equal snd Q). cbn [fst snd] in Q1, Q2. unfold optS, sOO in Q1, Q2.
    split; [intros E; rewrite E in Q1; exact Q1|]. split; [intros E; rewrite E in Q2; exact Q2|].
    split; [intros n E; rewrite E in Q1; exact Q1|intros n E; rewrite E in Q2; exact Q2].
  Qed.
  Lemma out_differ (X : conv F) (W : world F) r32 file m c : loadModel X W r32 file = Ok m -> validate X (wdConf W file) = Ok c ->
    c "OutputOptions" "OutFile" = Some CNone -> c "OutputOptions" "TsOutFile" = Some CNone -> mdOut m <> mdTsOut m.
  Proof.
    intros H V A B. apply load_inv in H as (c' & TP & P & N & o & d & h & flow & waves & sea & L).
    pose proof (l_conf _ _ _ _ _ _ _ _ _ _ _ _ _ _ _ L) as V'. rewrite V in V'. apply Ok_inj in V'. subst c'.
    pose proof (l_names _ _ _ _ _ _ _ _ _ _ _ _ _ _ _ L) as Q. unfold outNames, optS, sOO in Q. rewrite A, B in Q.
    assert (Q1 := f_equal fst Q). assert (Q2 := f_equal snd Q). cbn [fst snd] in Q1, Q2. rewrite Q1, Q2. intros E. apply app_inj_l in E. discriminate.
  Qed.
  Lemma out_clash (X : conv F) (W : world F) r32 d1 d2 base ext f1 f2 m1 m2 c1 c2 : fileIn d1 base ext f1 -> fileIn d2 base ext f2 ->
    loadModel X W r32 f1 = Ok m1 -> loadModel X W r32 f2 = Ok m2 -> validate X (wdConf W f1) = Ok c1 -> validate X (wdConf W f2) = Ok c2 ->
    c1 "OutputOptions" "OutFile" = Some CNone -> c2 "OutputOptions" "OutFile" = Some CNone ->
    mdOut m1 = mdOut m2.
  Proof.
    intros I1 I2 L1 L2 V1 V2 A B. destruct (out_default _ _ _ _ _ _ _ _ _ L1 V1 I1) as (E1 & _). destruct (out_default _ _ _ _ _ _ _ _ _ L2 V2 I2) as (E2 & _).
    rewrite E1, E2 by auto. reflexivity.
  Qed.

  (** ** Input files and synthetic series *)
  Lemma not_word n w : allSmall w -> ~ sameWord n w -> String.eqb (lower n) w = false.
  Proof. intros A B. apply String.eqb_neq. rewrite <- lower_same by auto. exact B. Qed.
  Lemma is_word n w : allSmall w -> sameWord n w -> String.eqb (lower n) w = true.
  Proof. intros A B. apply String.eqb_eq. apply lower_same; auto. Qed.

  Lemma same_conf (X : conv F) (W : world F) r32 file m c : loadModel X W r32 file = Ok m -> validate X (wdConf W file) = Ok c ->
    exists TP P N o d h flow waves sea, loaded X W r32 file m c TP P N o d h flow waves sea.
  Proof.
    intros H V. apply load_inv in H as (c' & TP & P & N & o & d & h & flow & waves & sea & L).
    pose proof (l_conf _ _ _ _ _ _ _ _ _ _ _ _ _ _ _ L) as V'. rewrite V in V'. apply Ok_inj in V'. subst c'. eauto 12.
  Qed.

  Lemma flow_file (X : conv F) (W : world F) r32 file m c n : loadModel X W r32 file = Ok m -> validate X (wdConf W file) = Ok c ->
    c "BoundaryConditions" "RiverFlow" = Some (CS n) -> ~ sameWord n "shotnoise" ->
    exists s, wdSeries W (joinPath (dirName file) n) = Ok s /\
      trimSeries (tStart (mdTP m)) (tEnd (mdTP m)) (tMorDtMax (mdTP m)) s = Ok (mdFlow m).
  Proof.
    intros H V E S. destruct (same_conf _ _ _ _ _ _ H V) as (TP & P & N & o & d & h & flow & waves & sea & L).
    exists flow. rewrite (l_tp _ _ _ _ _ _ _ _ _ _ _ _ _ _ _ L). split; [|exact (l_tflow _ _ _ _ _ _ _ _ _ _ _ _ _ _ _ L)].
    pose proof (l_flow _ _ _ _ _ _ _ _ _ _ _ _ _ _ _ L) as Q. unfold flowOf, getS, sBC in Q. rewrite E in Q. cbn [bind] in Q.
    rewrite (not_word n "shotnoise") in Q by (auto; smalls). exact Q.
  Qed.
  Lemma sea_file (X : conv F) (W : world F) r32 file m c n : loadModel X W r32 file = Ok m -> validate X (wdConf W file) = Ok c ->
    c "BoundaryConditions" "SeaLevel" = Some (CS n) -> ~ sameWord n "harmonic" ->
    exists s, wdSeries W (joinPath (dirName file) n) = Ok s /\
      trimSeries (tStart (mdTP m)) (tEnd (mdTP m)) (tMorDtMax (mdTP m)) s = Ok (mdSea m).
  Proof.
    intros H V E S. destruct (same_conf _ _ _ _ _ _ H V) as (TP & P & N & o & d & h & flow & waves & sea & L).
    exists sea. rewrite (l_tp _ _ _ _ _ _ _ _ _ _ _ _ _ _ _ L). split; [|exact (l_tsea _ _ _ _ _ _ _ _ _ _ _ _ _ _ _ L)].
    pose proof (l_sea _ _ _ _ _ _ _ _ _ _ _ _ _ _ _ L) as Q. unfold seaOf, getS, sBC in Q. rewrite E in Q. cbn [bind] in Q.
    rewrite (not_word n "harmonic") in Q by (auto; smalls). exact Q.
  Qed.
  Lemma wave_file (X : conv F) (W : world F) r32 file m c n : loadModel X W r32 file = Ok m -> validate X (wdConf W file) = Ok c ->
    c "BoundaryConditions" "WaveConditions" = Some (CS n) ->
    exists rows s, wdWaves W (joinPath (dirName file) n) = Ok rows /\
      Forall2 (fun p q => fst q = fst p /\ wrDir (snd q) = waveDir (mdDir m) (wrDir (snd p)) /\ wrPow (snd q) = wrPow (snd p) /\
                          wrPer (snd q) = wrPer (snd p) /\ wrLen (snd q) = wrLen (snd p) /\ wrHs (snd q) = wrHs (snd p)) rows s /\
      trimSeries (tStart (mdTP m)) (tEnd (mdTP m)) (tMorDtMax (mdTP m)) s = Ok (mdWaves m).
  Proof.
    intros H V E. destruct (same_conf _ _ _ _ _ _ H V) as (TP & P & N & o & d & h & flow & waves & sea & L).
    pose proof (l_waves _ _ _ _ _ _ _ _ _ _ _ _ _ _ _ L) as Q. unfold wavesOf, getS, sBC in Q. rewrite E in Q. cbn [bind] in Q. bok Q rows.
    apply Ok_inj in Q. exists rows, waves. split; [auto|]. rewrite (l_tp _ _ _ _ _ _ _ _ _ _ _ _ _ _ _ L), (l_d _ _ _ _ _ _ _ _ _ _ _ _ _ _ _ L).
    split; [|exact (l_twaves _ _ _ _ _ _ _ _ _ _ _ _ _ _ _ L)]. rewrite <- Q. clear. induction rows; constructor; auto. cbn. auto 10.
  Qed.

  (** The synthetic tide starts at the configured StartTime, wherever the run starts. *)
  Lemma sea_tide (X : conv F) (W : world F) r32 file m c n t0 : loadModel X W r32 file = Ok m -> validate X (wdConf W file) = Ok c ->
    c "BoundaryConditions" "SeaLevel" = Some (CS n) -> sameWord n "harmonic" ->
    (exists t, c "Time" "StartTime" = Some (CS t) /\ txTime X t = Ok t0) ->
    exists x int msl range, c "HarmonicTideParameters" "SeaLevelDt" = Some (CF x) /\ tdMin X x = Ok int /\
      c "HarmonicTideParameters" "MeanSeaLevel" = Some (CF msl) /\ c "HarmonicTideParameters" "TidalRange" = Some (CF range) /\
      trimSeries (tStart (mdTP m)) (tEnd (mdTP m)) (tMorDtMax (mdTP m)) (harmonicTide t0 (tEnd (mdTP m)) int msl range) = Ok (mdSea m) /\
      (0 < int)%Z /\ (t0 <= tStart (mdTP m))%Z /\ (int | tEnd (mdTP m) - t0)%Z.
  Proof.
    intros H V E S (t & T1 & T2). destruct (same_conf _ _ _ _ _ _ H V) as (TP & P & N & o & d & h & flow & waves & sea & L).
    pose proof (l_sea _ _ _ _ _ _ _ _ _ _ _ _ _ _ _ L) as Q. unfold seaOf in Q. bok Q n'. apply getS_ok in En'. unfold sBC in En'. rewrite E in En'. inversion En'; subst n'.
    rewrite (is_word n "harmonic") in Q by (auto; smalls). bok Q x. bok Q int. bok Q msl. bok Q range. apply getF_ok in Ex, Emsl, Erange.
    destruct (int <=? 0)%Z eqn:Ei; [discriminate|]. apply Z.leb_gt in Ei. apply Ok_inj in Q.
    assert (T0 : t0 = tStart TP).
    { destruct (time_keys X c TP) as ((u & U1 & U2) & _); [eapply l_time; eauto|]. rewrite T1 in U1. inversion U1; subst u. rewrite T2 in U2. apply Ok_inj in U2. exact U2. }
    exists x, int, msl, range. rewrite (l_tp _ _ _ _ _ _ _ _ _ _ _ _ _ _ _ L). cbn [tStart tEnd tMorDtMax].
    pose proof (l_tsea _ _ _ _ _ _ _ _ _ _ _ _ _ _ _ L) as TS. rewrite <- Q, <- T0 in TS. unfold sHT in *.
    do 5 (split; [assumption|]). split; [assumption|].
    apply trim_asserts in TS as [(a & A1 & A2) (z & Z1 & Z2)]. unfold harmonicTide in A1, Z1. rewrite nth_error_map in A1, Z1.
    destruct (nth_error (dateRange t0 (tEnd TP) int) 0) as [a0|] eqn:A0; [|discriminate]. cbn in A1. apply Some_inj in A1. subst a. cbn in A2.
    apply dateRange_nth in A0. split; [lia|].
    destruct (nth_error _ _) as [z0|] eqn:Z0 in Z1; [|discriminate]. cbn in Z1. apply Some_inj in Z1. subst z. cbn in Z2.
    rewrite map_length in Z0. pose proof (dateRange_nth _ _ _ _ _ Z0) as Ez.
    assert (LE : (t0 <= tEnd TP)%Z).
    { destruct (Z.ltb_spec (tEnd TP) t0) as [C|C]; [|auto]. unfold dateRange in Z0. rewrite (proj2 (Z.ltb_lt _ _) C) in Z0. discriminate. }
    rewrite dateRange_length in Ez by auto. cbn [Nat.sub] in Ez. rewrite Nat.sub_0_r, Z2Nat.id in Ez by (apply Z.div_pos; lia).
    pose proof (Z.div_mod (tEnd TP - t0) int ltac:(lia)) as DM. pose proof (Z.mod_pos_bound (tEnd TP - t0) int Ei) as MB.
    exists ((tEnd TP - t0) / int)%Z. nia.
  Qed.
  Lemma tide_needs_range (X : conv F) (W : world F) r32 file m c n : loadModel X W r32 file = Ok m -> validate X (wdConf W file) = Ok c ->
    c "BoundaryConditions" "SeaLevel" = Some (CS n) -> sameWord n "harmonic" -> c "HarmonicTideParameters" "TidalRange" <> Some CNone.
  Proof.
    intros H V E S C. destruct (same_conf _ _ _ _ _ _ H V) as (TP & P & N & o & d & h & flow & waves & sea & L).
    destruct (time_keys X c TP) as ((u & U1 & U2) & _); [eapply l_time; eauto|].
    destruct (sea_tide _ _ _ _ _ _ _ (tStart TP) H V E S) as (x & int & msl & range & _ & _ & _ & R & _); [eauto|]. congruence.
  Qed.
  Lemma shot_needs (X : conv F) (W : world F) r32 file m c n k : loadModel X W r32 file = Ok m -> validate X (wdConf W file) = Ok c ->
    c "BoundaryConditions" "RiverFlow" = Some (CS n) -> sameWord n "shotnoise" ->
    In k ["MeanDaysBetweenEvents"; "MeanEventIncrease"; "FastDecayRate"; "FastFlowProp"; "SlowDecayRate"; "RisingLimbTime"] ->
    c "ShotnoiseHydrographParameters" k <> Some CNone.
  Proof.
    intros H V E S Hk C. destruct (same_conf _ _ _ _ _ _ H V) as (TP & P & N & o & d & h & flow & waves & sea & L).
    pose proof (l_flow _ _ _ _ _ _ _ _ _ _ _ _ _ _ _ L) as Q. unfold flowOf in Q. bok Q n'. apply getS_ok in En'. unfold sBC in En'. rewrite E in En'. inversion En'; subst n'.
    rewrite (is_word n "shotnoise") in Q by (auto; smalls). bok Q st. bok Q i. bok Q i'. bok Q g. bok Q g'. bok Q mm. bok Q d1. bok Q p1. bok Q r. bok Q r'.
    destruct (i' <=? 0)%Z; [discriminate|]. apply getF_ok in Eg, Emm, Ed1, Ep1, Er. unfold sSN in *.
    destruct Hk as [<-|[<-|[<-|[<-|[<-|[<-|[]]]]]]]; try congruence.
    unfold optF in Q. rewrite C in Q. eapply none_never; eauto.
  Qed.

  (** ** Initial state *)
  Lemma cold_start (X : conv F) (W : world F) r32 file m c : loadModel X W r32 file = Ok m -> validate X (wdConf W file) = Ok c ->
    c "HotStart" "InitialConditionsNetCDF" = Some CNone ->
    mdClosed m = false /\ mdLWL m = map (fun _ => f0) (mdT m) /\ mdLVel m = map (fun _ => f0) (mdT m) /\
    mdODep m = map (fun _ => f0) (mdT m) /\ mdOVel m = map (fun _ => f0) (mdT m) /\ mdEDep m = [f0; f0] /\ mdEVel m = [f0; f0] /\
    mdRWL m = map (fun _ => f0) (mdRiver m) /\ mdRVel m = map (fun _ => f0) (mdRiver m) /\
    (exists t, c "Time" "StartTime" = Some (CS t) /\ txTime X t = Ok (tStart (mdTP m))) /\
    (c "SpatialInputs" "Shoreline" = Some CNone -> mdOrigin m = (f0, f0) /\ mdDir m = f0 /\
      forall k, In k ["ShorelineLengthLeft"; "ShorelineLengthRight"; "BeachWidth"] -> c "SpatialInputs" k <> Some CNone).
  Proof.
    intros H V E. destruct (same_conf _ _ _ _ _ _ H V) as (TP & P & N & o & d & h & flow & waves & sea & L).
    pose proof (l_space _ _ _ _ _ _ _ _ _ _ _ _ _ _ _ L) as Q. unfold spatialOf in Q.
    assert (E0 : optS c sHS "InitialConditionsNetCDF" = None) by (unfold optS, sHS; rewrite E; reflexivity). rewrite E0 in Q.
    bok Q ic. bok Q river. pose proof (l_hot _ _ _ _ _ _ _ _ _ _ _ _ _ _ _ L) as HH. rewrite (l_tp _ _ _ _ _ _ _ _ _ _ _ _ _ _ _ L). cbn [tStart].
    rewrite (l_o _ _ _ _ _ _ _ _ _ _ _ _ _ _ _ L), (l_d _ _ _ _ _ _ _ _ _ _ _ _ _ _ _ L).
    assert (CC : exists T e0 e1 w z st, h = cold T e0 e1 w z st (tStart TP) /\
       (c "SpatialInputs" "Shoreline" = Some CNone -> o = (f0, f0) /\ d = f0 /\ forall k, In k ["ShorelineLengthLeft"; "ShorelineLengthRight"; "BeachWidth"] -> c "SpatialInputs" k <> Some CNone)).
    { destruct (optS c sSI "Shoreline") as [sh|] eqn:Es.
      - bok Q shore. bok Q inflow. bok Q pt. bok Q lagoon. bok Q cliff. bok Q outlet. bok Q r. destruct r as [[[[[[T e0] e1] w] z] o'] d']. apply Ok_inj in Q. inversion Q; subst.
        do 6 eexists. split; [reflexivity|]. intros C. unfold optS, sSI in Es. rewrite C in Es. discriminate.
      - destruct (optF c sSI "ShorelineLengthLeft") as [l|] eqn:K1; [|discriminate]. destruct (optF c sSI "ShorelineLengthRight") as [r|] eqn:K2; [|discriminate].
        destruct (optF c sSI "BeachWidth") as [b|] eqn:K3; [|discriminate]. destruct (straightShore P ic (nDx N) l r b) as [[[[T e0] e1] w] z]. apply Ok_inj in Q. inversion Q; subst.
        do 6 eexists. split; [reflexivity|]. intros _. split; [reflexivity|]. split; [reflexivity|]. unfold optF, sSI in K1, K2, K3.
        intros k [<-|[<-|[<-|[]]]] C; rewrite C in *; discriminate. }
    destruct CC as (T & e0 & e1 & w & z & st & -> & CS). unfold cold in HH. cbn [htStart] in HH. inversion HH. cbn [htStart cold].
    do 9 (split; [reflexivity|]). split; [|exact CS]. apply (time_keys X c TP). eapply l_time; eauto.
  Qed.

  (** A hot start does not look at the spatial inputs and the initial conditions. *)
  Lemma hot_only (X : conv F) (W : world F) r r' r32 file c c' n : validate X r = Ok c -> validate X r' = Ok c' ->
    c "HotStart" "InitialConditionsNetCDF" = Some (CS n) ->
    (forall s k, s <> "SpatialInputs" -> s <> "InitialConditions" -> r s k = r' s k) ->
    loadModel X (withConf W r) r32 file = loadModel X (withConf W r') r32 file.
  Proof.
    intros V V' E A.
    assert (AG : forall s k, s <> "SpatialInputs" -> s <> "InitialConditions" -> c s k = c' s k).
    { clear E. intros s k N1 N2. unfold validate in V, V'. destruct (forallb _ cspec) in V; [|discriminate]. destruct (forallb _ cspec) in V'; [|discriminate].
      apply Ok_inj in V, V'. subst c c'. cbv beta. destruct (find _ cspec) as [e|] eqn:Fe; [|reflexivity].
      apply find_some in Fe as [_ B]. apply andb_true_iff in B as [B1 _]. apply String.eqb_eq in B1. subst s. unfold entryVal. rewrite A by auto. reflexivity. }
    assert (E' : c' "HotStart" "InitialConditionsNetCDF" = Some (CS n)) by (rewrite <- AG; [exact E| |]; discriminate).
    assert (G : forall s k, s <> "SpatialInputs" -> s <> "InitialConditions" -> getF c s k = getF c' s k /\ getS c s k = getS c' s k /\ getI c s k = getI c' s k /\
               optS c s k = optS c' s k /\ optF c s k = optF c' s k /\ optI c s k = optI c' s k /\ flag c s k = flag c' s k).
    { intros s k N1 N2. unfold getF, getS, getI, optS, optF, optI, flag. rewrite (AG s k N1 N2). auto 10. }
    assert (GF : forall s k, s <> "SpatialInputs" -> s <> "InitialConditions" -> getF c s k = getF c' s k) by (intros; apply G; auto).
    assert (GS : forall s k, s <> "SpatialInputs" -> s <> "InitialConditions" -> getS c s k = getS c' s k) by (intros; apply G; auto).
    assert (GI : forall s k, s <> "SpatialInputs" -> s <> "InitialConditions" -> getI c s k = getI c' s k) by (intros; apply G; auto).
    assert (OS : forall s k, s <> "SpatialInputs" -> s <> "InitialConditions" -> optS c s k = optS c' s k) by (intros; apply G; auto).
    assert (OF : forall s k, s <> "SpatialInputs" -> s <> "InitialConditions" -> optF c s k = optF c' s k) by (intros; apply G; auto).
    assert (OI : forall s k, s <> "SpatialInputs" -> s <> "InitialConditions" -> optI c s k = optI c' s k) by (intros; apply G; auto).
    assert (FL : forall s k, s <> "SpatialInputs" -> s <> "InitialConditions" -> flag c s k = flag c' s k) by (intros; apply G; auto).
    clear G. unfold loadModel, withConf. cbn [wdIsFile wdConf]. destruct (wdIsFile W file); cbn [negb]; [|reflexivity].
    rewrite V, V'. cbn [bind].
    assert (Q1 : timeOf X c = timeOf X c') by (unfold timeOf; rewrite !GS, !GF by (unfold sTi; discriminate); reflexivity).
    assert (Q2 : physOf c = physOf c') by (unfold physOf; cbv zeta; rewrite !GF by (unfold sPP; discriminate); reflexivity).
    assert (Q3 : numOf c = numOf c') by (unfold numOf; cbv zeta; rewrite !GF, !GI by (unfold sNP; discriminate); reflexivity).
    rewrite Q1, Q2, Q3. destruct (timeOf X c') as [TP|]; [|reflexivity]. destruct (physOf c') as [P|]; [|reflexivity]. destruct (numOf c') as [N|]; [|reflexivity]. cbn [bind].
    unfold spatialOf. assert (H1 : optS c sHS "InitialConditionsNetCDF" = Some n) by (apply optS_some; exact E). assert (H2 : optS c' sHS "InitialConditionsNetCDF" = Some n) by (apply optS_some; exact E').
    rewrite H1, H2. rewrite !GS, !FL by (unfold sHS; discriminate). cbn [wdNc].
    match goal with |- bind ?a _ = bind ?a _ => destruct a as [[[o d] h]|]; [|reflexivity] end. cbn [bind].
    assert (Q4 : flowOf X (mkWorld (wdIsFile W) (fun _ => r) (wdNc W) (wdShp W) (wdFit W) (wdSeries W) (wdWaves W) (wdDraws W)) c (dirName file) (tStart TP) (tEnd TP) =
                 flowOf X (mkWorld (wdIsFile W) (fun _ => r') (wdNc W) (wdShp W) (wdFit W) (wdSeries W) (wdWaves W) (wdDraws W)) c' (dirName file) (tStart TP) (tEnd TP)).
    { unfold flowOf. rewrite !GS, !OS, !GF, !OI, !OF by (unfold sBC, sSN; discriminate). reflexivity. }
    rewrite Q4. match goal with |- bind ?a _ = bind ?a _ => destruct a as [flow|]; [|reflexivity] end. cbn [bind].
    unfold wavesOf. rewrite !GS by (unfold sBC; discriminate). cbn [wdWaves].
    match goal with |- bind ?a _ = bind ?a _ => destruct a as [waves|]; [|reflexivity] end. cbn [bind].
    unfold seaOf. rewrite !GS, !GF by (unfold sBC, sHT; discriminate). cbn [wdSeries].
    match goal with |- bind ?a _ = bind ?a _ => destruct a as [sea|]; [|reflexivity] end. cbn [bind].
    unfold outNames. rewrite !OS by (unfold sOO; discriminate). reflexivity.
  Qed.
End Load.
