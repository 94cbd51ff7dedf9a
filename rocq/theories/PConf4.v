(** Proofs about limits of accepted values and about runs of a loaded model. *)
From Coq Require Import Reals ZArith List Bool String Ascii Lia Lra.
From Verif Require Import Base Num Xr MState MGeom MOut MCoast MRiv MMor MCore MLoad MSynth MConf SConf SLoad SRun PConf PConf2 PConf3 PCore.
Import ListNotations.
Local Open Scope string_scope.

(** ** Limits *)
Definition litLe (a b : Z * positive) : bool := (fst a * Zpos (snd b) <=? fst b * Zpos (snd a))%Z.
Definition defaultIn (e : centry) : bool :=
  match cTyp e, cDef e with
  | TFloat lo hi, DF x => match lo with Some l => litLe l x | None => true end && match hi with Some h => litLe x h | None => true end
  | TFloat _ _, DI _ | TFloat _ _, DB _ => false
  | _, _ => true
  end.
Lemma defaults_in : forallb defaultIn cspec = true.
Proof. vm_compute. reflexivity. Qed.
Lemma litLe_real a b : litLe a b = true -> (IZR (fst a) / IZR (Zpos (snd a)) <= IZR (fst b) / IZR (Zpos (snd b)))%R.
Proof.
  unfold litLe. rewrite Z.leb_le. intros H. apply IZR_le in H. rewrite !mult_IZR in H.
  assert (A : (0 < IZR (Zpos (snd a)))%R) by (apply IZR_lt; reflexivity). assert (B : (0 < IZR (Zpos (snd b)))%R) by (apply IZR_lt; reflexivity).
  apply (Rmult_le_reg_r (IZR (Zpos (snd a)) * IZR (Zpos (snd b)))); [apply Rmult_lt_0_compat; auto|].
  replace (IZR (fst a) / IZR (Zpos (snd a)) * (IZR (Zpos (snd a)) * IZR (Zpos (snd b))))%R with (IZR (fst a) * IZR (Zpos (snd b)))%R by (field; lra).
  replace (IZR (fst b) / IZR (Zpos (snd b)) * (IZR (Zpos (snd a)) * IZR (Zpos (snd b))))%R with (IZR (fst b) * IZR (Zpos (snd a)))%R by (field; lra).
  exact H.
Qed.
Lemma within_real lo hi (x : xr) : within lo hi x -> notBelow lo x /\ notAbove hi x.
Proof.
  intros [A B]. split.
  - unfold notBelow. destruct lo as [[z p]|]; [|trivial]. specialize (A z p eq_refl). destruct x as [r| | |]; auto; cbn in A; [|discriminate].
    apply Rltb_false in A. lra.
  - unfold notAbove. destruct hi as [[z p]|]; [|trivial]. specialize (B z p eq_refl). destruct x as [r| | |]; auto; cbn in B; [|discriminate].
    apply Rltb_false in B. lra.
Qed.
Lemma conf_limits (X : conv xr) r c s k lo hi v : validate X r = Ok c -> In (s, k, lo, hi) floatLimits -> c s k = Some v ->
  v = CNone \/ exists x, v = CF x /\ notBelow lo x /\ notAbove hi x.
Proof.
  intros V L C. apply in_float in L as (e & He & E & T). unfold keyOf in E. inversion E; subst s k. rewrite (conf_entry X r c e V He) in C.
  pose proof defaults_in as D. rewrite forallb_forall in D. specialize (D e He). unfold defaultIn in D. rewrite T in D.
  unfold entryVal in C. destruct (r (cSec e) (cKey e)) as [[t|]|]; [|discriminate|].
  - rewrite T in C. apply check_float in C as (x & _ & W & ->). right. exists x. split; [reflexivity|]. apply within_real. exact W.
  - destruct (cDef e) as [| |l|z|b]; cbn [defVal] in C; try discriminate.
    + left. congruence.
    + right. apply Some_inj in C. exists (litF l). split; [congruence|]. apply andb_true_iff in D as [D1 D2]. unfold litF. cbn.
      split; [destruct lo as [[z p]|]|destruct hi as [[z p]|]]; cbn; auto; [apply (litLe_real (z, p) l)|apply (litLe_real l (z, p))]; assumption.
Qed.

(** ** Starting and running *)
Section Run.
  Context {F : Type} {NF : Num F}.
  Implicit Types (X : conv F) (W : world F).

  Lemma start_inv (X : conv F) (W : world F) r32 file v s : start X W r32 file = Ok (v, s) ->
    exists m, loadModel X W r32 file = Ok m /\ v = envOf m /\
      init (envOf m) (mdT m) (mdE0 m) (mdE1 m) (mdW m) (mdZ m) (mdRiver m) (mdRWL m) (mdRVel m)
           (mdLWL m) (mdLVel m) (mdODep m) (mdOVel m) (mdEDep m) (mdEVel m) (mdClosed m) = Ok s.
  Proof. unfold start. intros H. bok H m. bok H s0. apply Ok_inj in H. inversion H; subst. eauto. Qed.
  Lemma start_run (X : conv F) (W : world F) r32 file v s af n o s' : start X W r32 file = Ok (v, s) -> steps af n 0 o v s = Ok s' -> run af n o v s'.
  Proof. intros H S. apply start_inv in H as (m & _ & -> & I). unfold run. do 16 eexists. split; eassumption. Qed.
  Lemma start_clock (X : conv F) (W : world F) r32 file v s : start X W r32 file = Ok (v, s) -> gTime s = tStart (vTP v) /\ gDt s = tMorDtMin (vTP v) /\ gOuts s = [] /\ gTs s = [].
  Proof. intros H. apply start_inv in H as (m & _ & -> & I). apply init_facts in I. tauto. Qed.

  (** A smallest morphological step below the hydraulic step: the first pass always fails. *)
  Lemma start_stuck (X : conv F) (W : world F) r32 file v s : start X W r32 file = Ok (v, s) -> (0 < tHydDt (vTP v))%Z -> (tMorDtMin (vTP v) < tHydDt (vTP v))%Z ->
    forall af o s', step af o v s <> Ok s'.
  Proof. intros H A B af o s' S. apply step_long in S; [|auto]. apply start_clock in H as (_ & H & _). lia. Qed.
  (** An end before the start is accepted: nothing is simulated and nothing reported. *)
  Lemma start_backwards (X : conv F) (W : world F) r32 file v s : start X W r32 file = Ok (v, s) -> (tEnd (vTP v) < tStart (vTP v))%Z ->
    forall af fuel o, loop af fuel 0 o v s = Ok s /\ gOuts s = [] /\ gTs s = [].
  Proof.
    intros H L af fuel o. apply start_clock in H as (T & _ & A & B). split; [|auto].
    assert (E : (gTime s <=? tEnd (vTP v))%Z = false) by (apply Z.leb_gt; lia).
    destruct fuel; cbn [loop]; rewrite E; reflexivity.
  Qed.
  Lemma start_missing (X : conv F) (W : world F) r32 file : wdIsFile W file = false -> start X W r32 file = Exc EFile.
  Proof. intros H. unfold start, loadModel. rewrite H. reflexivity. Qed.
  Lemma start_invalid (X : conv F) (W : world F) r32 file : wdIsFile W file = true -> ~ wellFormed X (wdConf W file) -> start X W r32 file = Exc EConfig.
  Proof.
    intros H N. unfold start, loadModel. rewrite H. cbn [negb]. destruct (validate X (wdConf W file)) as [c|e] eqn:V.
    - exfalso. apply N. apply valid_iff. eauto.
    - cbn [bind]. apply valid_exc in V. subst e. reflexivity.
  Qed.

  (** ** Inputs *)
  Lemma resolve dir base ext file n path : fileIn dir base ext file -> resolved dir n path -> joinPath (dirName file) n = path.
  Proof.
    intros I [(N & R & ->)|(r & -> & ->)]; [|reflexivity]. rewrite (proj1 (file_parts _ _ _ _ I)).
    destruct I as (_ & D & E & _). apply join_rel; auto.
  Qed.
  Lemma flow_input (X : conv F) (W : world F) r32 file m c n dir base ext path : loadModel X W r32 file = Ok m -> validate X (wdConf W file) = Ok c ->
    c "BoundaryConditions" "RiverFlow" = Some (CS n) -> ~ sameWord n "shotnoise" -> fileIn dir base ext file -> resolved dir n path ->
    exists s, wdSeries W path = Ok s /\ trimSeries (tStart (mdTP m)) (tEnd (mdTP m)) (tMorDtMax (mdTP m)) s = Ok (mdFlow m).
  Proof. intros H V E S I R. rewrite <- (resolve _ _ _ _ _ _ I R). eapply flow_file; eauto. Qed.
  Lemma sea_input (X : conv F) (W : world F) r32 file m c n dir base ext path : loadModel X W r32 file = Ok m -> validate X (wdConf W file) = Ok c ->
    c "BoundaryConditions" "SeaLevel" = Some (CS n) -> ~ sameWord n "harmonic" -> fileIn dir base ext file -> resolved dir n path ->
    exists s, wdSeries W path = Ok s /\ trimSeries (tStart (mdTP m)) (tEnd (mdTP m)) (tMorDtMax (mdTP m)) s = Ok (mdSea m).
  Proof. intros H V E S I R. rewrite <- (resolve _ _ _ _ _ _ I R). eapply sea_file; eauto. Qed.
  Lemma wave_input (X : conv F) (W : world F) r32 file m c n dir base ext path : loadModel X W r32 file = Ok m -> validate X (wdConf W file) = Ok c ->
    c "BoundaryConditions" "WaveConditions" = Some (CS n) -> fileIn dir base ext file -> resolved dir n path ->
    exists rows s, wdWaves W path = Ok rows /\
      Forall2 (fun p q => fst q = fst p /\ wrDir (snd q) = waveDir (mdDir m) (wrDir (snd p)) /\ wrPow (snd q) = wrPow (snd p) /\
                          wrPer (snd q) = wrPer (snd p) /\ wrLen (snd q) = wrLen (snd p) /\ wrHs (snd q) = wrHs (snd p)) rows s /\
      trimSeries (tStart (mdTP m)) (tEnd (mdTP m)) (tMorDtMax (mdTP m)) s = Ok (mdWaves m).
  Proof. intros H V E I R. rewrite <- (resolve _ _ _ _ _ _ I R). eapply wave_file; eauto. Qed.
  (** The results file that a hot start reads. *)
  Lemma hot_input (X : conv F) (W : world F) r32 file m c n dir base ext path : loadModel X W r32 file = Ok m -> validate X (wdConf W file) = Ok c ->
    c "HotStart" "InitialConditionsNetCDF" = Some (CS n) -> fileIn dir base ext file -> resolved dir n path ->
    exists f o deg t want st h, wdNc W path = Some (f, o, deg) /\ c "HotStart" "HotStartTime" = Some (CS t) /\ txTime X t = Ok want /\
      (exists t', c "Time" "StartTime" = Some (CS t') /\ txTime X t' = Ok st) /\
      hotLoad r32 f want st (match c "HotStart" "ContinueSimulation" with Some (CB b) => b | _ => false end) (nDx (mdN m)) = Ok h /\
      mdOrigin m = o /\ mdDir m = deg2rad deg /\ tStart (mdTP m) = htStart h /\
      h = mkHot (mdT m) (mdE0 m) (mdE1 m) (mdW m) (mdZ m) (mdRiver m) (mdRWL m) (mdRVel m) (mdLWL m) (mdLVel m)
                (mdODep m) (mdOVel m) (mdEDep m) (mdEVel m) (mdClosed m) (tStart (mdTP m)).
  Proof.
    intros H V E I R. destruct (same_conf _ _ _ _ _ _ H V) as (TP & P & N & o & d & h & flow & waves & sea & L).
    pose proof (l_space _ _ _ _ _ _ _ _ _ _ _ _ _ _ _ L) as Q. unfold spatialOf in Q.
    assert (E0 : optS c sHS "InitialConditionsNetCDF" = Some n) by (apply optS_some; exact E). rewrite E0, (resolve _ _ _ _ _ _ I R) in Q.
    bok Q x. destruct x as [[f o'] deg]. bok Q t. bok Q want. bok Q h'. apply Ok_inj in Q. inversion Q; subst o' h'.
    exists f, o, deg, t, want, (tStart TP), h. rewrite (l_N _ _ _ _ _ _ _ _ _ _ _ _ _ _ _ L), (l_o _ _ _ _ _ _ _ _ _ _ _ _ _ _ _ L), (l_d _ _ _ _ _ _ _ _ _ _ _ _ _ _ _ L), (l_tp _ _ _ _ _ _ _ _ _ _ _ _ _ _ _ L). cbn [tStart].
    split; [destruct (wdNc W path) as [y|]; cbn in Ex; [congruence|discriminate]|]. split; [apply getS_ok; exact Et|]. split; [assumption|].
    split; [apply (time_keys X c TP); eapply l_time; eauto|]. split; [exact Eh'|]. split; [reflexivity|]. split; [congruence|]. split; [reflexivity|].
    exact (l_hot _ _ _ _ _ _ _ _ _ _ _ _ _ _ _ L).
  Qed.
End Run.
