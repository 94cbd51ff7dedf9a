(** Proofs about loadModel as a whole. *)
From Coq Require Import ZArith List Bool String Ascii Lia.
From Verif Require Import Base Num MState MGeom MOut MCoast MRiv MMor MCore MLoad MSynth MConf SConf SLoad SRun PConf PCore PLoad PLoad2 PSynth.
Import ListNotations.
Local Open Scope string_scope.

Section Load.
  Context {F : Type} {NF : Num F}.
  Implicit Types (X : conv F) (W : world F) (c : conf F).

  Lemma getF_ok c s k x : getF c s k = Ok x <-> c s k = Some (CF x).
  Proof. unfold getF. destruct (c s k) as [[]|]; split; intros H; try discriminate; congruence. Qed.
  Lemma getI_ok c s k x : getI c s k = Ok x <-> c s k = Some (CI x).
  Proof. unfold getI. destruct (c s k) as [[]|]; split; intros H; try discriminate; congruence. Qed.
  Lemma getS_ok c s k x : getS c s k = Ok x <-> c s k = Some (CS x).
  Proof. unfold getS. destruct (c s k) as [[]|]; split; intros H; try discriminate; congruence. Qed.
  Lemma optS_some c s k x : optS c s k = Some x <-> c s k = Some (CS x).
  Proof. unfold optS. destruct (c s k) as [[]|]; split; intros H; try discriminate; congruence. Qed.

  (** The pieces of a successful load. *)
  Record loaded X W r32 file (m : model F) c TP P N o d h flow waves sea : Prop := {
    l_file : wdIsFile W file = true;
    l_conf : validate X (wdConf W file) = Ok c;
    l_time : timeOf X c = Ok TP;
    l_phys : physOf c = Ok P;
    l_num : numOf c = Ok N;
    l_space : spatialOf X W r32 c (dirName file) P (nDx N) (tStart TP) = Ok (o, d, h);
    l_flow : flowOf X W c (dirName file) (tStart TP) (tEnd TP) = Ok flow;
    l_waves : wavesOf W c (dirName file) d = Ok waves;
    l_sea : seaOf X W c (dirName file) (tStart TP) (tEnd TP) = Ok sea;
    l_tp : mdTP m = mkTime (htStart h) (tEnd TP) (tHydDt TP) (tMorDtMin TP) (tMorDtMax TP);
    l_tflow : trimSeries (htStart h) (tEnd TP) (tMorDtMax TP) flow = Ok (mdFlow m);
    l_twaves : trimSeries (htStart h) (tEnd TP) (tMorDtMax TP) waves = Ok (mdWaves m);
    l_tsea : trimSeries (htStart h) (tEnd TP) (tMorDtMax TP) sea = Ok (mdSea m);
    l_P : mdP m = P; l_N : mdN m = N; l_o : mdOrigin m = o; l_d : mdDir m = d;
    l_names : (mdOut m, mdTsOut m) = outNames c file;
    l_oi : exists x, c sOO "OutInt" = Some (CF x) /\ tdSec X x = Ok (mdOutInt m);
    l_ti : exists x, c sOO "TsOutInt" = Some (CF x) /\ tdSec X x = Ok (mdTsInt m);
    l_li : exists x, c sOO "LogInt" = Some (CF x) /\ tdSec X x = Ok (mdLogInt m);
    l_pi : exists x, c sOO "PlotInt" = Some (CF x) /\ tdSec X x = Ok (mdPlotInt m);
    l_hot : h = mkHot (mdT m) (mdE0 m) (mdE1 m) (mdW m) (mdZ m) (mdRiver m) (mdRWL m) (mdRVel m) (mdLWL m) (mdLVel m)
                      (mdODep m) (mdOVel m) (mdEDep m) (mdEVel m) (mdClosed m) (htStart h)
  }.
  Lemma load_inv (X : conv F) (W : world F) r32 file m : loadModel X W r32 file = Ok m ->
    exists c TP P N o d h flow waves sea, loaded X W r32 file m c TP P N o d h flow waves sea.
  Proof.
    unfold loadModel. destruct (wdIsFile W file) eqn:Ef; cbn [negb]; [|discriminate]. intros H.
    bok H c. bok H TP. bok H P. bok H N. bok H sp. destruct sp as [[o d] h]. bok H flow. bok H waves. bok H sea.
    cbn [tStart tEnd tMorDtMax] in H. bok H flow'. bok H waves'. bok H sea'.
    bok H oi. bok H oi'. bok H ti. bok H ti'. bok H li. bok H li'. bok H pi. bok H pi'.
    destruct (outNames c file) as [n1 n2] eqn:En. apply Ok_inj in H. subst m.
    exists c, TP, P, N, o, d, h, flow, waves, sea. destruct h as [h1 h2 h3 h4 h5 h6 h7 h8 h9 h10 h11 h12 h13 h14 h15 h16].
    constructor; cbn [mdTP mdFlow mdWaves mdSea mdP mdN mdOrigin mdDir mdOut mdTsOut mdOutInt mdTsInt mdLogInt mdPlotInt
      mdT mdRiver mdE0 mdE1 mdW mdZ mdRWL mdRVel mdLWL mdLVel mdODep mdOVel mdEDep mdEVel mdClosed
      htT htE0 htE1 htW htZ htRiver htRWL htRVel htLWL htLVel htODep htOVel htEDep htEVel htClosed htStart]; auto.
    - exists oi. split; [apply getF_ok; auto|auto].
    - exists ti. split; [apply getF_ok; auto|auto].
    - exists li. split; [apply getF_ok; auto|auto].
    - exists pi. split; [apply getF_ok; auto|auto].
  Qed.

  (** ** Parameters *)
  Lemma phys_keys c P : physOf c = Ok P -> Forall (fun kf => c "PhysicalParameters" (fst kf) = Some (CF (snd kf P))) physicalKeys.
  Proof.
    unfold physOf. cbv zeta. intros H. repeat (apply bind_ok in H; let x := fresh "x" in let E := fresh "E" in destruct H as (x & E & H); apply getF_ok in E).
    destruct (feqb _ f0) in H; [discriminate|]. destruct (feqb _ f0) in H; [discriminate|]. destruct (feqb _ f0) in H; [discriminate|].
    apply Ok_inj in H. subst P. unfold physicalKeys, sPP in *. repeat (constructor; [assumption|]). constructor.
  Qed.
  Lemma num_keys c N : numOf c = Ok N -> Forall (fun kf => c "NumericalParameters" (fst kf) = Some (CF (snd kf N))) numericalKeys /\
    exists z, c "NumericalParameters" "MaxIt" = Some (CI z) /\ nMaxIt N = Z.to_nat z.
  Proof.
    unfold numOf. cbv zeta. intros H. bok H dx. bok H be. bok H th. bok H ps. bok H et. bok H mi. bok H wt. bok H mm.
    apply Ok_inj in H. subst N. apply getI_ok in Emi. apply getF_ok in Edx, Ebe, Eth, Eps, Eet, Ewt, Emm. unfold sNP in *.
    split; [|exists mi; split; [exact Emi|reflexivity]]. repeat (constructor; [assumption|]). constructor.
  Qed.
  Lemma phys_div c P : physOf c = Ok P ->
    feqb (fmul (fmul (fsub (pRhoSed P) (pRhoSea P)) (pGravity P)) (fsub f1 (pVoidRatio P))) f0 = false /\
    feqb (fmul (fmul (pRhoSea P) (fpow (pGravity P) (fofQ 15 10))) (fpow (pGammaRatio P) (fofZ 2))) f0 = false /\
    feqb (fsub (pTargetBarWidth P) (pSpitWidth P)) f0 = false /\
    derive P = P.
  Proof.
    unfold physOf. cbv zeta. intros H. repeat (apply bind_ok in H; let x := fresh "x" in let E := fresh "E" in destruct H as (x & E & H); clear E).
    destruct (feqb _ f0) eqn:E1 in H; [discriminate|]. destruct (feqb _ f0) eqn:E2 in H; [discriminate|]. destruct (feqb _ f0) eqn:E3 in H; [discriminate|].
    apply Ok_inj in H. subst P. cbn. auto.
  Qed.
  Lemma time_keys X c TP : timeOf X c = Ok TP ->
    (exists t, c "Time" "StartTime" = Some (CS t) /\ txTime X t = Ok (tStart TP)) /\
    (exists t, c "Time" "EndTime" = Some (CS t) /\ txTime X t = Ok (tEnd TP)) /\
    (exists x, c "Time" "HydDt" = Some (CF x) /\ tdSec X x = Ok (tHydDt TP)) /\
    (exists x, c "Time" "MorDtMin" = Some (CF x) /\ tdSec X x = Ok (tMorDtMin TP)) /\
    (exists x, c "Time" "MorDtMax" = Some (CF x) /\ tdSec X x = Ok (tMorDtMax TP)).
  Proof.
    unfold timeOf. intros H. bok H a. bok H a'. bok H z. bok H z'. bok H h. bok H h'. bok H mi. bok H mi'. bok H ma. bok H ma'.
    apply Ok_inj in H. subst TP. cbn. apply getS_ok in Ea, Ez. apply getF_ok in Eh, Emi, Ema. unfold sTi in *.
    split; [|split; [|split; [|split]]]; eexists; (split; [eassumption|assumption]).
  Qed.

  Lemma load_params (X : conv F) (W : world F) r32 file m : loadModel X W r32 file = Ok m ->
    wdIsFile W file = true /\ exists c, validate X (wdConf W file) = Ok c /\
    Forall (fun kf => c "PhysicalParameters" (fst kf) = Some (CF (snd kf (mdP m)))) physicalKeys /\
    Forall (fun kf => c "NumericalParameters" (fst kf) = Some (CF (snd kf (mdN m)))) numericalKeys /\
    (exists z, c "NumericalParameters" "MaxIt" = Some (CI z) /\ nMaxIt (mdN m) = Z.to_nat z) /\
    (exists t, c "Time" "EndTime" = Some (CS t) /\ txTime X t = Ok (tEnd (mdTP m))) /\
    Forall (fun kz => exists x, c (fst (fst kz)) (snd (fst kz)) = Some (CF x) /\ tdSec X x = Ok (snd kz))
      [("Time", "HydDt", tHydDt (mdTP m)); ("Time", "MorDtMin", tMorDtMin (mdTP m)); ("Time", "MorDtMax", tMorDtMax (mdTP m));
       ("OutputOptions", "OutInt", mdOutInt m); ("OutputOptions", "TsOutInt", mdTsInt m); ("OutputOptions", "LogInt", mdLogInt m);
       ("OutputOptions", "PlotInt", mdPlotInt m)].
  Proof.
    intros H. apply load_inv in H as (c & TP & P & N & o & d & h & flow & waves & sea & L). split; [exact (l_file _ _ _ _ _ _ _ _ _ _ _ _ _ _ _ L)|].
    exists c. split; [eapply l_conf; eauto|]. rewrite (l_P _ _ _ _ _ _ _ _ _ _ _ _ _ _ _ L), (l_N _ _ _ _ _ _ _ _ _ _ _ _ _ _ _ L), (l_tp _ _ _ _ _ _ _ _ _ _ _ _ _ _ _ L).
    split; [apply phys_keys; eapply l_phys; eauto|]. destruct (num_keys c N) as [A B]; [eapply l_num; eauto|]. split; [auto|]. split; [auto|].
    destruct (time_keys X c TP) as (T0 & T1 & T2 & T3 & T4); [eapply l_time; eauto|]. cbn [tEnd tHydDt tMorDtMin tMorDtMax]. split; [auto|].
    repeat (constructor; [first [assumption|eapply l_oi; eassumption|eapply l_ti; eassumption|eapply l_li; eassumption|eapply l_pi; eassumption]|]). constructor.
  Qed.

  (** ** What loading guarantees *)
  Lemma load_sound (X : conv F) (W : world F) r32 file m : loadModel X W r32 file = Ok m ->
    (feqb (fmul (fmul (fsub (pRhoSed (mdP m)) (pRhoSea (mdP m))) (pGravity (mdP m))) (fsub f1 (pVoidRatio (mdP m)))) f0 = false /\
     feqb (fmul (fmul (pRhoSea (mdP m)) (fpow (pGravity (mdP m)) (fofQ 15 10))) (fpow (pGammaRatio (mdP m)) (fofZ 2))) f0 = false /\
     feqb (fsub (pTargetBarWidth (mdP m)) (pSpitWidth (mdP m))) f0 = false /\ derive (mdP m) = mdP m) /\
    (exists s, covers (tStart (mdTP m)) (tEnd (mdTP m)) s /\ trimSeries (tStart (mdTP m)) (tEnd (mdTP m)) (tMorDtMax (mdTP m)) s = Ok (mdFlow m)) /\
    (exists s, covers (tStart (mdTP m)) (tEnd (mdTP m)) s /\ trimSeries (tStart (mdTP m)) (tEnd (mdTP m)) (tMorDtMax (mdTP m)) s = Ok (mdWaves m)) /\
    (exists s, covers (tStart (mdTP m)) (tEnd (mdTP m)) s /\ trimSeries (tStart (mdTP m)) (tEnd (mdTP m)) (tMorDtMax (mdTP m)) s = Ok (mdSea m)).
  Proof.
    intros H. apply load_inv in H as (c & TP & P & N & o & d & h & flow & waves & sea & L).
    rewrite (l_P _ _ _ _ _ _ _ _ _ _ _ _ _ _ _ L), (l_tp _ _ _ _ _ _ _ _ _ _ _ _ _ _ _ L). cbn [tStart tEnd tMorDtMax].
    split; [apply (phys_div c); eapply l_phys; eauto|].
    pose proof (l_tflow _ _ _ _ _ _ _ _ _ _ _ _ _ _ _ L) as A. pose proof (l_twaves _ _ _ _ _ _ _ _ _ _ _ _ _ _ _ L) as B. pose proof (l_tsea _ _ _ _ _ _ _ _ _ _ _ _ _ _ _ L) as C.
    split; [|split]; eexists; (split; [|eassumption]); eapply trim_asserts; eassumption.
  Qed.
End Load.
