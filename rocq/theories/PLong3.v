(** Two configurations that differ in EndTime only. *)
From Coq Require Import ZArith List Bool String Ascii Lia.
From Verif Require Import Base Num SSame MState MGeom MOut MCoast MRiv MMor MCore MLoad MSynth MConf SConf SLoad SRun SLong PConf PConf2 PCore PLoad PLoad2 PSynth PConf3 PSame PLong PLong2.
From Verif Require Import SLoad.
Import ListNotations.
Local Open Scope string_scope.
Local Open Scope Z_scope.

Section Load.
  Context {F : Type} {NF : Num F}.
  Lemma conf_agree (X : conv F) r r' c c' : validate X r = Ok c -> validate X r' = Ok c' -> onlyEnd r r' ->
    forall s k, (s, k) <> ("Time", "EndTime") -> c s k = c' s k.
  Proof.
    intros V V' A s k N. unfold validate in V, V'. destruct (forallb _ cspec) in V; [|discriminate]. destruct (forallb _ cspec) in V'; [|discriminate].
    apply Ok_inj in V, V'. subst c c'. cbv beta. destruct (find _ cspec) as [e|] eqn:Fe; [|reflexivity].
    apply find_some in Fe as [_ B]. apply andb_true_iff in B as [B1 B2]. apply String.eqb_eq in B1, B2. subst s k. unfold entryVal. rewrite A by exact N. reflexivity.
  Qed.

  Section Two.
    Variables (c c' : conf F).
    Hypothesis AG : forall s k, (s, k) <> ("Time", "EndTime") -> c s k = c' s k.
    Lemma gF s k : (s, k) <> ("Time", "EndTime") -> getF c s k = getF c' s k. Proof. intros. unfold getF. rewrite AG by assumption. reflexivity. Qed.
    Lemma gS s k : (s, k) <> ("Time", "EndTime") -> getS c s k = getS c' s k. Proof. intros. unfold getS. rewrite AG by assumption. reflexivity. Qed.
    Lemma gI s k : (s, k) <> ("Time", "EndTime") -> getI c s k = getI c' s k. Proof. intros. unfold getI. rewrite AG by assumption. reflexivity. Qed.
    Lemma oS s k : (s, k) <> ("Time", "EndTime") -> optS c s k = optS c' s k. Proof. intros. unfold optS. rewrite AG by assumption. reflexivity. Qed.
    Lemma oF s k : (s, k) <> ("Time", "EndTime") -> optF c s k = optF c' s k. Proof. intros. unfold optF. rewrite AG by assumption. reflexivity. Qed.
    Lemma fl s k : (s, k) <> ("Time", "EndTime") -> flag c s k = flag c' s k. Proof. intros. unfold flag. rewrite AG by assumption. reflexivity. Qed.
    Lemma phys_two : physOf c = physOf c'.
    Proof. unfold physOf. cbv zeta. rewrite !gF by (unfold sPP; discriminate). reflexivity. Qed.
    Lemma num_two : numOf c = numOf c'.
    Proof. unfold numOf. cbv zeta. rewrite !gF, !gI by (unfold sNP; discriminate). reflexivity. Qed.
    Lemma names_two file : outNames c file = outNames c' file.
    Proof. unfold outNames. rewrite !oS by (unfold sOO; discriminate). reflexivity. Qed.
    Lemma space_two (X : conv F) W r r' r32 dir P Dx st :
      spatialOf X (withConf W r) r32 c dir P Dx st = spatialOf X (withConf W r') r32 c' dir P Dx st.
    Proof.
      unfold spatialOf, iniOf. cbv zeta. rewrite !oS, !gS, !fl, !gF, !oF by (unfold sHS, sSI, sIC; discriminate). reflexivity.
    Qed.
    Lemma time_two (X : conv F) TP TP' : timeOf X c = Ok TP -> timeOf X c' = Ok TP' ->
      tStart TP = tStart TP' /\ tHydDt TP = tHydDt TP' /\ tMorDtMin TP = tMorDtMin TP' /\ tMorDtMax TP = tMorDtMax TP'.
    Proof.
      intros H H'. apply time_keys in H as ((t1 & A1 & B1) & _ & (t2 & A2 & B2) & (t3 & A3 & B3) & (t4 & A4 & B4)).
      apply time_keys in H' as ((u1 & C1 & D1) & _ & (u2 & C2 & D2) & (u3 & C3 & D3) & (u4 & C4 & D4)).
      rewrite AG in A1, A2, A3, A4 by discriminate. rewrite C1 in A1. rewrite C2 in A2. rewrite C3 in A3. rewrite C4 in A4.
      injection A1 as ->. injection A2 as ->. injection A3 as ->. injection A4 as ->.
      rewrite D1 in B1. rewrite D2 in B2. rewrite D3 in B3. rewrite D4 in B4. apply Ok_inj in B1, B2, B3, B4. auto.
    Qed.
    Lemma span_two (X : conv F) k a b : (exists x, c sOO k = Some (CF x) /\ tdSec X x = Ok a) -> (exists x, c' sOO k = Some (CF x) /\ tdSec X x = Ok b) -> a = b.
    Proof. intros (x & A & B) (y & C & D). rewrite AG in A by (unfold sOO; discriminate). rewrite C in A. injection A as ->. rewrite D in B. apply Ok_inj in B. auto. Qed.
  End Two.

  Lemma ordered_map {A B} (f : A -> B) (s : list (Z * A)) : ordered_times s -> ordered_times (map (fun p => (fst p, f (snd p))) s).
  Proof.
    intros O i x y Hx Hy. rewrite nth_error_map in Hx, Hy. destruct (nth_error s i) as [u|] eqn:U; [|discriminate]. destruct (nth_error s (S i)) as [w|] eqn:V; [|discriminate].
    cbn in Hx, Hy. injection Hx as <-. injection Hy as <-. cbn [fst]. eapply O; eauto.
  Qed.

  Lemma later_loaded (X : conv F) (W : world F) r r' r32 file c m m' n : validate X r = Ok c ->
    loadModel X (withConf W r) r32 file = Ok m -> loadModel X (withConf W r') r32 file = Ok m' -> onlyEnd r r' ->
    c "BoundaryConditions" "RiverFlow" = Some (CS n) -> ~ sameWord n "shotnoise" ->
    (forall f s, wdSeries W f = Ok s -> ordered_times s) -> (forall f s, wdWaves W f = Ok s -> ordered_times s) ->
    tStart (mdTP m) < tEnd (mdTP m) -> tEnd (mdTP m) <= tEnd (mdTP m') -> 0 <= tMorDtMax (mdTP m) ->
    onlyLater m m' /\ longer (alike (tStart (mdTP m)) (tEnd (mdTP m))) (envOf m) (envOf m').
  Proof.
    intros V H H' A En Nw OS OW L1 L2 L3.
    assert (V1 : validate X (wdConf (withConf W r) file) = Ok c) by exact V.
    destruct (same_conf _ _ _ _ _ _ H V1) as (TP & P & N & o & d & h & flow & waves & sea & L).
    apply load_inv in H' as (c' & TP' & P' & N' & o' & d' & h' & flow' & waves' & sea' & L').
    assert (AG := conf_agree X r r' c c' V (l_conf _ _ _ _ _ _ _ _ _ _ _ _ _ _ _ L') A).
    destruct (time_two c c' AG X TP TP' (l_time _ _ _ _ _ _ _ _ _ _ _ _ _ _ _ L) (l_time _ _ _ _ _ _ _ _ _ _ _ _ _ _ _ L')) as (T1 & T2 & T3 & T4).
    assert (EP : P' = P).
    { pose proof (l_phys _ _ _ _ _ _ _ _ _ _ _ _ _ _ _ L) as Q. pose proof (l_phys _ _ _ _ _ _ _ _ _ _ _ _ _ _ _ L') as Q'. rewrite (phys_two c c' AG), Q' in Q. apply Ok_inj in Q. exact Q. }
    assert (EN : N' = N).
    { pose proof (l_num _ _ _ _ _ _ _ _ _ _ _ _ _ _ _ L) as Q. pose proof (l_num _ _ _ _ _ _ _ _ _ _ _ _ _ _ _ L') as Q'. rewrite (num_two c c' AG), Q' in Q. apply Ok_inj in Q. exact Q. }
    subst P' N'.
    assert (EH : o' = o /\ d' = d /\ h' = h).
    { pose proof (l_space _ _ _ _ _ _ _ _ _ _ _ _ _ _ _ L) as Q. pose proof (l_space _ _ _ _ _ _ _ _ _ _ _ _ _ _ _ L') as Q'. rewrite (space_two c c' AG X W r r'), T1, Q' in Q. apply Ok_inj in Q.
      split; [exact (f_equal (fun q => fst (fst q)) Q)|]. split; [exact (f_equal (fun q => snd (fst q)) Q)|exact (f_equal snd Q)]. }
    destruct EH as (-> & -> & ->).
    pose proof (l_tp _ _ _ _ _ _ _ _ _ _ _ _ _ _ _ L) as TPm. pose proof (l_tp _ _ _ _ _ _ _ _ _ _ _ _ _ _ _ L') as TPm'.
    rewrite TPm in L1, L2, L3. rewrite TPm' in L2. cbn [tStart tEnd tMorDtMax] in L1, L2, L3.
    split.
    - pose proof (l_hot _ _ _ _ _ _ _ _ _ _ _ _ _ _ _ L) as Q. pose proof (l_hot _ _ _ _ _ _ _ _ _ _ _ _ _ _ _ L') as Q'. rewrite Q in Q' at 1. clear Q.
      pose proof (l_names _ _ _ _ _ _ _ _ _ _ _ _ _ _ _ L) as R. pose proof (l_names _ _ _ _ _ _ _ _ _ _ _ _ _ _ _ L') as R'. rewrite <- (names_two c c' AG), <- R in R'.
      unfold onlyLater. rewrite (l_o _ _ _ _ _ _ _ _ _ _ _ _ _ _ _ L), (l_o _ _ _ _ _ _ _ _ _ _ _ _ _ _ _ L'), (l_d _ _ _ _ _ _ _ _ _ _ _ _ _ _ _ L), (l_d _ _ _ _ _ _ _ _ _ _ _ _ _ _ _ L').
      split; [reflexivity|]. split; [reflexivity|]. split; [exact (f_equal htT Q')|]. split; [exact (f_equal htRiver Q')|]. split; [exact (f_equal htE0 Q')|]. split; [exact (f_equal htE1 Q')|].
      split; [exact (f_equal htW Q')|]. split; [exact (f_equal htZ Q')|]. split; [exact (f_equal htRWL Q')|]. split; [exact (f_equal htRVel Q')|].
      split; [exact (f_equal htLWL Q')|]. split; [exact (f_equal htLVel Q')|]. split; [exact (f_equal htODep Q')|]. split; [exact (f_equal htOVel Q')|].
      split; [exact (f_equal htEDep Q')|]. split; [exact (f_equal htEVel Q')|]. split; [exact (f_equal htClosed Q')|].
      split; [symmetry; exact (f_equal fst R')|]. split; [symmetry; exact (f_equal snd R')|].
      split; [exact (span_two c c' AG X _ _ _ (l_li _ _ _ _ _ _ _ _ _ _ _ _ _ _ _ L) (l_li _ _ _ _ _ _ _ _ _ _ _ _ _ _ _ L'))|].
      exact (span_two c c' AG X _ _ _ (l_pi _ _ _ _ _ _ _ _ _ _ _ _ _ _ _ L) (l_pi _ _ _ _ _ _ _ _ _ _ _ _ _ _ _ L')).
    - pose proof (l_tflow _ _ _ _ _ _ _ _ _ _ _ _ _ _ _ L) as F1. pose proof (l_tflow _ _ _ _ _ _ _ _ _ _ _ _ _ _ _ L') as F2.
      pose proof (l_twaves _ _ _ _ _ _ _ _ _ _ _ _ _ _ _ L) as W1. pose proof (l_twaves _ _ _ _ _ _ _ _ _ _ _ _ _ _ _ L') as W2.
      pose proof (l_tsea _ _ _ _ _ _ _ _ _ _ _ _ _ _ _ L) as S1. pose proof (l_tsea _ _ _ _ _ _ _ _ _ _ _ _ _ _ _ L') as S2.
      rewrite <- T4 in F2, W2, S2.
      assert (En' : c' "BoundaryConditions" "RiverFlow" = Some (CS n)) by (rewrite <- AG; [exact En|discriminate]).
      assert (AF : alike (htStart h) (tEnd TP) (mdFlow m) (mdFlow m')).
      { pose proof (l_flow _ _ _ _ _ _ _ _ _ _ _ _ _ _ _ L) as Q. pose proof (l_flow _ _ _ _ _ _ _ _ _ _ _ _ _ _ _ L') as Q'.
        unfold flowOf, getS, sBC in Q, Q'. rewrite En in Q. rewrite En' in Q'. cbn [bind] in Q, Q'. rewrite (not_word n "shotnoise") in Q, Q' by (auto; smalls).
        cbn [withConf wdSeries] in Q, Q'. rewrite Q in Q'. apply Ok_inj in Q'. subst flow'. apply OS in Q.
        rewrite <- (app_nil_r flow) in F2, Q. pose proof (trim_alike (fun x => x) _ _ _ _ _ _ _ _ Q (Forall_nil _) L1 L2 L3 F1 F2) as K. cbv beta in K. rewrite !map_pair_id in K. exact K. }
      assert (AW : forall f, alike (htStart h) (tEnd TP) (col f (mdWaves m)) (col f (mdWaves m'))).
      { intros f. pose proof (l_waves _ _ _ _ _ _ _ _ _ _ _ _ _ _ _ L) as Q. pose proof (l_waves _ _ _ _ _ _ _ _ _ _ _ _ _ _ _ L') as Q'.
        unfold wavesOf in Q, Q'. rewrite <- (gS c c' AG) in Q' by (unfold sBC; discriminate). bok Q nw. try rewrite Enw in Q'. cbn [bind] in Q'. bok Q rows. cbn [withConf wdWaves] in Erows, Q'. rewrite Erows in Q'. cbn [bind] in Q'.
        apply Ok_inj in Q, Q'. apply OW in Erows. rewrite Q in Q'. subst waves'.
        assert (O : ordered_times waves).
        { rewrite <- Q. apply (ordered_map (fun w => mkWr (waveDir d (wrDir w)) (wrPow w) (wrPer w) (wrLen w) (wrHs w))). exact Erows. }
        rewrite <- (app_nil_r waves) in W2, O. exact (trim_alike f _ _ _ _ _ _ _ _ O (Forall_nil _) L1 L2 L3 W1 W2). }
      assert (AS : alike (htStart h) (tEnd TP) (mdSea m) (mdSea m')).
      { pose proof (l_sea _ _ _ _ _ _ _ _ _ _ _ _ _ _ _ L) as Q. pose proof (l_sea _ _ _ _ _ _ _ _ _ _ _ _ _ _ _ L') as Q'.
        unfold seaOf in Q, Q'. rewrite <- !(gS c c' AG), <- !(gF c c' AG) in Q' by (unfold sBC, sHT; discriminate). bok Q ns. try rewrite Ens in Q'. cbn [bind] in Q'.
        destruct (String.eqb (lower ns) "harmonic").
        - bok Q i. try rewrite Ei in Q'. cbn [bind] in Q'. bok Q i'. rewrite Ei' in Q'. cbn [bind] in Q'. bok Q ms. try rewrite Ems in Q'. cbn [bind] in Q'. bok Q ra. try rewrite Era in Q'. cbn [bind] in Q'.
          destruct (Z.leb_spec i' 0) as [|Pi]; [discriminate|]. apply Ok_inj in Q, Q'. rewrite <- T1 in Q'.
          assert (LE : tStart TP <= tEnd TP).
          { destruct (Z.ltb_spec (tEnd TP) (tStart TP)) as [C|C]; [|exact C]. subst sea. unfold harmonicTide, dateRange in S1. rewrite (proj2 (Z.ltb_lt _ _) C) in S1. discriminate. }
          destruct (tide_more (tStart TP) (tEnd TP) (tEnd TP') i' ms ra Pi ltac:(lia)) as (more & E & M & O). rewrite E, Q in Q'. rewrite Q in O. subst sea'.
          pose proof (trim_alike (fun x => x) _ _ _ _ _ _ _ _ O M L1 L2 L3 S1 S2) as K. cbv beta in K. rewrite !map_pair_id in K. exact K.
        - cbn [withConf wdSeries] in Q, Q'. rewrite Q in Q'. apply Ok_inj in Q'. subst sea'. apply OS in Q.
          rewrite <- (app_nil_r sea) in S2, Q. pose proof (trim_alike (fun x => x) _ _ _ _ _ _ _ _ Q (Forall_nil _) L1 L2 L3 S1 S2) as K. cbv beta in K. rewrite !map_pair_id in K. exact K. }
      rewrite TPm. cbn [tStart tEnd]. unfold longer, envOf. cbn [vP vN vTP vOutInt vTsInt vFlow vSea vWaves wvDir wvPow wvPer wvLen wvHs]. rewrite TPm, TPm'. cbn [tStart tEnd tHydDt tMorDtMin tMorDtMax].
      rewrite (l_P _ _ _ _ _ _ _ _ _ _ _ _ _ _ _ L), (l_P _ _ _ _ _ _ _ _ _ _ _ _ _ _ _ L'), (l_N _ _ _ _ _ _ _ _ _ _ _ _ _ _ _ L), (l_N _ _ _ _ _ _ _ _ _ _ _ _ _ _ _ L').
      pose proof (span_two c c' AG X _ _ _ (l_oi _ _ _ _ _ _ _ _ _ _ _ _ _ _ _ L) (l_oi _ _ _ _ _ _ _ _ _ _ _ _ _ _ _ L')) as OI.
      pose proof (span_two c c' AG X _ _ _ (l_ti _ _ _ _ _ _ _ _ _ _ _ _ _ _ _ L) (l_ti _ _ _ _ _ _ _ _ _ _ _ _ _ _ _ L')) as TI.
      do 2 (split; [reflexivity|]). split; [exact OI|]. split; [exact TI|]. split; [reflexivity|]. split; [exact L2|]. do 3 (split; [assumption|]).
      split; [exact AF|]. split; [exact AS|]. exact (conj (AW _) (conj (AW _) (conj (AW _) (conj (AW _) (AW _))))).
  Qed.

  Lemma longer_impl (rl rl' : list (Z * F) -> list (Z * F) -> Prop) v v' : (forall s s', rl s s' -> rl' s s') -> longer rl v v' -> longer rl' v v'.
  Proof. unfold longer. intuition auto. Qed.

  Lemma later_program (X : conv F) (W : world F) r r' r32 file c n v v' s s' : validate X r = Ok c ->
    start X (withConf W r) r32 file = Ok (v, s) -> start X (withConf W r') r32 file = Ok (v', s') -> onlyEnd r r' ->
    c "BoundaryConditions" "RiverFlow" = Some (CS n) -> ~ sameWord n "shotnoise" ->
    (forall f l, wdSeries W f = Ok l -> ordered_times l) -> (forall f l, wdWaves W f = Ok l -> ordered_times l) ->
    tStart (vTP v) < tEnd (vTP v) -> tEnd (vTP v) <= tEnd (vTP v') -> 0 <= tMorDtMin (vTP v) -> 0 <= tMorDtMax (vTP v) -> 0 < tHydDt (vTP v) ->
    s' = s /\
    (forall af o k s1, (forall j s2, (j < k)%nat -> steps af j 0 o v s = Ok s2 -> gTime s2 + gDt s2 <= tEnd (vTP v)) ->
      steps af k 0 o v s = Ok s1 -> gTime s1 < tEnd (vTP v) -> steps af k 0 o v' s' = Ok s1).
  Proof.
    intros V H H' A En Nw OS OW L1 L2 L0 L3 Lh. unfold start in H, H'. bok H m. bok H s0. apply Ok_inj in H. bok H' m'. bok H' s0'. apply Ok_inj in H'.
    assert (Ev : envOf m = v) by exact (f_equal fst H). assert (Es : s0 = s) by exact (f_equal snd H).
    assert (Ev' : envOf m' = v') by exact (f_equal fst H'). assert (Es' : s0' = s') by exact (f_equal snd H'). clear H H'. subst v v' s0 s0'.
    destruct (later_loaded X W r r' r32 file c m m' n V Em Em' A En Nw OS OW L1 L2 L3) as (Q & D).
    apply (longer_impl _ _ _ _ (@alike_answer _ _ _ _)) in D.
    destruct Q as (_ & _ & Q1 & Q2 & Q3 & Q4 & Q5 & Q6 & Q7 & Q8 & Q9 & Q10 & Q11 & Q12 & Q13 & Q14 & Q15 & _).
    rewrite <- Q1, <- Q2, <- Q3, <- Q4, <- Q5, <- Q6, <- Q7, <- Q8, <- Q9, <- Q10, <- Q11, <- Q12, <- Q13, <- Q14, <- Q15 in Es0'.
    rewrite (longer_init _ _ _ _ _ _ _ _ _ _ _ _ _ _ _ _ _ _ _ D) in Es0'; [|cbn [envOf vTP]; cbn [envOf vTP] in L1; lia].
    rewrite Es0 in Es0'. apply Ok_inj in Es0'. split; [auto|]. subst s'. intros af o k s1 G Hs Lt.
    apply init_facts in Es0. destruct Es0 as (I1 & I2 & _).
    apply (longer_steps _ _ _ _ af o k 0 s s1 D Lh); [lia|lia| |exact Hs|exact Lt].
    intros j s2 Hj Hs2. specialize (G _ _ Hj Hs2).
    assert (C : clocked (envOf m) s) by (split; lia). destruct (steps_clock _ _ _ _ _ _ _ C Hs2) as ((C1 & C2) & C3). cbn [envOf vTP] in *. split; lia.
  Qed.
End Load.
