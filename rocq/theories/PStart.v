(** Proofs about the coast a model starts from. *)
From Coq Require Import ZArith List Bool String Ascii Lia.
From Verif Require Import Base Num MState MGeom MOut MCoast MRiv MMor MCore MLoad MSynth MConf SConf SLoad SRun PConf PConf2 PCore PConf3 SStart.
Import ListNotations.
Local Open Scope string_scope.

Section Start.
  Context {F : Type} {NF : Num F}.
  Lemma ini_keys (c : conf F) (I : inicond F) : iniOf c = Ok I ->
    c "InitialConditions" "LagoonBed" = Some (CF (iLagoonBed I)) /\ c "InitialConditions" "OutletBed" = Some (CF (iOutletBed I)) /\
    c "InitialConditions" "OutletWidth" = Some (CF (iOutletWidth I)) /\ c "InitialConditions" "BarrierElev" = Some (CF (iBarrierElev I)).
  Proof.
    unfold iniOf. intros H. bok H lb. bok H ob. bok H ow. bok H be. apply Ok_inj in H. subst I. cbn [iLagoonBed iOutletBed iOutletWidth iBarrierElev].
    apply getF_ok in Elb, Eob, Eow, Ebe. unfold sIC in *. auto.
  Qed.
  Lemma optF_some (c : conf F) s k (x : F) : optF c s k = Some x -> c s k = Some (CF x).
  Proof. unfold optF. destruct (c s k) as [[]|]; intros H; try discriminate; congruence. Qed.

  Lemma straight_start (X : conv F) (W : world F) r32 file m c : loadModel X W r32 file = Ok m -> validate X (wdConf W file) = Ok c ->
    c "HotStart" "InitialConditionsNetCDF" = Some CNone -> c "SpatialInputs" "Shoreline" = Some CNone ->
    exists lb ob ow be l r b,
      c "InitialConditions" "LagoonBed" = Some (CF lb) /\ c "InitialConditions" "OutletBed" = Some (CF ob) /\
      c "InitialConditions" "OutletWidth" = Some (CF ow) /\ c "InitialConditions" "BarrierElev" = Some (CF be) /\
      c "SpatialInputs" "ShorelineLengthLeft" = Some (CF l) /\ c "SpatialInputs" "ShorelineLengthRight" = Some (CF r) /\
      c "SpatialInputs" "BeachWidth" = Some (CF b) /\
      mdT m = map (fun x => if feqb x f0 then mouthAt (pSpitWidth (mdP m)) ow (pRiverWidth (mdP m)) lb ob be x else beachAt b lb be x)
                  (farange (fmul (fofZ (ffloor (fdiv (fopp l) (nDx (mdN m))))) (nDx (mdN m))) (fadd r (nDx (mdN m))) (nDx (mdN m))) /\
      mdRiver m = rev (farange lb (fadd lb (fmul (pRiverSlope (mdP m)) (pUpstreamLength (mdP m)))) (fmul (pRiverSlope (mdP m)) (nDx (mdN m)))) /\
      mdE0 m = f0 /\ mdE1 m = f0 /\ mdW m = ow /\ mdZ m = ob.
  Proof.
    intros H V E C. destruct (same_conf _ _ _ _ _ _ H V) as (TP & P & N & o & d & h & flow & waves & sea & L).
    pose proof (l_space _ _ _ _ _ _ _ _ _ _ _ _ _ _ _ L) as Q. unfold spatialOf in Q.
    assert (E0 : optS c sHS "InitialConditionsNetCDF" = None) by (unfold optS, sHS; rewrite E; reflexivity). rewrite E0 in Q.
    bok Q ic. bok Q river. pose proof (l_hot _ _ _ _ _ _ _ _ _ _ _ _ _ _ _ L) as HH.
    rewrite (l_P _ _ _ _ _ _ _ _ _ _ _ _ _ _ _ L), (l_N _ _ _ _ _ _ _ _ _ _ _ _ _ _ _ L).
    assert (Es : optS c sSI "Shoreline" = None) by (unfold optS, sSI; rewrite C; reflexivity). rewrite Es in Q.
    destruct (optF c sSI "ShorelineLengthLeft") as [l|] eqn:K1; [|discriminate]. destruct (optF c sSI "ShorelineLengthRight") as [r|] eqn:K2; [|discriminate].
    destruct (optF c sSI "BeachWidth") as [b|] eqn:K3; [|discriminate]. unfold straightShore in Q. apply Ok_inj in Q.
    apply (f_equal snd) in Q. cbn [snd] in Q. rewrite <- Q in HH. unfold cold in HH. apply optF_some in K1, K2, K3. unfold sSI in *.
    destruct (ini_keys _ _ Eic) as (I1 & I2 & I3 & I4). unfold riverOf in Eriver. destruct (feqb _ _) in Eriver; [discriminate|]. apply Ok_inj in Eriver.
    exists (iLagoonBed ic), (iOutletBed ic), (iOutletWidth ic), (iBarrierElev ic), l, r, b. do 7 (split; [assumption|]).
    split; [exact (eq_sym (f_equal htT HH))|]. split; [exact (eq_trans (eq_sym (f_equal htRiver HH)) (eq_sym Eriver))|].
    split; [exact (eq_sym (f_equal htE0 HH))|]. split; [exact (eq_sym (f_equal htE1 HH))|]. split; [exact (eq_sym (f_equal htW HH))|]. exact (eq_sym (f_equal htZ HH)).
  Qed.

  Lemma shape_start (X : conv F) (W : world F) r32 file m c sh : loadModel X W r32 file = Ok m -> validate X (wdConf W file) = Ok c ->
    c "HotStart" "InitialConditionsNetCDF" = Some CNone -> c "SpatialInputs" "Shoreline" = Some (CS sh) ->
    exists lb ob ow be shore inflow lagoon cliff outlet pt,
      c "InitialConditions" "LagoonBed" = Some (CF lb) /\ c "InitialConditions" "OutletBed" = Some (CF ob) /\
      c "InitialConditions" "OutletWidth" = Some (CF ow) /\ c "InitialConditions" "BarrierElev" = Some (CF be) /\
      wdShp W (joinPath (dirName file) sh) = Some (mkShp 3 [shore]) /\
      (exists n, c "SpatialInputs" "RiverLocation" = Some (CS n) /\ wdShp W (joinPath (dirName file) n) = Some (mkShp 1 [inflow])) /\
      nth_error inflow 0 = Some pt /\
      (exists n, c "SpatialInputs" "BarrierBackshore" = Some (CS n) /\ wdShp W (joinPath (dirName file) n) = Some (mkShp 3 [lagoon])) /\
      (exists n, c "SpatialInputs" "CliffToe" = Some (CS n) /\ wdShp W (joinPath (dirName file) n) = Some (mkShp 3 [cliff])) /\
      (exists n, c "SpatialInputs" "OutletLocation" = Some (CS n) /\ wdShp W (joinPath (dirName file) n) = Some (mkShp 3 [outlet])) /\
      shapeShore (mdP m) (mkIni lb ob ow be) (nDx (mdN m)) (wdFit W shore) pt shore lagoon cliff outlet =
        Ok (mdT m, mdE0 m, mdE1 m, ow, ob, mdOrigin m, mdDir m) /\
      mdRiver m = rev (farange lb (fadd lb (fmul (pRiverSlope (mdP m)) (pUpstreamLength (mdP m)))) (fmul (pRiverSlope (mdP m)) (nDx (mdN m)))) /\
      mdW m = ow /\ mdZ m = ob.
  Proof.
    intros H V E C. destruct (same_conf _ _ _ _ _ _ H V) as (TP & P & N & o & d & h & flow & waves & sea & L).
    pose proof (l_space _ _ _ _ _ _ _ _ _ _ _ _ _ _ _ L) as Q. unfold spatialOf in Q.
    assert (E0 : optS c sHS "InitialConditionsNetCDF" = None) by (unfold optS, sHS; rewrite E; reflexivity). rewrite E0 in Q.
    bok Q ic. bok Q river. pose proof (l_hot _ _ _ _ _ _ _ _ _ _ _ _ _ _ _ L) as HH.
    rewrite (l_P _ _ _ _ _ _ _ _ _ _ _ _ _ _ _ L), (l_N _ _ _ _ _ _ _ _ _ _ _ _ _ _ _ L), (l_o _ _ _ _ _ _ _ _ _ _ _ _ _ _ _ L), (l_d _ _ _ _ _ _ _ _ _ _ _ _ _ _ _ L).
    assert (Es : optS c sSI "Shoreline" = Some sh) by (apply optS_some; exact C). rewrite Es in Q.
    bok Q shore. bok Q inflow. bok Q pt. bok Q lagoon. bok Q cliff. bok Q outlet. bok Q rr. destruct rr as [[[[[[T e0] e1] w] z] o'] d']. apply Ok_inj in Q.
    assert (QO : o' = o) by (apply (f_equal (fun q => fst (fst q))) in Q; exact Q).
    assert (QD : d' = d) by (apply (f_equal (fun q => snd (fst q))) in Q; exact Q).
    apply (f_equal snd) in Q. cbn [snd] in Q. rewrite <- Q in HH. unfold cold in HH. subst o' d'.
    destruct (ini_keys _ _ Eic) as (I1 & I2 & I3 & I4). unfold riverOf in Eriver. destruct (feqb _ _) in Eriver; [discriminate|]. apply Ok_inj in Eriver.
    assert (WZ : w = iOutletWidth ic /\ z = iOutletBed ic).
    { clear - Err. unfold shapeShore in Err. cbv zeta in Err. repeat (match type of Err with bind ?a _ = Ok _ => destruct a; [cbn [bind] in Err|discriminate] end).
      match type of Err with (let '(_, _) := ?x in _) = _ => destruct x as [[T1 u1] u2] end. apply Ok_inj in Err.
      split; [apply (f_equal (fun q => snd (fst (fst (fst q))))) in Err | apply (f_equal (fun q => snd (fst (fst q)))) in Err]; symmetry; exact Err. }
    destruct WZ as [-> ->].
    assert (ONE : forall nm ty l, oneShape W (dirName file) nm ty = Ok l -> exists n, nm = Some n /\ wdShp W (joinPath (dirName file) n) = Some (mkShp ty [l])).
    { clear. intros nm ty l H. unfold oneShape in H. destruct nm as [n|]; [|discriminate]. exists n. split; [reflexivity|].
      destruct (wdShp W _) as [s|]; [|discriminate]. cbn [of_opt bind] in H. destruct s as [t ss]. cbn [shType shShapes] in H.
      destruct (Z.eqb_spec t ty) as [->|]; [|discriminate]. cbn [assert_ bind] in H. destruct ss as [|l' [|]]; try discriminate. apply Ok_inj in H. subst. reflexivity. }
    exists (iLagoonBed ic), (iOutletBed ic), (iOutletWidth ic), (iBarrierElev ic), shore, inflow, lagoon, cliff, outlet, pt. do 4 (split; [assumption|]).
    assert (ONE' : forall k ty l, oneShape W (dirName file) (optS c sSI k) ty = Ok l -> exists n, c "SpatialInputs" k = Some (CS n) /\ wdShp W (joinPath (dirName file) n) = Some (mkShp ty [l])).
    { intros k ty l O. apply ONE in O as (n & O1 & O2). apply optS_some in O1. eauto. }
    split. { apply ONE in Eshore as (n & O1 & O2). injection O1 as <-. exact O2. }
    split; [apply ONE'; assumption|]. split. { unfold ix in Ept. destruct (nth_error inflow 0); [|discriminate]. apply Ok_inj in Ept. subst. reflexivity. }
    split; [apply ONE'; assumption|]. split; [apply ONE'; assumption|]. split; [apply ONE'; assumption|].
    rewrite <- (f_equal htT HH : _ = mdT m), <- (f_equal htE0 HH : _ = mdE0 m), <- (f_equal htE1 HH : _ = mdE1 m). split; [destruct ic; exact Err|].
    split; [exact (eq_trans (eq_sym (f_equal htRiver HH)) (eq_sym Eriver))|]. split; [exact (eq_sym (f_equal htW HH))|]. exact (eq_sym (f_equal htZ HH)).
  Qed.
End Start.
