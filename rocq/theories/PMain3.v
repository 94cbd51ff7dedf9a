(** Proofs: live figures do not change the results. *)
From Coq Require Import String ZArith List Bool Lia.
From Verif Require Import Base Num MState MCoast MRiv MMor MOut MCore MLoad MVis MConf MMain SOut SRun SMain SConf POut PHot PCore PConf PConf2 PConf3 PConf4 PMain PMain2.
Import List ListNotations.
Local Open Scope string_scope.
Local Open Scope list_scope.

Section Gen.
  Context {F : Type} {NF : Num F}.

  Definition setPlot (m : model F) (z : Z) : model F :=
    mkModel (mdFlow m) (mdWaves m) (mdSea m) (mdOrigin m) (mdDir m) (mdT m) (mdRiver m) (mdE0 m) (mdE1 m) (mdW m) (mdZ m) (mdRWL m) (mdRVel m)
      (mdLWL m) (mdLVel m) (mdODep m) (mdOVel m) (mdEDep m) (mdEVel m) (mdClosed m) (mdTP m) (mdP m) (mdN m) (mdOut m) (mdTsOut m)
      (mdOutInt m) (mdTsInt m) (mdLogInt m) z.
  Definition setPlotR (r : res (model F)) (z : Z) : res (model F) := let! m := r in Ok (setPlot m z).

  (** The plotting interval is all that depends on its entry. *)
  Lemma load_plot (X : conv F) (W : world F) r r' r32 file m m' :
    (forall s k, ~ (s = "OutputOptions" /\ k = "PlotInt") -> r s k = r' s k) ->
    loadModel X (withConf W r) r32 file = Ok m -> loadModel X (withConf W r') r32 file = Ok m' -> m' = setPlot m (mdPlotInt m').
  Proof.
    intros A H H'. unfold loadModel, withConf in H, H'. cbn [wdIsFile wdConf] in H, H'. destruct (wdIsFile W file); cbn [negb] in H, H'; [|discriminate].
    bok H c. bok H' c'.
    assert (AG : forall s k, ~ (s = "OutputOptions" /\ k = "PlotInt") -> c s k = c' s k).
    { clear H H'. intros s k N. unfold validate in Ec, Ec'. destruct (forallb _ cspec) in Ec; [|discriminate]. destruct (forallb _ cspec) in Ec'; [|discriminate].
      apply Ok_inj in Ec, Ec'. subst c c'. cbv beta. destruct (find _ cspec) as [e|] eqn:Fe; [|reflexivity].
      apply find_some in Fe as [_ B]. apply andb_true_iff in B as [B1 B2]. apply String.eqb_eq in B1, B2. subst s k. unfold entryVal. rewrite A by auto. reflexivity. }
    assert (GF : forall s k, ~ (s = "OutputOptions" /\ k = "PlotInt") -> getF c s k = getF c' s k) by (intros; unfold getF; rewrite AG; auto).
    assert (GS : forall s k, ~ (s = "OutputOptions" /\ k = "PlotInt") -> getS c s k = getS c' s k) by (intros; unfold getS; rewrite AG; auto).
    assert (GI : forall s k, ~ (s = "OutputOptions" /\ k = "PlotInt") -> getI c s k = getI c' s k) by (intros; unfold getI; rewrite AG; auto).
    assert (OS : forall s k, ~ (s = "OutputOptions" /\ k = "PlotInt") -> optS c s k = optS c' s k) by (intros; unfold optS; rewrite AG; auto).
    assert (OF : forall s k, ~ (s = "OutputOptions" /\ k = "PlotInt") -> optF c s k = optF c' s k) by (intros; unfold optF; rewrite AG; auto).
    assert (OI : forall s k, ~ (s = "OutputOptions" /\ k = "PlotInt") -> optI c s k = optI c' s k) by (intros; unfold optI; rewrite AG; auto).
    assert (FL : forall s k, ~ (s = "OutputOptions" /\ k = "PlotInt") -> flag c s k = flag c' s k) by (intros; unfold flag; rewrite AG; auto).
    Ltac nk := unfold sTi, sPP, sNP, sHS, sBC, sSN, sHT, sOO, sSI, sIC; intros [? ?]; discriminate.
    assert (Q1 : timeOf X c = timeOf X c') by (unfold timeOf; rewrite !GS, !GF by nk; reflexivity).
    assert (Q2 : physOf c = physOf c') by (unfold physOf; cbv zeta; rewrite !GF by nk; reflexivity).
    assert (Q3 : numOf c = numOf c') by (unfold numOf; cbv zeta; rewrite !GF, !GI by nk; reflexivity).
    rewrite Q1, Q2, Q3 in H. destruct (timeOf X c') as [TP|]; [|discriminate]. destruct (physOf c') as [P|]; [|discriminate]. destruct (numOf c') as [N|]; [|discriminate].
    cbn [bind] in H, H'.
    set (W1 := mkWorld (wdIsFile W) (fun _ => r) (wdNc W) (wdShp W) (wdFit W) (wdSeries W) (wdWaves W) (wdDraws W)) in *.
    set (W2 := mkWorld (wdIsFile W) (fun _ => r') (wdNc W) (wdShp W) (wdFit W) (wdSeries W) (wdWaves W) (wdDraws W)) in *.
    assert (QI : iniOf c = iniOf c') by (unfold iniOf; rewrite ?GF, ?OF by nk; reflexivity).
    assert (Q4 : spatialOf X W1 r32 c (dirName file) P (nDx N) (tStart TP) = spatialOf X W2 r32 c' (dirName file) P (nDx N) (tStart TP)).
    { unfold spatialOf. rewrite !OS, !OF, !GS, !FL by nk. rewrite QI. reflexivity. }
    rewrite Q4 in H. destruct (spatialOf X W2 r32 c' (dirName file) P (nDx N) (tStart TP)) as [[[o d] h]|]; [|discriminate]. cbn [bind] in H, H'.
    assert (Q5 : flowOf X W1 c (dirName file) (tStart TP) (tEnd TP) = flowOf X W2 c' (dirName file) (tStart TP) (tEnd TP)).
    { unfold flowOf. rewrite !GS, !OS, !GF, !OI, !OF by nk. reflexivity. }
    rewrite Q5 in H. destruct (flowOf X W2 c' (dirName file) (tStart TP) (tEnd TP)) as [flow|]; [|discriminate]. cbn [bind] in H, H'.
    assert (Q6 : wavesOf W1 c (dirName file) d = wavesOf W2 c' (dirName file) d) by (unfold wavesOf; rewrite !GS by nk; reflexivity).
    rewrite Q6 in H. destruct (wavesOf W2 c' (dirName file) d) as [waves|]; [|discriminate]. cbn [bind] in H, H'.
    assert (Q7 : seaOf X W1 c (dirName file) (tStart TP) (tEnd TP) = seaOf X W2 c' (dirName file) (tStart TP) (tEnd TP)).
    { unfold seaOf. rewrite !GS, !GF by nk. reflexivity. }
    rewrite Q7 in H. destruct (seaOf X W2 c' (dirName file) (tStart TP) (tEnd TP)) as [sea|]; [|discriminate]. cbn [bind] in H, H'.
    assert (QN : outNames c file = outNames c' file) by (unfold outNames; rewrite !OS by nk; reflexivity).
    rewrite (GF sOO "OutInt"), (GF sOO "TsOutInt"), (GF sOO "LogInt"), QN in H by nk.
    repeat match type of H with bind ?a _ = Ok _ => match type of H' with bind a _ = Ok _ => destruct a; [|discriminate]; cbn [bind] in H, H' end end.
    bok H pf. bok H pz. bok H' pf'. bok H' pz'. destruct (outNames c' file) as [n1 n2]. apply Ok_inj in H, H'. subst m m'. reflexivity.
  Qed.

  Definition prepareWith (m : model F) : res (ready F) :=
    let v := envOf m in
    let start := tStart (mdTP m) in
    let! flow := at1 (vFlow v) start in
    let! sea := at1 (vSea v) start in
    let! dir := at1 (wvDir (vWaves v)) start in
    let! hs := at1 (wvHs (vWaves v)) start in
    let! (c, dep, vel) := firstChan m flow sea in
    let! s := init v (mdT m) (mdE0 m) (mdE1 m) (mdW m) (mdZ m) (mdRiver m) (mdRWL m) (mdRVel m)
                   (mdLWL m) (mdLVel m) (mdODep m) (mdOVel m) (mdEDep m) (mdEVel m) (mdClosed m) in
    let n := List.length (mdT m) in
    let a := mkW start sea flow hs dir (mdT m) (gLWL s) (gLVel s) (zeros n) (gODep s) (gOVel s) (zeros n)
                 (zeros (n - 1)) (zeros n) (zeros n) (mdRiver m) (gRDep s) (gRVel s) (zeros (List.length (mdRiver m)))
                 (mdE0 m) (mdE1 m) (mdZ m) (mdW m) (gEDep s) (gEVel s) (zeros 2) (gClosed s) in
    let! d := last_ dep in
    let! u := last_ vel in
    let! w := last_ (chWidth c) in
    let b := mkTs start sea flow hs dir (nanmean (gLWL s)) (fmul (fmul d u) w) f0 (mdE0 m) (mdE1 m) (gClosed s) (tMorDtMin (mdTP m)) in
    Ok (mkReady m v s c dep vel a b).
  Lemma prepare_with (X : conv F) (W : world F) r32 file : prepare X W r32 file = let! m := loadModel X W r32 file in prepareWith m.
  Proof. reflexivity. Qed.
  Definition setReady (y : ready F) (z : Z) : ready F := mkReady (setPlot (ryM y) z) (ryV y) (ryS y) (ryC y) (ryDep y) (ryVel y) (ryA y) (ryB y).
  Lemma with_plot m z y : prepareWith m = Ok y -> prepareWith (setPlot m z) = Ok (setReady y z).
  Proof.
    unfold prepareWith. cbv zeta. intros H. change (firstChan (setPlot m z)) with (firstChan m).
    cbn [setPlot mdTP mdT mdE0 mdE1 mdW mdZ mdRiver mdRWL mdRVel mdLWL mdLVel mdODep mdOVel mdEDep mdEVel mdClosed].
    change (envOf (setPlot m z)) with (envOf m).
    bok H flow. rewrite Eflow; cbn [bind]. bok H sea. rewrite Esea; cbn [bind]. bok H dir. rewrite Edir; cbn [bind]. bok H hs. rewrite Ehs; cbn [bind].
    bok H cdv. rewrite Ecdv; cbn [bind]. destruct cdv as [[c dep] vel].
    bok H s. rewrite Es; cbn [bind]. bok H d. rewrite Ed; cbn [bind]. bok H u. rewrite Eu; cbn [bind]. bok H w. rewrite Ew; cbn [bind]. apply Ok_inj in H. subst y. reflexivity.
  Qed.
  Lemma prepare_plot (X : conv F) (W : world F) r r' r32 file y y' :
    (forall s k, ~ (s = "OutputOptions" /\ k = "PlotInt") -> r s k = r' s k) ->
    prepare X (withConf W r) r32 file = Ok y -> prepare X (withConf W r') r32 file = Ok y' -> y' = setReady y (mdPlotInt (ryM y')).
  Proof.
    intros A H H'. destruct (prepared _ _ _ _ _ H) as (L & _). destruct (prepared _ _ _ _ _ H') as (L' & _).
    rewrite prepare_with, L in H. rewrite prepare_with, L' in H'. cbn [bind] in H, H'.
    pose proof (load_plot _ _ _ _ _ _ _ _ A L L') as E. rewrite E in H'. rewrite (with_plot _ _ _ H) in H'. apply Ok_inj in H'. rewrite <- H' at 1. rewrite <- H'. reflexivity.
  Qed.

  (** The passes with figures are those without, perhaps fewer. *)
  Lemma passes_plots r32 n1 n2 pi pi0 af o v : (pi0 <= 0)%Z -> forall n k fs s p p0 fs' out,
    passes r32 n1 n2 pi af n k o v fs s p = (fs', out) ->
    exists j, (j <= n)%nat /\ exists out0, passes r32 n1 n2 pi0 af j k o v fs s p0 = (fs', out0) /\
      match out with
      | Running t _ => j = n /\ out0 = Running t p0
      | Finished t _ => out0 = Finished t p0
      | Raised e => out0 = Raised e \/ exists t, out0 = Running t p0 \/ out0 = Finished t p0
      end.
  Proof.
    intros Z0.
    assert (N : forall (p0 : live F) s', due pi0 p0 s' = false) by (intros; unfold due; rewrite (proj2 (Z.ltb_ge 0 pi0)) by lia; reflexivity).
    assert (stop : forall k fs s p0, exists t out0, passes r32 n1 n2 pi0 af 0 k o v fs s p0 = (fs, out0) /\ (out0 = Running t p0 \/ out0 = Finished t p0)).
    { intros. cbn [passes]. destruct (_ <=? _)%Z; eauto 6. }
    induction n as [|n IH]; intros k fs s p p0 fs' out H; cbn [passes] in H.
    - exists 0%nat. split; [lia|]. cbn [passes]. destruct (_ <=? _)%Z; injection H as <- <-; eauto.
    - destruct (gTime s <=? tEnd (vTP v))%Z eqn:L.
      2:{ injection H as <- <-. exists 0%nat. split; [lia|]. cbn [passes]. rewrite L. eauto. }
      destruct (step af (o k) v s) as [s1|e] eqn:E.
      2:{ injection H as <- <-. exists (S n). split; [lia|]. cbn [passes]. rewrite L, E. eauto. }
      destruct (plotBed (o k) v pi p s s1) as [u|e] eqn:B.
      2:{ injection H as <- <-. destruct (stop k fs s p0) as (t & out0 & P & Q). exists 0%nat. split; [lia|]. exists out0. split; [exact P|]. right. eauto. }
      destruct (saved r32 fs n1 n2 s s1) as [fs1 r] eqn:Sv.
      assert (One : forall j, passes r32 n1 n2 pi0 af (S j) k o v fs s p0 =
                match r with Exc e => (fs1, Raised e) | Ok _ => passes r32 n1 n2 pi0 af j (S k) o v fs1 s1 p0 end).
      { intros j. cbn [passes]. rewrite L, E. unfold plotBed at 1, drawPass at 1. rewrite N, Sv. destruct r; reflexivity. }
      destruct r as [u1|e].
      2:{ injection H as <- <-. exists 1%nat. split; [lia|]. rewrite One. eauto. }
      destruct (drawPass (o k) v pi p s s1) as [p1|e] eqn:Dr.
      2:{ injection H as <- <-. exists 1%nat. split; [lia|]. rewrite One. destruct (stop (S k) fs1 s1 p0) as (t & out0 & P & Q). exists out0. split; [exact P|]. right. eauto. }
      destruct (IH _ _ _ _ p0 _ _ H) as (j & J & out0 & P & Q). exists (S j). split; [lia|]. rewrite One. exists out0. split; [exact P|].
      destruct out; [destruct Q as [-> ->]; auto|exact Q|exact Q].
  Qed.

  (** Whole programs that differ only in the plotting interval. *)
  Lemma main_plots (X : conv F) (W : world F) r r' r32 file ow ans1 ans2 af n o fs fs' out y y' :
    (forall s k, ~ (s = "OutputOptions" /\ k = "PlotInt") -> r s k = r' s k) ->
    prepare X (withConf W r) r32 file = Ok y -> prepare X (withConf W r') r32 file = Ok y' -> (mdPlotInt (ryM y') <= 0)%Z ->
    main X (withConf W r) r32 file ow ans1 ans2 af n o fs = (fs', out) ->
    exists j, (j <= n)%nat /\ exists out0, main X (withConf W r') r32 file ow ans1 ans2 af j o fs = (fs', out0) /\
      match out with
      | Running t _ => j = n /\ exists p, out0 = Running t p
      | Finished t _ => exists p, out0 = Finished t p
      | Raised e => out0 = Raised e \/ exists t p, out0 = Running t p \/ out0 = Finished t p
      end.
  Proof.
    intros A Y Y' P H. pose proof (prepare_plot _ _ _ _ _ _ _ _ A Y Y') as E. unfold main in *. rewrite Y in H. rewrite Y'.
    set (z := mdPlotInt (ryM y')) in *. clearbody z. subst y'. unfold setReady, setPlot.
    cbn [ryM ryV ryS ryA ryB mdOut mdTsOut mdT mdRiver mdPlotInt].
    destruct (mainFiles _ _ _ _ _ _ _ _ _ _ _) as [fs1 q]. destruct q as [u|e].
    2:{ injection H as <- <-. exists n. split; [lia|]. eauto. }
    set (p0 := mkLive (tStart (mdTP (ryM y)) + z)%Z [] [] : live F).
    match goal with |- context [firstFig ?yy] => assert (F0 : firstFig yy = Ok p0) end.
    { unfold firstFig. cbn [ryM mdPlotInt mdTP]. rewrite (proj2 (Z.ltb_ge 0 z)) by lia. reflexivity. }
    rewrite F0. destruct (firstFig y) as [p|e].
    - destruct (passes_plots _ _ _ _ _ _ _ _ P _ _ _ _ _ p0 _ _ H) as (j & J & out0 & M & Q). exists j. split; [exact J|]. exists out0. split; [exact M|].
      destruct out; [destruct Q as [-> ->]; eauto|eauto|]. destruct Q as [Q|(t & Q)]; [auto|right; eauto].
    - injection H as <- <-. exists 0%nat. split; [lia|]. cbn [passes]. destruct (_ <=? _)%Z; eexists; (split; [reflexivity|]); right; eauto.
  Qed.
End Gen.
