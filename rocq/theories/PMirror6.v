(** Left and right exchanged: a pass with a closed outlet and no channels. *)
From Coq Require Import ZArith List Bool Reals Lra Lia.
From Verif Require Import Base Num Xr MState MCoast MRiv MMor MOut MCore STouch SShift SMirror PShift PCore PThrough PMirror PMirror2 PMirror3 PMirror4 PMirror5.
Import ListNotations.

Local Ltac bg H x := bok H x; match goal with E : _ = Ok x |- _ => rewrite E; cbn [bind thenDo] end.
Section Pass.
  Local Open Scope num_scope.
  Notation below n := (Forall (fun i => (i < n)%nat)).
  Lemma assemble_shut (T : list (tsect xr)) e0 e1 eW eE RE RD RV LWL LVel OD OV ED EV Dx P c :
    assembleChannel T e0 e1 eW eE true RE RD RV LWL LVel OD OV ED EV Dx P = Ok c -> chClosed c = true /\ chOutlet c = [].
  Proof.
    intros H. unfold assembleChannel in H. bok H x0. cbv zeta in H. cbn [outletPart bind] in H.
    bok H t0. bok H u1. bok H u2. bok H lp. destruct lp as [[[[on sa] sl] ea] el].
    bok H u3. bok H lc. destruct lc as [[[on' ea'] el'] cl'].
    assert (C : cl' = true). { unfold lagoonCut in Elc. bok Elc ts. destruct (first_where _ ts); apply Ok_inj in Elc; injection Elc as _ _ _ <-; reflexivity. }
    bok H i0. bok H il. bok H u4. bok H lts. bok H u5. bok H sh. destruct sh as [[[dx flag] elev] width]. bok H hy. destruct hy as [dep vel]. bok H dep'. bok H vel'.
    bok H u6. bok H u7. bok H u8. bok H u9. bok H u10. bok H u11. apply Ok_inj in H. subst c. cbn [chClosed chOutlet]. auto.
  Qed.
  Lemma step_closed fuel o v s a : twoSided v s -> gClosed s = true -> none (gT s) -> (forall i, oJunk1 o i = true) -> (forall i, oJunk2 o i = true) ->
    step fuel o v s = Ok a -> gClosed a = true ->
    exists b, step fuel o (acrossSetup v) (acrossRun s) = Ok b /\ waterAcross a b /\ gT b = across (gT a) /\ gRiver b = gRiver a /\ gW b = gW a /\ gZ b = gZ a /\
      gTime b = gTime a /\ gDt b = gDt a /\ gClosed b = true /\ gE0 a = NaN /\ gE0 b = NaN.
  Proof.
    intros (N & B & G & L1 & L2 & L3 & L4) CL HN J1 J2 H CA. unfold step in H |- *. cbv zeta in H |- *.
    cbn [acrossSetup vP vN vTP vFlow vSea vWaves vOutInt vTsInt wvDir wvPow wvPer wvLen wvHs acrossRun gT gE0 gE1 gW gZ gRiver gRDep gRVel gLWL gLVel gODep gOVel gEDep gEVel gClosed gTime gDt gOutT gTsT gOuts gTs].
    change (@fopp xr xr_num) with xopp. rewrite assemble_across by assumption. rewrite CL in *. bg H c. cbn [thenDo bind]. destruct (assemble_below _ _ _ _ _ _ _ _ _ _ _ _ _ _ _ _ _ _ Ec) as [Bl Bo].
    destruct (assemble_shut _ _ _ _ _ _ _ _ _ _ _ _ _ _ _ _ _ Ec) as [CC CO].
    bg H flow. cbn [bind]. bg H sea. cbn [bind].
    change (hydraulics o _ (acrossChan (length (gT s)) c) flow sea) with (hydraulics o v c flow sea).
    bg H hyd. cbn [bind]. destruct hyd as [dep vel].
    cbn [acrossChan chDx chElev chWidth chLagArea chLagLen chDep chVel chOnline chOutlet chFlag chClosed].
    assert (EZ : map tZ3 (across (gT s)) = rev (map tZ3 (gT s))) by (unfold across; rewrite map_rev, map_map; reflexivity). rewrite EZ.
    assert (LZ : length (map tZ3 (gT s)) = length (gT s)) by apply map_length.
    assert (SA : storeHydraulics dep vel (map (fromEnd (length (gT s))) (chOnline c)) (map (fromEnd (length (gT s))) (chOutlet c)) (chFlag c) (rev (map tZ3 (gT s))) (chClosed c) =
      thenDo (fun r => match r with (a, b, c, d, e, f) => (rev a, rev b, rev c, rev d, e, f) end) (storeHydraulics dep vel (chOnline c) (chOutlet c) (chFlag c) (map tZ3 (gT s)) (chClosed c))).
    { rewrite <- LZ. apply store_across; rewrite LZ; assumption. }
    rewrite SA. bg H st. cbn [thenDo bind]. destruct st as [[[[[lwl lvel] odep] ovel] edep] evel].
    bg H uu. cbn [bind]. rewrite at_across.
    bg H dir. bg H wpw. bg H wpr. bg H wln. bg H hs. cbn [thenDo bind].
    bg H seaN. bg H flowN. cbn [bind]. rewrite overtop_across. bg H ot. cbn [thenDo bind]. destruct ot as [cst ow]. cbn [fst snd].
    assert (EY : map tY0 (across (gT s)) = rev (map tY0 (gT s))) by (unfold across; rewrite map_rev, map_map; reflexivity). rewrite EY, lst_across.
    bok H m. rewrite CC, CO in *. cbn [map].
    assert (NB : oBreach m = false).
    { revert H CA. clear. intros H CA. bok H r1. bok H r2. bok H r3. destruct r3. bok H r4. destruct r4. apply Ok_inj in H. subst a. cbn [gClosed] in CA. destruct (oBreach m); [discriminate|reflexivity]. }
    destruct (update_across fuel (oJunk1 o) (oJunk2 o) (vP v) (vN v) (vTP v) (gT s) (gE0 s) (gE1 s) (xopp (gE0 s)) (xopp (gE1 s)) (gW s) (gZ s) (gRiver s) (chOnline c) lwl odep (rev odep) (chWidth c) dep (chFlag c)
      _ _ cst ow (gDt s) m N HN Bl J1 J2 Em NB) as (m' & Em' & A1 & A2 & A3 & A4 & A5 & A6 & A7 & A8).
    rewrite Em'. cbn [bind]. rewrite A1, A2, A3, A4, A5, A6, A8. clear Em Em'. rewrite NB in H.
    bg H rdep. bg H rvel. cbn [bind]. rewrite across_length.
    assert (SB : forall bed : list xr, storeBedload bed (length (gT s)) (map (fromEnd (length (gT s))) (chOnline c)) [] (chFlag c) true =
      thenDo (fun r => (rev (fst (fst r)), rev (snd (fst r)), snd r)) (storeBedload bed (length (gT s)) (chOnline c) [] (chFlag c) true)).
    { intros bed. apply (storeBedload_across bed (length (gT s)) (chOnline c) [] (chFlag c) true); [exact Bl|constructor]. }
    rewrite SB. bok H outs. destruct outs as [outs outT]. bok H ts. destruct ts as [ts tsT]. apply Ok_inj in H.
    match goal with |- exists b, bind ?x _ = _ /\ _ => assert (X : exists outs', x = Ok (outs', outT)) end.
    { destruct (gOutT s <=? _)%Z; [|apply Ok_inj in Eouts; injection Eouts as <- <-; eexists; reflexivity].
      bg Eouts sbv. cbn [thenDo bind]. destruct sbv as [[lb ob] eb]. cbn [fst snd]. bg Eouts rbv. cbn [bind]. apply Ok_inj in Eouts. injection Eouts as _ <-. eexists. reflexivity. }
    destruct X as (outs' & ->). cbn [bind].
    match goal with |- exists b, bind ?x _ = _ /\ _ => assert (X : exists ts', x = Ok (ts', tsT)) end.
    { clear Eouts. destruct (gTsT s <=? _)%Z; [|apply Ok_inj in Ets; injection Ets as <- <-; eexists; reflexivity].
      bg Ets dl. cbn [bind]. bg Ets ul. cbn [bind]. bg Ets wl. cbn [bind]. bg Ets bl. cbn [bind]. apply Ok_inj in Ets. injection Ets as _ <-. eexists. reflexivity. }
    destruct X as (ts' & ->). cbn [bind]. eexists. split; [reflexivity|]. subst a. unfold waterAcross.
    cbn [gT gE0 gW gZ gRiver gRDep gRVel gLWL gLVel gODep gOVel gEDep gEVel gClosed gTime gDt]. repeat split; assumption.
  Qed.
End Pass.
