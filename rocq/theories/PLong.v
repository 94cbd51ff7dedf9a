(** A run that ends later begins like the shorter one. *)
From Coq Require Import ZArith List Bool Lia.
From Verif Require Import Base Num MState MGeom MCoast MRiv MMor MOut MCore SCore SRun SSame SConf MConf SLong PShift PCore PSame.
Import ListNotations.
Local Open Scope Z_scope.

Section Long.
  Context {F : Type} {NF : Num F}.
  Definition untilT (e : Z) (t : timep) : timep := mkTime (tStart t) e (tHydDt t) (tMorDtMin t) (tMorDtMax t).
  Definition until (e : Z) (v : env F) : env F :=
    mkEnv (vP v) (vN v) (untilT e (vTP v)) (vFlow v) (vSea v) (vWaves v) (vOutInt v) (vTsInt v).
  Lemma update_until e fuel j1 j2 P N TP (T : list (tsect F)) e0 e1 W Zd RE on out LW OD CW CD CF Cl LST B CST OW dt :
    updateMorphology fuel j1 j2 P N (untilT e TP) T e0 e1 W Zd RE on out LW OD CW CD CF Cl LST B CST OW dt =
    updateMorphology fuel j1 j2 P N TP T e0 e1 W Zd RE on out LW OD CW CD CF Cl LST B CST OW dt.
  Proof. reflexivity. Qed.
  Lemma hyd_until e o v c fl se : hydraulics o (until e v) c fl se = hydraulics o v c fl se.
  Proof. reflexivity. Qed.

  Lemma step_until e fuel o v s s1 : step fuel o v s = Ok s1 -> gTime s1 < tEnd (vTP v) -> tEnd (vTP v) <= e -> step fuel o (until e v) s = Ok s1.
  Proof.
    intros H L Le. unfold step in *. cbv zeta in *. cbn [until vP vN vTP vFlow vSea vWaves vOutInt vTsInt].
    change (tHydDt (untilT e (vTP v))) with (tHydDt (vTP v)). change (tEnd (untilT e (vTP v))) with e.
    bok H c. bok H flow. bok H sea. bok H hyd. destruct hyd as [dep vel].
    bok H st. destruct st as [[[[[lwl lvel] odep] ovel] edep] evel]. bok H u. bok H dir. bok H pow. bok H per. bok H len. bok H hs.
    bok H seaN. bok H flowN. bok H ot. destruct ot as [cst ow]. bok H m.
    change (mkEnv (vP v) (vN v) (untilT e (vTP v)) (vFlow v) (vSea v) (vWaves v) (vOutInt v) (vTsInt v)) with (until e v).
    rewrite Ec. cbn [bind]. rewrite Eflow. cbn [bind]. rewrite Esea. cbn [bind]. rewrite hyd_until, Ehyd. cbn [bind]. rewrite Est. cbn [bind].
    rewrite Eu. cbn [bind]. rewrite Edir, Epow, Eper, Elen, Ehs. cbn [bind]. rewrite EseaN, EflowN. cbn [bind]. rewrite Eot. cbn [bind].
    rewrite update_until, Em. cbn [bind].
    assert (G : clampDt e (gTime s) (oDt m) = clampDt (tEnd (vTP v)) (gTime s) (oDt m)).
    { assert (K : gTime s1 = gTime s + clampDt (tEnd (vTP v)) (gTime s) (oDt m)).
      { bok H rdep. bok H rvel. bok H outs. destruct outs as [outs outT]. bok H ts. destruct ts as [ts tsT]. apply Ok_inj in H. subst s1. reflexivity. }
      unfold clampDt in *. destruct (Z.ltb_spec (tEnd (vTP v) - gTime s) (oDt m)) as [Q|Q]; [lia|]. apply Z.ltb_ge in Q. destruct (Z.ltb_spec (e - gTime s) (oDt m)) as [Q'|Q']; lia. }
    rewrite G. exact H.
  Qed.

  (** The same pass under two ends: the same hapua, and the clock of the later end is not behind. *)
  Lemma step_two e fuel o v s a b : step fuel o v s = Ok a -> step fuel o (until e v) s = Ok b -> tEnd (vTP v) <= e ->
    sameHapua a b /\ gTime a <= gTime b /\ (gTime a < tEnd (vTP v) -> a = b).
  Proof.
    intros H K Le. assert (Q : gTime a < tEnd (vTP v) -> a = b).
    { intros L. rewrite (step_until e _ _ _ _ _ H L Le) in K. apply Ok_inj in K. exact K. }
    assert (R : sameHapua a b /\ gTime a <= gTime b); [|tauto]. clear Q.
    unfold step in *. cbv zeta in *. cbn [until vP vN vTP vFlow vSea vWaves vOutInt vTsInt] in K.
    change (tHydDt (untilT e (vTP v))) with (tHydDt (vTP v)) in K. change (tEnd (untilT e (vTP v))) with e in K.
    change (mkEnv (vP v) (vN v) (untilT e (vTP v)) (vFlow v) (vSea v) (vWaves v) (vOutInt v) (vTsInt v)) with (until e v) in K.
    bok H c. rewrite Ec in K. cbn [bind] in K. bok H flow. rewrite Eflow in K. cbn [bind] in K. bok H sea. rewrite Esea in K. cbn [bind] in K.
    bok H hyd. rewrite hyd_until, Ehyd in K. cbn [bind] in K. destruct hyd as [dep vel].
    bok H st. rewrite Est in K. cbn [bind] in K. destruct st as [[[[[lwl lvel] odep] ovel] edep] evel]. bok H u. rewrite Eu in K. cbn [bind] in K.
    bok H dir. bok H pow. bok H per. bok H len. bok H hs. rewrite Edir, Epow, Eper, Elen, Ehs in K. cbn [bind] in K.
    bok H seaN. bok H flowN. rewrite EseaN, EflowN in K. cbn [bind] in K. bok H ot. rewrite Eot in K. cbn [bind] in K. destruct ot as [cst ow].
    bok H m. rewrite update_until, Em in K. cbn [bind] in K.
    bok H rdep. bok H rvel. rewrite Erdep, Ervel in K. cbn [bind] in K.
    bok H outs. destruct outs as [outs outT]. bok H ts. destruct ts as [ts tsT]. apply Ok_inj in H.
    bok K outs'. destruct outs' as [outs' outT']. bok K ts'. destruct ts' as [ts' tsT']. apply Ok_inj in K.
    subst a b. cbn [gTime]. split; [repeat split|].
    unfold clampDt. destruct (Z.ltb_spec (tEnd (vTP v) - gTime s) (oDt m)); destruct (Z.ltb_spec (e - gTime s) (oDt m)); lia.
  Qed.

  Lemma steps_until e af o v : tEnd (vTP v) <= e -> forall n k s s1, clocked v s -> steps af n k o v s = Ok s1 -> gTime s1 < tEnd (vTP v) ->
    steps af n k o (until e v) s = Ok s1.
  Proof.
    intros Le. induction n as [|n IH]; intros k s s1 C H L; [exact H|]. cbn [steps] in *. bok H s2.
    destruct (step_clock _ _ _ _ _ C Es2) as [C2 _]. destruct (steps_clock _ _ _ _ _ _ _ C2 H) as [_ L2].
    rewrite (step_until e _ _ _ _ _ Es2) by lia. cbn [bind]. apply IH; auto.
  Qed.

  (** Series that answer alike, and a later end. *)
  Lemma longer_split lo hi v v' : longer (answerAlike lo hi) v v' ->
    exists w, drivenAlike (answerAlike lo hi) v w /\ v' = until (tEnd (vTP v')) w /\ vTP w = vTP v /\ tEnd (vTP v) <= tEnd (vTP v').
  Proof.
    intros (E1 & E2 & E3 & E4 & E5 & E6 & E7 & E8 & E9 & R).
    exists (mkEnv (vP v) (vN v) (vTP v) (vFlow v') (vSea v') (vWaves v') (vOutInt v) (vTsInt v)). split; [|split; [|split; [reflexivity|exact E6]]].
    - unfold drivenAlike. cbn [vP vN vTP vOutInt vTsInt vFlow vSea vWaves]. do 5 (split; [reflexivity|]). exact R.
    - unfold until, untilT. cbn [vP vN vTP vOutInt vTsInt vFlow vSea vWaves]. rewrite E1, E2, E3, E4, E5, E7, E8, E9. destruct v' as [? ? [] ? ? ? ? ?]. reflexivity.
  Qed.
  Lemma longer_steps lo hi v v' af o n k s s1 : longer (answerAlike lo hi) v v' -> 0 < tHydDt (vTP v) -> gTime s <= tEnd (vTP v) -> 0 <= gDt s ->
    (forall m s2, (m < n)%nat -> steps af m k o v s = Ok s2 -> asksWithin lo hi s2) ->
    steps af n k o v s = Ok s1 -> gTime s1 < tEnd (vTP v) -> steps af n k o v' s = Ok s1.
  Proof.
    intros D Hf C1 C2 A H L. destruct (longer_split _ _ _ _ D) as (w & Dw & -> & T & Le).
    rewrite <- (steps_same lo hi v w Dw Hf) in H by exact A. rewrite <- T in C1, L, Le. apply steps_until; auto. split; auto.
  Qed.
  Lemma longer_last lo hi v v' af o s a b : longer (answerAlike lo hi) v v' -> 0 < tHydDt (vTP v) -> asksWithin lo hi s ->
    step af o v s = Ok a -> step af o v' s = Ok b -> sameHapua a b /\ gTime a <= gTime b /\ (gTime a < tEnd (vTP v) -> a = b).
  Proof.
    intros D Hf A Ha Hb. destruct (longer_split _ _ _ _ D) as (w & Dw & Ev & T & Le).
    rewrite <- (step_same lo hi v w Dw Hf) in Ha by exact A. rewrite <- T in *. rewrite Ev in Hb. eapply step_two; eauto.
  Qed.
  Lemma longer_init lo hi v v' T e0 e1 W Z0 Ri RWL RV LWL LVel OD OV ED EV cl : longer (answerAlike lo hi) v v' -> lo <= tStart (vTP v) <= hi ->
    init v' T e0 e1 W Z0 Ri RWL RV LWL LVel OD OV ED EV cl = init v T e0 e1 W Z0 Ri RWL RV LWL LVel OD OV ED EV cl.
  Proof.
    intros D L. destruct (longer_split _ _ _ _ D) as (w & Dw & -> & _ & _).
    rewrite <- (init_same lo hi v w Dw) by exact L. reflexivity.
  Qed.
End Long.
