(** What a run does not look at. *)
From Coq Require Import ZArith List Bool.
From Verif Require Import Base Num Xr MState MCoast MRiv MMor MOut MCore MLoad SSeen.
Import ListNotations.

Section Seen.
  Context {F : Type} {NF : Num F} (a b c d e f g : F) (D : phys F).
  Notation D' := (otherwise a b c d e f g D).
  Lemma bind_ext {A B} (r : res A) (p q : A -> res B) : (forall x, p x = q x) -> bind r p = bind r q.
  Proof. intros H. destruct r; cbn [bind]; auto. Qed.
  Lemma se_bed B h V psi : calcBedload B h V D' psi = calcBedload B h V D psi.
  Proof.
    unfold calcBedload. assert (E : nodeBedloads D' B h V = nodeBedloads D B h V); [|rewrite E; reflexivity].
    revert h V. induction B as [|x B IH]; intros [|y h] [|u V]; cbn [nodeBedloads]; try reflexivity. rewrite IH. reflexivity.
  Qed.
  Lemma se_lst Y Dx p per len dir : longShoreTransport Y Dx p per len dir D' = longShoreTransport Y Dx p per len dir D. Proof. reflexivity. Qed.
  Lemma se_over r sl T : overtopping D' r sl T = overtopping D r sl T. Proof. reflexivity. Qed.
  Lemma se_asm T e0 e1 eW eE Cl RE RD RV LWL LVel OD OV ED EV Dx : assembleChannel T e0 e1 eW eE Cl RE RD RV LWL LVel OD OV ED EV Dx D' = assembleChannel T e0 e1 eW eE Cl RE RD RV LWL LVel OD OV ED EV Dx D.
  Proof. reflexivity. Qed.
  Lemma se_zip dv : forall w q fl, zipXs D' dv w q fl = zipXs D dv w q fl.
  Proof. induction dv as [|x dv IH]; intros [|y w] [|z q] [|n fl]; cbn [zipXs]; try reflexivity. rewrite IH. reflexivity. Qed.
  Lemma se_rates Dx T e0 e1 W Z on out CW CD fl rbq LST B CST OW : changeRates D' Dx T e0 e1 W Z on out CW CD fl rbq LST B CST OW = changeRates D Dx T e0 e1 W Z on out CW CD fl rbq LST B CST OW.
  Proof. unfold changeRates, channelXs. rewrite se_zip. reflexivity. Qed.
  Lemma se_apply fuel N TP T e0 e1 W Z RE on out LW OD CW CD fl cl LST B CST OW dt :
    morApply fuel D' N TP T e0 e1 W Z RE on out LW OD CW CD fl cl LST B CST OW dt = morApply fuel D N TP T e0 e1 W Z RE on out LW OD CW CD fl cl LST B CST OW dt.
  Proof. unfold morApply. cbv zeta. do 4 (apply bind_ext; intros ?). rewrite se_rates. reflexivity. Qed.
  Lemma se_correct Dx T0 T e0 e1 W Z out cl : morCorrect D' Dx T0 T e0 e1 W Z out cl = morCorrect D Dx T0 T e0 e1 W Z out cl. Proof. reflexivity. Qed.
  Lemma se_breach j1 j2 T0 T ps x0 e0 e1 W Z out cl WL : morBreach D' j1 j2 T0 T ps x0 e0 e1 W Z out cl WL = morBreach D j1 j2 T0 T ps x0 e0 e1 W Z out cl WL. Proof. reflexivity. Qed.
  Lemma se_update fuel j1 j2 N TP T e0 e1 W Z RE on out LW OD CW CD fl cl LST B CST OW dt :
    updateMorphology fuel j1 j2 D' N TP T e0 e1 W Z RE on out LW OD CW CD fl cl LST B CST OW dt = updateMorphology fuel j1 j2 D N TP T e0 e1 W Z RE on out LW OD CW CD fl cl LST B CST OW dt.
  Proof. unfold updateMorphology. rewrite se_apply. apply bind_ext. intros x. rewrite se_correct. apply bind_ext. intros [[[[? ?] ?] ?] ?]. rewrite se_breach. reflexivity. Qed.
  Lemma se_pre sv E B LA LL cl h V dx dt Q wl N : solveFullPreissmann sv E B LA LL cl h V dx dt Q wl N D' = solveFullPreissmann sv E B LA LL cl h V dx dt Q wl N D. Proof. reflexivity. Qed.

  Context (v : env F).
  Notation V' := (withPars D' v). Notation V := (withPars D v).
  Lemma se_hyd o ch flow sea : hydraulics o V' ch flow sea = hydraulics o V ch flow sea.
  Proof. unfold hydraulics. cbn [vP vN vTP withPars]. rewrite se_pre. reflexivity. Qed.
  Lemma se_step af o s : step af o V' s = step af o V s.
  Proof.
    unfold step. cbn [vP vN vTP vFlow vSea vWaves vOutInt vTsInt withPars]. cbv zeta. rewrite se_asm. apply bind_ext. intros ch. apply bind_ext. intros flow. apply bind_ext. intros sea.
    rewrite se_hyd. apply bind_ext. intros [dep vel]. apply bind_ext. intros [[[[[lwl lvel] odep] ovel] edep] evel]. rewrite se_bed. apply bind_ext. intros _. apply bind_ext. intros dir.
    apply bind_ext. intros pw. apply bind_ext. intros per. apply bind_ext. intros len. apply bind_ext. intros hs. rewrite se_lst.
    apply bind_ext. intros seaN. apply bind_ext. intros flowN. change (pBeachSlope D') with (pBeachSlope D). rewrite se_over. apply bind_ext. intros [cst ow]. rewrite se_update. reflexivity.
  Qed.
  Lemma se_runs : sameRuns V' V.
  Proof.
    split; [|split].
    - intros. unfold init. cbn [vP vN vTP vFlow vSea vWaves vOutInt vTsInt withPars]. cbv zeta. rewrite se_asm. reflexivity.
    - intros af. induction n as [|n IH]; intros j o s; cbn [steps]; [reflexivity|]. rewrite se_step. apply bind_ext. intros s1. apply IH.
    - intros af. induction n as [|n IH]; intros j o s; cbn [loop]; cbn [vTP withPars]; destruct (_ <=? _)%Z; try reflexivity. rewrite se_step. apply bind_ext. intros s1. apply IH.
  Qed.
End Seen.

Local Open Scope R_scope.
(** ** Target barriers on a line *)
Lemma target_runs (P : phys xr) (v : env xr) top spit h w l : pBeachTopElev P = Fin top -> pSpitWidth P = Fin spit -> pTargetBarHeight P = Fin h -> pTargetBarWidth P = Fin w -> w <> spit -> l <> 0 ->
  sameRuns (withPars (derive (targeted (Fin (top + l * (h - top))) (Fin (spit + l * (w - spit))) P)) v) (withPars (derive P) v).
Proof.
  intros H1 H2 H3 H4 Hw Hl.
  assert (S : barRatSlope (Fin (top + l * (h - top))) (Fin top) (Fin (spit + l * (w - spit))) (Fin spit) = barRatSlope (Fin h) (Fin top) (Fin w) (Fin spit)).
  { unfold barRatSlope. cbn. assert (l * (w - spit) <> 0) by (apply Rmult_integral_contrapositive_currified; lra). destruct (Req_EM_T _ _) as [A|A]; [lra|]. destruct (Req_EM_T _ _) as [B|B]; [lra|]. f_equal. field. repeat split; lra. }
  assert (I : barRatInt (Fin (top + l * (h - top))) (Fin top) (Fin (spit + l * (w - spit))) (Fin spit) = barRatInt (Fin h) (Fin top) (Fin w) (Fin spit)).
  { unfold barRatInt. rewrite S. reflexivity. }
  replace (derive (targeted (Fin (top + l * (h - top))) (Fin (spit + l * (w - spit))) P)) with
    (otherwise (pRhoSea P) (pKcoef P) (pGammaRatio P) (pRiverSlope P) (pUpstreamLength P) (Fin (top + l * (h - top))) (Fin (spit + l * (w - spit))) (derive P)); [apply se_runs|].
  unfold otherwise, derive, targeted. cbn [pRhoSed pRhoSea pRhoRiv pGravity pKcoef pVoidRatio pGammaRatio pWaveDataDepth pClosureDepth pBeachSlope pRiverSlope pGrainSize pCritShields pMPM_coef pMPM_exp pUpstreamLength pRiverWidth pRoughness pGrainRoughness pWidthDepthRatio pBackshoreElev pMaxOutletElev pOT_coef pOT_exp pBeachTopElev pSpitWidth pTargetBarHeight pTargetBarWidth pMinOutletWidth pOutletSedSpreadDist pOutletBankEroFac pBarrierPermeability pShorelineErosionRate pK2coef pBreakerCoef pBarRatSlope pBarRatInt].
  rewrite H1, H2, H3, H4, S, I. reflexivity.
Qed.
