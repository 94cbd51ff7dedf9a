(** Configuration values a run may or may not look at. *)
From Coq Require Import ZArith List Reals.
From Verif Require Import Base Num Xr MState MCoast MRiv MMor MOut MCore MLoad.
Import ListNotations.

Section Seen.
  Context {F : Type} {NF : Num F}.
  (** The same loaded parameters with other values for the density of the sea, the K coefficient, the breaker ratio, the river slope,
      the upstream length and the target height and width of the barrier; what was derived from them on loading is kept. *)
  Definition otherwise (sea K gamma slope len height width : F) (P : phys F) : phys F :=
    mkPhys (pRhoSed P) sea (pRhoRiv P) (pGravity P) K (pVoidRatio P) gamma (pWaveDataDepth P) (pClosureDepth P) (pBeachSlope P)
      slope (pGrainSize P) (pCritShields P) (pMPM_coef P) (pMPM_exp P) len (pRiverWidth P) (pRoughness P) (pGrainRoughness P) (pWidthDepthRatio P)
      (pBackshoreElev P) (pMaxOutletElev P) (pOT_coef P) (pOT_exp P) (pBeachTopElev P) (pSpitWidth P) height width (pMinOutletWidth P)
      (pOutletSedSpreadDist P) (pOutletBankEroFac P) (pBarrierPermeability P) (pShorelineErosionRate P) (pK2coef P) (pBreakerCoef P) (pBarRatSlope P) (pBarRatInt P).
  Definition withPars (P : phys F) (v : env F) : env F := mkEnv P (vN v) (vTP v) (vFlow v) (vSea v) (vWaves v) (vOutInt v) (vTsInt v).
  (** Two configurations that cannot be told apart by running them from the same coast, river bed and water. *)
  Definition sameRuns (v v' : env F) : Prop :=
    (forall T e0 e1 W Z0 River RWL RV LWL LVel OD OV ED EV Cl, init v T e0 e1 W Z0 River RWL RV LWL LVel OD OV ED EV Cl = init v' T e0 e1 W Z0 River RWL RV LWL LVel OD OV ED EV Cl) /\
    (forall af n j o s, steps af n j o v s = steps af n j o v' s) /\
    (forall af n j o s, loop af n j o v s = loop af n j o v' s).
End Seen.

(** Configuration [P] with other target barrier. *)
Definition targeted {F} (height width : F) (P : phys F) : phys F :=
  mkPhys (pRhoSed P) (pRhoSea P) (pRhoRiv P) (pGravity P) (pKcoef P) (pVoidRatio P) (pGammaRatio P) (pWaveDataDepth P) (pClosureDepth P) (pBeachSlope P)
    (pRiverSlope P) (pGrainSize P) (pCritShields P) (pMPM_coef P) (pMPM_exp P) (pUpstreamLength P) (pRiverWidth P) (pRoughness P) (pGrainRoughness P) (pWidthDepthRatio P)
    (pBackshoreElev P) (pMaxOutletElev P) (pOT_coef P) (pOT_exp P) (pBeachTopElev P) (pSpitWidth P) height width (pMinOutletWidth P)
    (pOutletSedSpreadDist P) (pOutletBankEroFac P) (pBarrierPermeability P) (pShorelineErosionRate P) (pK2coef P) (pBreakerCoef P) (pBarRatSlope P) (pBarRatInt P).
