(** The same simulation with masses measured in another unit. *)
From Coq Require Import ZArith List Reals.
From Verif Require Import Base Num Xr MState MCoast MRiv MMor MOut MCore MLoad.
Import ListNotations.

(** [k] new units to the old one; infinities and NaN stay what they are ([k] positive). *)
Definition inUnits (k : R) (x : xr) : xr := match x with Fin r => Fin (k * r)%R | other => other end.
(** The configuration: three densities. *)
Definition heavier (k : R) (P : phys xr) : phys xr :=
  mkPhys (inUnits k (pRhoSed P)) (inUnits k (pRhoSea P)) (inUnits k (pRhoRiv P)) (pGravity P) (pKcoef P) (pVoidRatio P) (pGammaRatio P) (pWaveDataDepth P) (pClosureDepth P) (pBeachSlope P)
    (pRiverSlope P) (pGrainSize P) (pCritShields P) (pMPM_coef P) (pMPM_exp P) (pUpstreamLength P) (pRiverWidth P) (pRoughness P) (pGrainRoughness P) (pWidthDepthRatio P)
    (pBackshoreElev P) (pMaxOutletElev P) (pOT_coef P) (pOT_exp P) (pBeachTopElev P) (pSpitWidth P) (pTargetBarHeight P) (pTargetBarWidth P) (pMinOutletWidth P)
    (pOutletSedSpreadDist P) (pOutletBankEroFac P) (pBarrierPermeability P) (pShorelineErosionRate P) (pK2coef P) (pBreakerCoef P) (pBarRatSlope P) (pBarRatInt P).
(** The records: the wave power. *)
Definition heavierWaves (k : R) (w : waves xr) : waves xr :=
  mkWaves (wvDir w) (map (fun p => (fst p, inUnits k (snd p))) (wvPow w)) (wvPer w) (wvLen w) (wvHs w).
(** What loadModel makes of configuration [P] and the rest of [v]. *)
Definition loadedWith (P : phys xr) (v : env xr) : env xr :=
  mkEnv (derive P) (vN v) (vTP v) (vFlow v) (vSea v) (vWaves v) (vOutInt v) (vTsInt v).
Definition inMass (k : R) (v : env xr) : env xr :=
  mkEnv (vP v) (vN v) (vTP v) (vFlow v) (vSea v) (heavierWaves k (vWaves v)) (vOutInt v) (vTsInt v).
