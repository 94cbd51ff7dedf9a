(** The same run with heights measured from another level. *)
From Coq Require Import ZArith List Bool.
From Verif Require Import Base Num MState MCoast MRiv MMor MOut MCore.
Import ListNotations.

Section Raised.
  Context {F : Type} {NF : Num F}.
  Local Open Scope num_scope.
  (** [up]: what happens to a height; [dn]: what happens to a depth below the level. *)
  Variables up dn : F -> F.
  Definition raisedT (t : tsect F) : tsect F :=
    mkT (tX t) (tY0 t) (tY1 t) (tY2 t) (tY3 t) (tY4 t) (up (tZ0 t)) (up (tZ1 t)) (up (tZ2 t)) (up (tZ3 t)).
  (** Heights among the parameters: cliff top, highest outlet bed, beach top and the level at which overtopping becomes overwash on a barrier
      without width; the closure depth is measured downwards. *)
  Definition raisedPars (P : phys F) : phys F :=
    mkPhys (pRhoSed P) (pRhoSea P) (pRhoRiv P) (pGravity P) (pKcoef P) (pVoidRatio P) (pGammaRatio P) (pWaveDataDepth P) (dn (pClosureDepth P)) (pBeachSlope P)
      (pRiverSlope P) (pGrainSize P) (pCritShields P) (pMPM_coef P) (pMPM_exp P) (pUpstreamLength P) (pRiverWidth P) (pRoughness P) (pGrainRoughness P)
      (pWidthDepthRatio P) (up (pBackshoreElev P)) (up (pMaxOutletElev P)) (pOT_coef P) (pOT_exp P) (up (pBeachTopElev P)) (pSpitWidth P) (pTargetBarHeight P)
      (pTargetBarWidth P) (pMinOutletWidth P) (pOutletSedSpreadDist P) (pOutletBankEroFac P) (pBarrierPermeability P) (pShorelineErosionRate P)
      (pK2coef P) (pBreakerCoef P) (pBarRatSlope P) (up (pBarRatInt P)).
  Definition raisedUpdate (m : morOut F) : morOut F :=
    mkMor (map raisedT (oT m)) (oE0 m) (oE1 m) (oW m) (up (oZ m)) (map up (oRiver m)) (oDt m) (oBreach m).
  Definition raisedChannel (c : chan F) : chan F :=
    mkChan (chDx c) (map up (chElev c)) (chWidth c) (chLagArea c) (chLagLen c) (chDep c) (chVel c) (chOnline c) (chOutlet c) (chFlag c) (chClosed c).
  Definition raisedRecord (w : wargs F) : wargs F :=
    mkW (wTime w) (up (wSea w)) (wFlow w) (wHs w) (wDir w) (map raisedT (wT w)) (map up (wLWL w)) (wLVel w) (wLBed w) (wODep w) (wOVel w) (wOBed w)
        (wLST w) (wCST w) (wOW w) (map up (wRiv w)) (wRDep w) (wRVel w) (wRBed w) (wE0 w) (wE1 w) (up (wZend w)) (wW w) (wEDep w) (wEVel w) (wEBed w) (wClosed w).
  Definition raisedTs (b : targs F) : targs F :=
    mkTs (sTime b) (up (sSea b)) (sFlow b) (sHs b) (sDir b) (up (sLagWl b)) (sOutflow b) (sSedIn b) (sE0 b) (sE1 b) (sClosedT b) (sMorDt b).
  Definition raisedRun (s : state F) : state F :=
    mkS (map raisedT (gT s)) (gE0 s) (gE1 s) (gW s) (up (gZ s)) (map up (gRiver s)) (gRDep s) (gRVel s) (map up (gLWL s)) (gLVel s) (gODep s) (gOVel s) (gEDep s) (gEVel s)
        (gClosed s) (gTime s) (gDt s) (gOutT s) (gTsT s) (map raisedRecord (gOuts s)) (map raisedTs (gTs s)).
  Definition raisedSetup (v : env F) : env F :=
    mkEnv (raisedPars (vP v)) (vN v) (vTP v) (vFlow v) (map (fun p => (fst p, up (snd p))) (vSea v)) (vWaves v) (vOutInt v) (vTsInt v).

  (** Not below -9999.9, measured from either level. *)
  Definition above (z : F) : Prop := (z <? fofQ (-99999) 10) = false /\ (up z <? fofQ (-99999) 10) = false.
  (** A transect whose channel, if it has one, does not touch the lagoon, with crests above that height. *)
  Definition calm (t : tsect F) : Prop :=
    (fisnan (tY1 t) = false -> (tY3 t <? tY2 t) = true) /\ above (tZ0 t) /\ above (tZ2 t).
End Raised.

(** The coast of an update when its corrections are done and relic channels, breaches and crests are still to come (mor.py:12-441). *)
Definition corrected {F : Type} {NF : Num F} (fuel : nat) (P : phys F) (N : nump F) (TP : timep) T e0 e1 W Zend RiverElev online outlet LagoonWL OutletDep CW CD fl closed LST q CST OW dt
  : res (list (tsect F)) :=
  let! a := morApply fuel P N TP T e0 e1 W Zend RiverElev online outlet LagoonWL OutletDep CW CD fl closed LST q CST OW dt in
  let! r := morCorrect P (nDx N) T (aT a) e0 (aE1 a) (aW a) (aZ a) outlet closed in
  Ok (fst (fst (fst (fst r)))).
(** The same coast in one pass of the loop (core.py:107-176). *)
Definition correctedPass {F : Type} {NF : Num F} (fuel : nat) (o : oracle F) (v : env F) (s : state F) : res (list (tsect F)) :=
  let P := vP v in let N := vN v in
  let! c := assembleChannel (gT s) (gE0 s) (gE1 s) (gW s) (gZ s) (gClosed s) (gRiver s) (gRDep s) (gRVel s) (gLWL s) (gLVel s) (gODep s) (gOVel s) (gEDep s) (gEVel s) (nDx N) P in
  let times := hydTimes (gTime s) (gDt s) (tHydDt (vTP v)) in
  let! flow := interpolateAt (vFlow v) times in
  let! sea := interpolateAt (vSea v) times in
  let! (dep, vel) := hydraulics o v c flow sea in
  let! (lwl, lvel, odep, ovel, edep, evel) := storeHydraulics dep vel (chOnline c) (chOutlet c) (chFlag c) (map tZ3 (gT s)) (chClosed c) in
  let! dir := at1 (wvDir (vWaves v)) (gTime s) in
  let! pow := at1 (wvPow (vWaves v)) (gTime s) in
  let! per := at1 (wvPer (vWaves v)) (gTime s) in
  let! len := at1 (wvLen (vWaves v)) (gTime s) in
  let! hs := at1 (wvHs (vWaves v)) (gTime s) in
  let! seaN := last_ sea in
  let! (cst, ow) := overtopping P (runup per hs (pBeachSlope P)) seaN (gT s) in
  corrected fuel P N (vTP v) (gT s) (gE0 s) (gE1 s) (gW s) (gZ s) (gRiver s) (chOnline c) (chOutlet c) lwl odep (chWidth c) dep (chFlag c) (chClosed c)
    (longShoreTransport (map tY0 (gT s)) (nDx N) pow per len dir P) (calcBedload (chWidth c) dep vel P (nPsi N)) cst ow (gDt s).
