(** Data shared by the model files: transects and parameter sets. *)
From Coq Require Import ZArith List.
From Verif Require Import Base Num.

(** One shore transect: the row [i] of ShoreX, ShoreY (5 columns) and ShoreZ
    (4 columns), loadmod.py:77-93.  Simplification: the three numpy arrays always
    have the same number of rows (they are created together, loadmod.py:339-342,
    458-461), so the model keeps one list of rows.
    - [tY0] shoreline, [tY1]/[tY2] seaward/lagoonward edge of the outlet channel
      (NaN: no channel), [tY3] seaward edge of lagoon, [tY4] cliff toe;
    - [tZ0] barrier crest, [tZ1] channel bed, [tZ2] inner crest, [tZ3] lagoon bed. *)
Record tsect (F : Type) := mkT {
  tX : F;
  tY0 : F; tY1 : F; tY2 : F; tY3 : F; tY4 : F;
  tZ0 : F; tZ1 : F; tZ2 : F; tZ3 : F
}.
Arguments mkT {F}.
Arguments tX {F}. Arguments tY0 {F}. Arguments tY1 {F}. Arguments tY2 {F}.
Arguments tY3 {F}. Arguments tY4 {F}. Arguments tZ0 {F}. Arguments tZ1 {F}.
Arguments tZ2 {F}. Arguments tZ3 {F}.

(** Assignment to one entry of a row. *)
Definition setY0 {F} (v : F) (t : tsect F) := mkT (tX t) v (tY1 t) (tY2 t) (tY3 t) (tY4 t) (tZ0 t) (tZ1 t) (tZ2 t) (tZ3 t).
Definition setY1 {F} (v : F) (t : tsect F) := mkT (tX t) (tY0 t) v (tY2 t) (tY3 t) (tY4 t) (tZ0 t) (tZ1 t) (tZ2 t) (tZ3 t).
Definition setY2 {F} (v : F) (t : tsect F) := mkT (tX t) (tY0 t) (tY1 t) v (tY3 t) (tY4 t) (tZ0 t) (tZ1 t) (tZ2 t) (tZ3 t).
Definition setY3 {F} (v : F) (t : tsect F) := mkT (tX t) (tY0 t) (tY1 t) (tY2 t) v (tY4 t) (tZ0 t) (tZ1 t) (tZ2 t) (tZ3 t).
Definition setY4 {F} (v : F) (t : tsect F) := mkT (tX t) (tY0 t) (tY1 t) (tY2 t) (tY3 t) v (tZ0 t) (tZ1 t) (tZ2 t) (tZ3 t).
Definition setZ0 {F} (v : F) (t : tsect F) := mkT (tX t) (tY0 t) (tY1 t) (tY2 t) (tY3 t) (tY4 t) v (tZ1 t) (tZ2 t) (tZ3 t).
Definition setZ1 {F} (v : F) (t : tsect F) := mkT (tX t) (tY0 t) (tY1 t) (tY2 t) (tY3 t) (tY4 t) (tZ0 t) v (tZ2 t) (tZ3 t).
Definition setZ2 {F} (v : F) (t : tsect F) := mkT (tX t) (tY0 t) (tY1 t) (tY2 t) (tY3 t) (tY4 t) (tZ0 t) (tZ1 t) v (tZ3 t).
Definition setZ3 {F} (v : F) (t : tsect F) := mkT (tX t) (tY0 t) (tY1 t) (tY2 t) (tY3 t) (tY4 t) (tZ0 t) (tZ1 t) (tZ2 t) v.

(** PhysicalPars: config section [PhysicalParameters] (configspec.cnf) plus the
    four derived entries of loadmod.py:270-282.  Entries the modelled functions
    do not read are left out. *)
Record phys (F : Type) := mkPhys {
  pRhoSed : F; pRhoSea : F; pRhoRiv : F; pGravity : F; pKcoef : F; pVoidRatio : F;
  pGammaRatio : F; pWaveDataDepth : F; pClosureDepth : F; pBeachSlope : F;
  pRiverSlope : F; pGrainSize : F; pCritShields : F; pMPM_coef : F; pMPM_exp : F;
  pUpstreamLength : F; pRiverWidth : F; pRoughness : F; pGrainRoughness : F;
  pWidthDepthRatio : F; pBackshoreElev : F; pMaxOutletElev : F; pOT_coef : F; pOT_exp : F;
  pBeachTopElev : F; pSpitWidth : F; pTargetBarHeight : F; pTargetBarWidth : F;
  pMinOutletWidth : F; pOutletSedSpreadDist : F; pOutletBankEroFac : F;
  pBarrierPermeability : F; pShorelineErosionRate : F;
  pK2coef : F; pBreakerCoef : F; pBarRatSlope : F; pBarRatInt : F
}.
Arguments pRhoSed {F}. Arguments pRhoSea {F}. Arguments pRhoRiv {F}. Arguments pGravity {F}.
Arguments pKcoef {F}. Arguments pVoidRatio {F}. Arguments pGammaRatio {F}. Arguments pWaveDataDepth {F}.
Arguments pClosureDepth {F}. Arguments pBeachSlope {F}. Arguments pRiverSlope {F}. Arguments pGrainSize {F}.
Arguments pCritShields {F}. Arguments pMPM_coef {F}. Arguments pMPM_exp {F}. Arguments pUpstreamLength {F}.
Arguments pRiverWidth {F}. Arguments pRoughness {F}. Arguments pGrainRoughness {F}. Arguments pWidthDepthRatio {F}.
Arguments pBackshoreElev {F}. Arguments pMaxOutletElev {F}. Arguments pOT_coef {F}. Arguments pOT_exp {F}.
Arguments pBeachTopElev {F}. Arguments pSpitWidth {F}. Arguments pTargetBarHeight {F}. Arguments pTargetBarWidth {F}.
Arguments pMinOutletWidth {F}. Arguments pOutletSedSpreadDist {F}. Arguments pOutletBankEroFac {F}.
Arguments pBarrierPermeability {F}. Arguments pShorelineErosionRate {F}. Arguments pK2coef {F}.
Arguments pBreakerCoef {F}. Arguments pBarRatSlope {F}. Arguments pBarRatInt {F}.
Arguments mkPhys {F}.

(** NumericalPars: config section [NumericalParameters] (configspec.cnf). *)
Record nump (F : Type) := mkNum {
  nDx : F; nBeta : F; nTheta : F; nPsi : F; nErrTol : F; nMaxIt : nat; nWarnTol : F;
  nMaxMorChange : F
}.
Arguments nDx {F}. Arguments nBeta {F}. Arguments nTheta {F}. Arguments nPsi {F}.
Arguments nErrTol {F}. Arguments nMaxIt {F}. Arguments nWarnTol {F}. Arguments nMaxMorChange {F}.
Arguments mkNum {F}.

(** Durations and instants: integer nanoseconds (pandas Timedelta/Timestamp).
    TimePars: loadmod.py:258-262. *)
Record timep := mkTime { tStart : Z; tEnd : Z; tHydDt : Z; tMorDtMin : Z; tMorDtMax : Z }.

(** [Timedelta.seconds]: the seconds field of the days/seconds/microseconds
    normal form, i.e. modulo one day. *)
Definition seconds (ns : Z) : Z := ((ns / 1000000000) mod 86400)%Z.
