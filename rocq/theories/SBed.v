(** Specification of bedload transport (Meyer-Peter and Mueller) for riv.py calcBedload. *)
From Coq Require Import Reals.
From Verif Require Import Xr Num MState.
Local Open Scope R_scope.

(** Densities, gravity, grain size and roughness, transport coefficient, exponent, threshold, voids. *)
Record sediment := mkSed { bRho : R; bRhoS : R; bG : R; bD : R; bN : R; bCoef : R; bExp : R; bCrit : R; bVoid : R }.
Definition sedPars (b : sediment) (P : phys xr) : Prop :=
  pRhoRiv P = Fin (bRho b) /\ pRhoSed P = Fin (bRhoS b) /\ pGravity P = Fin (bG b) /\ pGrainSize P = Fin (bD b) /\
  pGrainRoughness P = Fin (bN b) /\ pMPM_coef P = Fin (bCoef b) /\ pMPM_exp P = Fin (bExp b) /\
  pCritShields P = Fin (bCrit b) /\ pVoidRatio P = Fin (bVoid b).
Definition sedOk (b : sediment) : Prop :=
  0 < bRho b < bRhoS b /\ 0 < bG b /\ 0 < bD b /\ 0 < bExp b /\ bVoid b < 1.

(** Shields stress from the Manning-Strickler friction slope. *)
Definition shields (b : sediment) (h V : R) : R :=
  bRho b * bG b * h * (V * V * (bN b * bN b) / Rpower h (4 / 3)) / ((bRhoS b - bRho b) * bG b * bD b).
(** Volumetric transport of the whole section, with the direction of the flow. *)
Definition transport (b : sediment) (B h V : R) : R :=
  let s := shields b h V in
  let q := if Rltb (bCrit b) s then bCoef b * Rpower (s - bCrit b) (bExp b) else 0 in
  (if Rltb V 0 then -1 else 1) *
  (q * B * sqrt ((bRhoS b / bRho b - 1) * bG b * (bD b * bD b * bD b)) / (1 - bVoid b)).
