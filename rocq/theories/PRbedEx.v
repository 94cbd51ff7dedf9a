Set Warnings "-inexact-float".
(** An update and two simulations of the river bed. *)
From Coq Require Import ZArith List Bool Lia Floats.
From Verif Require Import Base Num Xr Flt MState MCoast MRiv MMor MCore SAdapt SRun SRbed PCapEx PPostEx PRbed Sim SimEx PCoreEx.
Import ListNotations.

Definition withoutMPM {F : Type} {NF : Num F} (P : phys F) : phys F :=
  mkPhys (pRhoSed P) (pRhoSea P) (pRhoRiv P) (pGravity P) (pKcoef P) (pVoidRatio P) (pGammaRatio P) (pWaveDataDepth P) (pClosureDepth P) (pBeachSlope P)
    (pRiverSlope P) (pGrainSize P) (pCritShields P) f0 (pMPM_exp P) (pUpstreamLength P) (pRiverWidth P) (pRoughness P) (pGrainRoughness P) (pWidthDepthRatio P)
    (pBackshoreElev P) (pMaxOutletElev P) (pOT_coef P) (pOT_exp P) (pBeachTopElev P) (pSpitWidth P) (pTargetBarHeight P) (pTargetBarWidth P) (pMinOutletWidth P)
    (pOutletSedSpreadDist P) (pOutletBankEroFac P) (pBarrierPermeability P) (pShorelineErosionRate P) (pK2coef P) (pBreakerCoef P) (pBarRatSlope P) (pBarRatInt P).
Definition vStone : env float := mkEnv (@withoutMPM float sim_num (vP vFill)) (vN vFill) (vTP vFill) (vFlow vFill) (vSea vFill) (vWaves vFill) (vOutInt vFill) (vTsInt vFill).
Definition beds (v : env float) (n : nat) : res (list float * list float) := let! s := after v true n in Ok (gRiver s, gLWL s).

Definition apart (l m : list float) : bool := existsb (fun b => b) (map2 (fun x y => negb (PrimFloat.eqb x y)) l m).

Lemma stone_bed : exists Y, beds vStone 5 = Ok ([0.5; 0.25; 0; -0.25; -0.5]%float, Y) /\ apart Y (rep 1.5) = true.
Proof. eexists. split; vm_compute; reflexivity. Qed.
Lemma gravel_bed : exists B Y, beds vFill 5 = Ok (B, Y) /\ apart B [0.5; 0.25; 0; -0.25; -0.5]%float = true.
Proof. do 2 eexists. split; vm_compute; reflexivity. Qed.
Local Open Scope R_scope.
Lemma bed_case : exists o, (pRiverWidth restP * nDx capNum)%n = Fin (1 * 20) /\ 1 * 20 <> 0 /\ nMaxMorChange capNum = Fin 0.25 /\ 0 <= 0.25 /\ Forall (fun q => q = Fin 0) [Fin 0; Fin 0] /\
  updateMorphology 10 yes yes restP capNum capTP (exCoast 0) NaN (Fin 1) (Fin 5) (Fin 0) [Fin 1; Fin 1] [1]%nat [] [Fin 2; Fin 2; Fin 2; Fin 2] [] [Fin 5; Fin 5; Fin 5] [Fin 1; Fin 1; Fin 1] [0;0;1]%nat true
   [Fin 0; Fin 0; Fin 0] [Fin 0; Fin 0] [Fin 0; Fin 0; Fin 0; Fin 0] [false;false;false;false] (sec 15) = Ok o /\ oRiver o = [Fin 1; Fin 1].
Proof.
  destruct still_update as (o & E & _). exists o. assert (D : 1 * 20 <> 0) by lra. assert (C : 0 <= 0.25) by lra. assert (A : Forall (fun q => q = Fin 0) [Fin 0; Fin 0]) by (repeat constructor).
  split; [reflexivity|]. split; [exact D|]. split; [reflexivity|]. split; [exact C|]. split; [exact A|]. split; [exact E|]. eapply bed_update; [|exact D| |exact C|exact A|exact E]; reflexivity.
Qed.
