Set Warnings "-inexact-float".
(** A simulation of the small hapua with masses in units of 1/1024 kg. *)
From Coq Require Import ZArith List Bool Floats.
From Verif Require Import Base Num Xr Flt MState MCoast MRiv MMor MCore MLoad SAdapt SRun Sim SimEx PCoreEx SMass PMass.
Import ListNotations.
Local Open Scope float_scope.

Definition fineP0 : phys float :=
  mkPhys (1024 * 2650) (1024 * 1025) (1024 * 1000) 9.8125 0.03125 0.375 0.5 10 5 0.125 0.00390625 0.03125 0.0495 3.97 1.5 100 100 0.04 0.035 30
         30 (-2) 0.0002 2 2 10 4.75 90 1 100 0.5 0.001 0 0 0 0 0.
Definition vFine (power : float) : env float :=
  mkEnv (@derive float sim_num fineP0) (vN vFill) (vTP vFill) (vFlow vFill) (vSea vFill)
    (mkWaves (wvDir (vWaves vFill)) (flat power) (wvPer (vWaves vFill)) (wvLen (vWaves vFill)) (wvHs (vWaves vFill))) (vOutInt vFill) (vTsInt vFill).
Definition shoreNow (r : res (state float)) : res (list float * list float) := let! s := r in Ok (map tY0 (gT s), gRiver s).

Lemma fine_same : after (vFine (1024 * 1000)) true 3 = after vFill true 3 /\ exists s, after vFill true 3 = Ok s.
Proof. split; [vm_compute; reflexivity|]. destruct (after vFill true 3) as [s|] eqn:E; [eauto|vm_compute in E; discriminate E]. Qed.
Lemma fine_other : exists l, @longShoreTransport float sim_num [0; 1] 20 1000 8 70 0.125 (vP (vFine 1000)) = [l] /\
  (negb (PrimFloat.eqb l (hd 0 (@longShoreTransport float sim_num [0; 1] 20 1000 8 70 0.125 (vP vFill)))) && negb (PrimFloat.eqb l 0))%bool = true.
Proof. eexists. split; vm_compute; reflexivity. Qed.
