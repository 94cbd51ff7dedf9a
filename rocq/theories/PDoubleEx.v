Set Warnings "-inexact-float".
(** The simulation without bedload in double arithmetic. *)
From Coq Require Import ZArith List Bool Floats.
From Verif Require Import Base Num Flt MState MCoast MRiv MMor MCore SRun SDouble Sim SimEx PCoreEx PRbedEx PDouble.

Lemma sim_binary64 : binary64 sim_num. Proof. repeat split. Qed.
Lemma stone_case : PrimFloat.eqb (pMPM_coef (vP vStone)) 0 = true /\ PrimFloat.ltb (nMaxMorChange (vN vStone)) 0 = false /\
  exists s s' c, simInit vStone 30 true = Ok s /\ @steps float sim_num 100 5 0 simOr vStone s = Ok s' /\ @assembled float sim_num vStone s' = Ok c.
Proof.
  split; [vm_compute; reflexivity|]. split; [vm_compute; reflexivity|]. destruct (simInit vStone 30 true) as [s|] eqn:E1; [|vm_compute in E1; discriminate E1].
  assert (X : match simInit vStone 30 true with Ok s => match @steps float sim_num 100 5 0 simOr vStone s with Ok s' => match @assembled float sim_num vStone s' with Ok _ => true | _ => false end | _ => false end | _ => false end = true) by (vm_compute; reflexivity).
  rewrite E1 in X. destruct (@steps float sim_num 100 5 0 simOr vStone s) as [s'|] eqn:E2; [|discriminate X]. destruct (@assembled float sim_num vStone s') as [c|] eqn:E3; [|discriminate X]. exists s, s', c. auto.
Qed.
