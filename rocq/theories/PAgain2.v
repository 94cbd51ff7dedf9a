(** The record a pass writes shows the state it ends in. *)
From Coq Require Import ZArith List Bool Floats.
From Verif Require Import Base Num Flt Sim MState MCoast MRiv MMor MOut MLoad MCore SAdapt SRun PCore PHot SAgain SimEx PCoreEx.
Import ListNotations.

Lemma step_shows (F : Type) (NF : Num F) af (o : oracle F) v s s' w : step af o v s = Ok s' -> gOuts s' = gOuts s ++ [w] ->
  (wClosed w = true -> gClosed s' = true) -> shows w s'.
Proof.
  intros H E C. destruct (step_written af o v s s' H) as [Q|(w' & Q & W)].
  - rewrite Q in E. apply (f_equal (@length _)) in E. rewrite app_length in E. cbn in E. exfalso. revert E. rewrite PeanoNat.Nat.add_comm. apply PeanoNat.Nat.neq_succ_diag_r.
  - rewrite Q in E. apply app_inv_head in E. injection E as ->.
    destruct W as (E1 & E2 & E3 & E4 & E5 & E6 & E7 & E8 & E9 & E10 & E11 & E12 & E13 & E14 & E15 & m & _ & E16).
    unfold shows. do 15 (split; [assumption|]). rewrite E16 in C |- *. destruct (oBreach m); [|reflexivity].
    destruct (wClosed w); [discriminate (C eq_refl)|reflexivity].
Qed.

Definition swFirst : res (nat * bool * bool) :=
  let! s := simInit vFill 30 true in let! s' := @step float sim_num 100 (simOr 0) vFill s in
  Ok (length (gOuts s'), gClosed s', match gOuts s' with [w] => wClosed w | _ => false end).
Lemma sw_first : swFirst = Ok (1%nat, true, true).
Proof. vm_compute. reflexivity. Qed.
Lemma shows_case : exists s s' w, simInit vFill 30 true = Ok s /\ @step float sim_num 100 (simOr 0) vFill s = Ok s' /\ gOuts s' = gOuts s ++ [w] /\
  wClosed w = true /\ gClosed s' = true /\ shows w s'.
Proof.
  pose proof sw_first as H. unfold swFirst in H. apply bind_ok in H. destruct H as (s & E & H). apply bind_ok in H. destruct H as (s' & E' & H). apply Ok_inj in H.
  pose proof (f_equal (fun x => snd (fst x)) H) as Q2. pose proof (f_equal snd H) as Q3. cbn [fst snd] in Q2, Q3. clear H.
  assert (gOuts s = []) as Z by exact (proj1 (proj2 (proj2 (proj2 (proj2 (init_facts _ _ _ _ _ _ _ _ _ _ _ _ _ _ _ _ _ E)))))).
  assert (exists w, gOuts s' = [w] /\ wClosed w = true) as (w & G & C).
  { revert Q3. generalize (gOuts s'). intros [|w [|? ?]] Q; [discriminate Q| |discriminate Q]. exists w. split; [reflexivity|exact Q]. }
  assert (gOuts s' = gOuts s ++ [w]) as K by (rewrite Z; exact G).
  exists s, s', w. exact (conj E (conj E' (conj K (conj C (conj Q2 (step_shows float sim_num 100 (simOr 0) vFill s s' w E' K (fun _ => Q2))))))).
Qed.
