Set Warnings "-inexact-float".
(** Runs for which what stays the same is shown. *)
From Coq Require Import ZArith List Bool Floats.
From Verif Require Import Base Num Flt MState MCoast MRiv MMor MOut MCore SRun SNext SKeep SAdapt Sim SimEx PCoreEx.
Import ListNotations.

(** Six passes of the run of PCoreEx that opens its outlet: from and to nine transects and five river
    sections; shorelines move and the last coast is not the first. *)
Definition kept (r : res (state float)) : res (list float * nat * nat * bool * list nat) :=
  let! s := r in Ok (map tX (gT s), length (gRiver s), length (gOuts s), forallb (@stands float sim_num) (gT s), map (fun w => length (wT w)) (gOuts s)).
Lemma kept_start : kept (simInit vFill 30 true) = Ok ([-80; -60; -40; -20; 0; 20; 40; 60; 80]%float, 5, 0, true, [])%nat.
Proof. vm_compute. reflexivity. Qed.
Lemma kept_six : kept (after vFill true 6) = Ok ([-80; -60; -40; -20; 0; 20; 40; 60; 80]%float, 5, 6, true, [9; 9; 9; 9; 9; 9])%nat.
Proof. vm_compute. reflexivity. Qed.
Lemma kept_inv r x n m b l : kept r = Ok (x, n, m, b, l) -> exists s, r = Ok s /\ map tX (gT s) = x /\ length (gRiver s) = n /\ length (gOuts s) = m /\
  forallb (@stands float sim_num) (gT s) = b /\ map (fun w => length (wT w)) (gOuts s) = l.
Proof. unfold kept. intros H. apply bind_ok in H. destruct H as (s & E & H). apply Ok_inj in H. injection H as <- <- <- <- <-. exists s. repeat (split; [first [exact E|reflexivity]|]). reflexivity. Qed.
Lemma after_split v c n s' : after v c n = Ok s' -> exists s, simInit v 30%float c = Ok s /\ @steps float sim_num 100 n 0 simOr v s = Ok s'.
Proof. unfold after. intros H. apply bind_ok in H. exact H. Qed.
Lemma kept_run : exists s s', simInit vFill 30 true = Ok s /\ @steps float sim_num 100 6 0 simOr vFill s = Ok s' /\
  map tX (gT s) = [-80; -60; -40; -20; 0; 20; 40; 60; 80]%float /\ map tX (gT s') = [-80; -60; -40; -20; 0; 20; 40; 60; 80]%float /\
  length (gRiver s) = 5%nat /\ length (gRiver s') = 5%nat /\ gOuts s = [] /\ map (fun w => length (wT w)) (gOuts s') = [9; 9; 9; 9; 9; 9]%nat /\ forallb (@stands float sim_num) (gT s') = true.
Proof.
  destruct (kept_inv _ _ _ _ _ _ kept_start) as (s & E & A1 & A2 & A3 & A4 & A5). destruct (kept_inv _ _ _ _ _ _ kept_six) as (s' & E' & B1 & B2 & B3 & B4 & B5).
  destruct (after_split _ _ _ _ E') as (u & U1 & U2). pose proof (Ok_inj (eq_trans (eq_sym U1) E)) as Q. subst u. clear E' U1.
  exists s, s'. exact (conj E (conj U2 (conj A1 (conj B1 (conj A2 (conj B2 (conj (map_eq_nil _ _ A5) (conj B5 B4)))))))).
Qed.
