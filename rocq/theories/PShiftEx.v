Set Warnings "-inexact-float".
(** A coast measured from two lines; the same with rounded numbers. *)
From Coq Require Import ZArith List Bool Reals Lra Floats.
From Verif Require Import Base Num Xr Flt MState MCoast MRiv MMor MOut MCore SAdapt SShift PShift PShift2 Sim SimEx PRate PCapEx PPostEx PQuietEx PLedgerEx.
Import ListNotations.
Local Open Scope R_scope.

Definition cutFrom (T : list (tsect xr)) : res (morOut xr) :=
  updateMorphology 10 yes yes restP pushNum slowTP T NaN (Fin 1) (Fin 5) (Fin 0) [Fin 1; Fin 1] [1]%nat [] [Fin 2; Fin 2; Fin 4; Fin 2] [] [Fin 5; Fin 5; Fin 5] [Fin 1; Fin 1; Fin 1] [0;0;1]%nat true
   (map Fin [0.8; 0; 0]) (map Fin [0.2; 0.1]) (map Fin [0; 0; 0; 0]) [false;false;false;false] (sec 15).
Lemma moved_case : exists o, cutFrom (exCoast 0) = Ok o /\ cutFrom (map (movedT (byMetres 100)) (exCoast 0)) = Ok (movedUpdate (byMetres 100) o) /\
  oT o <> exCoast 0 /\ map tY3 (oT (movedUpdate (byMetres 100) o)) = [Fin 70; Fin 70; Fin 70; Fin 70].
Proof.
  destruct cut_update as (o & E & C). exists o. split; [exact E|]. split; [|split].
  - unfold cutFrom. rewrite update_moved. fold (cutFrom (exCoast 0)). unfold cutFrom. rewrite E. reflexivity.
  - rewrite C. unfold cutCoast, exCoast. intros H. apply (f_equal (fun l => map tY1 l)) in H. cbn in H. discriminate.
  - unfold movedUpdate. cbn [oT]. rewrite C. unfold cutCoast, byMetres. cbn. repeat f_equal; lra.
Qed.
(** Two transects ten metres apart across the shore, measured from 10^17 m away: doubles there are 16 m apart. *)
Definition pair (y : float) : list (tsect float) := [setY0 y (simT (-20)%float 0%float); setY0 (y + 10)%float (simT 20%float 0%float)].
Definition drift (T : list (tsect float)) : list float := @longShoreTransport float sim_num (map tY0 T) 20%float 1000%float 8%float 70%float 0.125%float (simP 0.001%float).
Lemma rounded_refuted : drift (map (movedT (fun y => y + 1e17)%float) (pair 0%float)) <> drift (pair 0%float).
Proof. intros H. assert (E : forallb (fun p => PrimFloat.eqb (fst p) (snd p)) (combine (drift (map (movedT (fun y => y + 1e17)%float) (pair 0%float))) (drift (pair 0%float))) = true).
  { rewrite H. vm_compute. reflexivity. } clear H. revert E. vm_compute. discriminate. Qed.
