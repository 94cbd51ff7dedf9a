Set Warnings "-inexact-float".
(** Updates that stop because a duration is not a whole number of seconds. *)
From Coq Require Import ZArith List Bool Floats.
From Verif Require Import Base Num Flt MState MCoast MRiv MMor SMor STouch SAdapt Sim SimEx PNextEx.
Import ListNotations.
Local Open Scope float_scope.
(** The coast of PNextEx.v without channel; durations in milliseconds. *)
Definition milli (m : Z) : Z := (m * 1000000)%Z.
Definition milliUpdate (mn mx dt : Z) (q : float) : res (morOut float) :=
  @updateMorphology float sim_num 10 (fun _ => true) (fun _ => true) (simP 0.001) simN (mkTime 0 (sec 64) (sec 16) (milli mn) (milli mx)) (five (beach (-20)) (beach 20)) PrimFloat.nan 20 5 (-1) [1; 1] [2]%nat []
    [2; 2; 2; 2; 2] [] [5; 5; 5] [1; 1; 1] [0;0;1]%nat true [0; q; q; q] [0; 0] [0; 0; 0; 0; 0] [false;false;false;false;false] (milli dt).
Definition took (r : res (morOut float)) : res (Z * bool) := match r with Ok o => Ok (oDt o, oBreach o) | Exc e => Exc e end.
Lemma took_exc r e : took r = Exc e -> r = Exc e.
Proof. destruct r; [discriminate|]. cbn [took]. congruence. Qed.
Lemma took_ok r d b : took r = Ok (d, b) -> exists o, r = Ok o /\ oDt o = d /\ oBreach o = b.
Proof. destruct r as [o|]; [|discriminate]. cbn [took]. intros H. apply Ok_inj in H. injection H as <- <-. eauto. Qed.
Lemma fraction_stops : took (milliUpdate 1500 16000 1500 4) = Exc EAssert. Proof. vm_compute. reflexivity. Qed.
Lemma fraction_faster : took (milliUpdate 1500 16000 1500 6) = Ok (1500000000%Z, false). Proof. vm_compute. reflexivity. Qed.
Lemma fraction_slower : took (milliUpdate 1500 16000 1500 2) = Ok (3000000000%Z, false). Proof. vm_compute. reflexivity. Qed.
Lemma whole_same : took (milliUpdate 1000 16000 1000 4) = Ok (2000000000%Z, false). Proof. vm_compute. reflexivity. Qed.
Lemma offgrid_stops : took (milliUpdate 10000 40000 15000 0.78125) = Exc EAssert. Proof. vm_compute. reflexivity. Qed.
Lemma fraction_refuted : milliUpdate 1500 16000 1500 4 = Exc EAssert /\ milliUpdate 10000 40000 15000 0.78125 = Exc EAssert /\
  (exists o, milliUpdate 1500 16000 1500 6 = Ok o /\ oDt o = milli 1500 /\ oBreach o = false) /\
  (exists o, milliUpdate 1500 16000 1500 2 = Ok o /\ oDt o = milli 3000 /\ oBreach o = false) /\
  (exists o, milliUpdate 1000 16000 1000 4 = Ok o /\ oDt o = milli 2000 /\ oBreach o = false).
Proof.
  exact (conj (took_exc _ _ fraction_stops) (conj (took_exc _ _ offgrid_stops) (conj (took_ok _ _ _ fraction_faster) (conj (took_ok _ _ _ fraction_slower) (took_ok _ _ _ whole_same))))).
Qed.

(** The barrier at the first transect is 1 cm wide and the lagoon is eroding it. *)
Definition firstUpdate : res (morOut float) :=
  @updateMorphology float sim_num 10 (fun _ => true) (fun _ => true) (simP 0.001) simN (simTP 0 64 16 4 16)
    (mkT (-40) 0 PrimFloat.nan PrimFloat.nan (-0.01) (-50) 4 PrimFloat.nan PrimFloat.nan (-1) :: map beach [-20; 0; 20; 40]) PrimFloat.nan 20 5 (-1) [1; 1] [0; 1; 2]%nat []
    [2; 2; 2; 2; 2] [] [5; 5; 5; 5; 5] [1; 1; 1; 1; 1] [0;0;1;1;1]%nat true [0; 0; 0; 0] [0; 0; 1; 1] [0; 0; 0; 0; 0] [false;false;false;false;false] (sec 16).
Lemma first_left : left firstUpdate = Ok (true, [false; true; true; true; true]).
Proof. vm_compute. reflexivity. Qed.
Lemma first_case : exists o, firstUpdate = Ok o /\ oBreach o = true /\ map (@SNext.stands float sim_num) (oT o) = [false; true; true; true; true].
Proof. exact (left_inv _ _ _ first_left). Qed.
