Set Warnings "-inexact-float".
(** Runs on other dates in exact arithmetic; with doubles. *)
From Coq Require Import ZArith List Bool Reals Lra Floats.
From Verif Require Import Base Num Xr Flt MState MCoast MRiv MMor MOut MCore SAdapt SShift SLater PLater Sim SimEx PCoreEx.
Import ListNotations.

Lemma exact_span d a b : (@fofZ xr xr_num (a + d) - fofZ (b + d) = fofZ a - fofZ b)%n.
Proof. cbn. f_equal. rewrite !plus_IZR. lra. Qed.
Definition steps_date (d : Z) := @steps_later xr xr_num d (exact_span d).
Definition loop_date (d : Z) := @loop_later xr xr_num d (exact_span d).
Definition init_date (d : Z) := @init_later xr xr_num d (exact_span d).

(** Half way between 100 and 200 on any date. *)
Lemma half_way d : at1 (laterSeries d [(sec 0, Fin 100); (sec 10, Fin 200)]) (sec 5 + d) = Ok (Fin 150).
Proof.
  rewrite (at_later d (exact_span d)). unfold at1, interpolateAt, valueAt, sec. cbn.
  destruct (Req_EM_T _ _) as [E|E]; [exfalso; lra|]. cbn. do 2 f_equal. lra.
Qed.
(** The run of PCoreEx one day later, with doubles: the same. *)
Definition day : Z := sec 86400.
Lemma tomorrow : thenDo (laterRun day) (after vFill true 6) = after (laterSetup day vFill) true 6 /\ clock (after (laterSetup day vFill) true 6) = Ok (sec 86760, sec 60, false, 6%nat, 6%nat).
Proof. vm_compute. split; reflexivity. Qed.
(** Nanoseconds are lost in the year 2006. *)
Lemma nanoseconds_refuted : @at1 float float_num [(0%Z, 0%float); (1000%Z, 1000%float)] 100 = Ok 100%float /\
  @at1 float float_num (laterSeries (2 ^ 60) [(0%Z, 0%float); (1000%Z, 1000%float)]) (100 + 2 ^ 60) = Ok 0%float.
Proof. split; [vm_compute; reflexivity|]. vm_compute; reflexivity. Qed.
