(** Two target barriers on one line. *)
From Coq Require Import ZArith List Reals Lra.
From Verif Require Import Base Num Xr MState MCoast MRiv MMor MOut MCore MLoad SSeen PSeen.
Local Open Scope R_scope.

(** Beach top at 2 m, spit 10 m wide; target barrier 4.75 m high and 90 m wide. *)
Definition lineP : phys xr := mkPhys (Fin 2650) (Fin 1025) (Fin 1000) (Fin 9.81) (Fin 0.03) (Fin 0.4) (Fin 0.5) (Fin 10) (Fin 5) (Fin 0.1) (Fin 0.003) (Fin 0.03) (Fin 0.05) (Fin 4) (Fin 1.5)
  (Fin 100) (Fin 100) (Fin 0.04) (Fin 0.035) (Fin 30) (Fin 30) (Fin (-2)) (Fin 0.0002) (Fin 2) (Fin 2) (Fin 10) (Fin 4.75) (Fin 90) (Fin 1) (Fin 100) (Fin 0.5) (Fin 0.001) (Fin 0) (Fin 0) (Fin 0) (Fin 0) (Fin 0).
Lemma line_case v : sameRuns (withPars (derive (targeted (Fin (2 + 2 * (4.75 - 2))) (Fin (10 + 2 * (90 - 10))) lineP)) v) (withPars (derive lineP) v).
Proof. apply target_runs with (h := 4.75) (w := 90); try reflexivity; lra. Qed.
(** The same line, numerically: 7.5 m high and 170 m wide. *)
Lemma line_numbers : 2 + 2 * (4.75 - 2) = 7.5 /\ 10 + 2 * (90 - 10) = 170. Proof. split; lra. Qed.
(** Higher only: another line, and another judgement of the same crest. *)
Lemma line_left : exists t, overwashTransect (derive lineP) t = true /\ overwashTransect (derive (targeted (Fin 7.5) (Fin 90) lineP)) t = false.
Proof.
  exists (mkT (Fin 0) (Fin 200) NaN NaN (Fin 110) (Fin 50) (Fin 6) NaN NaN (Fin 0)).
  unfold overwashTransect, outletPresent, derive, targeted, lineP, barRatInt, barRatSlope, fmaximum. cbn [fisnan xr_num xisnan negb tY0 tY1 tY2 tY3 tY4 tZ0 pBarRatSlope pBarRatInt pBeachTopElev pSpitWidth pTargetBarHeight pTargetBarWidth].
  cbn. unfold Rltb, Rleb.
  repeat (unfold Rltb, Rleb; match goal with |- context [Req_EM_T ?a ?b] => destruct (Req_EM_T a b); [exfalso; lra|] | |- context [Rlt_dec ?a ?b] => destruct (Rlt_dec a b); try (exfalso; lra) | |- context [Rle_dec ?a ?b] => destruct (Rle_dec a b); try (exfalso; lra) end; cbn); repeat split.
Qed.
