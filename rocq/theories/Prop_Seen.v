(** What a run does not look at. *)
From Coq Require Import ZArith List Reals.
From Verif Require Import Base Num Xr MState MCoast MRiv MMor MOut MCore MLoad SSeen PSeen PSeenEx.
Local Open Scope R_scope.

(** Once loaded, seven of the parameters make no difference to the start, the passes and the end of a run. *)
Theorem C129_unseen (F : Type) (NF : Num F) (sea K gamma slope len height width : F) (P : phys F) (v : env F) :
  sameRuns (withPars (otherwise sea K gamma slope len height width P) v) (withPars P v).
Proof. exact (se_runs sea K gamma slope len height width P v). Qed.
Print Assumptions C129_unseen.

(** The target barrier: only the line through it and the spit at beach-top height counts. *)
Theorem C129_target (P : phys xr) (v : env xr) top spit h w l :
  pBeachTopElev P = Fin top -> pSpitWidth P = Fin spit -> pTargetBarHeight P = Fin h -> pTargetBarWidth P = Fin w -> w <> spit -> l <> 0 ->
  sameRuns (withPars (derive (targeted (Fin (top + l * (h - top))) (Fin (spit + l * (w - spit))) P)) v) (withPars (derive P) v).
Proof. exact (target_runs P v top spit h w l). Qed.
Print Assumptions C129_target.

(** A target of 4.75 m by 90 m, and one of 7.5 m by 170 m. *)
Theorem C129_example : (2 + 2 * (4.75 - 2) = 7.5 /\ 10 + 2 * (90 - 10) = 170) /\
  forall v, sameRuns (withPars (derive (targeted (Fin (2 + 2 * (4.75 - 2))) (Fin (10 + 2 * (90 - 10))) lineP)) v) (withPars (derive lineP) v).
Proof. exact (conj line_numbers line_case). Qed.
Print Assumptions C129_example.

(** A target of 7.5 m by 90 m is not on the line and changes where the overtopping water goes. *)
Theorem C129_height_alone_refuted : exists t, overwashTransect (derive lineP) t = true /\ overwashTransect (derive (targeted (Fin 7.5) (Fin 90) lineP)) t = false.
Proof. exact line_left. Qed.
Print Assumptions C129_height_alone_refuted.
