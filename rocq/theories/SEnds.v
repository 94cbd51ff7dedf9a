(** Specification vocabulary: how a simulation can end. *)
From Coq Require Import ZArith.
From Verif Require Import Base MState SAdapt.
Local Open Scope Z_scope.

(** The three Python exceptions a pass can raise. *)
Definition pyError (e : exn) : Prop := e = EIndex \/ e = EAssert \/ e = EValue.
(** Time steps of at most half a day, at least two seconds, hydraulic step of at least a second. *)
Definition plainSteps (TP : timep) : Prop :=
  sec 1 <= tHydDt TP /\ sec 2 <= tMorDtMin TP < oneDay /\ 0 <= tMorDtMax TP <= halfDay.
