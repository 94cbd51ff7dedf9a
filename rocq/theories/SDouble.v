(** Binary64 arithmetic with any library of mathematical functions. *)
From Coq Require Import ZArith Floats.
From Verif Require Import Num Flt.

(** The four operations, sign, comparisons, NaN and integers are those of IEEE 754; sine, powers and the rest may be anything. *)
Definition binary64 (NF : Num float) : Prop :=
  @fadd _ NF = PrimFloat.add /\ @fsub _ NF = PrimFloat.sub /\ @fmul _ NF = PrimFloat.mul /\ @fdiv _ NF = PrimFloat.div /\ @fopp _ NF = PrimFloat.opp /\
  @fltb _ NF = PrimFloat.ltb /\ @fisnan _ NF = PrimFloat.is_nan /\ @fofZ _ NF = zfloat.
(** The same double, up to the sign of zero. *)
Definition sameDouble (x y : float) : Prop := x = y \/ (PrimFloat.eqb x 0 = true /\ PrimFloat.eqb y 0 = true).
