(** The binary64 instance: Coq's primitive IEEE floats.  + - * / sqrt and the
    comparisons are bit-exact.  Coq has no primitive for the transcendental
    functions, so those are NaN here: no theorem uses them at this instance. *)
From Coq Require Import ZArith Floats Uint63.
From Verif Require Import Base Num.

Definition zfloat (z : Z) : float :=
  match z with
  | Zneg p => PrimFloat.opp (PrimFloat.of_uint63 (Uint63.of_Z (Zpos p)))
  | _ => PrimFloat.of_uint63 (Uint63.of_Z z)
  end.

Definition unsupported1 (_ : float) : float := PrimFloat.nan.
Definition unsupported2 (_ _ : float) : float := PrimFloat.nan.

(** floor of a float of magnitude below 2^62, by decoding it. *)
Definition float_floor (f : float) : Z :=
  match FloatOps.Prim2SF f with
  | SpecFloat.S754_finite s m e =>
      let z := if s then Zneg m else Zpos m in
      if (0 <=? e)%Z then Z.shiftl z e else Z.div z (Z.pow 2 (- e))
  | _ => 0%Z
  end.

(** a % b computed as a - b*floor(a/b) (one rounding more than C's fmod). *)
Definition float_mod (a b : float) : float :=
  PrimFloat.sub a (PrimFloat.mul b (zfloat (float_floor (PrimFloat.div a b)))).

Global Instance float_num : Num float := {|
  fofZ := zfloat;
  fofQ z p := PrimFloat.div (zfloat z) (zfloat (Zpos p));
  fadd := PrimFloat.add; fsub := PrimFloat.sub; fmul := PrimFloat.mul; fdiv := PrimFloat.div;
  fopp := PrimFloat.opp; fabs := PrimFloat.abs;
  fltb := PrimFloat.ltb; fleb := PrimFloat.leb; feqb := PrimFloat.eqb;
  fnan := PrimFloat.nan; fisnan := PrimFloat.is_nan;
  fpow := unsupported2; fsqrt := PrimFloat.sqrt; fsin := unsupported1; fcos := unsupported1;
  fatan := unsupported1; fasin := unsupported1; ftanh := unsupported1; fexp := unsupported1;
  flog := unsupported1; fatan2 := unsupported2; fpi := PrimFloat.nan;
  fmod := float_mod; ffloor := float_floor
|}.
