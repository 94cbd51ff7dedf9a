(** The arithmetic the model is written over.

    The code computes with numpy/Python float64.  The model is written once,
    over an abstract carrier [F] with the operations below, and used at two
    instances:
    - [xr] (Xr.v): exact real numbers plus NaN and the two infinities.  NaN
      propagates and compares false exactly as in IEEE; rounding and the sign of
      zero are not modelled.  Quantitative theorems are about this instance.
    - Coq's primitive binary64 floats (Flt.v): bit-exact IEEE + - * / < <= ==,
      used to run the model and for the [_refuted] witnesses.
    Theorems about control flow, sizes, indices and times are proved for every
    instance. *)
From Coq Require Import ZArith List Bool.
From Verif Require Import Base.

Class Num (F : Type) := {
  fofZ  : Z -> F;
  fofQ  : Z -> positive -> F;          (* decimal literals, e.g. 0.001 = fofQ 1 1000 *)
  fadd  : F -> F -> F;
  fsub  : F -> F -> F;
  fmul  : F -> F -> F;
  fdiv  : F -> F -> F;
  fopp  : F -> F;
  fabs  : F -> F;
  fltb  : F -> F -> bool;
  fleb  : F -> F -> bool;
  feqb  : F -> F -> bool;
  fnan  : F;
  fisnan : F -> bool;
  fpow  : F -> F -> F;                 (* x ** p *)
  fsqrt : F -> F;
  fsin  : F -> F;
  fcos  : F -> F;
  fatan : F -> F;
  fasin : F -> F;
  ftanh : F -> F;
  fexp  : F -> F;
  flog  : F -> F;
  fatan2 : F -> F -> F;
  fpi   : F;
  fmod  : F -> F -> F;                 (* Python/numpy % : sign of the divisor *)
  ffloor : F -> Z                      (* math.floor of a finite number *)
}.

Declare Scope num_scope.
Delimit Scope num_scope with n.
Infix "+" := fadd : num_scope.
Infix "-" := fsub : num_scope.
Infix "*" := fmul : num_scope.
Infix "/" := fdiv : num_scope.
Notation "- x" := (fopp x) : num_scope.
Infix "<?" := fltb : num_scope.
Infix "<=?" := fleb : num_scope.
Infix "=?" := feqb : num_scope.
Notation "x >? y" := (fltb y x) (only parsing) : num_scope.
Notation "x >=? y" := (fleb y x) (only parsing) : num_scope.

Section Derived.
  Context {F : Type} {NF : Num F}.
  Local Open Scope num_scope.

  Definition f0 : F := fofZ 0.
  Definition f1 : F := fofZ 1.
  Definition f2 : F := fofZ 2.

  (** [np.maximum] / [np.minimum]: NaN propagates. *)
  Definition fmaximum (a b : F) : F :=
    if fisnan a then a else if fisnan b then b else if a <? b then b else a.
  Definition fminimum (a b : F) : F :=
    if fisnan a then a else if fisnan b then b else if b <? a then b else a.

  (** Python's builtin [max(a, b)] / [min(a, b)]: the first argument is kept
      unless the second compares strictly better, so NaN does not propagate
      from the second argument. *)
  Definition pymax (a b : F) : F := if a <? b then b else a.
  Definition pymin (a b : F) : F := if b <? a then b else a.

  (** A boolean used as a number. *)
  Definition fofb (b : bool) : F := if b then f1 else f0.

  (** [np.sum], [np.max] of a list ([np.max] of nothing is ValueError). *)
  Definition fsum (l : list F) : F := fold_right fadd f0 l.
  Definition fmaxl (l : list F) : res F :=
    match l with
    | nil => Exc EValue
    | cons x r => Ok (fold_left fmaximum r x)
    end.

  (** [np.nansum] *)
  Definition fnansum (l : list F) : F := fsum (filter (fun x => negb (fisnan x)) l).

  Definition fsq (x : F) : F := x * x.
End Derived.
