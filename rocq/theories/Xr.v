(** The exact-arithmetic instance: reals, two infinities and NaN. *)
From Coq Require Export Reals Lra Psatz.
From Coq Require Import ZArith List Bool.
From Verif Require Import Base Num.

Inductive xr := Fin (r : R) | PInf | NInf | NaN.

Local Open Scope R_scope.

Definition Rltb (a b : R) : bool := if Rlt_dec a b then true else false.
Definition Rleb (a b : R) : bool := if Rle_dec a b then true else false.
Definition Reqb (a b : R) : bool := if Req_EM_T a b then true else false.

Definition xopp (a : xr) : xr :=
  match a with Fin r => Fin (- r) | PInf => NInf | NInf => PInf | NaN => NaN end.

Definition xadd (a b : xr) : xr :=
  match a, b with
  | Fin x, Fin y => Fin (x + y)
  | NaN, _ | _, NaN => NaN
  | PInf, NInf | NInf, PInf => NaN
  | PInf, _ | _, PInf => PInf
  | NInf, _ | _, NInf => NInf
  end.

Definition xsub (a b : xr) : xr :=
  match a, b with
  | Fin x, Fin y => Fin (x - y)
  | _, _ => xadd a (xopp b)
  end.

(** [sgn_inf x s]: an infinity whose sign is that of [s * sign x]; NaN for 0. *)
Definition sgn_inf (x : R) : xr :=
  if Rltb 0 x then PInf else if Rltb x 0 then NInf else NaN.

Definition xmul (a b : xr) : xr :=
  match a, b with
  | Fin x, Fin y => Fin (x * y)
  | NaN, _ | _, NaN => NaN
  | Fin x, PInf | PInf, Fin x => sgn_inf x
  | Fin x, NInf | NInf, Fin x => sgn_inf (- x)
  | PInf, PInf | NInf, NInf => PInf
  | PInf, NInf | NInf, PInf => NInf
  end.

(** Division by zero as numpy does it (a warning, not an exception), taking
    every zero to be +0. *)
Definition xdiv (a b : xr) : xr :=
  match a, b with
  | Fin x, Fin y => if Req_EM_T y 0 then sgn_inf x else Fin (x / y)
  | NaN, _ | _, NaN => NaN
  | Fin _, PInf | Fin _, NInf => Fin 0
  | PInf, Fin y => if Rltb y 0 then NInf else PInf
  | NInf, Fin y => if Rltb y 0 then PInf else NInf
  | PInf, PInf | NInf, NInf | PInf, NInf | NInf, PInf => NaN
  end.

Definition xabs (a : xr) : xr :=
  match a with Fin r => Fin (Rabs r) | PInf | NInf => PInf | NaN => NaN end.

Definition xltb (a b : xr) : bool :=
  match a, b with
  | Fin x, Fin y => Rltb x y
  | NaN, _ | _, NaN => false
  | NInf, NInf => false
  | NInf, _ => true
  | _, NInf => false
  | PInf, _ => false
  | _, PInf => true
  end.

Definition xeqb (a b : xr) : bool :=
  match a, b with
  | Fin x, Fin y => Reqb x y
  | PInf, PInf | NInf, NInf => true
  | _, _ => false
  end.

Definition xleb (a b : xr) : bool :=
  match a, b with
  | Fin x, Fin y => Rleb x y
  | NaN, _ | _, NaN => false
  | NInf, _ => true
  | _, PInf => true
  | PInf, _ => false
  | _, NInf => false
  end.

Definition xisnan (a : xr) : bool := match a with NaN => true | _ => false end.

(** floor *)
Definition Rfloor (r : R) : Z := (up r - 1)%Z.

(** [x ** p] on float64.  A negative base is a number only for an integral
    exponent; minus infinity gives plus or minus infinity according to whether the
    exponent is an odd integer; NaN to the power zero is one.  An infinite exponent
    is approximated by NaN; the code never raises to an infinite power. *)
Definition Rpow (x p : R) : xr :=
  if Req_EM_T p 0 then Fin 1
  else if Rlt_dec 0 x then Fin (Rpower x p)
  else if Req_EM_T x 0 then (if Rlt_dec 0 p then Fin 0 else PInf)
  else if Req_EM_T p (IZR (Rfloor p)) then Fin (powerRZ x (Rfloor p))
  else NaN.

Definition xpow (a b : xr) : xr :=
  match a, b with
  | Fin x, Fin p => Rpow x p
  | PInf, Fin p => if Req_EM_T p 0 then Fin 1 else if Rlt_dec 0 p then PInf else Fin 0
  | NInf, Fin p =>
    if Req_EM_T p 0 then Fin 1 else if Rlt_dec 0 p
    then (if Req_EM_T p (IZR (Rfloor p)) then (if Z.odd (Rfloor p) then NInf else PInf) else PInf)
    else Fin 0
  | NaN, Fin p => if Req_EM_T p 0 then Fin 1 else NaN
  | _, _ => NaN
  end.

Definition xlift (f : R -> R) (a : xr) : xr := match a with Fin x => Fin (f x) | _ => NaN end.

Definition xsqrt (a : xr) : xr :=
  match a with
  | Fin x => if Rle_dec 0 x then Fin (sqrt x) else NaN
  | PInf => PInf
  | _ => NaN
  end.

(** np.arcsin: NaN outside [-1, 1] *)
Definition xasin (a : xr) : xr :=
  match a with
  | Fin x => if Rle_dec (-1) x then if Rle_dec x 1 then Fin (asin x) else NaN else NaN
  | _ => NaN
  end.

Definition xatan (a : xr) : xr :=
  match a with
  | Fin x => Fin (atan x) | PInf => Fin (PI/2) | NInf => Fin (- (PI/2)) | NaN => NaN
  end.

Definition xtanh (a : xr) : xr :=
  match a with Fin x => Fin (tanh x) | PInf => Fin 1 | NInf => Fin (-1) | NaN => NaN end.

Definition xexp (a : xr) : xr :=
  match a with Fin x => Fin (exp x) | PInf => PInf | NInf => Fin 0 | NaN => NaN end.

Definition xlog (a : xr) : xr :=
  match a with
  | Fin x => if Rlt_dec 0 x then Fin (ln x) else if Req_EM_T x 0 then NInf else NaN
  | PInf => PInf | _ => NaN
  end.

(** [atan2 y x]: the angle of the point (x, y); atan2 0 0 = 0. *)
Definition Ratan2 (y x : R) : R :=
  if Rlt_dec 0 x then atan (y / x)
  else if Rlt_dec x 0 then (if Rle_dec 0 y then atan (y / x) + PI else atan (y / x) - PI)
  else if Rlt_dec 0 y then PI / 2
  else if Rlt_dec y 0 then - (PI / 2)
  else 0.

(** Infinite arguments of atan2 are not modelled (NaN). *)
Definition xatan2 (a b : xr) : xr :=
  match a, b with Fin y, Fin x => Fin (Ratan2 y x) | _, _ => NaN end.

(** [a % b] with the sign of the divisor; [a % 0] is NaN. *)
Definition xmod (a b : xr) : xr :=
  match a, b with
  | Fin x, Fin y => if Req_EM_T y 0 then NaN else Fin (x - y * IZR (Rfloor (x / y)))
  | _, _ => NaN
  end.

Definition xfloor (a : xr) : Z := match a with Fin x => Rfloor x | _ => 0%Z end.

Global Instance xr_num : Num xr := {|
  fofZ z := Fin (IZR z);
  fofQ z p := Fin (IZR z / IZR (Zpos p));
  fadd := xadd; fsub := xsub; fmul := xmul; fdiv := xdiv; fopp := xopp; fabs := xabs;
  fltb := xltb; fleb := xleb; feqb := xeqb; fnan := NaN; fisnan := xisnan;
  fpow := xpow; fsqrt := xsqrt; fsin := xlift sin; fcos := xlift cos; fatan := xatan;
  fasin := xasin; ftanh := xtanh; fexp := xexp; flog := xlog; fatan2 := xatan2;
  fpi := Fin PI; fmod := xmod; ffloor := xfloor
|}.

(** * Facts *)

Lemma Rltb_true a b : Rltb a b = true <-> a < b.
Proof. unfold Rltb; destruct (Rlt_dec a b); split; intros; try easy; lra. Qed.
Lemma Rltb_false a b : Rltb a b = false <-> b <= a.
Proof. unfold Rltb; destruct (Rlt_dec a b); split; intros; try easy; lra. Qed.
Lemma Rleb_true a b : Rleb a b = true <-> a <= b.
Proof. unfold Rleb; destruct (Rle_dec a b); split; intros; try easy; lra. Qed.
Lemma Rleb_false a b : Rleb a b = false <-> b < a.
Proof. unfold Rleb; destruct (Rle_dec a b); split; intros; try easy; lra. Qed.
Lemma Reqb_true a b : Reqb a b = true <-> a = b.
Proof. unfold Reqb; destruct (Req_EM_T a b); split; intros; try easy. Qed.
Lemma Reqb_false a b : Reqb a b = false <-> a <> b.
Proof. unfold Reqb; destruct (Req_EM_T a b); split; intros; try easy. Qed.

Lemma xdiv_fin x y : y <> 0 -> xdiv (Fin x) (Fin y) = Fin (x / y).
Proof. intros H; simpl; destruct (Req_EM_T y 0); [easy|reflexivity]. Qed.

Lemma xdiv_inv x y r : xdiv (Fin x) (Fin y) = Fin r -> y <> 0 /\ r = x / y.
Proof.
  simpl; destruct (Req_EM_T y 0).
  - unfold sgn_inf; destruct (Rltb 0 x); [discriminate|]; destruct (Rltb x 0); discriminate.
  - intros H; inversion H; auto.
Qed.

Lemma xsqrt_fin x : 0 <= x -> xsqrt (Fin x) = Fin (sqrt x).
Proof. intros H; simpl; destruct (Rle_dec 0 x); [reflexivity|lra]. Qed.

Lemma xasin_fin x : -1 <= x <= 1 -> xasin (Fin x) = Fin (asin x).
Proof. intros H; simpl; destruct (Rle_dec (-1) x); [|lra]; destruct (Rle_dec x 1); [reflexivity|lra]. Qed.

Lemma xpow_pos x p : 0 < x -> xpow (Fin x) (Fin p) = Fin (Rpower x p).
Proof.
  intros H; simpl; unfold Rpow. destruct (Req_EM_T p 0) as [->|_].
  - now rewrite Rpower_O.
  - destruct (Rlt_dec 0 x); [reflexivity|lra].
Qed.

Lemma xpow_zero p : 0 < p -> xpow (Fin 0) (Fin p) = Fin 0.
Proof.
  intros H; simpl; unfold Rpow. destruct (Req_EM_T p 0); [lra|].
  destruct (Rlt_dec 0 0); [lra|]. destruct (Req_EM_T 0 0); [|lra]. destruct (Rlt_dec 0 p); [auto|lra].
Qed.

Lemma Rfloor_spec r : IZR (Rfloor r) <= r < IZR (Rfloor r) + 1.
Proof. unfold Rfloor. destruct (archimed r). rewrite minus_IZR. lra. Qed.

Lemma Rfloor_unique r z : IZR z <= r < IZR z + 1 -> Rfloor r = z.
Proof.
  intros [H1 H2]. pose proof (Rfloor_spec r) as [H3 H4].
  assert (IZR z < IZR (Rfloor r + 1)) by (rewrite plus_IZR; lra).
  assert (IZR (Rfloor r) < IZR (z + 1)) by (rewrite plus_IZR; lra).
  apply lt_IZR in H. apply lt_IZR in H0. lia.
Qed.

Lemma xmod_fin x y : y <> 0 -> xmod (Fin x) (Fin y) = Fin (x - y * IZR (Rfloor (x / y))).
Proof. intros H; simpl; destruct (Req_EM_T y 0); [easy|reflexivity]. Qed.

Definition is_fin (a : xr) : Prop := exists r, a = Fin r.
(** The real behind a finite value (0 for the others; used only under [is_fin]). *)
Definition rv (a : xr) : R := match a with Fin r => r | _ => 0 end.

Lemma is_fin_rv a : is_fin a -> a = Fin (rv a).
Proof. intros (r & ->); reflexivity. Qed.
Lemma is_fin_Fin r : is_fin (Fin r).
Proof. exists r; reflexivity. Qed.
#[global] Hint Resolve is_fin_Fin : core.

(** Reduce the class operations on [xr] to their cases, leaving [xdiv], [xpow]
    etc. for the lemmas above. *)
Ltac xcbn := cbn [fofZ fofQ fadd fsub fmul fdiv fopp fabs fltb fleb feqb fnan fisnan fpow fsqrt
  fsin fcos fatan fasin ftanh fexp flog fatan2 fpi fmod ffloor xr_num f0 f1 f2
  xadd xsub xmul xopp xabs xltb xleb xeqb xisnan xlift xatan xtanh xexp xfloor fsq] in *.

(** The same, in the goal only. *)
Ltac xg := cbn [fofZ fofQ fadd fsub fmul fdiv fopp fabs fltb fleb feqb fnan fisnan fpow fsqrt
  fsin fcos fatan fasin ftanh fexp flog fatan2 fpi fmod ffloor xr_num f0 f1 f2
  xadd xsub xmul xopp xabs xltb xleb xeqb xisnan xlift xatan xtanh xexp xfloor fsq].

(** Turn boolean comparisons in the context into propositions. *)
Ltac rb :=
  repeat match goal with
  | H : Rltb _ _ = true |- _ => apply Rltb_true in H
  | H : Rltb _ _ = false |- _ => apply Rltb_false in H
  | H : Rleb _ _ = true |- _ => apply Rleb_true in H
  | H : Rleb _ _ = false |- _ => apply Rleb_false in H
  | H : Reqb _ _ = true |- _ => apply Reqb_true in H
  | H : Reqb _ _ = false |- _ => apply Reqb_false in H
  end.

(** Split on the first comparison the goal depends on. *)
Ltac rcase :=
  match goal with
  | |- context [Rltb ?a ?b] => let E := fresh "E" in destruct (Rltb a b) eqn:E
  | |- context [Rleb ?a ?b] => let E := fresh "E" in destruct (Rleb a b) eqn:E
  | |- context [Reqb ?a ?b] => let E := fresh "E" in destruct (Reqb a b) eqn:E
  end; rb.

(** Replace a comparison whose value arithmetic decides. *)
Ltac rdecide :=
  repeat match goal with
  | |- context [Rltb ?a ?b] =>
      first [ replace (Rltb a b) with true by (symmetry; apply Rltb_true; lra)
            | replace (Rltb a b) with false by (symmetry; apply Rltb_false; lra) ]
  | |- context [Rleb ?a ?b] =>
      first [ replace (Rleb a b) with true by (symmetry; apply Rleb_true; lra)
            | replace (Rleb a b) with false by (symmetry; apply Rleb_false; lra) ]
  | |- context [Reqb ?a ?b] =>
      first [ replace (Reqb a b) with true by (symmetry; apply Reqb_true; lra)
            | replace (Reqb a b) with false by (symmetry; apply Reqb_false; lra) ]
  end.
