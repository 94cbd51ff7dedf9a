Set Warnings "-inexact-float".
(** Binary64 arithmetic with approximations of the transcendental functions and a
    dense linear solver, to run whole time steps of the model.  Only examples use
    it: they show that the hypotheses of theorems proved for every arithmetic can
    be met.  No accuracy is claimed for the approximations. *)
From Coq Require Import ZArith List Bool Floats.
From Verif Require Import Base Num Flt MRiv.
Import ListNotations.
Local Open Scope float_scope.

Fixpoint poly (x : float) (l : list float) : float :=
  match l with [] => 0 | a :: r => a + x * poly x r end.

Fixpoint iter {A} (n : nat) (f : A -> A) (x : A) : A := match n with O => x | S m => iter m f (f x) end.

(** exp(x) = exp(x / 2^12) ^ (2^12), Taylor polynomial *)
Definition simExp (x : float) : float :=
  iter 12 (fun y => y * y) (poly (x / 4096) [1; 1; 1/2; 1/6; 1/24; 1/120]).

(** log(x) = 2^12 log(x ^ (1/2^12)), series in (y-1)/(y+1) *)
Definition simLog (x : float) : float :=
  let y := iter 12 PrimFloat.sqrt x in
  let u := (y - 1) / (y + 1) in
  8192 * u * poly (u * u) [1; 1/3; 1/5; 1/7].

Definition simPow (x p : float) : float :=
  if x =? 0 then (if p =? 0 then 1 else 0) else simExp (p * simLog x).

Definition simPi : float := 3.1415926535897931.
Definition reduce (x : float) : float := x - 2 * simPi * zfloat (float_floor (x / (2 * simPi) + 1/2)).
Definition simSin (x : float) : float :=
  let y := reduce x in
  y * poly (y * y) [1; -1/6; 1/120; -1/5040; 1/362880; -1/39916800; 1/6227020800; -1/1307674368000].
Definition simCos (x : float) : float := simSin (x + simPi / 2).
Definition simAtan (x : float) : float :=
  let y := iter 4 (fun y => y / (1 + PrimFloat.sqrt (1 + y * y))) x in
  16 * y * poly (y * y) [1; -1/3; 1/5; -1/7; 1/9].
Definition simAsin (x : float) : float :=
  if x =? 1 then simPi / 2 else if x =? -1 then - simPi / 2 else simAtan (x / PrimFloat.sqrt (1 - x * x)).
Definition simTanh (x : float) : float := let e := simExp (2 * x) in (e - 1) / (e + 1).
Definition simAtan2 (y x : float) : float :=
  if 0 <? x then simAtan (y / x)
  else if x <? 0 then (if y <? 0 then simAtan (y / x) - simPi else simAtan (y / x) + simPi)
  else if 0 <? y then simPi / 2 else if y <? 0 then - simPi / 2 else 0.

Definition sim_num : Num float := {|
  fofZ := zfloat;
  fofQ z p := PrimFloat.div (zfloat z) (zfloat (Zpos p));
  fadd := PrimFloat.add; fsub := PrimFloat.sub; fmul := PrimFloat.mul; fdiv := PrimFloat.div;
  fopp := PrimFloat.opp; fabs := PrimFloat.abs;
  fltb := PrimFloat.ltb; fleb := PrimFloat.leb; feqb := PrimFloat.eqb;
  fnan := PrimFloat.nan; fisnan := PrimFloat.is_nan;
  fpow := simPow; fsqrt := PrimFloat.sqrt; fsin := simSin; fcos := simCos;
  fatan := simAtan; fasin := simAsin; ftanh := simTanh; fexp := simExp;
  flog := simLog; fatan2 := simAtan2; fpi := simPi;
  fmod := float_mod; ffloor := float_floor
|}.

(** Gaussian elimination on the dense matrix given by five diagonals (scipy's
    layout: entry (i,j) of the matrix is row 2+i-j, column j of the band). *)
Definition entry (band : list (list float)) (i j : nat) : float :=
  if (Nat.leb j (i + 2) && Nat.leb i (j + 2))%bool then nth j (nth (2 + i - j) band []) 0 else 0.
Definition dense (band : list (list float)) (rhs : list float) : list (list float) :=
  mapi (fun i r => map (entry band i) (seq 0 (length rhs)) ++ [r]) rhs.

(** The row with the largest leading entry first. *)
Fixpoint pivot (rows : list (list float)) : list (list float) :=
  match rows with
  | [] => []
  | r :: rs =>
    match pivot rs with
    | [] => [r]
    | m :: rest => if PrimFloat.abs (hd 0 r) <? PrimFloat.abs (hd 0 m) then m :: r :: rest else r :: m :: rest
    end
  end.
(** Returns the solution (first unknown first); rows are [a_1 .. a_n, rhs]. *)
Fixpoint gauss (n : nat) (rows : list (list float)) : list float :=
  match n with
  | O => []
  | S m =>
    match pivot rows with
    | (a :: r) :: rest =>
      let rest' := map (fun q => match q with
                                 | b :: q' => map2 (fun x y => x - b / a * y) q' r
                                 | [] => []
                                 end) rest in
      let xs := gauss m rest' in
      let s := fold_right PrimFloat.add 0 (map2 PrimFloat.mul xs r) in
      ((last r 0 - s) / a) :: xs
    | _ => []
    end
  end.
Definition simSolve (band : list (list float)) (rhs : list float) : solout float :=
  let x := gauss (length rhs) (dense band rhs) in
  if existsb PrimFloat.is_nan x then SSingular else SSol x.
