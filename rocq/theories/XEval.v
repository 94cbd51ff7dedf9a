(** Evaluation of model functions on concrete real inputs. *)
From Coq Require Import Reals ZArith List Bool Lia Lra.
From Verif Require Import Base Num Xr.
Local Open Scope R_scope.

Ltac xred := cbv -[Rltb Rleb Reqb Rplus Rminus Rmult Rdiv Ropp Rinv IZR Rfloor xmod Rmax Rmin Rabs xdiv Rpow Rpower xpow exp ln sqrt sin cos atan PI].
Ltac xdivs := repeat first [rewrite xdiv_fin by lra | rewrite xmod_fin by lra].
(** Evaluate the goal, deciding comparisons by linear arithmetic. *)
Ltac xev := repeat (progress (xred; xdivs; rdecide)).
(** Evaluate the first statement of a monadic program. *)
Ltac onbind :=
  match goal with |- bind ?r ?k = _ =>
    let E := fresh "E" in let v := fresh "v" in
    match type of r with res ?A => evar (v : A) end;
    assert (E : r = Ok v); [xev; subst v; reflexivity | rewrite E; subst v; clear E; cbn [bind]] end.
Ltac xrun := repeat onbind; xev; reflexivity.
