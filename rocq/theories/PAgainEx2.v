(** A record whose numbers are real. *)
From Coq Require Import ZArith List Reals.
From Verif Require Import Base Num Xr MState MOut SOut PHotEx SAgain PAgain.
Import ListNotations.
Lemma again_real : allReal (hW 60 90 true) /\ keeps (fun x : xr => x) (hW 60 90 true).
Proof.
  assert (allReal (hW 60 90 true)) as A.
  { assert (forall r, real (Fin r)) as G by (intros r; exists r; reflexivity).
    unfold allReal, hW, hT; cbn [wRiv wRDep wT wODep wZend wEDep].
    split; [constructor; [apply G|constructor]|]. split; [constructor; [apply G|constructor]|].
    split; [repeat (constructor; [first [left; apply G|right; reflexivity]|]); constructor|].
    split; [repeat (constructor; [cbn; first [reflexivity|discriminate]|]); constructor|].
    split; [repeat (constructor; [first [left; apply G|right; reflexivity]|]); constructor|].
    split; [apply G|]. repeat (constructor; [left; apply G|]); constructor. }
  split; [exact A|]. apply real_keeps; [reflexivity|reflexivity|reflexivity|exact A].
Qed.
