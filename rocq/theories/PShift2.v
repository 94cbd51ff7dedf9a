(** The same in exact arithmetic, for a move by any distance. *)
From Coq Require Import ZArith List Bool Reals Lra.
From Verif Require Import Base Num Xr MState MCoast MRiv MMor MOut MCore SShift PShift.
Import ListNotations.
Local Open Scope R_scope.

Section Exact.
  Variable c : R.
  Let sh := byMetres c.
  Lemma b_sub_ss a b : (sh a - sh b = a - b)%n.
  Proof. destruct a, b; try reflexivity. cbn. f_equal. lra. Qed.
  Lemma b_add_s a d : (sh a + d = sh (a + d))%n.
  Proof. destruct a, d; try reflexivity. cbn. f_equal. lra. Qed.
  Lemma b_sub_s a d : (sh a - d = sh (a - d))%n.
  Proof. destruct a, d; try reflexivity. cbn. f_equal. lra. Qed.
  Lemma b_ltb a b : (sh a <? sh b)%n = (a <? b)%n.
  Proof. destruct a, b; try reflexivity. cbn. unfold Rltb. destruct (Rlt_dec _ _), (Rlt_dec _ _); try reflexivity; lra. Qed.
  Lemma b_leb a b : (sh a <=? sh b)%n = (a <=? b)%n.
  Proof. destruct a, b; try reflexivity. cbn. unfold Rleb. destruct (Rle_dec _ _), (Rle_dec _ _); try reflexivity; lra. Qed.
  Lemma b_isnan a : fisnan (sh a) = fisnan a.
  Proof. destruct a; reflexivity. Qed.
  Lemma b_nan : sh fnan = fnan.
  Proof. reflexivity. Qed.
  Lemma b_mid a b : ((sh a + sh b) / f2 = sh ((a + b) / f2))%n.
  Proof.
    assert (E : @f2 xr _ = Fin 2) by reflexivity. rewrite E.
    destruct a, b; cbn; unfold Rltb; try destruct (Req_EM_T 2 0); try destruct (Rlt_dec 2 0); try lra; try reflexivity. cbn. f_equal. lra.
  Qed.
  Definition update_moved := update_s sh b_sub_ss b_add_s b_sub_s b_ltb b_leb b_isnan b_nan b_mid.
  Definition step_moved := step_s sh b_sub_ss b_add_s b_sub_s b_ltb b_leb b_isnan b_nan b_mid.
  Definition steps_moved := steps_s sh b_sub_ss b_add_s b_sub_s b_ltb b_leb b_isnan b_nan b_mid.
  Definition loop_moved := loop_s sh b_sub_ss b_add_s b_sub_s b_ltb b_leb b_isnan b_nan b_mid.
  Definition init_moved := init_s sh b_sub_ss.
End Exact.
