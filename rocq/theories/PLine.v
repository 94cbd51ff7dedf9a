(** np.interp is the height of the polyline. *)
From Coq Require Import ZArith List Bool Lia Reals Lra.
From Verif Require Import Base Num Xr MState MGeom MLoad SLine PRate.
Import ListNotations.
Local Open Scope R_scope.

Lemma rightward_nth l : rightward l -> forall i j p q, (i < j)%nat -> nth_error l i = Some p -> nth_error l j = Some q -> fst p < fst q.
Proof.
  induction 1 as [|a l HF H IH]; intros i j p q Hij Hi Hj; [destruct i; discriminate|].
  destruct j as [|j]; [lia|]. destruct i as [|i]; cbn in *.
  - apply Some_inj in Hi. subst p. apply (proj1 (Forall_forall _ l) HF). eapply nth_error_In; eauto.
  - apply (IH i j); auto. lia.
Qed.

Lemma interpSeg_spec l : rightward l -> forall x p, nth_error l 0 = Some p -> fst p <= x ->
  exists y, interpSeg (Fin x) (nodes l) = Fin y /\
    ((exists q, nth_error l (length l - 1) = Some q /\ fst q <= x /\ y = snd q) \/
     exists i p q, nth_error l i = Some p /\ nth_error l (S i) = Some q /\ fst p <= x <= fst q /\
       (y - snd p) * (fst q - fst p) = (snd q - snd p) * (x - fst p)).
Proof.
  induction 1 as [|a l HF H IH]; intros x p Hp Hx; [discriminate|]. cbn in Hp. apply Some_inj in Hp. subst p.
  destruct l as [|b l].
  - exists (snd a). split; [reflexivity|]. left. exists a. auto.
  - apply Forall_inv in HF as Hab. change (interpSeg (Fin x) (nodes (a :: b :: l))) with
      (if (Fin x <? Fin (fst b))%n then ((Fin (snd b) - Fin (snd a)) / (Fin (fst b) - Fin (fst a)) * (Fin x - Fin (fst a)) + Fin (snd a))%n
       else interpSeg (Fin x) (nodes (b :: l))).
    change (Fin x <? Fin (fst b))%n with (Rltb x (fst b)). destruct (Rltb x (fst b)) eqn:E.
    + apply Rltb_true in E. rewrite !PRate.xsub, xdivf, PRate.xmul, PRate.xadd by lra. eexists. split; [reflexivity|].
      right. exists 0%nat, a, b. split; [reflexivity|]. split; [reflexivity|]. split; [lra|]. field. lra.
    + apply Rltb_false in E. destruct (IH x b eq_refl E) as (y & Ey & D). exists y. split; [exact Ey|].
      destruct D as [(q & D1 & D2)|(i & p & q & D1 & D2)].
      * left. exists q. split; [|exact D2]. cbn [length] in *. replace (S (S (length l)) - 1)%nat with (S (S (length l) - 1)) by lia. exact D1.
      * right. exists (S i), p, q. auto.
Qed.
Lemma interp_spec l x : rightward l -> l <> [] -> exists y, interpX (nodes l) (Fin x) = Fin y /\ on_line l x y.
Proof.
  intros H N. destruct l as [|a l]; [congruence|]. unfold interpX. cbn [nodes map].
  change (Fin x <? fst (Fin (fst a), Fin (snd a)))%n with (Rltb x (fst a)). destruct (Rltb x (fst a)) eqn:E.
  - apply Rltb_true in E. exists (snd a). split; [reflexivity|]. apply (ol_left _ _ _ a); auto. lra.
  - apply Rltb_false in E. destruct (interpSeg_spec (a :: l) H x a eq_refl E) as (y & Ey & D). exists y. split; [exact Ey|].
    destruct D as [(q & D1 & D2 & D3)|(i & p & q & D1 & D2 & D3 & D4)].
    + now apply (ol_right _ _ _ q).
    + now apply (ol_mid _ _ _ i p q).
Qed.

(** There is only one such height. *)
Lemma on_line_fun l x y y' : rightward l -> on_line l x y -> on_line l x y' -> y = y'.
Proof.
  intros H A B.
  assert (K : forall i p q, nth_error l i = Some p -> nth_error l (S i) = Some q -> fst p < fst q)
    by (intros i p q Hp Hq; apply (rightward_nth l H i (S i)); auto).
  assert (LT := rightward_nth l H).
  assert (LE : forall i j p q, nth_error l i = Some p -> nth_error l j = Some q -> (i <= j)%nat -> fst p <= fst q).
  { intros i j p q Hp Hq Hij. destruct (Nat.eq_dec i j) as [->|Ne]; [rewrite Hp in Hq; apply Some_inj in Hq; subst; lra|].
    apply Rlt_le, (LT i j); auto. lia. }
  assert (SAME : forall i j p q, nth_error l i = Some p -> nth_error l j = Some q -> fst p = fst q -> p = q).
  { intros i j p q Hp Hq E. destruct (lt_eq_lt_dec i j) as [[C|C]|C].
    - specialize (LT i j p q C Hp Hq). lra.
    - subst j. rewrite Hp in Hq. congruence.
    - specialize (LT j i q p C Hq Hp). lra. }
  assert (NL : forall i p, nth_error l i = Some p -> (i < length l)%nat) by (intros i p Hp; apply nth_error_Some; congruence).
  (* every case determines the height from a node or a segment *)
  assert (M : forall i p q v, nth_error l i = Some p -> nth_error l (S i) = Some q -> fst p <= x <= fst q ->
     (v - snd p) * (fst q - fst p) = (snd q - snd p) * (x - fst p) ->
     (x = fst p -> v = snd p) /\ (x = fst q -> v = snd q)).
  { intros i p q v Hp Hq Hx E. specialize (K i p q Hp Hq). split; intros ->.
    - assert ((v - snd p) * (fst q - fst p) = 0) by (rewrite E; ring). apply Rmult_integral in H0. lra.
    - assert ((v - snd q) * (fst q - fst p) = 0) by lra. apply Rmult_integral in H0. lra. }
  destruct A as [p A1 A2 A3|p A1 A2 A3|i p q A1 A2 A3 A4]; destruct B as [p' B1 B2 B3|p' B1 B2 B3|i' p' q' B1 B2 B3 B4].
  - rewrite A1 in B1. apply Some_inj in B1. congruence.
  - specialize (LE _ _ _ _ A1 B1 ltac:(lia)). assert (p = p') by (eapply SAME; eauto; lra). congruence.
  - specialize (LE _ _ _ _ A1 B1 ltac:(lia)). destruct (M _ _ _ _ B1 B2 B3 B4) as [M1 _]. assert (p = p') by (eapply SAME; eauto; lra). subst p'.
    rewrite M1; [exact A3|lra].
  - specialize (LE _ _ _ _ B1 A1 ltac:(lia)). assert (p = p') by (eapply SAME; eauto; lra). congruence.
  - rewrite A1 in B1. apply Some_inj in B1. congruence.
  - pose proof (NL _ _ B2). specialize (LE _ _ _ _ B2 A1 ltac:(lia)). destruct (M _ _ _ _ B1 B2 B3 B4) as [_ M2].
    assert (p = q') by (eapply SAME; eauto; lra). subst q'. rewrite M2; [exact A3|lra].
  - specialize (LE _ _ _ _ B1 A1 ltac:(lia)). destruct (M _ _ _ _ A1 A2 A3 A4) as [M1 _]. assert (p = p') by (eapply SAME; eauto; lra). subst p'.
    rewrite M1; [auto|lra].
  - pose proof (NL _ _ A2). specialize (LE _ _ _ _ A2 B1 ltac:(lia)). destruct (M _ _ _ _ A1 A2 A3 A4) as [_ M2].
    assert (p' = q) by (eapply SAME; eauto; lra). subst q. rewrite M2; [auto|lra].
  - destruct (M _ _ _ _ A1 A2 A3 A4) as [M1 M2]. destruct (M _ _ _ _ B1 B2 B3 B4) as [N1 N2].
    destruct (lt_eq_lt_dec i i') as [[C|C]|C].
    + specialize (LE _ _ _ _ A2 B1 ltac:(lia)). assert (q = p') by (eapply SAME; eauto; lra). subst p'. rewrite M2, N1 by lra. reflexivity.
    + subst i'. rewrite A1 in B1. rewrite A2 in B2. apply Some_inj in B1, B2. subst p' q'.
      specialize (K _ _ _ A1 A2). assert (E : (y - y') * (fst q - fst p) = 0) by lra. apply Rmult_integral in E. lra.
    + specialize (LE _ _ _ _ B2 A1 ltac:(lia)). assert (q' = p) by (eapply SAME; eauto; lra). subst q'. rewrite M1, N2 by lra. reflexivity.
Qed.
Lemma interp_on l x y : rightward l -> l <> [] -> (interpX (nodes l) (Fin x) = Fin y <-> on_line l x y).
Proof.
  intros H N. destruct (interp_spec l x H N) as (y0 & E & O). split.
  - intros E'. rewrite E in E'. assert (y0 = y) by congruence. now subst.
  - intros O'. rewrite E. f_equal. eapply on_line_fun; eauto.
Qed.
