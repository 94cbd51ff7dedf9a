(** Long sections: consequences and concrete cases. *)
From Coq Require Import ZArith List Bool Lia Reals Lra.
From Verif Require Import Base Num Xr MState MCoast MRiv MMor MOut MLoad MVis SVis PCoast PRate PSteady PVis XEval.
Import ListNotations.
Local Open Scope R_scope.

Lemma long_steady dx z b rough q dswl (N : nump xr) h v :
  solveSteady (map Fin dx) (map Fin z) (map Fin b) rough (Fin q) dswl N = Ok (map Fin h, map Fin v) ->
  length z = S (length dx) -> Forall (fun x => x <> 0) b -> Forall (fun x => x <> 0) h ->
  exists s, longSection (map Fin dx) (map Fin z) (map Fin b) (map Fin h) (map Fin v) None = Ok s /\
    drawn (lsFlow s) (S (length dx)) (chainage dx) (fun _ => q).
Proof.
  intros H Hz Hb Hh. destruct (steady_discharge _ _ _ _ _ _ _ _ _ H) as (L1 & L2 & L3 & D).
  rewrite !map_length in *.
  destruct (long_section dx z b h v Hz ltac:(lia) ltac:(lia) ltac:(lia) None ltac:(discriminate)) as (s & E & _ & _ & _ & _ & [F1 F2] & _).
  exists s. split; [exact E|]. split; [exact F1|]. intros i Hi. rewrite (F2 i Hi). do 2 f_equal.
  destruct (D i (at_ b i) (at_ h i)) as (vi & E1 & E2).
  - apply nth_at. lia.
  - apply nth_at. lia.
  - apply (proj1 (Forall_forall _ b) Hb). apply nth_In. lia.
  - apply (proj1 (Forall_forall _ h) Hh). apply nth_In. lia.
  - rewrite nth_at in E1 by lia. apply Some_inj in E1. assert (at_ v i = vi) by congruence. subst vi. f_equal. lra.
Qed.

Lemma drawn_fun l n x y x' y' : drawn l n x y -> drawn l n x' y' -> forall i, (i < n)%nat -> y i = y' i.
Proof. intros [_ A] [_ B] i Hi. specialize (A i Hi). specialize (B i Hi). rewrite A in B. congruence. Qed.

Lemma gravity_fixed : ~ (forall g dx z b h v s, 0 < g ->
  longSection (map Fin dx) (map Fin z) (map Fin b) (map Fin h) (map Fin v) None = Ok s ->
  length z = S (length dx) -> length b = length z -> length h = length z -> length v = length z ->
  drawn (lsEnergy s) (length dx) (mean (chainage dx)) (head g z h v)).
Proof.
  intros C.
  destruct (long_section [2] [1; 0] [3; 3] [1; 2] [2; 2] eq_refl eq_refl eq_refl eq_refl None ltac:(discriminate))
    as (s & E & _ & _ & D & _).
  assert (D' := C 1 [2] [1; 0] [3; 3] [1; 2] [2; 2] s ltac:(lra) E eq_refl eq_refl eq_refl eq_refl).
  pose proof (drawn_fun _ _ _ _ _ _ D D' 0%nat ltac:(cbn; lia)) as X. unfold head, mean, at_ in X. cbn in X. lra.
Qed.

Lemma bedload_axis : ~ (forall dx z b h v q s l lo hi,
  longSection (map Fin dx) (map Fin z) (map Fin b) (map Fin h) (map Fin v) (Some (map Fin q)) = Ok s ->
  length z = S (length dx) -> length b = length z -> length h = length z -> length v = length z -> length q = length dx -> q <> [] ->
  lsQs s = Some l -> lsQsLim s = Some (Fin lo, Fin hi) -> forall x y, In (Fin x, Fin y) l -> lo <= y <= hi).
Proof.
  intros C.
  destruct (long_section [2] [1; 0] [3; 3] [1; 2] [2; 2] eq_refl eq_refl eq_refl eq_refl (Some [-1])
    ltac:(intros q Hq; apply Some_inj in Hq; subst; split; [reflexivity|discriminate]))
    as (s & E & _ & _ & _ & _ & _ & _ & _ & (l & hi & E1 & [E2 E3] & E4 & _) & _).
  specialize (C [2] [1; 0] [3; 3] [1; 2] [2; 2] [-1] s l 0 hi E eq_refl eq_refl eq_refl eq_refl eq_refl ltac:(discriminate) E1 E4).
  specialize (E3 0%nat ltac:(cbn; lia)). apply nth_error_In in E3. specialize (C _ _ E3). unfold hourly, at_ in C. cbn in C. lra.
Qed.

Lemma long_example : exists s,
  longSection [Fin 2; Fin 4] [Fin 3; Fin 2; Fin 0] [Fin 5; Fin 5; Fin 10] [Fin 1; Fin 1; Fin 2] [Fin 2; Fin 2; Fin (1 / 2)] None = Ok s /\
  lsWater s = [(Fin 0, Fin 4); (Fin 2, Fin 3); (Fin 6, Fin 2)] /\
  lsFlow s = [(Fin 0, Fin 10); (Fin 2, Fin 10); (Fin 6, Fin 10)].
Proof.
  destruct (long_section [2; 4] [3; 2; 0] [5; 5; 10] [1; 1; 2] [2; 2; 1 / 2] eq_refl eq_refl eq_refl eq_refl None ltac:(discriminate))
    as (s & E & _ & [W1 W2] & _ & _ & [Q1 Q2] & _).
  exists s. split; [exact E|].
  pose proof (W2 0%nat ltac:(cbn; lia)) as A0. pose proof (W2 1%nat ltac:(cbn; lia)) as A1. pose proof (W2 2%nat ltac:(cbn; lia)) as A2.
  pose proof (Q2 0%nat ltac:(cbn; lia)) as B0. pose proof (Q2 1%nat ltac:(cbn; lia)) as B1. pose proof (Q2 2%nat ltac:(cbn; lia)) as B2.
  unfold at_ in *. cbn [chainage nth length] in *.
  destruct (lsWater s) as [|w0 [|w1 [|w2 [|? ?]]]]; try discriminate W1.
  destruct (lsFlow s) as [|q0 [|q1 [|q2 [|? ?]]]]; try discriminate Q1.
  cbn [nth_error] in *. apply Some_inj in A0, A1, A2, B0, B1, B2. subst.
  split; repeat (f_equal; try lra).
Qed.
