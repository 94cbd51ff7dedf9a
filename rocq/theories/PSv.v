(** Proofs about the model of riv.py solveFullPreissmann: residuals, matrix, water balance. *)
From Coq Require Import Reals ZArith List Bool Lia Lra.
From Verif Require Import Base Num Xr MState MRiv SRiv SPre PPre.
Import ListNotations.
Local Open Scope R_scope.

(** * Tabulated lists *)
Definition gtab {A} (n : nat) (f : nat -> A) : list A := map f (seq 0 n).

Lemma gtab_S {A} n (f : nat -> A) : gtab (S n) f = f 0%nat :: gtab n (fun k => f (S k)).
Proof. unfold gtab. cbn [seq map]. rewrite <- seq_shift, map_map. reflexivity. Qed.
Lemma gtab_end {A} n (f : nat -> A) : gtab (S n) f = gtab n f ++ [f n].
Proof. unfold gtab. rewrite seq_S, map_app. reflexivity. Qed.
Lemma gtab_length {A} n (f : nat -> A) : length (gtab n f) = n.
Proof. unfold gtab. rewrite map_length, seq_length. reflexivity. Qed.
Lemma gtab_ext {A} n (f g : nat -> A) : (forall k, (k < n)%nat -> f k = g k) -> gtab n f = gtab n g.
Proof. intros H. unfold gtab. apply map_ext_in. intros k Hk. apply in_seq in Hk. apply H. lia. Qed.
Lemma gtab_map {A B} n (f : nat -> A) (g : A -> B) : map g (gtab n f) = gtab n (fun k => g (f k)).
Proof. unfold gtab. rewrite map_map. reflexivity. Qed.
Lemma gtab_nth {A} n (f : nat -> A) k : (k < n)%nat -> nth_error (gtab n f) k = Some (f k).
Proof.
  intros H. unfold gtab. rewrite nth_error_map.
  rewrite (nth_error_nth' _ 0%nat) by (rewrite seq_length; auto). rewrite seq_nth by auto. reflexivity.
Qed.
Lemma gtab_nth_d {A} n (f : nat -> A) k d : (k < n)%nat -> nth k (gtab n f) d = f k.
Proof. intros H. apply nth_error_nth with (d := d). apply gtab_nth; auto. Qed.
Lemma gtab_map2 {A B C} (g : A -> B -> C) n f1 f2 : map2 g (gtab n f1) (gtab n f2) = gtab n (fun k => g (f1 k) (f2 k)).
Proof. revert f1 f2; induction n as [|n IH]; intros; [reflexivity|]. rewrite !gtab_S. cbn [map2]. rewrite IH. reflexivity. Qed.
Lemma gtab_reaches {A B C} (g : A -> A -> B -> C) n f1 f2 :
  reaches g (gtab (S n) f1) (gtab n f2) = gtab n (fun k => g (f1 k) (f1 (S k)) (f2 k)).
Proof.
  revert f1 f2; induction n as [|n IH]; intros; [reflexivity|].
  rewrite (gtab_S (S n) f1), (gtab_S n f2), (gtab_S n (fun k => g _ _ _)).
  specialize (IH (fun k => f1 (S k)) (fun k => f2 (S k))). rewrite <- IH.
  rewrite (gtab_S n (fun k => f1 (S k))). reflexivity.
Qed.
Lemma gtab_combine {A B} n (f : nat -> A) (g : nat -> B) : combine (gtab n f) (gtab n g) = gtab n (fun k => (f k, g k)).
Proof. revert f g; induction n as [|n IH]; intros; [reflexivity|]. rewrite !gtab_S. cbn [combine]. rewrite IH. reflexivity. Qed.
Lemma gtab_nodes {F} n (z B Be h V A Sf : nat -> F) :
  nodesOf (gtab n z) (gtab n B) (gtab n Be) (gtab n h) (gtab n V) (gtab n A) (gtab n Sf)
  = gtab n (fun k => mkNode (z k) (B k) (Be k) (h k) (V k) (A k) (Sf k)).
Proof.
  revert z B Be h V A Sf; induction n as [|n IH]; intros; [reflexivity|].
  rewrite !gtab_S. cbn [nodesOf]. rewrite IH. reflexivity.
Qed.
Lemma gtab_rc {F} n (a b c : nat -> F) :
  reachesOf (gtab n a) (gtab n b) (gtab n c) = gtab n (fun k => mkReach (a k) (b k) (c k)).
Proof. revert a b c; induction n as [|n IH]; intros; [reflexivity|]. rewrite !gtab_S. cbn [reachesOf]. rewrite IH. reflexivity. Qed.
Lemma gtab_last {A} n (f : nat -> A) : last_ (gtab (S n) f) = Ok (f n).
Proof. unfold last_. rewrite gtab_end, rev_app_distr. reflexivity. Qed.
Lemma gtab_first {A} n (f : nat -> A) : ix (gtab (S n) f) 0 = Ok (f 0%nat).
Proof. rewrite gtab_S. reflexivity. Qed.
Lemma tab_gtab n f : tab n f = gtab n (fun k => Fin (f k)).
Proof. reflexivity. Qed.

Lemma gtab_tl {A} n (f : nat -> A) : tl (gtab (S n) f) = gtab n (fun k => f (S k)).
Proof. rewrite gtab_S. reflexivity. Qed.
Lemma gtab_removelast {A} n (f : nat -> A) : removelast (gtab (S n) f) = gtab n f.
Proof. rewrite gtab_end, removelast_app by discriminate. cbn. rewrite app_nil_r. reflexivity. Qed.

Lemma gtab_concat2 {A} n (f g : nat -> A) :
  concat (gtab n (fun k => [f k; g k])) = gtab (2 * n) (fun i => if Nat.even i then f (i / 2)%nat else g (i / 2)%nat).
Proof.
  revert f g; induction n as [|n IH]; intros; [reflexivity|].
  replace (2 * S n)%nat with (S (S (2 * n))) by lia.
  rewrite gtab_S. cbn [concat]. rewrite IH. rewrite (gtab_S (S (2 * n))), (gtab_S (2 * n)). cbn [app].
  f_equal. f_equal. apply gtab_ext. intros k Hk.
  replace (S (S k) / 2)%nat with (S (k / 2)).
  - replace (Nat.even (S (S k))) with (Nat.even k) by reflexivity. reflexivity.
  - change (S (S k)) with (2 + k)%nat. replace (2 + k)%nat with (k + 1 * 2)%nat by lia. rewrite Nat.div_add by lia. lia.
Qed.
Lemma gtab_inter {A} n (f g : nat -> A) :
  inter (gtab n f) (gtab n g) = gtab (2 * n) (fun i => if Nat.even i then f (i / 2)%nat else g (i / 2)%nat).
Proof.
  rewrite <- gtab_concat2. revert f g; induction n as [|n IH]; intros; [reflexivity|].
  rewrite !gtab_S. cbn [inter concat app]. rewrite IH. reflexivity.
Qed.

(** * The model in terms of the scheme *)
Notation nodes s h V := (nodesAt s h V).
Notation reachList s := (reachesAt s).
Lemma fricSlope_fin n h v : 0 < h -> fricSlope (Fin n) (Fin h) (Fin v) = Fin (v * Rabs v * (n * n) / Rpower h (4 / 3)).
Proof.
  intros H. unfold fricSlope, fsq. xg. rewrite xpow_pos by auto. rewrite xdiv_fin; [reflexivity|].
  unfold Rpower. apply Rgt_not_eq, exp_pos.
Qed.

Lemma init_fin s cl h V dtns N P m :
  vN s = S (S m) -> pars s N P dtns ->
  (forall k, (k < S m)%nat -> 0 < vdx s k) ->
  (forall k, (k < S (S m))%nat -> 0 < h k /\ V k <> 0) ->
  let n := vN s in
  preInit (tab n (vz s)) (tab n (vB s)) (tab n (vLA s)) (tab n (vLL s)) cl (tab n h) (tab n V)
          (tab (n - 1) (vdx s)) dtns N P
  = Ok (ctxOf s cl (nErrTol N) (nMaxIt N),
        mkPst (tab n h) (tab n V) (tab n (flowArea s h)) (tab n (manning s h V)) (Fin (vz s (n - 1) + h (n - 1)%nat)) None None).
Proof.
  intros Hn (T1 & T2 & T3 & T4 & T5 & T6) Hdx Hst n. subst n. unfold ctxOf. rewrite Hn, !tab_gtab.
  replace (S (S m) - 1)%nat with (S m) by lia.
  unfold preInit. rewrite !gtab_length, !Nat.eqb_refl. cbn [andb negb].
  replace (map fixH (gtab (S (S m)) (fun k => Fin (h k)))) with (gtab (S (S m)) (fun k => Fin (h k))).
  2:{ rewrite gtab_map. apply gtab_ext. intros k Hk. unfold fixH. xg. destruct (Hst k Hk). rdecide. reflexivity. }
  replace (map fixV (gtab (S (S m)) (fun k => Fin (V k)))) with (gtab (S (S m)) (fun k => Fin (V k))).
  2:{ rewrite gtab_map. apply gtab_ext. intros k Hk. unfold fixV. xg. destruct (Hst k Hk).
      destruct (Reqb (V k) 0) eqn:E; [apply Reqb_true in E; contradiction|reflexivity]. }
  assert (E : dx2 (gtab (S m) (fun k => Fin (vdx s k))) = Ok (gtab (S (S m)) (fun k => Fin (nodeLen s k)))).
  { unfold dx2. rewrite gtab_first, gtab_last. cbn [bind]. rewrite gtab_tl, gtab_removelast, gtab_map2.
    rewrite (gtab_S (S m)), (gtab_end m). f_equal. f_equal.
    { f_equal.
      + apply gtab_ext. intros k Hk. xg. rewrite xdiv_fin by lra. f_equal. unfold nodeLen. rewrite Hn.
        replace (Nat.eqb (S k) 0) with false by reflexivity.
        replace (Nat.eqb (S k) (S (S m) - 1)) with false by (symmetry; apply Nat.eqb_neq; lia).
        replace (S k - 1)%nat with k by lia. reflexivity.
      + unfold nodeLen. rewrite Hn. replace (Nat.eqb (S m) 0) with false by reflexivity.
        replace (S (S m) - 1)%nat with (S m) by lia. rewrite Nat.eqb_refl. replace (S (S m) - 2)%nat with m by lia. reflexivity. } }
  rewrite E. cbn [bind]. rewrite !gtab_last. cbn [bind]. f_equal. f_equal.
  - rewrite T1, T2, T3, T4, T5, T6. rewrite !gtab_reaches, !gtab_map2. f_equal.
    + apply gtab_ext. intros k Hk. unfold storeWidth. xg. rewrite xdiv_fin; [reflexivity|].
      unfold nodeLen. rewrite Hn. destruct (Nat.eqb k 0); [apply Rgt_not_eq, Hdx; lia|].
      destruct (Nat.eqb k (S (S m) - 1)) eqn:Ek; [apply Rgt_not_eq, Hdx; lia|]. apply Nat.eqb_neq in Ek.
      pose proof (Hdx (k - 1)%nat ltac:(lia)). pose proof (Hdx k ltac:(lia)). lra.
    + apply gtab_ext. intros k Hk. xg. pose proof (Hdx k Hk). rewrite xdiv_fin by lra. reflexivity.
    + apply gtab_ext. intros k Hk. xg. pose proof (Hdx k Hk). rewrite xdiv_fin by lra. reflexivity.
  - rewrite !gtab_map2, T4. f_equal.
    apply gtab_ext. intros k Hk. apply fricSlope_fin. apply Hst; auto.
Qed.

Section Residual.
  Variable s : scheme.
  Variable m : nat.
  Hypothesis Hn : vN s = S (S m).
  Hypothesis Hdx : forall k, (k < S m)%nat -> 0 < vdx s k.
  Variables (cl : bool) (tol : xr) (mi : nat).

  Lemma err_fin h V W W' Q x :
    let c := ctxOf s cl tol mi in
    preErr c (Fin Q) (Fin W')
      (reaches (preC1 c (Fin W') (Fin W)) (nodes s h V) (reachList s))
      (reaches (preC2 c) (nodes s h V) (reachList s))
      (nodes s (depths x) (velocities x)) (reachList s)
    = Ok (tab (2 * vN s) (equation s cl h V W W' Q x)).
  Proof.
    cbv zeta. unfold nodes, reachList. rewrite !tab_gtab, !gtab_nodes, !gtab_rc. rewrite Hn.
    replace (S (S m) - 1)%nat with (S m) by lia. rewrite !gtab_reaches.
    unfold preErr. rewrite gtab_first, gtab_last. cbn [bind].
    rewrite !gtab_combine, !gtab_reaches. rewrite gtab_concat2. cbn [fst snd].
    f_equal. replace (2 * S (S m))%nat with (S (S (2 * S m))) by lia.
    rewrite gtab_S, gtab_end. f_equal; [|f_equal].
    - cbn [ndA ndV]. xg. unfold equation. rewrite Nat.eqb_refl. unfold flux. f_equal. ring.
    - apply gtab_ext. intros i Hi. unfold equation. rewrite Hn.
      replace (Nat.eqb (S i) 0) with false by reflexivity.
      replace (Nat.eqb (S i) (2 * S (S m) - 1)) with false by (symmetry; apply Nat.eqb_neq; lia).
      rewrite Nat.odd_succ. destruct (Nat.even i) eqn:Ei.
      + apply Nat.even_spec in Ei as (k & ->). replace (S (2 * k) - 1)%nat with (2 * k)%nat by lia.
        replace (2 * k / 2)%nat with k by (rewrite Nat.mul_comm, Nat.div_mul; lia).
        pose proof (Hdx k ltac:(lia)).
        unfold preCont, preC1. cbn [ndh ndBe ndV ndA ndz rdx rSeep cdt ctxOf cTheta cP]. xg.
        rewrite !xdiv_fin by lra. xg. f_equal. unfold continuity, weigh, flux, head, seepLen. ring.
      + assert (Nat.odd i = true) by (rewrite <- Nat.negb_even, Ei; reflexivity).
        apply Nat.odd_spec in H as (k & ->). replace (S (2 * k + 1) - 2)%nat with (2 * k)%nat by lia.
        replace ((2 * k + 1) / 2)%nat with k by (rewrite Nat.add_comm, Nat.mul_comm, Nat.div_add; cbn; lia).
        replace (2 * k / 2)%nat with k by (rewrite Nat.mul_comm, Nat.div_mul; lia).
        pose proof (Hdx k ltac:(lia)).
        unfold preMom, preC2. cbn [ndh ndBe ndV ndA ndz ndSf rdx rSeep rS0 cdt ctxOf cTheta cP cg cBeta]. xg.
        rewrite !xdiv_fin by lra. xg. f_equal. unfold momentum, weigh, flux, convection, pressure, drive. ring.
    - f_equal. unfold equation, downstream. rewrite Hn.
      replace (Nat.eqb (S (2 * S m)) 0) with false by reflexivity.
      replace (Nat.eqb (S (2 * S m)) (2 * S (S m) - 1)) with true by (symmetry; apply Nat.eqb_eq; lia).
      replace (S (S m) - 1)%nat with (S m) by lia. cbn [cClosed ctxOf]. destruct cl; reflexivity.
  Qed.

  (** * Water balance *)
  Lemma sum_ext n f g : (forall k, (k < n)%nat -> f k = g k) -> sum n f = sum n g.
  Proof. induction n as [|n IH]; intros H; cbn [sum]; [auto|]. rewrite IH, H; auto. Qed.
  Lemma sum_plus n f g : sum n (fun k => f k + g k) = sum n f + sum n g.
  Proof. induction n as [|n IH]; cbn [sum]; [lra|]. rewrite IH. lra. Qed.
  Lemma sum_scal n a f : sum n (fun k => a * f k) = a * sum n f.
  Proof. induction n as [|n IH]; cbn [sum]; [lra|]. rewrite IH. lra. Qed.
  Lemma sum_telescope n f : sum n (fun k => f (S k) - f k) = f n - f 0%nat.
  Proof. induction n as [|n IH]; cbn [sum]; [lra|]. rewrite IH. lra. Qed.

  Lemma balance h V h' V' W W' :
    (forall k, (k < S m)%nat -> continuity s h V h' V' W W' k = 0) ->
    storage s h' - storage s h =
      vdt s * weigh s (flux s h' V' 0 - flux s h' V' (S m)) (flux s h V 0 - flux s h V (S m))
      - vdt s * weigh s (seepage s h' W') (seepage s h W).
  Proof.
    intros H. unfold storage, seepage, weigh. rewrite Hn. replace (S (S m) - 1)%nat with (S m) by lia.
    assert (E : forall k, (k < S m)%nat ->
      vdx s k * (h' k * storeWidth s k + h' (S k) * storeWidth s (S k)) / 2
      = vdx s k * (h k * storeWidth s k + h (S k) * storeWidth s (S k)) / 2
        + ((- vdt s * vth s) * (flux s h' V' (S k) - flux s h' V' k)
        + ((- vdt s * (1 - vth s)) * (flux s h V (S k) - flux s h V k)
        + ((- vdt s * vth s) * (vP s * ((vLL s k + vLL s (S k)) / 2) * ((head s h' W' k + head s h' W' (S k)) / 2))
        + (- vdt s * (1 - vth s)) * (vP s * ((vLL s k + vLL s (S k)) / 2) * ((head s h W k + head s h W (S k)) / 2)))))).
    { intros k Hk. specialize (H k Hk). specialize (Hdx k Hk). unfold continuity, weigh in H.
      apply (f_equal (fun t => t * (vdx s k / 2))) in H. rewrite Rmult_0_l in H.
      apply Rminus_diag_uniq. rewrite <- H. field. lra. }
    rewrite (sum_ext _ _ _ E). rewrite !sum_plus, !sum_scal.
    rewrite (sum_telescope (S m) (flux s h' V')), (sum_telescope (S m) (flux s h V)). ring.
  Qed.

  (** Offline area at interior nodes counts in full, at the two end nodes by half. *)
  Lemma storage_split h :
    storage s h =
      sum (S m) (fun k => vdx s k * (h k * vB s k + h (S k) * vB s (S k)) / 2)
      + (vLA s 0%nat * h 0%nat / 2 + sum m (fun k => vLA s (S k) * h (S k)) + vLA s (S m) * h (S m) / 2).
  Proof.
    unfold storage. rewrite Hn. replace (S (S m) - 1)%nat with (S m) by lia.
    set (q := fun k => vLA s k * h k).
    assert (E : forall k, (k < S m)%nat ->
      vdx s k * (h k * storeWidth s k + h (S k) * storeWidth s (S k)) / 2
      = vdx s k * (h k * vB s k + h (S k) * vB s (S k)) / 2
        + (vdx s k / (2 * nodeLen s k) * q k + vdx s k / (2 * nodeLen s (S k)) * q (S k))).
    { intros k Hk. unfold storeWidth, q.
      assert (P : forall j, (j < S (S m))%nat -> 0 < nodeLen s j).
      { intros j Hj. unfold nodeLen. rewrite Hn. destruct (Nat.eqb j 0); [apply Hdx; lia|].
        destruct (Nat.eqb j (S (S m) - 1)) eqn:Ej; [apply Hdx; lia|]. apply Nat.eqb_neq in Ej.
        pose proof (Hdx (j - 1)%nat ltac:(lia)). pose proof (Hdx j ltac:(lia)). lra. }
      pose proof (P k ltac:(lia)). pose proof (P (S k) ltac:(lia)). field. lra. }
    rewrite (sum_ext _ _ _ E), sum_plus. f_equal.
    assert (L0 : nodeLen s 0 = vdx s 0%nat) by reflexivity.
    assert (Lm : nodeLen s (S m) = vdx s m).
    { unfold nodeLen. rewrite Hn. replace (S (S m) - 1)%nat with (S m) by lia. rewrite Nat.eqb_refl.
      replace (S (S m) - 2)%nat with m by lia. reflexivity. }
    assert (G : forall j, (j <= m)%nat ->
      sum j (fun k => vdx s k / (2 * nodeLen s k) * q k + vdx s k / (2 * nodeLen s (S k)) * q (S k))
      = match j with O => 0 | S i => q 0%nat / 2 + sum i (fun k => q (S k)) + vdx s i / (2 * nodeLen s (S i)) * q (S i) end).
    { induction j as [|j IH]; intros Hj; [reflexivity|]. cbn [sum]. rewrite IH by lia.
      destruct j as [|j].
      - cbn [sum]. rewrite L0. pose proof (Hdx 0%nat ltac:(lia)).
        replace (vdx s 0%nat / (2 * vdx s 0%nat) * q 0%nat) with (q 0%nat / 2) by (field; lra). ring.
      - cbn [sum]. assert (L : nodeLen s (S j) = (vdx s j + vdx s (S j)) / 2).
        { unfold nodeLen. rewrite Hn. replace (Nat.eqb (S j) 0) with false by reflexivity.
          replace (Nat.eqb (S j) (S (S m) - 1)) with false by (symmetry; apply Nat.eqb_neq; lia).
          replace (S j - 1)%nat with j by lia. reflexivity. }
        rewrite L. pose proof (Hdx j ltac:(lia)). pose proof (Hdx (S j) ltac:(lia)).
        match goal with |- ?a + ?b + ?c * ?d + (?e * ?d + ?f) = _ => assert (Ec : c * d + e * d = d) by (field; lra); lra end. }
    destruct m as [|m']; cbn [sum].
    - rewrite L0, Lm. pose proof (Hdx 0%nat ltac:(lia)). unfold q. field. lra.
    - specialize (G (S m') (le_n _)). cbn [sum] in G. rewrite G.
      assert (L : nodeLen s (S m') = (vdx s m' + vdx s (S m')) / 2).
      { unfold nodeLen. rewrite Hn. replace (Nat.eqb (S m') 0) with false by reflexivity.
        replace (Nat.eqb (S m') (S (S (S m')) - 1)) with false by (symmetry; apply Nat.eqb_neq; lia).
        replace (S m' - 1)%nat with m' by lia. reflexivity. }
      rewrite L, Lm. pose proof (Hdx m' ltac:(lia)). pose proof (Hdx (S m') ltac:(lia)). unfold q. field. lra.
  Qed.
End Residual.
