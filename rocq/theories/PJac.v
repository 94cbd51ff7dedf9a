(** Proofs about the banded matrix of riv.py solveFullPreissmann. *)
From Coq Require Import Reals ZArith List Bool Lia Lra Floats.
From Verif Require Import Base Num Xr Flt MState MRiv SRiv SPre PPre PSv.
Import ListNotations.
Local Open Scope R_scope.

(** * Derivatives *)
Lemma dpl_ext f g x l : (forall t, f t = g t) -> derivable_pt_lim g x l -> derivable_pt_lim f x l.
Proof. intros H D eps He. destruct (D eps He) as (d & Hd). exists d. intros h Hh Hb. rewrite !H. auto. Qed.

Lemma dpl_eq f x l l' : l = l' -> derivable_pt_lim f x l -> derivable_pt_lim f x l'.
Proof. intros ->; auto. Qed.

Lemma dpl_const f x c : (forall t, f t = c) -> derivable_pt_lim f x 0.
Proof. intros H. apply (dpl_ext _ (fct_cte c)); [intros; rewrite H; reflexivity|]. apply derivable_pt_lim_const. Qed.

Lemma dpl_affine f x a c : (forall t, f t = a * t + c) -> derivable_pt_lim f x a.
Proof.
  intros H. apply (dpl_ext _ (fun t => a * t + c)); auto.
  apply (dpl_eq _ _ (a * 1 + 0)); [ring|]. apply (derivable_pt_lim_plus (fun t => a * t) (fun _ => c)).
  - apply derivable_pt_lim_scal. apply derivable_pt_lim_id.
  - apply derivable_pt_lim_const.
Qed.

Lemma Rpower_pos x y : 0 < Rpower x y.
Proof. unfold Rpower. apply exp_pos. Qed.

Lemma dpl_depth_term x : 0 < x -> derivable_pt_lim (fun t => t / Rpower t (4 / 3)) x (- (1 / 3) / Rpower x (4 / 3)).
Proof.
  intros Hx. pose proof (Rpower_pos x (4/3)) as Hp.
  assert (D : derivable_pt_lim (fun t => Rpower t (4/3)) x (4/3 * Rpower x (4/3 - 1))) by (apply derivable_pt_lim_power; auto).
  assert (D1 : derivable_pt_lim id x 1) by apply derivable_pt_lim_id.
  assert (Hnz : Rpower x (4/3) <> 0) by lra.
  pose proof (derivable_pt_lim_div id (fun t => Rpower t (4/3)) x 1 (4/3 * Rpower x (4/3 - 1)) D1 D Hnz) as DD.
  eapply dpl_eq; [|eapply dpl_ext; [|exact DD]]; [|reflexivity].
  unfold id, Rsqr. replace (Rpower x (4/3 - 1)) with (Rpower x (4/3) / x).
  - field. lra.
  - replace (4/3 - 1) with (4/3 + - (1)) by ring. rewrite Rpower_plus, Rpower_Ropp, Rpower_1 by auto. reflexivity.
Qed.

Lemma dpl_depth f x c0 c1 c2 c3 : 0 < x ->
  (forall t, f t = c0 + c1 * t + c2 * (t * t) + c3 * (t / Rpower t (4 / 3))) ->
  derivable_pt_lim f x (c1 + c2 * (2 * x) + c3 * (- (1 / 3) / Rpower x (4 / 3))).
Proof.
  intros Hx H. eapply dpl_ext; [exact H|].
  apply (derivable_pt_lim_plus (fun t => c0 + c1 * t + c2 * (t * t)) (fun t => c3 * (t / Rpower t (4/3)))).
  - apply (derivable_pt_lim_plus (fun t => c0 + c1 * t) (fun t => c2 * (t * t))).
    + apply (dpl_affine _ _ _ c0). intros; ring.
    + apply (derivable_pt_lim_scal (fun t => t * t)).
      apply (dpl_eq _ _ (1 * x + x * 1)); [ring|]. apply (derivable_pt_lim_mult id id); apply derivable_pt_lim_id.
  - apply (derivable_pt_lim_scal (fun t => t / Rpower t (4/3))). apply dpl_depth_term; auto.
Qed.

Lemma dpl_tabs x : x <> 0 -> derivable_pt_lim (fun t => t * Rabs t) x (2 * Rabs x).
Proof.
  intros Hx.
  destruct (Rlt_le_dec 0 x) as [Hp|Hm].
  - apply (dpl_eq _ _ (1 * Rabs x + x * 1)); [rewrite Rabs_pos_eq by lra; ring|].
    apply (derivable_pt_lim_mult id Rabs); [apply derivable_pt_lim_id|apply Rabs_derive_1; auto].
  - assert (Hneg : x < 0) by lra.
    apply (dpl_eq _ _ (1 * Rabs x + x * (-1))); [rewrite Rabs_left by lra; ring|].
    apply (derivable_pt_lim_mult id Rabs); [apply derivable_pt_lim_id|apply Rabs_derive_2; auto].
Qed.

Lemma dpl_vel f x c0 c1 c2 : x <> 0 ->
  (forall t, f t = c0 + c1 * t + c2 * (t * Rabs t)) ->
  derivable_pt_lim f x (c1 + c2 * (2 * Rabs x)).
Proof.
  intros Hx H. eapply dpl_ext; [exact H|].
  apply (derivable_pt_lim_plus (fun t => c0 + c1 * t) (fun t => c2 * (t * Rabs t))).
  - apply (dpl_affine _ _ _ c0). intros; ring.
  - apply (derivable_pt_lim_scal (fun t => t * Rabs t)). apply dpl_tabs; auto.
Qed.

(** * Residuals of one reach as functions of its four unknowns *)
Section Jac.
  Variable s : scheme.
  Variable m : nat.
  Hypothesis Hn : vN s = S (S m).
  Hypothesis Hdx : forall k, (k < S m)%nat -> 0 < vdx s k.
  Variables (h V : nat -> R) (W W' Q : R).

  Definition fr (a b : R) : R := b * Rabs b * (vn s * vn s) / Rpower a (4 / 3).
  Definition cont4 (k : nat) (a b c d : R) : R :=
    (c * storeWidth s (S k) + a * storeWidth s k)
    - (h (S k) * storeWidth s (S k) + h k * storeWidth s k)
    + 2 * (vdt s / vdx s k) * weigh s (d * (c * vB s (S k)) - b * (a * vB s k)) (flux s h V (S k) - flux s h V k)
    + (vLL s k + vLL s (S k)) / (2 * vdx s k) * vdt s * vP s
      * weigh s ((vz s (S k) + c - W') + (vz s k + a - W')) (head s h W (S k) + head s h W k).
  Definition mom4 (k : nat) (a b c d : R) : R :=
    (b * (a * vB s k) + d * (c * vB s (S k))) - (flux s h V k + flux s h V (S k))
    + 2 * vbeta s * (vdt s / vdx s k)
      * weigh s (d * Rabs d * (c * vB s (S k)) - b * Rabs b * (a * vB s k)) (convection s h V k)
    + vg s * (vdt s / vdx s k) * weigh s ((c * vB s (S k) + a * vB s k) * (c - a)) (pressure s h k)
    - vg s * vdt s * weigh s (c * vB s (S k) * (bedSlope s k - fr c d) + a * vB s k * (bedSlope s k - fr a b)) (drive s h V k).

  Definition dc1 k (a b c d : R) := storeWidth s k - 2 * (vdt s / vdx s k) * vth s * b * vB s k + seepLen s k * (vdt s * vP s * vth s).
  Definition dc2 k (a b c d : R) := - (2) * (vdt s / vdx s k) * vth s * (a * vB s k).
  Definition dc3 k (a b c d : R) := storeWidth s (S k) + 2 * (vdt s / vdx s k) * vth s * d * vB s (S k) + seepLen s k * (vdt s * vP s * vth s).
  Definition dc4 k (a b c d : R) := 2 * (vdt s / vdx s k) * vth s * (c * vB s (S k)).
  Definition dm1 k (a b c d : R) :=
    b * vB s k - 2 * vbeta s * (vdt s / vdx s k) * vth s * Rabs b * b * vB s k
    + vg s * vth s * (vdt s / vdx s k) * (- (2) * (a * vB s k) + vB s k * c - c * vB s (S k))
    - vg s * vdt s * vth s * vB s k * (bedSlope s k + 1 / 3 * fr a b).
  (** With the sign of the convective term right for both flow directions. *)
  Definition dm2 k (a b c d : R) :=
    a * vB s k - 4 * vbeta s * (vdt s / vdx s k) * vth s * Rabs b * (a * vB s k)
    + 2 * (vg s * vdt s * vth s) * (a * vB s k) * fr a b / b.
  Definition dm3 k (a b c d : R) :=
    d * vB s (S k) + 2 * vbeta s * (vdt s / vdx s k) * vth s * Rabs d * d * vB s (S k)
    + vg s * vth s * (vdt s / vdx s k) * (2 * (c * vB s (S k)) - vB s (S k) * a + a * vB s k)
    - vg s * vdt s * vth s * vB s (S k) * (bedSlope s k + 1 / 3 * fr c d).
  Definition dm4 k (a b c d : R) :=
    c * vB s (S k) + 4 * vbeta s * (vdt s / vdx s k) * vth s * Rabs d * (c * vB s (S k))
    + 2 * (vg s * vdt s * vth s) * (c * vB s (S k)) * fr c d / d.

  Lemma D_c1 k a b c d : (k < S m)%nat -> derivable_pt_lim (fun t => cont4 k t b c d) a (dc1 k a b c d).
  Proof.
    intros Hk. specialize (Hdx k Hk). eapply dpl_affine with (c := cont4 k 0 b c d). intros t. unfold dc1, cont4, weigh, seepLen. ring.
  Qed.
  Lemma D_c2 k a b c d : (k < S m)%nat -> derivable_pt_lim (fun t => cont4 k a t c d) b (dc2 k a b c d).
  Proof.
    intros Hk. specialize (Hdx k Hk). eapply dpl_affine with (c := cont4 k a 0 c d). intros t. unfold dc2, cont4, weigh. ring.
  Qed.
  Lemma D_c3 k a b c d : (k < S m)%nat -> derivable_pt_lim (fun t => cont4 k a b t d) c (dc3 k a b c d).
  Proof.
    intros Hk. specialize (Hdx k Hk). eapply dpl_affine with (c := cont4 k a b 0 d). intros t. unfold dc3, cont4, weigh, seepLen. ring.
  Qed.
  Lemma D_c4 k a b c d : (k < S m)%nat -> derivable_pt_lim (fun t => cont4 k a b c t) d (dc4 k a b c d).
  Proof.
    intros Hk. specialize (Hdx k Hk). eapply dpl_affine with (c := cont4 k a b c 0). intros t. unfold dc4, cont4, weigh. ring.
  Qed.

  Lemma D_m1 k a b c d : (k < S m)%nat -> 0 < a -> derivable_pt_lim (fun t => mom4 k t b c d) a (dm1 k a b c d).
  Proof.
    intros Hk Ha. specialize (Hdx k Hk).
    eapply dpl_eq; [|eapply dpl_depth with
      (c0 := d * (c * vB s (S k)) - (flux s h V k + flux s h V (S k))
             + 2 * vbeta s * (vdt s / vdx s k) * weigh s (d * Rabs d * (c * vB s (S k))) (convection s h V k)
             + vg s * (vdt s / vdx s k) * weigh s (c * vB s (S k) * c) (pressure s h k)
             - vg s * vdt s * weigh s (c * vB s (S k) * (bedSlope s k - fr c d)) (drive s h V k))
      (c1 := b * vB s k - 2 * vbeta s * (vdt s / vdx s k) * vth s * (b * Rabs b * vB s k)
             + vg s * (vdt s / vdx s k) * vth s * (vB s k * c - c * vB s (S k)) - vg s * vdt s * vth s * (vB s k * bedSlope s k))
      (c2 := - vg s * (vdt s / vdx s k) * vth s * vB s k)
      (c3 := vg s * vdt s * vth s * vB s k * (b * Rabs b * (vn s * vn s)))].
    - pose proof (Rpower_pos a (4/3)). unfold dm1, fr. field. lra.
    - exact Ha.
    - intros t. pose proof (Rpower_pos t (4/3)). unfold mom4, weigh, fr. field.
      repeat split; try lra. apply Rgt_not_eq, Rpower_pos.
  Qed.
  Lemma D_m3 k a b c d : (k < S m)%nat -> 0 < c -> derivable_pt_lim (fun t => mom4 k a b t d) c (dm3 k a b c d).
  Proof.
    intros Hk Ha. specialize (Hdx k Hk).
    eapply dpl_eq; [|eapply dpl_depth with
      (c0 := b * (a * vB s k) - (flux s h V k + flux s h V (S k))
             + 2 * vbeta s * (vdt s / vdx s k) * weigh s (- (b * Rabs b * (a * vB s k))) (convection s h V k)
             + vg s * (vdt s / vdx s k) * weigh s (- (a * vB s k * a)) (pressure s h k)
             - vg s * vdt s * weigh s (a * vB s k * (bedSlope s k - fr a b)) (drive s h V k))
      (c1 := d * vB s (S k) + 2 * vbeta s * (vdt s / vdx s k) * vth s * (d * Rabs d * vB s (S k))
             + vg s * (vdt s / vdx s k) * vth s * (a * vB s k - vB s (S k) * a) - vg s * vdt s * vth s * (vB s (S k) * bedSlope s k))
      (c2 := vg s * (vdt s / vdx s k) * vth s * vB s (S k))
      (c3 := vg s * vdt s * vth s * vB s (S k) * (d * Rabs d * (vn s * vn s)))].
    - pose proof (Rpower_pos c (4/3)). unfold dm3, fr. field. lra.
    - exact Ha.
    - intros t. unfold mom4, weigh, fr. field.
      repeat split; try lra; apply Rgt_not_eq, Rpower_pos.
  Qed.
  Lemma D_m2 k a b c d : (k < S m)%nat -> b <> 0 -> derivable_pt_lim (fun t => mom4 k a t c d) b (dm2 k a b c d).
  Proof.
    intros Hk Hb. specialize (Hdx k Hk).
    eapply dpl_eq; [|eapply dpl_vel with
      (c0 := mom4 k a 0 c d) (c1 := a * vB s k)
      (c2 := - (2) * vbeta s * (vdt s / vdx s k) * vth s * (a * vB s k)
             + vg s * vdt s * vth s * (a * vB s k) * ((vn s * vn s) / Rpower a (4 / 3)))].
    - unfold dm2, fr. pose proof (Rpower_pos a (4/3)). field. lra.
    - exact Hb.
    - intros t. unfold mom4, weigh, fr. field. repeat split; try lra; apply Rgt_not_eq, Rpower_pos.
  Qed.
  Lemma D_m4 k a b c d : (k < S m)%nat -> d <> 0 -> derivable_pt_lim (fun t => mom4 k a b c t) d (dm4 k a b c d).
  Proof.
    intros Hk Hb. specialize (Hdx k Hk).
    eapply dpl_eq; [|eapply dpl_vel with
      (c0 := mom4 k a b c 0) (c1 := c * vB s (S k))
      (c2 := 2 * vbeta s * (vdt s / vdx s k) * vth s * (c * vB s (S k))
             + vg s * vdt s * vth s * (c * vB s (S k)) * ((vn s * vn s) / Rpower c (4 / 3)))].
    - unfold dm4, fr. pose proof (Rpower_pos c (4/3)). field. lra.
    - exact Hb.
    - intros t. unfold mom4, weigh, fr. field. repeat split; try lra; apply Rgt_not_eq, Rpower_pos.
  Qed.
End Jac.

(** * The stored matrix *)
Section Band.
  Variable s : scheme.
  Variable m : nat.
  Hypothesis Hn : vN s = S (S m).
  Hypothesis Hdx : forall k, (k < S m)%nat -> 0 < vdx s k.
  Variables (cl : bool) (tol : xr) (mi : nat).

  (** The momentum derivatives with respect to velocity as stored: V, not |V|. *)
  Definition cm2 k (a b c d : R) :=
    a * vB s k - 4 * vbeta s * (vdt s / vdx s k) * vth s * b * (a * vB s k)
    + 2 * (vg s * vdt s * vth s) * (a * vB s k) * fr s a b / b.
  Definition cm4 k (a b c d : R) :=
    c * vB s (S k) + 4 * vbeta s * (vdt s / vdx s k) * vth s * d * (c * vB s (S k))
    + 2 * (vg s * vdt s * vth s) * (c * vB s (S k)) * fr s c d / d.

  Definition at4 (f : nat -> R -> R -> R -> R -> R) (x : nat -> R) (k : nat) : R :=
    f k (x (2 * k)%nat) (x (2 * k + 1)%nat) (x (2 * k + 2)%nat) (x (2 * k + 3)%nat).

  Definition alt (f g : nat -> R) (i : nat) : R := if Nat.even i then f (i / 2)%nat else g (i / 2)%nat.
  Definition row0 x (j : nat) : R := match j with 0%nat | 1%nat => 0 | S (S i) => alt (fun _ => 0) (at4 (dc4 s) x) i end.
  Definition row1 x (j : nat) : R :=
    match j with 0%nat => 0 | 1%nat => x 0%nat * vB s 0%nat | S (S i) => alt (at4 (dc3 s) x) (at4 cm4 x) i end.
  Definition row2 x (j : nat) : R :=
    match j with
    | 0%nat => x 1%nat * vB s 0%nat
    | S i => if Nat.eqb i (2 * S m) then (if cl then x (2 * S m)%nat else 0) else alt (at4 (dc2 s) x) (at4 (dm3 s) x) i
    end.
  Definition row3 x (j : nat) : R :=
    if Nat.eqb j (2 * S m) then (if cl then x (2 * S m + 1)%nat else 1)
    else if Nat.eqb j (S (2 * S m)) then 0 else alt (at4 (dc1 s) x) (at4 cm2 x) j.
  Definition row4 x (j : nat) : R :=
    if Nat.leb (2 * S m) j then 0 else alt (at4 (dm1 s) x) (fun _ => 0) j.
  Definition bandR (x : nat -> R) : list (list R) :=
    let n2 := (2 * S (S m))%nat in
    [gtab n2 (row0 x); gtab n2 (row1 x); gtab n2 (row2 x); gtab n2 (row3 x); gtab n2 (row4 x)].

  Lemma fin_alt f g i : (if Nat.even i then Fin (f (i / 2)%nat) else Fin (g (i / 2)%nat)) = Fin (alt f g i).
  Proof. unfold alt. destruct (Nat.even i); reflexivity. Qed.

  Lemma fr_manning x k : fr s (depths x k) (velocities x k) = manning s (depths x) (velocities x) k.
  Proof. reflexivity. Qed.

  Lemma band_fin x :
    (forall k, (k < S (S m))%nat -> velocities x k <> 0) ->
    preBand (ctxOf s cl tol mi) (nodes s (depths x) (velocities x)) (reachList s) = Ok (map (map Fin) (bandR x)).
  Proof.
    intros HV. unfold nodes, reachList. rewrite !tab_gtab, !gtab_nodes, !gtab_rc. rewrite Hn.
    replace (S (S m) - 1)%nat with (S m) by lia.
    unfold preBand. rewrite gtab_first, gtab_last. cbn [bind]. rewrite !gtab_reaches, !gtab_map.
    rewrite !gtab_inter. f_equal. unfold bandR. cbn [map]. rewrite !gtab_map.
    assert (N2 : forall k, (2 * S k)%nat = (2 * k + 2)%nat) by (intros; lia).
    assert (N3 : forall k, (2 * S k + 1)%nat = (2 * k + 3)%nat) by (intros; lia).
    replace (2 * S (S m))%nat with (S (S (2 * S m))) by lia.
    assert (Hc : forall k, (k < S m)%nat ->
      contD (ctxOf s cl tol mi)
        (mkNode (Fin (vz s k)) (Fin (vB s k)) (Fin (storeWidth s k)) (Fin (depths x k)) (Fin (velocities x k)) (Fin (flowArea s (depths x) k)) (Fin (manning s (depths x) (velocities x) k)))
        (mkNode (Fin (vz s (S k))) (Fin (vB s (S k))) (Fin (storeWidth s (S k))) (Fin (depths x (S k))) (Fin (velocities x (S k))) (Fin (flowArea s (depths x) (S k))) (Fin (manning s (depths x) (velocities x) (S k))))
        (mkReach (Fin (vdx s k)) (Fin (seepLen s k)) (Fin (bedSlope s k)))
      = (Fin (at4 (dc1 s) x k), Fin (at4 (dc2 s) x k), Fin (at4 (dc3 s) x k), Fin (at4 (dc4 s) x k))).
    { intros k Hk. specialize (Hdx k Hk). unfold contD. cbn [ndh ndB ndBe ndV ndA ndz ndSf rdx rSeep rS0 cdt ctxOf cTheta cP cg cBeta]. xg.
      rewrite !xdiv_fin by lra. xg. unfold at4, dc1, dc2, dc3, dc4, flowArea, depths, velocities. rewrite N3, N2. reflexivity. }
    assert (Hm : forall k, (k < S m)%nat ->
      momD (ctxOf s cl tol mi)
        (mkNode (Fin (vz s k)) (Fin (vB s k)) (Fin (storeWidth s k)) (Fin (depths x k)) (Fin (velocities x k)) (Fin (flowArea s (depths x) k)) (Fin (manning s (depths x) (velocities x) k)))
        (mkNode (Fin (vz s (S k))) (Fin (vB s (S k))) (Fin (storeWidth s (S k))) (Fin (depths x (S k))) (Fin (velocities x (S k))) (Fin (flowArea s (depths x) (S k))) (Fin (manning s (depths x) (velocities x) (S k))))
        (mkReach (Fin (vdx s k)) (Fin (seepLen s k)) (Fin (bedSlope s k)))
      = (Fin (at4 (dm1 s) x k), Fin (at4 cm2 x k), Fin (at4 (dm3 s) x k), Fin (at4 cm4 x k))).
    { intros k Hk. specialize (Hdx k Hk). unfold momD. cbn [ndh ndB ndBe ndV ndA ndz ndSf rdx rSeep rS0 cdt ctxOf cTheta cP cg cBeta]. xg.
      pose proof (HV k ltac:(lia)). pose proof (HV (S k) ltac:(lia)).
      rewrite !xdiv_fin by lra. xg. rewrite <- !fr_manning. rewrite ?xdiv_fin by auto. xg. unfold at4, dm1, cm2, dm3, cm4, flowArea.
      unfold depths, velocities. rewrite N3, N2. reflexivity. }
    assert (D0 : Nat.div 0 2 = 0%nat) by reflexivity.
    assert (Hd : forall i, (i < 2 * S m)%nat -> (i / 2 < S m)%nat) by (intros; apply Nat.div_lt_upper_bound; lia).
    repeat match goal with |- ?a :: ?b = ?c :: ?d => f_equal end.
    - rewrite !gtab_S. cbn [app]. f_equal. f_equal. apply gtab_ext. intros i Hi. unfold row0. rewrite <- fin_alt.
      destruct (Nat.even i); [reflexivity|]. rewrite Hc by auto. reflexivity.
    - rewrite (gtab_S (S _)), (gtab_S (2 * S m) (fun k => Fin (row1 x (S k)))). cbn [app ndA]. f_equal. f_equal. apply gtab_ext. intros i Hi. unfold row1. rewrite <- fin_alt.
      rewrite Hc, Hm by auto. reflexivity.
    - rewrite (gtab_S (S _)), (gtab_end (2 * S m)). cbn [app ndV ndB cClosed ctxOf ndh]. f_equal. f_equal.
      + apply gtab_ext. intros i Hi. unfold row2. replace (Nat.eqb i (2 * S m)) with false by (symmetry; apply Nat.eqb_neq; lia).
        rewrite <- fin_alt. rewrite Hc, Hm by auto. reflexivity.
      + unfold row2. rewrite Nat.eqb_refl. destruct cl; reflexivity.
    - rewrite (gtab_end (S _)), (gtab_end (2 * S m)). rewrite <- app_assoc. cbn [app ndV ndB cClosed ctxOf ndh]. f_equal.
      + apply gtab_ext. intros i Hi. unfold row3. replace (Nat.eqb i (2 * S m)) with false by (symmetry; apply Nat.eqb_neq; lia).
        replace (Nat.eqb i (S (2 * S m))) with false by (symmetry; apply Nat.eqb_neq; lia).
        rewrite <- fin_alt. rewrite Hc, Hm by auto. reflexivity.
      + unfold row3. rewrite !Nat.eqb_refl. replace (Nat.eqb (S (2 * S m)) (2 * S m)) with false by (symmetry; apply Nat.eqb_neq; lia).
        destruct cl; reflexivity.
    - rewrite (gtab_end (S _)), (gtab_end (2 * S m)). rewrite <- app_assoc. cbn [app]. f_equal.
      + apply gtab_ext. intros i Hi. unfold row4. replace (Nat.leb (2 * S m) i) with false by (symmetry; apply Nat.leb_gt; lia).
        rewrite <- fin_alt. rewrite Hm by auto. destruct (Nat.even i); reflexivity.
      + unfold row4. rewrite !(proj2 (Nat.leb_le _ _)) by lia. reflexivity.
  Qed.
End Band.

(** * Entries are partial derivatives *)
Lemma set_same x j t : set x j t j = t.
Proof. unfold set. rewrite Nat.eqb_refl. reflexivity. Qed.
Lemma set_other x j t i : i <> j -> set x j t i = x i.
Proof. intros H. unfold set. apply Nat.eqb_neq in H. rewrite H. reflexivity. Qed.

Lemma banded_on ab i j : (i <= j + 2)%nat -> (j <= i + 2)%nat -> banded ab i j = nth j (nth (2 + i - j) ab []) 0.
Proof. intros H1 H2. unfold banded. rewrite !(proj2 (Nat.leb_le _ _)) by auto. reflexivity. Qed.
Lemma banded_off ab i j : (j + 2 < i \/ i + 2 < j)%nat -> banded ab i j = 0.
Proof.
  intros H. unfold banded. destruct (Nat.leb i (j + 2)) eqn:E1; [|reflexivity]. destruct (Nat.leb j (i + 2)) eqn:E2; [|reflexivity].
  apply Nat.leb_le in E1, E2. lia.
Qed.

Lemma alt_even f g k : alt f g (2 * k) = f k.
Proof. unfold alt. rewrite Nat.even_mul. cbn [Nat.even orb]. rewrite Nat.mul_comm, Nat.div_mul by lia. reflexivity. Qed.
Lemma alt_odd f g k : alt f g (2 * k + 1) = g k.
Proof.
  unfold alt. rewrite Nat.even_add, Nat.even_mul. cbn [Nat.even orb Bool.eqb].
  replace ((2 * k + 1) / 2)%nat with k by (rewrite Nat.add_comm, Nat.mul_comm, Nat.div_add; cbn; lia). reflexivity.
Qed.

Section Deriv.
  Variable s : scheme.
  Variable m : nat.
  Hypothesis Hn : vN s = S (S m).
  Hypothesis Hdx : forall k, (k < S m)%nat -> 0 < vdx s k.
  Variable cl : bool.
  Variables (h V : nat -> R) (W W' Q : R) (x : nat -> R).
  Hypothesis Hh : forall k, (k < S (S m))%nat -> 0 < depths x k.
  Hypothesis HV : forall k, (k < S (S m))%nat -> velocities x k <> 0.

  Notation n2 := (2 * S (S m))%nat.
  Notation ab := (bandR s m cl x).

  Lemma row_at r j f : (j < n2)%nat ->
    nth r [row0 s x; row1 s x; row2 s m cl x; row3 s m cl x; row4 s m x] (fun _ => 0) = f -> (r < 5)%nat ->
    nth j (nth r ab []) 0 = f j.
  Proof.
    intros Hj <- Hr. unfold bandR. destruct r as [|[|[|[|[|r]]]]]; cbn [nth]; try (rewrite gtab_nth_d; auto; fail). lia.
  Qed.

  Lemma eq_first y : equation s cl h V W W' Q y 0 = y 1%nat * (y 0%nat * vB s 0%nat) - Q.
  Proof. reflexivity. Qed.
  Lemma eq_last y : equation s cl h V W W' Q y (2 * S m + 1) =
    if cl then y (2 * S m)%nat * y (2 * S m + 1)%nat else vz s (S m) + y (2 * S m)%nat - W'.
  Proof.
    unfold equation. rewrite Hn. replace (Nat.eqb (2 * S m + 1) 0) with false by (symmetry; apply Nat.eqb_neq; lia).
    replace (Nat.eqb (2 * S m + 1) (2 * S (S m) - 1)) with true by (symmetry; apply Nat.eqb_eq; lia).
    unfold downstream. rewrite Hn. replace (S (S m) - 1)%nat with (S m) by lia. reflexivity.
  Qed.
  Lemma eq_cont y k : (k < S m)%nat -> equation s cl h V W W' Q y (2 * k + 1) = at4 (cont4 s h V W W') y k.
  Proof.
    intros Hk. unfold equation. rewrite Hn. replace (Nat.eqb (2 * k + 1) 0) with false by (symmetry; apply Nat.eqb_neq; lia).
    replace (Nat.eqb (2 * k + 1) (2 * S (S m) - 1)) with false by (symmetry; apply Nat.eqb_neq; lia).
    replace (Nat.odd (2 * k + 1)) with true by (symmetry; apply Nat.odd_spec; exists k; lia).
    replace ((2 * k + 1 - 1) / 2)%nat with k by (rewrite Nat.add_sub, Nat.mul_comm, Nat.div_mul; lia).
    unfold at4. replace (2 * k + 2)%nat with (2 * S k)%nat by lia. replace (2 * k + 3)%nat with (2 * S k + 1)%nat by lia. reflexivity.
  Qed.
  Lemma eq_mom y k : (k < S m)%nat -> equation s cl h V W W' Q y (2 * k + 2) = at4 (mom4 s h V) y k.
  Proof.
    intros Hk. unfold equation. rewrite Hn. replace (Nat.eqb (2 * k + 2) 0) with false by (symmetry; apply Nat.eqb_neq; lia).
    replace (Nat.eqb (2 * k + 2) (2 * S (S m) - 1)) with false by (symmetry; apply Nat.eqb_neq; lia).
    replace (Nat.odd (2 * k + 2)) with false by (rewrite <- Nat.negb_even; replace (2 * k + 2)%nat with (2 * (k + 1))%nat by lia; rewrite Nat.even_mul; reflexivity).
    replace ((2 * k + 2 - 2) / 2)%nat with k by (rewrite Nat.add_sub, Nat.mul_comm, Nat.div_mul; lia).
    unfold at4. replace (2 * k + 2)%nat with (2 * S k)%nat by lia. replace (2 * k + 3)%nat with (2 * S k + 1)%nat by lia. reflexivity.
  Qed.

  (** The four unknowns of a reach. *)
  Lemma at4_cases (f : nat -> R -> R -> R -> R -> R) j k l1 l2 l3 l4 d :
    derivable_pt_lim (fun t => f k t (x (2 * k + 1)%nat) (x (2 * k + 2)%nat) (x (2 * k + 3)%nat)) (x (2 * k)%nat) l1 ->
    derivable_pt_lim (fun t => f k (x (2 * k)%nat) t (x (2 * k + 2)%nat) (x (2 * k + 3)%nat)) (x (2 * k + 1)%nat) l2 ->
    derivable_pt_lim (fun t => f k (x (2 * k)%nat) (x (2 * k + 1)%nat) t (x (2 * k + 3)%nat)) (x (2 * k + 2)%nat) l3 ->
    derivable_pt_lim (fun t => f k (x (2 * k)%nat) (x (2 * k + 1)%nat) (x (2 * k + 2)%nat) t) (x (2 * k + 3)%nat) l4 ->
    (j = (2 * k)%nat -> d = l1) -> (j = (2 * k + 1)%nat -> d = l2) -> (j = (2 * k + 2)%nat -> d = l3) ->
    (j = (2 * k + 3)%nat -> d = l4) ->
    ((j < 2 * k \/ 2 * k + 3 < j)%nat -> d = 0) ->
    derivable_pt_lim (fun t => at4 f (set x j t) k) (x j) d.
  Proof.
    intros D1 D2 D3 D4 E1 E2 E3 E4 E5. unfold at4.
    destruct (Nat.eq_dec j (2 * k)) as [->|N1].
    { rewrite E1 by auto. eapply dpl_ext; [|exact D1]. intros t. cbv beta. rewrite set_same, !set_other by lia. reflexivity. }
    destruct (Nat.eq_dec j (2 * k + 1)) as [->|N2].
    { rewrite E2 by auto. eapply dpl_ext; [|exact D2]. intros t. cbv beta. rewrite set_same, !set_other by lia. reflexivity. }
    destruct (Nat.eq_dec j (2 * k + 2)) as [->|N3].
    { rewrite E3 by auto. eapply dpl_ext; [|exact D3]. intros t. cbv beta. rewrite set_same, !set_other by lia. reflexivity. }
    destruct (Nat.eq_dec j (2 * k + 3)) as [->|N4].
    { rewrite E4 by auto. eapply dpl_ext; [|exact D4]. intros t. cbv beta. rewrite set_same, !set_other by lia. reflexivity. }
    rewrite E5 by lia. eapply dpl_const. intros t. rewrite !set_other by lia. reflexivity.
  Qed.

  Ltac ent r k := (* entry of the band: row r, column written in the goal *)
    rewrite banded_on by lia;
    match goal with |- nth ?j (nth ?e ab []) 0 = _ => replace e with r by lia end;
    erewrite row_at; [|lia|reflexivity|lia]; cbn [nth].

  Lemma ent_c1 k : (k < S m)%nat -> banded ab (2 * k + 1) (2 * k) = at4 (dc1 s) x k.
  Proof.
    intros Hk. ent 3%nat k. unfold row3.
    replace (Nat.eqb (2 * k) (2 * S m)) with false by (symmetry; apply Nat.eqb_neq; lia).
    replace (Nat.eqb (2 * k) (S (2 * S m))) with false by (symmetry; apply Nat.eqb_neq; lia). apply alt_even.
  Qed.
  Lemma ent_c2 k : (k < S m)%nat -> banded ab (2 * k + 1) (2 * k + 1) = at4 (dc2 s) x k.
  Proof.
    intros Hk. ent 2%nat k. unfold row2. replace (2 * k + 1)%nat with (S (2 * k)) by lia.
    replace (Nat.eqb (2 * k) (2 * S m)) with false by (symmetry; apply Nat.eqb_neq; lia). apply alt_even.
  Qed.
  Lemma ent_c3 k : (k < S m)%nat -> banded ab (2 * k + 1) (2 * k + 2) = at4 (dc3 s) x k.
  Proof. intros Hk. ent 1%nat k. unfold row1. replace (2 * k + 2)%nat with (S (S (2 * k))) by lia. apply alt_even. Qed.
  Lemma ent_c4 k : (k < S m)%nat -> banded ab (2 * k + 1) (2 * k + 3) = at4 (dc4 s) x k.
  Proof. intros Hk. ent 0%nat k. unfold row0. replace (2 * k + 3)%nat with (S (S (2 * k + 1))) by lia. apply alt_odd. Qed.
  Lemma ent_m1 k : (k < S m)%nat -> banded ab (2 * k + 2) (2 * k) = at4 (dm1 s) x k.
  Proof.
    intros Hk. ent 4%nat k. unfold row4. replace (Nat.leb (2 * S m) (2 * k)) with false by (symmetry; apply Nat.leb_gt; lia).
    apply alt_even.
  Qed.
  Lemma ent_m2 k : (k < S m)%nat -> banded ab (2 * k + 2) (2 * k + 1) = at4 (cm2 s) x k.
  Proof.
    intros Hk. ent 3%nat k. unfold row3.
    replace (Nat.eqb (2 * k + 1) (2 * S m)) with false by (symmetry; apply Nat.eqb_neq; lia).
    replace (Nat.eqb (2 * k + 1) (S (2 * S m))) with false by (symmetry; apply Nat.eqb_neq; lia). apply alt_odd.
  Qed.
  Lemma ent_m3 k : (k < S m)%nat -> banded ab (2 * k + 2) (2 * k + 2) = at4 (dm3 s) x k.
  Proof.
    intros Hk. ent 2%nat k. unfold row2. replace (2 * k + 2)%nat with (S (2 * k + 1)) by lia.
    replace (Nat.eqb (2 * k + 1) (2 * S m)) with false by (symmetry; apply Nat.eqb_neq; lia). apply alt_odd.
  Qed.
  Lemma ent_m4 k : (k < S m)%nat -> banded ab (2 * k + 2) (2 * k + 3) = at4 (cm4 s) x k.
  Proof. intros Hk. ent 1%nat k. unfold row1. replace (2 * k + 3)%nat with (S (S (2 * k + 1))) by lia. apply alt_odd. Qed.
  Lemma ent_z4 j : (j < n2)%nat -> Nat.odd j = true -> nth j (nth 4 ab []) 0 = 0.
  Proof.
    intros Hj Ho. erewrite row_at; [|lia|reflexivity|lia]. cbn [nth]. unfold row4. destruct (Nat.leb _ j); [reflexivity|].
    apply Nat.odd_spec in Ho as (k & ->). apply alt_odd.
  Qed.
  Lemma ent_z0 j : (j < n2)%nat -> Nat.even j = true -> nth j (nth 0 ab []) 0 = 0.
  Proof.
    intros Hj He. erewrite row_at; [|lia|reflexivity|lia]. cbn [nth]. unfold row0. destruct j as [|[|j]]; auto.
    apply Nat.even_spec in He as (k & He). replace j with (2 * (k - 1))%nat by lia. apply alt_even.
  Qed.

  Hypothesis Hpos : forall k, (k < S (S m))%nat -> 0 < velocities x k.

  Lemma jac_entry i j : (i < n2)%nat -> (j < n2)%nat ->
    derivable_pt_lim (fun t => equation s cl h V W W' Q (set x j t) i) (x j) (banded ab i j).
  Proof.
    intros Hi Hj.
    assert (Ci : i = 0%nat \/ i = (2 * S m + 1)%nat \/ (exists k, (k < S m)%nat /\ i = (2 * k + 1)%nat) \/ (exists k, (k < S m)%nat /\ i = (2 * k + 2)%nat)).
    { destruct (Nat.Even_or_Odd i) as [[k Ek]|[k Ek]].
      - destruct k as [|k]; [left; lia|]. right; right; right. exists k. lia.
      - destruct (Nat.eq_dec k (S m)); [right; left; lia|]. right; right; left. exists k. lia. }
    destruct Ci as [->|[->|[(k & Hk & ->)|(k & Hk & ->)]]].
    - (* inflow *)
      destruct (Nat.eq_dec j 0) as [->|J0].
      { rewrite banded_on by lia. change (2 + 0 - 0)%nat with 2%nat. erewrite row_at; [|lia|reflexivity|lia]. cbn [nth row2].
        eapply dpl_affine with (c := - Q). intros t. rewrite eq_first, set_same, set_other by lia. ring. }
      destruct (Nat.eq_dec j 1) as [->|J1].
      { rewrite banded_on by lia. change (2 + 0 - 1)%nat with 1%nat. erewrite row_at; [|lia|reflexivity|lia]. cbn [nth row1].
        eapply dpl_affine with (c := - Q). intros t. rewrite eq_first, set_same, set_other by lia. ring. }
      replace (banded ab 0 j) with 0.
      + eapply dpl_const. intros t. rewrite eq_first, !set_other by lia. reflexivity.
      + symmetry. destruct (Nat.eq_dec j 2) as [->|J2]; [|apply banded_off; lia].
        rewrite banded_on by lia. change (2 + 0 - 2)%nat with 0%nat. apply ent_z0; [lia|reflexivity].
    - (* downstream *)
      destruct (Nat.eq_dec j (2 * S m)) as [->|J0].
      { rewrite banded_on by lia. replace (2 + (2 * S m + 1) - 2 * S m)%nat with 3%nat by lia.
        erewrite row_at; [|lia|reflexivity|lia]. cbn [nth]. unfold row3. rewrite Nat.eqb_refl.
        destruct cl eqn:Ecl.
        - eapply dpl_affine with (c := 0). intros t. rewrite <- Ecl, eq_last, Ecl, set_same, set_other by lia. ring.
        - eapply dpl_affine with (c := vz s (S m) - W'). intros t. rewrite <- Ecl, eq_last, Ecl, set_same by lia. ring. }
      destruct (Nat.eq_dec j (2 * S m + 1)) as [->|J1].
      { rewrite banded_on by lia. replace (2 + (2 * S m + 1) - (2 * S m + 1))%nat with 2%nat by lia.
        erewrite row_at; [|lia|reflexivity|lia]. cbn [nth]. replace (row2 s m cl x (2 * S m + 1)) with (if cl then x (2 * S m)%nat else 0) by (rewrite Nat.add_1_r; unfold row2; rewrite Nat.eqb_refl; reflexivity).
        destruct cl eqn:Ecl.
        - eapply dpl_affine with (c := 0). intros t. rewrite <- Ecl, eq_last, Ecl, set_same, set_other by lia. ring.
        - eapply dpl_const. intros t. rewrite <- Ecl, eq_last, Ecl, set_other by lia. reflexivity. }
      replace (banded ab (2 * S m + 1) j) with 0.
      + eapply dpl_const. intros t. rewrite eq_last, !set_other by lia. reflexivity.
      + symmetry. destruct (Nat.eq_dec j (2 * m + 1)) as [->|J2]; [|apply banded_off; lia].
        rewrite banded_on by lia. replace (2 + (2 * S m + 1) - (2 * m + 1))%nat with 4%nat by lia.
        apply ent_z4; [lia|]. apply Nat.odd_spec. exists m; lia.
    - eapply dpl_ext; [intros t; apply eq_cont; auto|].
      eapply at4_cases; [apply D_c1 with (m := m)|apply D_c2 with (m := m)|apply D_c3 with (m := m)|apply D_c4 with (m := m)|..]; auto.
      + intros ->. apply ent_c1; auto.
      + intros ->. apply ent_c2; auto.
      + intros ->. apply ent_c3; auto.
      + intros ->. apply ent_c4; auto.
      + intros Hjj. destruct (Nat.eq_dec (j + 1) (2 * k)) as [Ej|Ej]; [|apply banded_off; lia].
        rewrite banded_on by lia. replace (2 + (2 * k + 1) - j)%nat with 4%nat by lia.
        apply ent_z4; [lia|]. apply Nat.odd_spec. exists (k - 1)%nat; lia.
    - eapply dpl_ext; [intros t; apply eq_mom; auto|].
      pose proof (Hh k ltac:(lia)) as P1. pose proof (Hh (S k) ltac:(lia)) as P2.
      pose proof (Hpos k ltac:(lia)) as P3. pose proof (Hpos (S k) ltac:(lia)) as P4.
      unfold depths, velocities in P1, P2, P3, P4.
      replace (2 * S k + 1)%nat with (2 * k + 3)%nat in P4 by lia. replace (2 * S k)%nat with (2 * k + 2)%nat in P2 by lia.
      eapply at4_cases; [apply D_m1 with (m := m)|apply D_m2 with (m := m)|apply D_m3 with (m := m)|apply D_m4 with (m := m)|..]; auto; try lra.
      + intros ->. apply ent_m1; auto.
      + intros ->. rewrite ent_m2 by auto. unfold at4, cm2, dm2. rewrite Rabs_pos_eq by lra. reflexivity.
      + intros ->. apply ent_m3; auto.
      + intros ->. rewrite ent_m4 by auto. unfold at4, cm4, dm4. rewrite Rabs_pos_eq by lra. reflexivity.
      + intros Hjj. destruct (Nat.eq_dec j (2 * k + 4)) as [Ej|Ej]; [|apply banded_off; lia].
        rewrite banded_on by lia. replace (2 + (2 * k + 2) - j)%nat with 0%nat by lia.
        apply ent_z0; [lia|]. apply Nat.even_spec. exists (k + 2)%nat; lia.
  Qed.
End Deriv.

Lemma bandR_shape s m cl x : length (bandR s m cl x) = 5%nat /\ Forall (fun row => length row = (2 * S (S m))%nat) (bandR s m cl x).
Proof. split; [reflexivity|]. unfold bandR. repeat constructor; apply gtab_length. Qed.

Lemma evens_gtab {F} n (f : nat -> F) : evens n (gtab (2 * n) f) = Ok (gtab n (fun k => f (2 * k)%nat)).
Proof.
  unfold evens. apply gather_ok. unfold gtab at 2. rewrite <- (map_id (seq 0 n)) at 2. rewrite map_map.
  assert (H : forall i, In i (seq 0 n) -> (i < n)%nat) by (intros i Hi; apply in_seq in Hi; lia).
  induction (seq 0 n) as [|i l IH]; cbn [map]; constructor; [|apply IH; intros; apply H; right; auto].
  specialize (H i (or_introl eq_refl)). apply gtab_nth. lia.
Qed.
Lemma odds_gtab {F} n (f : nat -> F) : odds n (gtab (2 * n) f) = Ok (gtab n (fun k => f (2 * k + 1)%nat)).
Proof.
  unfold odds. apply gather_ok. unfold gtab at 2. rewrite <- (map_id (seq 0 n)) at 2. rewrite map_map.
  assert (H : forall i, In i (seq 0 n) -> (i < n)%nat) by (intros i Hi; apply in_seq in Hi; lia).
  induction (seq 0 n) as [|i l IH]; cbn [map]; constructor; [|apply IH; intros; apply H; right; auto].
  specialize (H i (or_introl eq_refl)). apply gtab_nth. lia.
Qed.

Lemma mend_depth x k : 0 < depths (fun i => mend i (x i)) k.
Proof. unfold depths, mend. rewrite Nat.even_mul. cbn [Nat.even orb]. destruct (Rle_dec _ 0); lra. Qed.
Lemma mend_vel x k : velocities (fun i => mend i (x i)) k <> 0.
Proof.
  unfold velocities, mend. rewrite Nat.even_add, Nat.even_mul. cbn [Nat.even orb Bool.eqb]. destruct (Req_EM_T _ 0); lra.
Qed.

Section Newton.
  Variable s : scheme.
  Variable m : nat.
  Hypothesis Hn : vN s = S (S m).
  Hypothesis Hdx : forall k, (k < S m)%nat -> 0 < vdx s k.
  Variables (cl : bool) (tol : xr) (mi : nat).

  Lemma newton_step h V W W' Q x solve l d0 o d :
    (forall k, (k < vN s)%nat -> 0 < depths x k /\ velocities x k <> 0) ->
    let c := ctxOf s cl tol mi in
    let C1 := reaches (preC1 c (Fin W') (Fin W)) (nodesAt s h V) (reachesAt s) in
    let C2 := reaches (preC2 c) (nodesAt s h V) (reachesAt s) in
    solve (map (map Fin) (bandR s m cl x)) (tab (2 * vN s) (equation s cl h V W W' Q x)) = SSol (tab (2 * vN s) d) ->
    let x' := fun i => mend i (x i - d i) in
    let st' := stateAt s (depths x') (velocities x') W' (Some (tab (2 * vN s) d)) o in
    preNewton solve (S l) c (Fin Q) (Fin W') C1 C2 (stateAt s (depths x) (velocities x) W' d0 o) =
      if forallb (fun r => fabs r <? tol)%n (tab (2 * vN s) d) then Ok (st', true)
      else preNewton solve l c (Fin Q) (Fin W') C1 C2 st'.
  Proof.
    intros Hx c C1 C2 Hs x' st'. cbn [preNewton].
    change (nodesOf (cz c) _ _ _ _ _ _) with (nodesAt s (depths x) (velocities x)).
    change (reachesOf _ _ _) with (reachesAt s).
    assert (Herr : preErr c (Fin Q) (Fin W') C1 C2 (nodesAt s (depths x) (velocities x)) (reachesAt s) = Ok (tab (2 * vN s) (equation s cl h V W W' Q x))).
    { apply err_fin with (m := m); auto. }
    assert (Hb : preBand c (nodesAt s (depths x) (velocities x)) (reachesAt s) = Ok (map (map Fin) (bandR s m cl x))).
    { apply band_fin; auto. intros k Hk. apply Hx. lia. }
    rewrite Herr. cbn [bind]. rewrite Hb. cbn [bind]. rewrite Hs. cbn [bind].
    replace (length (cz c)) with (vN s) by (unfold c, ctxOf; cbn [cz]; rewrite tab_gtab, gtab_length; reflexivity).
    rewrite (tab_gtab (2 * vN s) d), evens_gtab. cbn [bind]. rewrite odds_gtab. cbn [bind].
    assert (E : mkPst (map fixH (map2 fsub (tab (vN s) (depths x)) (gtab (vN s) (fun k => Fin (d (2 * k)%nat)))))
                      (map fixV (map2 fsub (tab (vN s) (velocities x)) (gtab (vN s) (fun k => Fin (d (2 * k + 1)%nat)))))
                      (map2 fmul (map fixH (map2 fsub (tab (vN s) (depths x)) (gtab (vN s) (fun k => Fin (d (2 * k)%nat))))) (cB c))
                      (map2 (fricSlope (cn c)) (map fixH (map2 fsub (tab (vN s) (depths x)) (gtab (vN s) (fun k => Fin (d (2 * k)%nat)))))
                                               (map fixV (map2 fsub (tab (vN s) (velocities x)) (gtab (vN s) (fun k => Fin (d (2 * k + 1)%nat))))))
                      (Fin W') (Some (gtab (2 * vN s) (fun k => Fin (d k)))) o = st').
    { assert (E1 : map fixH (map2 fsub (tab (vN s) (depths x)) (gtab (vN s) (fun k => Fin (d (2 * k)%nat)))) = tab (vN s) (depths x')).
      { rewrite !tab_gtab, gtab_map2, gtab_map. apply gtab_ext. intros k _. unfold depths, x', mend. rewrite Nat.even_mul. cbn [Nat.even orb].
        unfold fixH. xg. destruct (Rle_dec (x (2 * k)%nat - d (2 * k)%nat) 0) as [Hle|Hle].
        - replace (Rleb (x (2 * k)%nat - d (2 * k)%nat) 0) with true by (symmetry; apply Rleb_true; lra). f_equal; lra.
        - replace (Rleb (x (2 * k)%nat - d (2 * k)%nat) 0) with false by (symmetry; apply Rleb_false; lra). reflexivity. }
      assert (E2 : map fixV (map2 fsub (tab (vN s) (velocities x)) (gtab (vN s) (fun k => Fin (d (2 * k + 1)%nat)))) = tab (vN s) (velocities x')).
      { rewrite !tab_gtab, gtab_map2, gtab_map. apply gtab_ext. intros k _. unfold velocities, x', mend.
        rewrite Nat.even_add, Nat.even_mul. cbn [Nat.even orb Bool.eqb].
        unfold fixV. xg. destruct (Req_EM_T (x (2 * k + 1)%nat - d (2 * k + 1)%nat) 0) as [Hle|Hle].
        - replace (Reqb (x (2 * k + 1)%nat - d (2 * k + 1)%nat) 0) with true by (symmetry; apply Reqb_true; lra). f_equal; lra.
        - replace (Reqb (x (2 * k + 1)%nat - d (2 * k + 1)%nat) 0) with false by (symmetry; apply Reqb_false; lra). reflexivity. }
      rewrite E1, E2. unfold st', stateAt, c, ctxOf. cbn [cB cn]. rewrite !tab_gtab, !gtab_map2. f_equal.
      apply gtab_ext. intros k _. apply fricSlope_fin. apply (mend_depth (fun i => x i - d i)). }
    cbn [ph pV pDsWl pOut stateAt]. rewrite E. reflexivity.
  Qed.
End Newton.

Lemma newton_is_newton s cl tol mi h V W W' Q x :
  (2 <= vN s)%nat -> (forall k, (k < vN s - 1)%nat -> 0 < vdx s k) ->
  (forall k, (k < vN s)%nat -> 0 < depths x k /\ 0 < velocities x k) ->
  exists ab, jacobian ab (2 * vN s) (equation s cl h V W W' Q) x /\
  forall solve l d0 o d,
    let c := ctxOf s cl tol mi in
    let C1 := reaches (preC1 c (Fin W') (Fin W)) (nodesAt s h V) (reachesAt s) in
    let C2 := reaches (preC2 c) (nodesAt s h V) (reachesAt s) in
    solve (map (map Fin) ab) (tab (2 * vN s) (equation s cl h V W W' Q x)) = SSol (tab (2 * vN s) d) ->
    let x' := fun i => mend i (x i - d i) in
    let st' := stateAt s (depths x') (velocities x') W' (Some (tab (2 * vN s) d)) o in
    preNewton solve (S l) c (Fin Q) (Fin W') C1 C2 (stateAt s (depths x) (velocities x) W' d0 o) =
      if forallb (fun r => fabs r <? tol)%n (tab (2 * vN s) d) then Ok (st', true)
      else preNewton solve l c (Fin Q) (Fin W') C1 C2 st'.
Proof.
  intros Hn Hdx Hx. destruct (vN s) as [|[|m]] eqn:En; try lia. replace (S (S m) - 1)%nat with (S m) in Hdx by lia.
  exists (bandR s m cl x). split.
  - destruct (bandR_shape s m cl x) as [B1 B2]. split; [exact B1|split; [exact B2|]]. intros i j Hi Hj.
    apply jac_entry; auto; intros k Hk; apply (Hx k Hk).
  - intros solve l d0 o d. cbv zeta. rewrite <- En. intros Hs. apply newton_step with (m := m); auto.
    intros k Hk. destruct (Hx k ltac:(lia)). split; [auto|lra].
Qed.

(** Reverse flow. *)
Lemma reverse_wrong s cl tol mi x i k :
  (2 <= vN s)%nat -> (forall k, (k < vN s - 1)%nat -> 0 < vdx s k) ->
  (forall k, (k < vN s)%nat -> 0 < depths x k /\ velocities x k <> 0) ->
  vbeta s <> 0 -> vdt s <> 0 -> vth s <> 0 ->
  (i < vN s - 1)%nat -> (k = i \/ k = S i) -> velocities x k < 0 -> vB s k <> 0 ->
  exists ab, preBand (ctxOf s cl tol mi) (nodesAt s (depths x) (velocities x)) (reachesAt s) = Ok (map (map Fin) ab) /\
  forall h V W W' Q,
    ~ derivable_pt_lim (fun t => equation s cl h V W W' Q (set x (2 * k + 1) t) (2 * i + 2)) (x (2 * k + 1)%nat)
        (banded ab (2 * i + 2) (2 * k + 1)).
Proof.
  intros Hn Hdx Hx Hb Ht Hth Hi Hk Hneg HB. destruct (vN s) as [|[|m]] eqn:En; try lia. replace (S (S m) - 1)%nat with (S m) in * by lia.
  exists (bandR s m cl x). split.
  { apply band_fin; auto. intros j Hj. apply Hx; auto. }
  intros h V W W' Q D.
  pose proof (Hx k ltac:(lia)) as [Hd Hv].
  assert (Hnz : vbeta s * (vdt s / vdx s i) * vth s * (depths x k * vB s k) * velocities x k <> 0).
  { pose proof (Hdx i Hi). repeat apply Rmult_integral_contrapositive_currified; auto; try lra.
    apply Rinv_neq_0_compat. lra. }
  destruct Hk as [->| ->].
  - pose proof (D_m2 s m Hdx h V i (x (2 * i)%nat) (x (2 * i + 1)%nat) (x (2 * i + 2)%nat) (x (2 * i + 3)%nat) Hi Hv) as D'.
    assert (E : banded (bandR s m cl x) (2 * i + 2) (2 * i + 1) = at4 (dm2 s) x i).
    { eapply uniqueness_limite; [exact D|]. eapply dpl_ext; [|exact D']. intros t. rewrite eq_mom with (m := m) by auto.
      unfold at4. rewrite set_same, !set_other by lia. reflexivity. }
    rewrite ent_m2 in E by auto. unfold at4, cm2, dm2 in E. apply Hnz. unfold velocities, depths in *.
    rewrite Rabs_left in E by auto. lra.
  - unfold velocities in Hv. replace (2 * S i + 1)%nat with (2 * i + 3)%nat in * by lia.
    pose proof (D_m4 s m Hdx h V i (x (2 * i)%nat) (x (2 * i + 1)%nat) (x (2 * i + 2)%nat) (x (2 * i + 3)%nat) Hi Hv) as D'.
    assert (E : banded (bandR s m cl x) (2 * i + 2) (2 * i + 3) = at4 (dm4 s) x i).
    { eapply uniqueness_limite; [exact D|]. eapply dpl_ext; [|exact D']. intros t. rewrite eq_mom with (m := m) by auto.
      unfold at4. rewrite set_same, !set_other by lia. reflexivity. }
    rewrite ent_m4 in E by auto. unfold at4, cm4, dm4 in E. apply Hnz. unfold velocities, depths in *.
    replace (2 * S i + 1)%nat with (2 * i + 3)%nat in * by lia. replace (2 * S i)%nat with (2 * i + 2)%nat by lia.
    rewrite Rabs_left in E by auto. lra.
Qed.

(** * Statements for Prop_Pre.v *)
Lemma setup_fin s cl h V dtns N P :
  (2 <= vN s)%nat -> pars s N P dtns ->
  (forall k, (k < vN s - 1)%nat -> 0 < vdx s k) ->
  (forall k, (k < vN s)%nat -> 0 < h k /\ V k <> 0) ->
  preInit (tab (vN s) (vz s)) (tab (vN s) (vB s)) (tab (vN s) (vLA s)) (tab (vN s) (vLL s)) cl
          (tab (vN s) h) (tab (vN s) V) (tab (vN s - 1) (vdx s)) dtns N P
  = Ok (ctxOf s cl (nErrTol N) (nMaxIt N),
        stateAt s h V (vz s (vN s - 1) + h (vN s - 1)%nat) None None).
Proof.
  intros Hn Hp Hdx Hs. destruct (vN s) as [|[|m]] eqn:En; try lia. rewrite <- En.
  rewrite (init_fin s cl h V dtns N P m); auto.
Qed.

Lemma residual_fin s cl tol mi h V W W' Q x :
  (2 <= vN s)%nat -> (forall k, (k < vN s - 1)%nat -> 0 < vdx s k) ->
  let c := ctxOf s cl tol mi in
  preErr c (Fin Q) (Fin W')
    (reaches (preC1 c (Fin W') (Fin W)) (nodesAt s h V) (reachesAt s))
    (reaches (preC2 c) (nodesAt s h V) (reachesAt s))
    (nodesAt s (depths x) (velocities x)) (reachesAt s)
  = Ok (tab (2 * vN s) (equation s cl h V W W' Q x)).
Proof.
  intros Hn Hdx. destruct (vN s) as [|[|m]] eqn:En; try lia. rewrite <- En.
  apply err_fin with (m := m); auto.
Qed.

Lemma volume_balance s cl h V W W' Q x :
  (2 <= vN s)%nat -> (forall k, (k < vN s - 1)%nat -> 0 < vdx s k) ->
  (forall k, (k < vN s - 1)%nat -> equation s cl h V W W' Q x (2 * k + 1) = 0) ->
  let h' := depths x in let V' := velocities x in let e := (vN s - 1)%nat in
  storage s h' - storage s h =
    vdt s * weigh s (flux s h' V' 0 - flux s h' V' e) (flux s h V 0 - flux s h V e)
    - vdt s * weigh s (seepage s h' W') (seepage s h W).
Proof.
  intros Hn Hdx H. destruct (vN s) as [|[|m]] eqn:En; try lia. cbv zeta. replace (S (S m) - 1)%nat with (S m) in * by lia.
  apply balance; auto. intros k Hk. rewrite <- (H k Hk). unfold equation. rewrite En.
  replace (Nat.eqb (2 * k + 1) 0) with false by (symmetry; apply Nat.eqb_neq; lia).
  replace (Nat.eqb (2 * k + 1) (2 * S (S m) - 1)) with false by (symmetry; apply Nat.eqb_neq; lia).
  replace (Nat.odd (2 * k + 1)) with true by (symmetry; apply Nat.odd_spec; exists k; lia).
  replace ((2 * k + 1 - 1) / 2)%nat with k by (rewrite Nat.add_sub, Nat.mul_comm, Nat.div_mul; lia). reflexivity.
Qed.

Lemma storage_offline s h m :
  vN s = S (S m) -> (forall k, (k < vN s - 1)%nat -> 0 < vdx s k) ->
  storage s h =
    sum (S m) (fun k => vdx s k * (h k * vB s k + h (S k) * vB s (S k)) / 2)
    + (vLA s 0%nat * h 0%nat / 2 + sum m (fun k => vLA s (S k) * h (S k)) + vLA s (S m) * h (S m) / 2).
Proof. intros Hn Hdx. apply storage_split; auto. intros; apply Hdx; lia. Qed.

Definition exS : scheme :=
  mkScheme 2 (fun _ => 0) (fun _ => 1) (fun _ => 1) (fun _ => 1) (fun _ => 1) 9 0 1 1 1 1.
Definition exX (i : nat) : R := match i with 0%nat => 2 | 1%nat => 3 | 2%nat => 2 | _ => 1 end.
Lemma balance_example :
  (2 <= vN exS)%nat /\ (forall k, (k < vN exS - 1)%nat -> 0 < vdx exS k) /\
  (forall k, (k < vN exS)%nat -> 0 < depths exX k /\ 0 < velocities exX k) /\
  (forall k, (k < vN exS - 1)%nat -> equation exS false (fun _ => 1) (fun _ => 1) 0 0 3 exX (2 * k + 1) = 0) /\
  storage exS (depths exX) - storage exS (fun _ => 1) = 2.
Proof.
  cbn [exS vN]. split; [lia|]. split; [intros; cbn; lra|]. split.
  { intros [|[|k]] Hk; cbn; try lra; lia. }
  split.
  - intros [|k] Hk; [|lia]. cbn. unfold continuity, weigh, flux, flowArea, head, storeWidth, nodeLen, depths, velocities. cbn. lra.
  - unfold storage, storeWidth, nodeLen, depths. cbn. lra.
Qed.

Lemma setup_example (N : nump xr) (P : phys xr) :
  nTheta N = Fin 1 -> nBeta N = Fin 1 -> pGravity P = Fin 9 -> pRoughness P = Fin 0 -> pBarrierPermeability P = Fin 1 ->
  pars exS N P 1000000000.
Proof. intros; repeat split; auto. Qed.

Lemma full_ok_xr (solve : list (list xr) -> list xr -> solout xr) z B LA LL cl h V dx dt Q W N P r :
  solveFullPreissmann solve z B LA LL cl h V dx dt Q W N P = Ok r ->
  Forall (fun d => d = NaN \/ d = PInf \/ exists t, d = Fin t /\ 0 < t) (fst r) /\
  Forall (fun v => v <> Fin 0) (snd r).
Proof.
  intros H. apply full_ok in H as [H1 H2].
  - split; eapply Forall_impl; try eassumption.
    + intros [t| | |]; unfold hOk; xg; intros E; auto; try discriminate. apply Rleb_false in E. right; right. exists t. split; [reflexivity|lra].
    + intros v; unfold vOk. intros E ->. revert E. xg. intros E. apply Reqb_false in E. lra.
  - xg. apply Rleb_false. lra.
  - xg. apply Reqb_false. lra.
Qed.

(** Witness for a solver that never converges (binary64). *)
Definition onesF : phys float := (mkPhys 1 1 1 1 1 1 1 1 1 1 1 1 1 1 1 1 1 1 1 1 1 1 1 1 1 1 1 1 1 1 1 1 1 1 1 1 1)%float.
Definition numF : nump float := (mkNum 1 1 1 1 (1 / 1000) 2%nat 1 1)%float.
Definition stuck (_ : list (list float)) (_ : list float) : solout float := SSol [0.25; 0.25; 0.25; 0.25]%float.
Lemma stuck_example :
  never_within stuck (nErrTol numF) /\
  solveFullPreissmann stuck [0; 0]%float [1; 1]%float [0; 0]%float [0; 0]%float false [2; 2]%float [1; 1]%float [1]%float 1000000000 [1; 5; 7]%float [2; 3; 1]%float numF onesF
    = Ok ([1.5; 1.5], [0.5; 0.5])%float /\
  solveFullPreissmann stuck [0; 0]%float [1; 1]%float [0; 0]%float [0; 0]%float false [2; 2]%float [1; 1]%float [1]%float 1000000000 [1]%float [2]%float numF onesF
    = Ok ([1.5; 1.5], [0.5; 0.5])%float.
Proof.
  split; [|vm_compute; auto]. intros band err d H. injection H as <-. vm_compute. reflexivity.
Qed.
Lemma singular_example :
  solveFullPreissmann (fun _ _ => SSingular) [0; 0]%float [1; 1]%float [0; 0]%float [0; 0]%float false [2; 2]%float [1; 1]%float [1]%float 1000000000 [1]%float [2]%float numF onesF
    = Exc EUnbound.
Proof. vm_compute. reflexivity. Qed.
Lemma float_small : (fofQ 1 10000 <=? f0)%n = false /\ (fofQ 1 10000 =? f0)%n = false.
Proof. split; vm_compute; reflexivity. Qed.
Definition exY (i : nat) : R := match i with 0%nat => 2 | 1%nat => 3 | 2%nat => 2 | _ => -1 end.
Lemma reverse_example :
  (2 <= vN exS)%nat /\ (forall k, (k < vN exS - 1)%nat -> 0 < vdx exS k) /\
  (forall k, (k < vN exS)%nat -> 0 < depths exY k /\ velocities exY k <> 0) /\
  vbeta exS <> 0 /\ vdt exS <> 0 /\ vth exS <> 0 /\ velocities exY 1 < 0 /\ vB exS 1%nat <> 0.
Proof.
  cbn [exS vN vbeta vdt vth vB vdx]. split; [lia|]. split; [intros; lra|]. split; [|unfold velocities, exY; cbn; repeat split; lra].
  intros [|[|k]] Hk; unfold depths, velocities, exY; cbn; lra || lia.
Qed.
