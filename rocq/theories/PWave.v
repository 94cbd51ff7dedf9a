(** Proofs: wave input file. *)
From Coq Require Import Reals ZArith List Bool Lia Lra.
From Verif Require Import Base Num Xr MGeom MLoad MWave SWave PGeom PRate PLoad.
Import ListNotations.
Local Open Scope R_scope.

Lemma sin_turn x k : sin (x + IZR k * (2 * PI)) = sin x /\ cos (x + IZR k * (2 * PI)) = cos x.
Proof.
  destruct (Z_le_gt_dec 0 k) as [P|P].
  - rewrite <- (Z2Nat.id k P), <- INR_IZR_INZ. replace (x + INR (Z.to_nat k) * (2 * PI)) with (x + 2 * INR (Z.to_nat k) * PI) by ring.
    split; [apply sin_period|apply cos_period].
  - assert (E : k = (- Z.of_nat (Z.to_nat (- k)))%Z) by lia. rewrite E, opp_IZR, <- INR_IZR_INZ. set (n := Z.to_nat (- k)).
    set (y := x + - INR n * (2 * PI)). replace x with (y + 2 * INR n * PI) by (unfold y; ring). rewrite sin_period, cos_period. split; reflexivity.
Qed.

Lemma power_val X Y : wavePower (Fin X) (Fin Y) = Fin (1025 * (981 / 100) * sqrt (X * X + Y * Y)).
Proof.
  unfold wavePower, fsq. rewrite !xofZ. change (@fofQ xr _ 981 100) with (Fin (981 / 100)). xf.
  change (fsqrt (Fin (X * X + Y * Y))) with (xsqrt (Fin (X * X + Y * Y))). rewrite xsqrt_fin by (apply Rplus_le_le_0_compat; apply Rle_0_sqr). xf. reflexivity.
Qed.
Lemma dir_val X Y : exists b k, energyDir (Fin X) (Fin Y) = Fin b /\ 0 <= b < 360 /\ rad b = Ratan2 X Y - PI + IZR k * (2 * PI).
Proof.
  pose proof PI_RGT_0 as P. unfold energyDir. rewrite !xofZ. change (@fpi xr _) with (Fin PI). rewrite xdivf by lra.
  change (fatan2 (Fin X) (Fin Y)) with (Fin (Ratan2 X Y)). xf.
  match goal with |- context [fmod (Fin ?a) (Fin ?b)] => change (fmod (Fin a) (Fin b)) with (xmod (Fin a) (Fin b)); set (x := a) end.
  rewrite xmod_fin by lra. destruct (Rfloor_spec (x / 360)) as [F1 F2]. set (k := Rfloor _) in *. eexists. exists (- k)%Z. split; [reflexivity|]. split; [lra|].
  rewrite opp_IZR. unfold rad, x. field. lra.
Qed.
Lemma energy_dir X Y : exists p b, wavePower (Fin X) (Fin Y) = Fin p /\ energyDir (Fin X) (Fin Y) = Fin b /\ 0 <= p /\ 0 <= b < 360 /\
  p * sin (rad b) = - (1025 * (981 / 100)) * X /\ p * cos (rad b) = - (1025 * (981 / 100)) * Y.
Proof.
  rewrite power_val. destruct (dir_val X Y) as (b & k & E & B & ER). eexists. exists b. split; [reflexivity|]. split; [exact E|].
  split; [apply Rmult_le_pos; [lra|apply sqrt_pos]|]. split; [exact B|]. rewrite ER. destruct (sin_turn (Ratan2 X Y - PI) k) as [-> ->].
  rewrite sin_minus, cos_minus, sin_PI, cos_PI. destruct (polar X Y) as [PC PS]. split.
  - transitivity (- (1025 * (981 / 100)) * (sqrt (X * X + Y * Y) * sin (Ratan2 X Y))); [ring|]. rewrite PS. reflexivity.
  - transitivity (- (1025 * (981 / 100)) * (sqrt (X * X + Y * Y) * cos (Ratan2 X Y))); [ring|]. rewrite PC. reflexivity.
Qed.
(** In the coordinates of the model. *)
Lemma energy_frame X Y d : exists p b w, wavePower (Fin X) (Fin Y) = Fin p /\ energyDir (Fin X) (Fin Y) = Fin b /\
  waveDir (Fin d) (Fin b) = Fin w /\ - PI <= w < PI /\
  p * sin w = - (1025 * (981 / 100)) * (X * cos d - Y * sin d) /\ p * cos w = - (1025 * (981 / 100)) * (X * sin d + Y * cos d).
Proof.
  destruct (energy_dir X Y) as (p & b & EP & EB & _ & _ & ES & EC). destruct (wave_dir d b) as (w & k & EW & BW & Ew).
  exists p, b, w. split; [exact EP|]. split; [exact EB|]. split; [exact EW|]. split; [exact BW|]. rewrite Ew. fold (rad b). destruct (sin_turn (rad b - d) k) as [-> ->].
  rewrite sin_minus, cos_minus. split.
  - transitivity (p * sin (rad b) * cos d - p * cos (rad b) * sin d); [ring|]. rewrite ES, EC. ring.
  - transitivity (p * cos (rad b) * cos d + p * sin (rad b) * sin d); [ring|]. rewrite ES, EC. ring.
Qed.

(** Angle to the beach. *)
Lemma beach_angle norm dir : exists a k, beachAngle (Fin norm) (Fin dir) = Fin a /\ - (PI / 2) <= a < 3 * (PI / 2) /\
  a = rad norm - rad dir + IZR k * (2 * PI).
Proof.
  pose proof PI_RGT_0 as P. unfold beachAngle, deg2rad. change (@fpi xr _) with (Fin PI). change (@f2 xr _) with (Fin 2). rewrite !xofZ. rewrite !xdivf by lra. xf.
  match goal with |- context [fmod (Fin ?a) (Fin ?b)] => change (fmod (Fin a) (Fin b)) with (xmod (Fin a) (Fin b)); set (x := a) end.
  rewrite xmod_fin by lra. rewrite PRate.xsub. destruct (Rfloor_spec (x / (2 * PI))) as [F1 F2]. set (k := Rfloor _) in *.
  eexists. exists (- k)%Z. split; [reflexivity|]. rewrite opp_IZR. split.
  - assert (E : x = x / (2 * PI) * (2 * PI)) by (field; lra). split.
    + assert (0 <= (x / (2 * PI) - IZR k) * (2 * PI)) by (apply Rmult_le_pos; lra). lra.
    + assert ((x / (2 * PI) - IZR k) * (2 * PI) < 1 * (2 * PI)) by (apply Rmult_lt_compat_r; lra). lra.
  - unfold x, rad. field.
Qed.
Lemma onshore_iff a : - (PI / 2) <= a < 3 * (PI / 2) -> (onshore (Fin a) = true <-> 0 < cos a).
Proof.
  intros B. unfold onshore. change (@fpi xr _) with (Fin PI). change (@f2 xr _) with (Fin 2). rewrite xdivf by lra. rewrite PRate.xabs.
  change (Fin (Rabs a) <? Fin (PI / 2))%n with (Rltb (Rabs a) (PI / 2)). rewrite Rltb_true. split; intros H.
  - apply Rabs_def2 in H. apply cos_gt_0; lra.
  - apply Rabs_def1.
    + apply Rnot_le_lt. intros L. pose proof (cos_le_0 a L ltac:(lra)). lra.
    + destruct (Req_dec a (- (PI / 2))) as [E|E]; [|lra]. rewrite E, cos_neg, cos_PI2 in H. lra.
Qed.

(** Hyperbolic functions. *)
Lemma cosh_gt1 x : 0 < x -> 1 < cosh x.
Proof.
  intros P. unfold cosh. assert (A : 1 < exp x) by (rewrite <- exp_0; apply exp_increasing, P). rewrite exp_Ropp.
  assert (/ exp x * exp x = 1) by (field; lra). set (e := exp x) in *. set (i := / e) in *.
  assert (0 < i) by (apply Rinv_0_lt_compat; lra). assert (0 < (e - 1) * (e - 1) * i). { apply Rmult_lt_0_compat; [apply Rmult_lt_0_compat; lra|assumption]. }
  assert ((e - 1) * (e - 1) * i = e * (i * e) - 2 * (i * e) + i) by ring. rewrite H in *. lra.
Qed.
Lemma sinh_gt x : 0 < x -> x < sinh x.
Proof.
  intros P. destruct (MVT_cor2 sinh cosh 0 x P) as (c & E & C).
  - intros c _. apply derivable_pt_lim_sinh.
  - rewrite sinh_0 in E. pose proof (cosh_gt1 c (proj1 C)). assert (0 < (cosh c - 1) * x) by (apply Rmult_lt_0_compat; lra). lra.
Qed.
Lemma tanh_range x : 0 < x -> 0 < tanh x < 1.
Proof.
  intros P. unfold tanh. pose proof (sinh_gt x P). pose proof (cosh_gt1 x P). split; [apply Rdiv_lt_0_compat; lra|].
  apply (Rmult_lt_reg_r (cosh x)); [lra|]. unfold Rdiv. rewrite Rmult_assoc, Rinv_l by lra. unfold sinh, cosh. pose proof (exp_pos (- x)). lra.
Qed.
Lemma group_range L d : 0 < L -> 0 < d -> 1 / 2 < group_ratio L d < 1.
Proof.
  intros PL PD. unfold group_ratio. set (x := 4 * PI * d / L). pose proof PI_RGT_0.
  assert (PX : 0 < x). { apply Rdiv_lt_0_compat; [|exact PL]. apply Rmult_lt_0_compat; lra. }
  pose proof (sinh_gt x PX). assert (0 < x / sinh x < 1); [|lra]. split; [apply Rdiv_lt_0_compat; lra|].
  apply (Rmult_lt_reg_r (sinh x)); [lra|]. unfold Rdiv. rewrite Rmult_assoc, Rinv_l by lra. lra.
Qed.
Lemma deep_range L d : 0 < L -> 0 < d -> 1 < deep_ratio L d.
Proof.
  intros PL PD. unfold deep_ratio. pose proof PI_RGT_0. assert (PX : 0 < 2 * PI * d / L). { apply Rdiv_lt_0_compat; [|exact PL]. apply Rmult_lt_0_compat; lra. }
  destruct (tanh_range _ PX). rewrite <- Rinv_1. apply Rinv_lt_contravar; lra.
Qed.
Lemma group_val L d : 0 < L -> 0 < d -> groupRatio (Fin L) (Fin d) = Fin (group_ratio L d).
Proof.
  intros PL PD. unfold groupRatio, waveNumber, fsinh. change (@fpi xr _) with (Fin PI). change (@f2 xr _) with (Fin 2). change (@f1 xr _) with (Fin 1).
  change (@fofQ xr _ 1 2) with (Fin (1 / 2)). rewrite PRate.xmul, xdivf by lra. xf. pose proof PI_RGT_0.
  replace (2 * (2 * PI / L) * d) with (4 * PI * d / L) by (field; lra). set (x := 4 * PI * d / L).
  assert (PX : 0 < x). { apply Rdiv_lt_0_compat; [|exact PL]. apply Rmult_lt_0_compat; lra. } pose proof (sinh_gt x PX).
  change (fexp (Fin x)) with (Fin (exp x)). change (fexp (Fin (- x))) with (Fin (exp (- x))). xf.
  change ((exp x - exp (- x)) / 2) with (sinh x). rewrite xdivf by lra. xf. reflexivity.
Qed.
Lemma deep_val L d : 0 < L -> 0 < d -> lengthRatio (Fin L) (Fin d) = Fin (deep_ratio L d).
Proof.
  intros PL PD. unfold lengthRatio. change (@fpi xr _) with (Fin PI). change (@f2 xr _) with (Fin 2). change (@f1 xr _) with (Fin 1).
  rewrite !PRate.xmul, xdivf by lra. pose proof PI_RGT_0. assert (PX : 0 < 2 * PI * d / L). { apply Rdiv_lt_0_compat; [|exact PL]. apply Rmult_lt_0_compat; lra. }
  change (ftanh (Fin (2 * PI * d / L))) with (Fin (tanh (2 * PI * d / L))). destruct (tanh_range _ PX). rewrite xdivf by lra. unfold deep_ratio. f_equal. field. lra.
Qed.

(** Offshore angle. *)
Lemma clamp_val r a : fmaximum (fminimum (Fin r * fsin (Fin a)) f1)%n (- f1)%n = Fin (Rmax (Rmin (r * sin a) 1) (-1)).
Proof. change (fsin (Fin a)) with (Fin (sin a)). change (@f1 xr _) with (Fin 1). rewrite PRate.xmul, PRate.xopp, xmin, xmax. reflexivity. Qed.
Lemma angle_inside r a : -1 <= r * sin a <= 1 -> offshoreAngle (Fin r) (Fin a) = Fin (asin (r * sin a)).
Proof. intros B. unfold offshoreAngle. rewrite clamp_val, Rmin_left, Rmax_left by lra. apply xasin_fin, B. Qed.
Lemma angle_outside r a : 1 <= Rabs (r * sin a) -> exists a0, offshoreAngle (Fin r) (Fin a) = Fin a0 /\ cos a0 = 0.
Proof.
  intros B. unfold offshoreAngle. rewrite clamp_val. destruct (Rle_dec 0 (r * sin a)) as [P|P].
  - rewrite Rabs_right in B by lra. rewrite Rmin_right, Rmax_left by lra. exists (PI / 2). split; [|apply cos_PI2].
    change (fasin (Fin 1)) with (xasin (Fin 1)). rewrite xasin_fin by lra. rewrite asin_1. reflexivity.
  - rewrite Rabs_left in B by lra. rewrite Rmin_left, Rmax_right by lra. exists (- (PI / 2)). split; [|rewrite cos_neg; apply cos_PI2].
    change (fasin (Fin (-1))) with (xasin (Fin (-1))). rewrite xasin_fin by lra. replace (-1) with (- (1)) by ring. rewrite asin_opp, asin_1. reflexivity.
Qed.

(** One row. *)
Lemma row_onshore norm r L d H th a : swLen r = Fin L -> swDepth r = Fin d -> swHs r = Fin H -> swDir r = Fin th -> 0 < L -> 0 < d ->
  beachAngle (Fin norm) (Fin th) = Fin a -> 0 < cos a -> - (PI / 2) <= a < 3 * (PI / 2) -> -1 < deep_ratio L d * sin a < 1 ->
  exists H0 a0, wvHs (waveRow (Fin norm) r) = Fin H0 /\ sin a0 = deep_ratio L d * sin a /\ 0 < cos a0 /\ (0 <= H -> 0 <= H0) /\
    flux H0 (1 / 2) (deep_ratio L d * L) a0 * (group_ratio L d * group_ratio L d) = flux H (group_ratio L d) L a.
Proof.
  intros E1 E2 E3 E4 PL PD EA CA BA BS. unfold waveRow. rewrite E1, E2, E3, E4, EA. unfold maskWave. rewrite (proj2 (onshore_iff a BA) CA).
  cbn [wvHs]. rewrite group_val, deep_val by assumption. rewrite angle_inside by lra. set (r0 := deep_ratio L d) in *. set (n := group_ratio L d) in *.
  set (a0 := asin (r0 * sin a)). assert (S0 : sin a0 = r0 * sin a) by (apply sin_asin; lra).
  assert (C0 : 0 < cos a0). { pose proof (asin_bound_lt (r0 * sin a) ltac:(lra)). apply cos_gt_0; unfold a0; lra. }
  pose proof (deep_range L d PL PD). pose proof (group_range L d PL PD). fold r0 in H0. fold n in H1. clearbody a0. clearbody n r0.
  unfold offshoreHs. change (fcos (Fin a0)) with (Fin (cos a0)). change (fcos (Fin a)) with (Fin (cos a)). change (@fofQ xr _ 1 2) with (Fin (1 / 2)).
  rewrite xdivf by lra. xf. set (q := 1 / 2 * n * r0 * (cos a0 / cos a)).
  assert (Q : 0 < q). { unfold q. apply Rmult_lt_0_compat; [repeat apply Rmult_lt_0_compat; lra|apply Rdiv_lt_0_compat; assumption]. }
  change (fsqrt (Fin q)) with (xsqrt (Fin q)). rewrite xsqrt_fin by lra. pose proof (sqrt_lt_R0 q Q). rewrite xdivf by lra.
  exists (H / sqrt q), a0. split; [reflexivity|]. split; [exact S0|]. split; [exact C0|]. split.
  - intros P. apply Rmult_le_pos; [exact P|]. left. apply Rinv_0_lt_compat; assumption.
  - unfold flux. assert (SQ : sqrt q * sqrt q = q) by (apply sqrt_sqrt; lra).
    assert (E : H / sqrt q * (H / sqrt q) = H * H / q). { rewrite <- SQ at 3. field. lra. } rewrite E. unfold q. field. repeat split; lra.
Qed.
Lemma flux_pos H H' n L a : 0 <= H -> 0 <= H' -> 0 < n * L * cos a -> flux H n L a = flux H' n L a -> H = H'.
Proof.
  intros P P' Q E. unfold flux in E. assert (E2 : H * H = H' * H').
  { apply (Rmult_eq_reg_r (n * L * cos a)); [|lra]. lra. }
  assert (D : (H - H') * (H + H') = 0) by lra. apply Rmult_integral in D as [D|D]; lra.
Qed.
(** The written height is the deep water height divided by the group ratio. *)
Lemma row_excess norm r L d H th a Ht at_ : swLen r = Fin L -> swDepth r = Fin d -> swHs r = Fin H -> swDir r = Fin th -> 0 < L -> 0 < d ->
  beachAngle (Fin norm) (Fin th) = Fin a -> 0 < cos a -> - (PI / 2) <= a < 3 * (PI / 2) -> 0 <= H -> 0 <= Ht -> deep_wave L d H a Ht at_ ->
  wvHs (waveRow (Fin norm) r) = Fin (Ht / group_ratio L d) /\ (0 < Ht -> Ht < Ht / group_ratio L d < 2 * Ht).
Proof.
  intros E1 E2 E3 E4 PL PD EA CA BA PH PT (S1 & C1 & FX).
  assert (BS : -1 < deep_ratio L d * sin a < 1).
  { rewrite <- S1. pose proof (sin2_cos2 at_) as T. unfold Rsqr in T. assert (0 < cos at_ * cos at_) by (apply Rmult_lt_0_compat; lra). split; apply Rnot_le_lt; intros Q.
    - assert (0 <= (- 1 - sin at_) * (1 - sin at_)) by (apply Rmult_le_pos; lra). lra.
    - assert (0 <= (sin at_ - 1) * (1 + sin at_)) by (apply Rmult_le_pos; lra). lra. }
  destruct (row_onshore norm r L d H th a E1 E2 E3 E4 PL PD EA CA BA BS) as (H0 & a0 & EH & S0 & C0 & P0 & F0). specialize (P0 PH).
  destruct (group_range L d PL PD) as [G1 G2]. pose proof (deep_range L d PL PD) as DR. set (n := group_ratio L d) in *. set (r0 := deep_ratio L d) in *. clearbody n r0.
  assert (EC : cos a0 = cos at_).
  { pose proof (sin2_cos2 at_) as T1. pose proof (sin2_cos2 a0) as T0. unfold Rsqr in T1, T0. rewrite S1 in T1. rewrite S0 in T0.
    assert (D : (cos a0 - cos at_) * (cos a0 + cos at_) = 0) by lra. apply Rmult_integral in D as [D|D]; lra. }
  assert (ET : Ht = H0 * n).
  { apply (flux_pos _ _ (1 / 2) (r0 * L) at_ PT); [apply Rmult_le_pos; lra| |].
    - repeat apply Rmult_lt_0_compat; lra.
    - rewrite FX, <- F0. unfold flux. rewrite EC. ring. }
  rewrite EH. assert (EQ : Ht / n = H0) by (rewrite ET; field; lra). rewrite EQ. split; [reflexivity|]. intros P. rewrite ET in *.
  assert (0 < H0). { apply Rnot_le_lt. intros Q. assert (H0 = 0) by lra. subst H0. lra. }
  split.
  - assert (0 < H0 * (1 - n)) by (apply Rmult_lt_0_compat; lra). lra.
  - assert (0 < H0 * (2 * n - 1)) by (apply Rmult_lt_0_compat; lra). lra.
Qed.
(** Waves too oblique to come from deep water. *)
Lemma row_grazing norm r L d H th a : swLen r = Fin L -> swDepth r = Fin d -> swHs r = Fin H -> swDir r = Fin th -> 0 < L -> 0 < d ->
  beachAngle (Fin norm) (Fin th) = Fin a -> 0 < cos a -> - (PI / 2) <= a < 3 * (PI / 2) -> 1 <= Rabs (deep_ratio L d * sin a) -> 0 < H ->
  wvHs (waveRow (Fin norm) r) = PInf.
Proof.
  intros E1 E2 E3 E4 PL PD EA CA BA BS PH. unfold waveRow. rewrite E1, E2, E3, E4, EA. unfold maskWave. rewrite (proj2 (onshore_iff a BA) CA).
  cbn [wvHs]. rewrite group_val, deep_val by assumption. destruct (angle_outside _ _ BS) as (a0 & -> & C0).
  unfold offshoreHs. change (fcos (Fin a0)) with (Fin (cos a0)). change (fcos (Fin a)) with (Fin (cos a)). change (@fofQ xr _ 1 2) with (Fin (1 / 2)).
  rewrite xdivf by lra. rewrite C0. xf. replace (1 / 2 * group_ratio L d * deep_ratio L d * (0 / cos a)) with 0 by (field; lra).
  change (fsqrt (Fin 0)) with (xsqrt (Fin 0)). rewrite xsqrt_fin by lra. rewrite sqrt_0. change (xdiv (Fin H) (Fin 0) = PInf).
  unfold xdiv. destruct (Req_EM_T 0 0); [|congruence]. unfold sgn_inf. rewrite (proj2 (Rltb_true 0 H)) by exact PH. reflexivity.
Qed.
(** Waves leaving the coast, or of unknown direction. *)
Lemma row_offshore norm r L d : swLen r = Fin L -> swDepth r = Fin d -> 0 < L -> 0 < d ->
  (swDir r = NaN \/ exists th, swDir r = Fin th /\ cos (rad norm - rad th) <= 0) -> wvHs (waveRow (Fin norm) r) = Fin 0.
Proof.
  intros E1 E2 PL PD HD. assert (M : maskWave (swHs r) (beachAngle (Fin norm) (swDir r)) = (Fin 0, Fin 0)).
  { unfold maskWave. destruct HD as [->|(th & -> & C)].
    - assert (Q : beachAngle (Fin norm) NaN = NaN) by (unfold beachAngle, deg2rad; change (@fpi xr _) with (Fin PI); rewrite xofZ, !xdivf by lra; xcbn; reflexivity). rewrite Q. reflexivity.
    - destruct (beach_angle norm th) as (a & k & -> & B & E). destruct (onshore (Fin a)) eqn:Q; [|reflexivity].
      apply (onshore_iff a B) in Q. rewrite E in Q. rewrite (proj2 (sin_turn _ k)) in Q. lra. }
  unfold waveRow. rewrite M, E1, E2. cbn [wvHs]. rewrite group_val, deep_val by assumption. rewrite angle_inside by (rewrite sin_0; lra). rewrite sin_0, Rmult_0_r, asin_0.
  unfold offshoreHs. change (fcos (Fin 0)) with (Fin (cos 0)). rewrite cos_0. change (@fofQ xr _ 1 2) with (Fin (1 / 2)). rewrite xdivf by lra. xf.
  destruct (group_range L d PL PD) as [G1 G2]. pose proof (deep_range L d PL PD) as DR. set (n := group_ratio L d) in *. set (r0 := deep_ratio L d) in *. clearbody n r0. set (q := _ * _).
  assert (Q : 0 < q). { unfold q. repeat apply Rmult_lt_0_compat; lra. }
  change (fsqrt (Fin q)) with (xsqrt (Fin q)). rewrite xsqrt_fin by lra. pose proof (sqrt_lt_R0 q Q). rewrite xdivf by lra. f_equal. field. lra.
Qed.

(** Statements in terms of the two compass directions. *)
Lemma deep_turn L d H a b H0 a0 : sin a = sin b -> cos a = cos b -> deep_wave L d H a H0 a0 <-> deep_wave L d H b H0 a0.
Proof. intros ES EC. unfold deep_wave, flux. rewrite ES, EC. reflexivity. Qed.
Lemma deep_exists L d H a : 0 < L -> 0 < d -> 0 < cos a -> -1 < deep_ratio L d * sin a < 1 -> exists H0 a0, 0 <= H0 /\ deep_wave L d H a H0 a0.
Proof.
  intros PL PD CA BS. unfold deep_wave, flux. destruct (group_range L d PL PD) as [G1 G2]. pose proof (deep_range L d PL PD) as DR.
  set (n := group_ratio L d) in *. set (r0 := deep_ratio L d) in *. clearbody n r0.
  set (a0 := asin (r0 * sin a)). assert (S0 : sin a0 = r0 * sin a) by (apply sin_asin; lra).
  assert (C0 : 0 < cos a0). { pose proof (asin_bound_lt (r0 * sin a) ltac:(lra)). apply cos_gt_0; unfold a0; lra. } clearbody a0.
  set (q := H * H * n * L * cos a / (1 / 2 * (r0 * L) * cos a0)).
  assert (D : 0 < 1 / 2 * (r0 * L) * cos a0). { repeat apply Rmult_lt_0_compat; lra. }
  assert (Q : 0 <= q). { apply Rmult_le_pos; [|left; apply Rinv_0_lt_compat, D]. apply Rmult_le_pos; [|lra]. apply Rmult_le_pos; [|lra]. apply Rmult_le_pos; [|lra]. apply Rle_0_sqr. }
  exists (sqrt q), a0. split; [apply sqrt_pos|]. split; [exact S0|]. split; [exact C0|]. rewrite sqrt_sqrt by exact Q. unfold q. field. repeat split; lra.
Qed.
Lemma wave_excess norm r L d H th Ht at_ : swLen r = Fin L -> swDepth r = Fin d -> swHs r = Fin H -> swDir r = Fin th -> 0 < L -> 0 < d ->
  0 < cos (rad norm - rad th) -> 0 <= H -> 0 <= Ht -> deep_wave L d H (rad norm - rad th) Ht at_ ->
  wvHs (waveRow (Fin norm) r) = Fin (Ht / group_ratio L d) /\ (0 < Ht -> Ht < Ht / group_ratio L d < 2 * Ht).
Proof.
  intros E1 E2 E3 E4 PL PD CA PH PT DW. destruct (beach_angle norm th) as (a & k & EA & B & E). destruct (sin_turn (rad norm - rad th) k) as [TS TC]. rewrite <- E in TS, TC.
  apply (row_excess norm r L d H th a Ht at_); try assumption; [rewrite TC; assumption|]. apply (deep_turn L d H a (rad norm - rad th)); assumption.
Qed.
Lemma wave_grazing norm r L d H th : swLen r = Fin L -> swDepth r = Fin d -> swHs r = Fin H -> swDir r = Fin th -> 0 < L -> 0 < d ->
  0 < cos (rad norm - rad th) -> 1 <= Rabs (deep_ratio L d * sin (rad norm - rad th)) -> 0 < H -> wvHs (waveRow (Fin norm) r) = PInf.
Proof.
  intros E1 E2 E3 E4 PL PD CA BS PH. destruct (beach_angle norm th) as (a & k & EA & B & E). destruct (sin_turn (rad norm - rad th) k) as [TS TC]. rewrite <- E in TS, TC.
  apply (row_grazing norm r L d H th a); try assumption; [rewrite TC; assumption|rewrite TS; assumption].
Qed.

(** Examples. *)
Definition wRow (min : Z) (dir : R) : swan xr := mkSw 2020 1 31 12 min (Fin 2) (Fin 8) (Fin dir) (Fin 50) (Fin 10) (Fin (-3)) (Fin 4).
Lemma wave_example : 0 < cos (rad 128 - rad 128) /\ exists Ht at_, 0 < Ht /\ deep_wave 50 10 2 (rad 128 - rad 128) Ht at_ /\
  wvHs (waveRow (Fin 128) (wRow 0 128)) = Fin (Ht / group_ratio 50 10).
Proof.
  replace (rad 128 - rad 128) with 0 by ring. rewrite cos_0. split; [lra|].
  destruct (deep_exists 50 10 2 0) as (Ht & at_ & P & DW); [lra|lra|rewrite cos_0; lra|rewrite sin_0; lra|]. exists Ht, at_.
  assert (0 < Ht). { destruct DW as (_ & C & FX). apply Rnot_le_lt. intros Q. assert (Ht = 0) by lra. subst Ht. unfold flux in FX. rewrite cos_0 in FX. pose proof (group_range 50 10 ltac:(lra) ltac:(lra)). lra. }
  split; [assumption|]. split; [assumption|]. apply (wave_excess 128 (wRow 0 128) 50 10 2 128 Ht at_); try reflexivity; try lra; replace (rad 128 - rad 128) with 0 by ring; [rewrite cos_0; lra|assumption].
Qed.
(** Energy flux is not conserved. *)
Lemma flux_refuted : exists norm r L d H th H0, swLen r = Fin L /\ swDepth r = Fin d /\ swHs r = Fin H /\ swDir r = Fin th /\ 0 < L /\ 0 < d /\ 0 < H /\
  0 < cos (rad norm - rad th) /\ wvHs (waveRow (Fin norm) r) = Fin H0 /\ forall a0, ~ deep_wave L d H (rad norm - rad th) H0 a0.
Proof.
  destruct wave_example as (_ & Ht & at_ & P & DW & EH). exists 128, (wRow 0 128), 50, 10, 2, 128, (Ht / group_ratio 50 10).
  do 4 (split; [reflexivity|]). do 3 (split; [lra|]). split; [replace (rad 128 - rad 128) with 0 by ring; rewrite cos_0; lra|]. split; [exact EH|].
  intros a0 DW'. pose proof (group_range 50 10 ltac:(lra) ltac:(lra)) as G. set (n := group_ratio 50 10) in *.
  assert (PN : 0 < Ht / n) by (apply Rdiv_lt_0_compat; lra).
  destruct (wave_excess 128 (wRow 0 128) 50 10 2 128 (Ht / n) a0) as [EH' _]; try reflexivity; try lra; [replace (rad 128 - rad 128) with 0 by ring; rewrite cos_0; lra|exact DW'|].
  rewrite EH in EH'. injection EH' as EH'. fold n in EH'. assert (Ht / n * n = Ht / n / n * n) by congruence.
  replace (Ht / n * n) with Ht in H by (field; lra). replace (Ht / n / n * n) with (Ht / n) in H by (field; lra).
  assert (Ht * n = Ht) by (rewrite H at 1; field; lra). assert (Ht * (1 - n) = 0) by lra. apply Rmult_integral in H1. lra.
Qed.
Lemma grazing_example : exists th, 0 < cos (rad 0 - rad th) /\ 1 <= Rabs (deep_ratio 1000 (1/10) * sin (rad 0 - rad th)).
Proof.
  exists (-60). unfold rad. replace (0 * PI / 180 - -60 * PI / 180) with (PI / 3) by field. rewrite cos_PI3, sin_PI3. split; [lra|].
  pose proof PI_RGT_0. pose proof PI_4. set (x := 2 * PI * (1 / 10) / 1000). assert (PX : 0 < x < 1/4) by (unfold x; lra). 
  unfold deep_ratio. fold x. destruct (tanh_range x ltac:(lra)) as [T0 T1].
  assert (T2 : tanh x < 1 / 2).
  { unfold tanh. pose proof (cosh_gt1 x ltac:(lra)). apply (Rmult_lt_reg_r (cosh x)); [lra|]. unfold Rdiv. rewrite Rmult_assoc, Rinv_l by lra.
    unfold sinh, cosh. assert (exp x < 4/3). { rewrite <- (Rinv_inv (exp x)), <- exp_Ropp. replace (4/3) with (/ (3/4)) by field. apply Rinv_lt_contravar; [apply Rmult_lt_0_compat; [lra|apply exp_pos]|].
      pose proof (exp_ineq1 (- x) ltac:(lra)). lra. }
    assert (3/4 < exp (- x)). { pose proof (exp_ineq1 (- x) ltac:(lra)). lra. } lra. }
  assert (T3 : 2 < / tanh x). { replace 2 with (/ (1 / 2)) by field. apply Rinv_lt_contravar; [apply Rmult_lt_0_compat; lra|lra]. }
  assert (S3 : 1 <= sqrt 3). { rewrite <- sqrt_1. apply sqrt_le_1; lra. }
  rewrite Rabs_right. 2:{ apply Rle_ge, Rmult_le_pos; lra. }
  assert (2 * (1/2) <= / tanh x * (sqrt 3 / 2)); [|lra]. apply Rmult_le_compat; lra.
Qed.
Lemma offshore_example : cos (rad 0 - rad 180) <= 0.
Proof. unfold rad. replace (0 * PI / 180 - 180 * PI / 180) with (- PI) by field. rewrite cos_neg, cos_PI. lra. Qed.
(** Times. *)
Lemma row_time {F} {NF : Num F} norm (r : swan F) : wvTime (waveRow norm r) = (swYear r, swMonth r, swDay r, swHour r, 0%Z).
Proof. unfold waveRow. destruct (maskWave _ _). reflexivity. Qed.
Lemma minute_refuted : exists r r' : swan xr, swMin r <> swMin r' /\ wvTime (waveRow (Fin 128) r) = wvTime (waveRow (Fin 128) r').
Proof. exists (wRow 0 128), (wRow 30 128). split; [discriminate|]. rewrite !row_time. reflexivity. Qed.
Lemma file_rows {F} {NF : Num F} norm (l : list (swan F)) : length (waveFile norm l) = length l /\
  forall i w, nth_error (waveFile norm l) i = Some w -> exists r, nth_error l i = Some r /\ w = waveRow norm r /\ wvPeriod w = swPeriod r /\ wvLen w = swLen r /\
    wvPower w = wavePower (swX r) (swY r) /\ wvEDir w = energyDir (swX r) (swY r) /\ wvTime w = (swYear r, swMonth r, swDay r, swHour r, 0%Z).
Proof.
  unfold waveFile. split; [apply map_length|]. intros i w H. rewrite nth_error_map in H. destruct (nth_error l i) as [r|]; [|discriminate]. apply Some_inj in H. subst w.
  exists r. split; [reflexivity|]. split; [reflexivity|]. unfold waveRow. destruct (maskWave _ _). repeat split.
Qed.
