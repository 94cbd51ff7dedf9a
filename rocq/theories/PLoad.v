(** Proofs: derived parameters, initial grid and river bed, wave directions, trimming. *)
From Coq Require Import Reals List ZArith Bool Lia Lra Sorted.
From Verif Require Import Base Num Xr Flt MState MGeom MOut MLoad SGeom SLoad PGeom PLag PHyd PRate PFill.
Import ListNotations.
Local Open Scope R_scope.

Lemma nth_lt {A} (l : list A) i x : nth_error l i = Some x -> (i < length l)%nat.
Proof. intros H. apply nth_error_Some. congruence. Qed.

(** Derived parameters. *)
Lemma bar_line th top tw spit : tw <> spit -> exists m c,
  barRatSlope (Fin th) (Fin top) (Fin tw) (Fin spit) = Fin m /\ barRatInt (Fin th) (Fin top) (Fin tw) (Fin spit) = Fin c /\
  m * spit + c = top /\ m * tw + c = th.
Proof.
  intros N. unfold barRatInt, barRatSlope. xf. do 2 eexists. repeat split; field; lra.
Qed.
Lemma k2_val k rs rw g v : (rs - rw) * g * (1 - v) <> 0 -> exists r,
  k2coef (Fin k) (Fin rs) (Fin rw) (Fin g) (Fin v) = Fin r /\ r * ((rs - rw) * g * (1 - v)) = k.
Proof. intros N. unfold k2coef. xf. eexists. split; [reflexivity|]. field. repeat split; intro E; apply N; rewrite E; ring. Qed.
Lemma breaker_val rw g ga : 0 < rw -> 0 < g -> 0 < ga -> exists r,
  breakerCoef (Fin rw) (Fin g) (Fin ga) = Fin r /\ r * (rw * (g * sqrt g) * (ga * ga)) = 8.
Proof.
  intros A B C. unfold breakerCoef. change (@fofQ xr _ 15 10) with (Fin (IZR 15 / IZR 10)). rewrite !xofZ.
  change (fpow (Fin g) (Fin (15 / 10))) with (xpow (Fin g) (Fin (15 / 10))). change (fpow (Fin ga) (Fin 2)) with (xpow (Fin ga) (Fin 2)).
  rewrite !xpow_pos by assumption.
  assert (E1 : Rpower g (15 / 10) = g * sqrt g).
  { replace (15 / 10) with (1 + / 2) by lra. rewrite Rpower_plus, Rpower_1, Rpower_sqrt by assumption. reflexivity. }
  assert (E2 : Rpower ga 2 = ga * ga).
  { replace 2 with (1 + 1) by lra. rewrite Rpower_plus, !Rpower_1 by assumption. reflexivity. }
  rewrite E1, E2. pose proof (sqrt_lt_R0 g B) as S.
  assert (N : rw * (g * sqrt g) * (ga * ga) <> 0) by (apply Rgt_not_eq; repeat apply Rmult_lt_0_compat; assumption).
  xf. eexists. split; [reflexivity|]. field. lra.
Qed.

(** np.arange in exact arithmetic. *)
Lemma ceil_spec x : ceiling x (IZR (fceil (Fin x))).
Proof.
  unfold fceil, ceiling. change (ffloor (- Fin x)%n) with (Rfloor (- x)). rewrite opp_IZR.
  destruct (Rfloor_spec (- x)). lra.
Qed.
Lemma ceil_nat x : -1 < x -> ceiling x (INR (Z.to_nat (fceil (Fin x)))) .
Proof.
  intros P. pose proof (ceil_spec x) as S. assert (0 <= fceil (Fin x))%Z.
  { destruct S as [_ S2]. apply le_IZR. apply Rnot_lt_le. intros L.
    assert (IZR (fceil (Fin x)) <= -1). { apply IZR_le. apply lt_IZR in L. lia. } lra. }
  rewrite INR_IZR_INZ, Z2Nat.id by assumption. exact S.
Qed.
Lemma arange_val a b s : s <> 0 -> farange (Fin a) (Fin b) (Fin s) =
  map Fin (map (fun i => a + INR i * s) (seq 0 (Z.to_nat (fceil (Fin ((b - a) / s)))))).
Proof.
  intros N. unfold farange. xf. rewrite map_map. apply map_ext. intros [|[|i]].
  - f_equal. cbn [INR]. ring.
  - xf. f_equal. cbn [INR]. ring.
  - rewrite INR_IZR_INZ. xf. f_equal. ring.
Qed.

Lemma river_bed P I dx slope len bed : pRiverSlope P = Fin slope -> pUpstreamLength P = Fin len -> iLagoonBed I = Fin bed ->
  0 < slope -> 0 < len -> 0 < dx ->
  exists l, iniRiver P (Fin dx) I = map Fin l /\ ceiling (len / dx) (INR (length l)) /\
    forall i z, nth_error l i = Some z -> z = bed + INR (length l - 1 - i) * (slope * dx).
Proof.
  intros ES EL B S L D. unfold iniRiver. rewrite ES, EL, B. xf.
  assert (ND : slope * dx <> 0) by (apply Rgt_not_eq, Rmult_lt_0_compat; assumption).
  rewrite arange_val by exact ND. rewrite <- map_rev.
  replace ((bed + slope * len - bed) / (slope * dx)) with (len / dx) by (field; lra).
  assert (P1 : -1 < len / dx). { pose proof (Rdiv_lt_0_compat len dx L D). lra. }
  pose proof (ceil_nat _ P1) as C. set (n := Z.to_nat (fceil (Fin (len / dx)))) in *.
  eexists. split; [reflexivity|]. rewrite rev_length, map_length, seq_length. split; [exact C|].
  intros i z Hi. assert (Li : (i < n)%nat).
  { apply nth_lt in Hi. rewrite rev_length, map_length, seq_length in Hi. exact Hi. }
  rewrite nth_error_rev in Hi by (rewrite map_length, seq_length; exact Li).
  rewrite map_length, seq_length, nth_error_map_seq in Hi.
  destruct (Nat.ltb_spec (n - 1 - i) n); [|lia]. injection Hi as <-. reflexivity.
Qed.

(** The default grid. *)
Lemma straight_grid dx left right : 0 < dx -> 0 <= left -> 0 <= right ->
  exists l, straightX (Fin dx) (Fin left) (Fin right) = map Fin l /\ spaced dx l /\
    (exists i, nth_error l i = Some 0 /\ forall j, nth_error l j = Some 0 -> j = i) /\
    (exists a, nth_error l 0 = Some a /\ - left - dx < a <= - left) /\
    (exists z, nth_error l (length l - 1) = Some z /\ right <= z < right + dx).
Proof.
  intros D L R. unfold straightX. rewrite xofZ. xf.
  change (ffloor (Fin (- left / dx))) with (Rfloor (- left / dx)).
  destruct (Rfloor_spec (- left / dx)) as [F1 F2]. set (k := Rfloor (- left / dx)) in *. xf.
  rewrite arange_val by lra.
  replace ((right + dx - IZR k * dx) / dx) with (right / dx + 1 - IZR k) by (field; lra).
  assert (Ldx : - left / dx <= 0).
  { unfold Rdiv. rewrite Ropp_mult_distr_l_reverse. assert (0 <= left * / dx); [|lra].
    apply Rmult_le_pos; [lra|]. left. apply Rinv_0_lt_compat, D. }
  assert (Rdx : 0 <= right / dx). { apply Rmult_le_pos; [lra|]. left. apply Rinv_0_lt_compat, D. }
  assert (K : (k <= 0)%Z). { apply le_IZR. lra. }
  assert (KR : IZR k <= 0). { apply IZR_le in K. exact K. }
  pose proof (ceil_nat (right / dx + 1 - IZR k)) as C. specialize (C ltac:(lra)).
  set (n := Z.to_nat _) in *. destruct C as [C1 C2].
  assert (EK : IZR k = - INR (Z.to_nat (- k))). { rewrite INR_IZR_INZ, Z2Nat.id, opp_IZR by lia. ring. }
  assert (HK : (Z.to_nat (- k) < n)%nat). { apply INR_lt. lra. }
  set (m := Z.to_nat (- k)) in *.
  assert (NT : forall i, nth_error (map (fun i => IZR k * dx + INR i * dx) (seq 0 n)) i = if Nat.ltb i n then Some ((INR i - INR m) * dx) else None).
  { intros i. rewrite nth_error_map_seq. destruct (Nat.ltb i n); [|reflexivity]. f_equal. rewrite EK. ring. }
  eexists. split; [reflexivity|]. rewrite map_length, seq_length. split; [|split; [|split]].
  - intros i a b. rewrite !NT. destruct (Nat.ltb_spec i n); [|discriminate]. destruct (Nat.ltb_spec (S i) n); [|discriminate].
    intros Ha Hb. apply Some_inj in Ha, Hb. subst a b. rewrite S_INR. ring.
  - exists m. split.
    + rewrite NT. destruct (Nat.ltb_spec m n); [|lia]. f_equal. ring.
    + intros j. rewrite NT. destruct (Nat.ltb_spec j n); [|discriminate]. intros [= E]. apply INR_eq.
      apply Rmult_integral in E. lra.
  - eexists. split; [rewrite NT; destruct (Nat.ltb_spec 0 n); [reflexivity|lia]|]. cbn [INR].
    replace ((0 - INR m) * dx) with (IZR k * dx) by (rewrite EK; ring).
    assert (E : left = - (- left / dx) * dx) by (field; lra). split; [|].
    + rewrite E at 1. assert (0 < (IZR k + 1 - - left / dx) * dx) by (apply Rmult_lt_0_compat; lra). lra.
    + rewrite E. assert (0 <= (- left / dx - IZR k) * dx) by (apply Rmult_le_pos; lra). lra.
  - eexists. split; [rewrite NT; destruct (Nat.ltb_spec (n - 1) n); [reflexivity|lia]|].
    assert (EN : INR (n - 1) = INR n - 1) by (rewrite minus_INR by lia; reflexivity). rewrite EN.
    assert (E : right = right / dx * dx) by (field; lra). split.
    + rewrite E at 1. apply Rmult_le_compat_r; lra.
    + replace (right + dx) with ((right / dx + 1) * dx) by (field; lra). apply Rmult_lt_compat_r; lra.
Qed.

Lemma straight_rows P I dx left right beach sp ow rw b be ob lb :
  pSpitWidth P = Fin sp -> pRiverWidth P = Fin rw -> I = mkIni (Fin lb) (Fin ob) (Fin ow) (Fin be) -> beach = Fin b ->
  forall T e0 e1 W Z, straightShore P I (Fin dx) (Fin left) (Fin right) beach = (T, e0, e1, W, Z) ->
  map tX T = straightX (Fin dx) (Fin left) (Fin right) /\ e0 = Fin 0 /\ e1 = Fin 0 /\ W = Fin ow /\ Z = Fin ob /\
  forall i t, nth_error T i = Some t -> forall x, tX t = Fin x ->
    (x = 0 -> t = mkT (Fin 0) (Fin 0) (Fin (- sp)) (Fin (- sp - ow)) (Fin (- sp - ow - 1/1000)) (Fin (- sp - ow - rw))
                      (Fin be) (Fin ((ob + lb) / 2)) (Fin be) (Fin lb)) /\
    (x <> 0 -> t = mkT (Fin x) (Fin 0) NaN NaN (Fin (- b)) (Fin (- b)) (Fin be) NaN NaN (Fin lb)).
Proof.
  intros E1 E2 -> -> T e0 e1 W Z0 H. unfold straightShore in H. injection H as <- <- <- <- <-.
  split. { rewrite map_map. rewrite <- map_id. apply map_ext. intros x. unfold straightRow. destruct (x =? f0)%n; reflexivity. }
  repeat (split; [reflexivity|]). intros i t Hi x Hx. rewrite nth_error_map in Hi.
  destruct (nth_error (straightX _ _ _) i) as [y|]; [|discriminate]. injection Hi as <-.
  assert (y = Fin x) as ->. { revert Hx. unfold straightRow. destruct (y =? f0)%n; auto. }
  unfold straightRow. change (@f0 xr _) with (Fin 0). change (Fin x =? Fin 0)%n with (Reqb x 0). rewrite E1, E2.
  cbn [iOutletWidth iBarrierElev iOutletBed iLagoonBed]. split.
  - intros ->. rewrite (proj2 (Reqb_true 0 0)) by reflexivity. change (@fofQ xr _ 1 1000) with (Fin (IZR 1 / IZR 1000)). xf. reflexivity.
  - intros N. rewrite (proj2 (Reqb_false x 0)) by exact N. xf. reflexivity.
Qed.

(** Wave directions. *)
Lemma wave_dir n d : exists r k, waveDir (Fin n) (Fin d) = Fin r /\ - PI <= r < PI /\ r = d * PI / 180 - n + IZR k * (2 * PI).
Proof.
  unfold waveDir, deg2rad. change (@fpi xr _) with (Fin PI). rewrite !xofZ. xf.
  pose proof PI_RGT_0 as P. 
  match goal with |- context [fmod (Fin ?a) (Fin ?b)] => change (fmod (Fin a) (Fin b)) with (xmod (Fin a) (Fin b)); set (x := a) end.
  rewrite xmod_fin by lra. rewrite PRate.xsub. destruct (Rfloor_spec (x / (2 * PI))) as [F1 F2]. set (k := Rfloor _) in *.
  eexists. exists (- k)%Z. split; [reflexivity|]. rewrite opp_IZR. split.
  - assert (E : x = x / (2 * PI) * (2 * PI)) by (field; lra). split.
    + assert (0 <= (x / (2 * PI) - IZR k) * (2 * PI)) by (apply Rmult_le_pos; lra). lra.
    + assert ((x / (2 * PI) - IZR k) * (2 * PI) < 1 * (2 * PI)) by (apply Rmult_lt_compat_r; lra). lra.
  - unfold x. field.
Qed.
