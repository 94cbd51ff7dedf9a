(** Proofs: trimming of boundary series, origin and orientation, initial channel. *)
From Coq Require Import Reals List ZArith Bool Lia Lra Sorted.
From Verif Require Import Base Num Xr Flt MState MGeom MOut MLoad SGeom SLoad PGeom PLag PHyd PRate PFill PLoad.
Import ListNotations.

Lemma gather_shift {A} (x : A) l idx : gather (x :: l) (map S idx) = gather l idx.
Proof. induction idx as [|i r IH]; [reflexivity|]. cbn [map gather]. rewrite IH. reflexivity. Qed.
Lemma filter_map {A B} (f : A -> B) p l : filter p (map f l) = map f (filter (fun a => p (f a)) l).
Proof. induction l as [|a l IH]; [reflexivity|]. cbn. destruct (p (f a)); cbn; rewrite IH; reflexivity. Qed.
Lemma filter2_idx {A} : forall (l : list A) mask, length mask = length l ->
  gather l (filter (fun i => nth i mask false) (seq 0 (length l))) = Ok (filter2 mask l).
Proof.
  induction l as [|x l IH]; intros [|b mask] E; try discriminate; [reflexivity|].
  cbn [length seq filter nth filter2]. rewrite <- seq_shift, filter_map. injection E as E. specialize (IH _ E).
  destruct b; cbn [gather ix nth_error of_opt bind]; rewrite gather_shift, IH; reflexivity.
Qed.

Lemma seq_sorted n : forall a, StronglySorted lt (seq a n).
Proof.
  induction n as [|n IH]; intros a; cbn [seq]; constructor; [apply IH|]. apply Forall_forall. intros x Hx. apply in_seq in Hx. lia.
Qed.

Section Trim.
  Context {A : Type}.
  Variables (start stop dtMax : Z) (s s' : list (Z * A)).
  Hypothesis H : trimSeries start stop dtMax s = Ok s'.
  Lemma trim_keeps : keeps (retained start stop dtMax (map fst s)) s s'.
  Proof.
    unfold trimSeries in H. apply bind_ok in H as (a & Ha & H1). apply bind_ok in H1 as (z & Hz & H1). apply bind_ok in H1 as (u & _ & H1).
    apply Ok_inj in H1. subst s'. set (mask := keepMask _ _ _ _).
    assert (LM : length mask = length s) by (unfold mask, keepMask; rewrite mapi_length; apply map_length).
    eexists. split; [|split; [|exact (filter2_idx s mask LM)]].
    - apply sorted_filter, seq_sorted.
    - intros i. rewrite filter_In, in_seq. split.
      + intros [L E]. split; [lia|]. destruct (nth_error mask i) as [b|] eqn:Em; [|apply nth_error_None in Em; lia].
        rewrite (nth_error_nth _ _ _ Em) in E. subst b. unfold mask, keepMask in Em. rewrite nth_error_mapi in Em.
        destruct (nth_error (map fst s) i) eqn:En; [|discriminate]. cbn [option_map] in Em. apply Some_inj in Em.
        unfold retained. destruct i as [|j].
        * destruct (nth_error (map fst s) 1) as [t|]; [|discriminate]. exists t. split; [reflexivity|]. apply Z.ltb_lt, Em.
        * destruct (nth_error (map fst s) j) as [t|]; [|discriminate]. exists t. split; [reflexivity|]. apply Z.ltb_lt, Em.
      + intros [L E]. split; [lia|]. apply nth_error_nth. unfold mask, keepMask. rewrite nth_error_mapi.
        destruct (nth_error (map fst s) i) eqn:En; [|apply nth_error_None in En; rewrite map_length in En; lia]. cbn [option_map]. f_equal.
        unfold retained in E. destruct i as [|j]; destruct E as (t & -> & Lt); apply Z.ltb_lt, Lt.
  Qed.
  Lemma trim_asserts : covers start stop s.
  Proof.
    unfold trimSeries in H. apply bind_ok in H as (a & Ha & H1). apply bind_ok in H1 as (z & Hz & H1). apply bind_ok in H1 as (u & Hu & _).
    apply assert_ok in Hu. apply andb_true_iff in Hu as [U1 U2]. apply Z.leb_le in U1, U2. apply ix_ok in Ha.
    split; [exists a; auto|]. exists z. split; [|exact U2]. rewrite <- pynth_m1 in Hz.
    apply pynth_ok in Hz as (i & Hi & Hz). apply pyix_m1 in Hi as [_ ->]. exact Hz.
  Qed.
End Trim.

Lemma ordered_lt {A} (s : list (Z * A)) : ordered_times s -> forall i j a b, nth_error s i = Some a -> nth_error s j = Some b -> (i < j)%nat -> (fst a < fst b)%Z.
Proof.
  intros O i j. revert i. induction j as [|j IH]; intros i a b Ha Hb L; [lia|].
  destruct (nth_error s j) as [c|] eqn:Ec; [|apply nth_error_None in Ec; apply nth_lt in Hb; lia].
  pose proof (O j c b Ec Hb). destruct (Nat.eq_dec i j) as [->|N]; [congruence|]. pose proof (IH i a c Ha eq_refl ltac:(lia)). lia.
Qed.
Lemma trim_covers {A} start stop dtMax (s s' : list (Z * A)) : ordered_times s -> (start < stop)%Z -> (0 <= dtMax)%Z ->
  trimSeries start stop dtMax s = Ok s' -> covers start stop s'.
Proof.
  intros O L D H. destruct (trim_asserts _ _ _ _ _ H) as [(a & Ha & La) (z & Hz & Lz)].
  destruct (trim_keeps _ _ _ _ _ H) as (idx & SS & K & G).
  assert (L2 : (2 <= length s)%nat).
  { pose proof (nth_lt _ _ _ Ha). destruct (Nat.eq_dec (length s) 1) as [E|]; [|lia]. rewrite E in Hz. change (1 - 1)%nat with 0%nat in Hz. rewrite Ha in Hz. apply Some_inj in Hz. subst z. lia. }
  destruct (nth_error s 1) as [b|] eqn:Eb; [|apply nth_error_None in Eb; lia].
  assert (R0 : nth_error (map fst s) 0 = Some (fst a)) by (rewrite nth_error_map, Ha; reflexivity).
  assert (R1 : nth_error (map fst s) 1 = Some (fst b)) by (rewrite nth_error_map, Eb; reflexivity).
  assert (K1 : In 1%nat idx). { apply K. split; [lia|]. exists (fst a). split; [exact R0|lia]. }
  apply gather_ok in G. split.
  - destruct idx as [|i0 idx]; [destruct K1|]. inversion G as [|? y0 ? ys G0 GR]; subst.
    exists y0. split; [reflexivity|]. destruct (Z_lt_le_dec start (fst b)) as [Q|Q].
    + assert (I0 : In 0%nat (i0 :: idx)). { apply K. split; [lia|]. exists (fst b). auto. }
      assert (i0 = 0%nat). { destruct I0 as [I0|I0]; [auto|]. inversion SS as [|? ? _ FA]; subst. rewrite Forall_forall in FA. apply FA in I0. lia. }
      subst i0. rewrite Ha in G0. injection G0 as <-. exact La.
    + assert (i0 = 1%nat).
      { destruct K1 as [K1|K1]; [auto|]. inversion SS as [|? ? _ FA]; subst. rewrite Forall_forall in FA. apply FA in K1.
        assert (i0 = 0%nat) by lia. subst i0. destruct (proj1 (K 0%nat) (or_introl eq_refl)) as [_ (t & Ht & Lt)]. rewrite R1 in Ht. injection Ht as <-. lia. }
      subst i0. rewrite Eb in G0. injection G0 as <-. exact Q.
  - assert (exists m ys y, idx = removelast idx ++ [m] /\ s' = ys ++ [y] /\ nth_error s m = Some y /\ forall j, In j idx -> (j <= m)%nat) as (m & ys & y & Ei & -> & Hy & Mx).
    { destruct (exists_last (l:=idx)) as (pre & m & E); [intros ->; destruct K1|]. subst idx. apply Forall2_app_inv_l in G as (ys & yl & G1 & G2 & ->).
      inversion G2 as [|? y ? ? Hy GN]; subst. inversion GN; subst. exists m, ys, y. rewrite removelast_last. repeat split; auto.
      intros j Hj. apply in_app_or in Hj as [Hj|[<-|[]]]; [|lia]. clear - SS Hj. induction pre as [|p pre IH]; [destruct Hj|].
      cbn in SS. inversion SS as [|? ? S2 FA]; subst. destruct Hj as [->|Hj]; [|auto]. rewrite Forall_forall in FA.
      specialize (FA m ltac:(apply in_or_app; right; left; reflexivity)). lia. }
    exists y. split. { rewrite app_length. cbn [length]. rewrite nth_error_app2 by lia. replace (_ - _)%nat with 0%nat by lia. reflexivity. }
    destruct (Nat.eq_dec m (length s - 1)) as [->|N]; [rewrite Hz in Hy; injection Hy as <-; exact Lz|].
    pose proof (nth_lt _ _ _ Hy) as Lm. destruct (Z_lt_le_dec (fst y) (stop + dtMax)) as [Q|Q]; [|lia].
    exfalso. assert (In (S m) idx); [|pose proof (Mx _ H0); lia].
    apply K. split; [lia|]. exists (fst y). split; [rewrite nth_error_map, Hy; reflexivity|exact Q].
Qed.
(** Early records stay. *)
Lemma trim_example : trimSeries 100 200 10 [(0, 1); (20, 2); (40, 3); (100, 4); (150, 5); (205, 6); (215, 7); (230, 8)]%Z =
  Ok [(20, 2); (40, 3); (100, 4); (150, 5); (205, 6); (215, 7)]%Z.
Proof. reflexivity. Qed.

Local Open Scope R_scope.
(** Origin and orientation. *)
Lemma origin_val b0 b1 ix iy : b0 <> 0 -> exists ox oy, originOf (Fin b0, Fin b1) (Fin ix, Fin iy) = (Fin ox, Fin oy) /\
  oy = b0 * ox + b1 /\ (ix - ox) * 1 + (iy - oy) * b0 = 0.
Proof.
  intros N. unfold originOf. cbn [fst snd]. change (@f1 xr _) with (Fin 1).
  assert (N2 : b0 + 1 / b0 <> 0).
  { intros E. assert (b0 * b0 + 1 = 0). { replace (b0 * b0 + 1) with ((b0 + 1 / b0) * b0) by (field; exact N). rewrite E. ring. }
    pose proof (Rle_0_sqr b0). unfold Rsqr in *. lra. }
  rewrite !xdivf by exact N. xf. do 2 eexists. split; [reflexivity|].
  assert (N3 : b0 * b0 + 1 <> 0). { pose proof (Rle_0_sqr b0). unfold Rsqr in *. lra. }
  split; field; split; assumption.
Qed.
Lemma dir_val b0 b1 ix iy : exists d, shoreNormDir (Fin b0, Fin b1) (Fin ix, Fin iy) = Fin d /\
  exists s, (s = if Rltb 0 (ix * b0 + b1) then - 1 else 1) /\ cos d = s / sqrt (1 + b0 * b0) /\ sin d = - s * b0 / sqrt (1 + b0 * b0).
Proof.
  unfold shoreNormDir. cbn [fst snd]. xf. change (@f0 xr _) with (Fin 0). change (@f1 xr _) with (Fin 1).
  change (Fin 0 <? Fin (ix * b0 + b1))%n with (Rltb 0 (ix * b0 + b1)).
  assert (PS : 0 < 1 + b0 * b0). { pose proof (Rle_0_sqr b0). unfold Rsqr in *. lra. }
  pose proof (sqrt_lt_R0 _ PS) as SP.
  assert (G : forall y x, y * y + x * x = 1 + b0 * b0 -> exists d, fatan2 (Fin y) (Fin x) = Fin d /\
     cos d = x / sqrt (1 + b0 * b0) /\ sin d = y / sqrt (1 + b0 * b0)).
  { intros y x E. exists (Ratan2 y x). split; [reflexivity|]. destruct (polar y x) as [A B]. unfold Rsqr in A, B. rewrite ?E in A, B.
    split; apply Rmult_eq_reg_l with (sqrt (1 + b0 * b0)); try lra; rewrite ?A, ?B; field; lra. }
  destruct (Rltb 0 (ix * b0 + b1)); xf.
  - destruct (G b0 (-1)) as (d & E & C & S); [ring|]. exists d. split; [exact E|]. exists (-1). split; [reflexivity|]. rewrite C, S. split; field; lra.
  - destruct (G (- b0) 1) as (d & E & C & S); [ring|]. exists d. split; [exact E|]. exists 1. split; [reflexivity|]. rewrite C, S. split; field; lra.
Qed.
(** Where a point of the world comes to lie. *)
Lemma place_point b0 b1 ix iy X Y : b0 <> 0 -> exists x y,
  real2mod (Fin X) (Fin Y) (originOf (Fin b0, Fin b1) (Fin ix, Fin iy)) (shoreNormDir (Fin b0, Fin b1) (Fin ix, Fin iy)) = (Fin x, Fin y) /\
  y * sqrt (1 + b0 * b0) = (if Rltb 0 (ix * b0 + b1) then b0 * X + b1 - Y else Y - (b0 * X + b1)) /\
  x * sqrt (1 + b0 * b0) = (if Rltb 0 (ix * b0 + b1) then ix - X + b0 * (iy - Y) else X - ix + b0 * (Y - iy)).
Proof.
  intros N. destruct (origin_val b0 b1 ix iy N) as (ox & oy & -> & E1 & E2). destruct (dir_val b0 b1 ix iy) as (d & -> & s & Es & C & S).
  rewrite real2mod_fin, C, S. do 2 eexists. split; [reflexivity|].
  assert (PS : 0 < 1 + b0 * b0). { pose proof (Rle_0_sqr b0). unfold Rsqr in *. lra. }
  pose proof (sqrt_lt_R0 _ PS) as SP.
  assert (E3 : ix + b0 * iy = ox + b0 * oy) by lra.
  split.
  - transitivity (s * (Y - oy - b0 * (X - ox))); [field; lra|]. destruct (Rltb 0 (ix * b0 + b1)); subst s oy; ring.
  - transitivity (s * ((X + b0 * Y) - (ox + b0 * oy))); [field; lra|]. rewrite <- E3. destruct (Rltb 0 (ix * b0 + b1)); subst s; ring.
Qed.
Lemma inflow_place b0 b1 ix iy : b0 <> 0 -> exists y,
  real2mod (Fin ix) (Fin iy) (originOf (Fin b0, Fin b1) (Fin ix, Fin iy)) (shoreNormDir (Fin b0, Fin b1) (Fin ix, Fin iy)) = (Fin 0, Fin y) /\
  (y < 0 <-> if Rltb 0 (ix * b0 + b1) then b0 * ix + b1 < iy else iy < b0 * ix + b1).
Proof.
  intros N. destruct (place_point b0 b1 ix iy ix iy N) as (x & y & E & Ey & Ex). exists y.
  assert (PS : 0 < 1 + b0 * b0). { pose proof (Rle_0_sqr b0). unfold Rsqr in *. lra. }
  pose proof (sqrt_lt_R0 _ PS) as SP.
  assert (x = 0). { apply Rmult_eq_reg_r with (sqrt (1 + b0 * b0)); [|lra]. rewrite Ex. destruct (Rltb _ _); ring. }
  subst x. split; [exact E|].
  assert (Q : y < 0 <-> y * sqrt (1 + b0 * b0) < 0).
  { split; intros L; [|apply Rmult_lt_reg_r with (sqrt (1 + b0 * b0)); [exact SP|lra]].
    assert (0 < - y * sqrt (1 + b0 * b0)) by (apply Rmult_lt_0_compat; lra). lra. }
  rewrite Q, Ey. destruct (Rltb _ _); split; lra.
Qed.
Lemma flat_baseline b1 ix iy : originOf (Fin 0, Fin b1) (Fin ix, Fin iy) = (NaN, NaN).
Proof.
  unfold originOf. cbn [fst snd]. change (@f1 xr _) with (Fin 1).
  assert (E1 : (Fin 1 / Fin 0)%n = PInf).
  { cbn. unfold xdiv. repeat destruct (Req_EM_T _ _); try lra. unfold sgn_inf, Rltb. repeat (destruct (Rlt_dec _ _)); try lra; reflexivity. }
  rewrite E1. destruct (Fin ix / Fin 0)%n eqn:E2; cbn; try reflexivity.
  exfalso. apply xdiv_inv in E2. lra.
Qed.

Lemma flat_shore P I dx b1 px py shore lagoon cliff outlet : (2 <= length shore)%nat ->
  shapeShore P I dx (Fin 0, Fin b1) (Fin px, Fin py) shore lagoon cliff outlet = Exc EAssert.
Proof.
  intros L. unfold shapeShore. rewrite flat_baseline. unfold shoreCoords.
  assert (T : forall p d, real2mod (fst p) (snd p) (NaN, NaN) d = (NaN, NaN)).
  { intros p d. unfold real2mod. cbn [fst snd]. destruct (fst p), (snd p); reflexivity. }
  set (d := shoreNormDir _ _). assert (E : toModel (NaN, NaN) d shore = repeat (NaN, NaN) (length shore)).
  { clear L. induction shore as [|p l IH]; [reflexivity|]. cbn [toModel map length repeat]. rewrite T. f_equal. exact IH. }
  rewrite E. destruct (length shore) as [|[|n]]; try lia. cbn [repeat ix nth_error of_opt bind].
  assert (last_ ((NaN, NaN) :: (NaN, NaN) :: repeat (NaN, NaN) n) = Ok (NaN, NaN)) as ->.
  { rewrite <- pynth_m1. unfold pynth. change ((NaN, NaN) :: (NaN, NaN) :: repeat (NaN, NaN) n) with (repeat (NaN, NaN) (S (S n))).
    destruct (pyix (length (repeat (NaN, NaN) (S (S n)))) (-1)) as [k|] eqn:Ek.
    - unfold ix. rewrite (nth_error_nth' _ (NaN, NaN)).
      + rewrite nth_repeat. reflexivity.
      + apply pyix_bound in Ek. exact Ek.
    - exfalso. rewrite repeat_length in Ek. unfold pyix in Ek. cbn in Ek. destruct (Z.leb_spec (Z.neg (Pos.succ (Pos.of_succ_nat n))) (-1)); [discriminate|lia]. }
  cbn [bind fst]. reflexivity.
Qed.

(** One transect from the shapefiles. *)
Lemma row_inv I shore lagoon cliff outlet lmin lmax omin omax x t w : iOutletWidth I = Fin w ->
  shapeRow I shore lagoon cliff outlet lmin lmax omin omax x = Ok t ->
  tX t = x /\ tZ0 t = iBarrierElev I /\ tZ3 t = iLagoonBed I /\ tZ1 t = NaN /\ tZ2 t = NaN /\
  ((tY1 t = NaN /\ tY2 t = NaN) \/
   exists y, tY1 t = Fin (y + w / 2) /\ tY2 t = Fin (y - w / 2) /\ (tY3 t <? tY2 t)%n = true /\ (tY1 t <? tY0 t)%n = true) /\
  ((lmin <? x)%n = false \/ (x <? lmax)%n = false -> tY3 t = tY4 t).
Proof.
  intros EW H. unfold shapeRow in H. apply bind_ok in H as (cl & Hcl & H). apply bind_ok in H as (y4 & H4 & H).
  apply bind_ok in H as (y3 & H3 & H). apply bind_ok in H as ([y1 y2] & H12 & H). apply Ok_inj in H. subst t.
  cbn [tX tY0 tY1 tY2 tY3 tY4 tZ0 tZ1 tZ2 tZ3]. repeat (split; [reflexivity|]). split.
  - destruct ((omin <? x)%n && (x <? omax)%n)%bool.
    + apply bind_ok in H12 as (ys & Hys & H12). destruct ys as [|y [|? ?]]; try discriminate. rewrite EW in H12.
      change (@f2 xr _) with (Fin 2) in H12. rewrite xdivf in H12 by lra.
      destruct ((y3 <? y - Fin (w / 2))%n && (y + Fin (w / 2) <? interpX shore x)%n)%bool eqn:Q.
      * apply Ok_inj in H12. pose proof (f_equal fst H12) as A. pose proof (f_equal snd H12) as B. cbn [fst snd] in A, B. subst y1 y2.
        apply andb_true_iff in Q as [Q1 Q2]. right.
        destruct y as [y| | |]; [exists y; auto| | |].
        -- exfalso. clear - Q2. destruct (interpX shore x); discriminate.
        -- exfalso. clear - Q1. destruct y3; discriminate.
        -- exfalso. clear - Q1. destruct y3; discriminate.
      * apply Ok_inj in H12. pose proof (f_equal fst H12) as A. pose proof (f_equal snd H12) as B. cbn [fst snd] in A, B. subst y1 y2. left. split; reflexivity.
    + apply Ok_inj in H12. pose proof (f_equal fst H12) as A. pose proof (f_equal snd H12) as B. cbn [fst snd] in A, B. subst y1 y2. left. split; reflexivity.
  - intros Q. destruct ((lmin <? x)%n && (x <? lmax)%n)%bool eqn:E.
    + apply andb_true_iff in E as [E1 E2]. destruct Q; congruence.
    + apply Ok_inj in H3. auto.
Qed.

(** Bed levels along the channel. *)
Section Beds.
  Context {F : Type} {NF : Num F}.
  Lemma setBeds_nth (bed : nat -> F) crest : forall T k i t, nth_error T i = Some t ->
    nth_error (setBeds bed crest k T) i = Some (if hasOutlet t then setZ2 crest (setZ1 (bed (k + length (filter hasOutlet (firstn i T)))%nat) t) else t).
  Proof.
    induction T as [|u T IH]; intros k [|i] t Ht; try discriminate; cbn [setBeds].
    - injection Ht as ->. cbn [firstn filter length]. rewrite Nat.add_0_r. destruct (hasOutlet t); reflexivity.
    - cbn [nth_error] in Ht. cbn [firstn filter]. destruct (hasOutlet u) eqn:E; cbn [nth_error length]; rewrite (IH _ _ _ Ht); [|reflexivity].
      rewrite Nat.add_succ_r. reflexivity.
  Qed.
  Lemma setBeds_length (bed : nat -> F) crest : forall T k, length (setBeds bed crest k T) = length T.
  Proof. induction T as [|u T IH]; intros k; cbn [setBeds]; [reflexivity|]. destruct (hasOutlet u); cbn [length]; rewrite IH; reflexivity. Qed.
  Lemma split_count (p : tsect F -> bool) T i t : nth_error T i = Some t -> p t = true ->
    (length (filter p T) - 1 - length (filter p (firstn i T)) = length (filter p (skipn (S i) T)))%nat.
  Proof.
    intros Ht Pt. rewrite <- (firstn_skipn i T) at 1. rewrite filter_app, app_length.
    assert (skipn i T = t :: skipn (S i) T) as ->.
    { clear Pt. revert i Ht. induction T as [|u T IH]; intros [|i] Ht; try discriminate; [injection Ht as ->; reflexivity|]. cbn [skipn]. rewrite (IH i Ht). destruct T; reflexivity. }
    cbn [filter]. rewrite Pt. cbn [length]. lia.
  Qed.
  Lemma beds_nth I toR (T : list (tsect F)) i t : nth_error T i = Some t ->
    nth_error (outletBeds I toR T) i = Some (if hasOutlet t
      then setZ2 (iBarrierElev I) (setZ1 (bedLevel I (length (filter hasOutlet T)) (length (filter hasOutlet (if toR then firstn i T else skipn (S i) T)))) t)
      else t).
  Proof.
    intros Ht. unfold outletBeds. rewrite (setBeds_nth _ _ _ _ _ _ Ht). destruct (hasOutlet t) eqn:E; [|reflexivity].
    cbn [Nat.add]. destruct toR; [reflexivity|]. rewrite (split_count hasOutlet T i t Ht E). reflexivity.
  Qed.
End Beds.
Lemma bed_val I a b n k : iLagoonBed I = Fin a -> iOutletBed I = Fin b -> (0 < n)%nat ->
  bedLevel I n k = Fin (a + INR k * ((b - a) / INR n)).
Proof.
  intros Ea Eb L. unfold bedLevel. rewrite Ea, Eb. assert (INR n <> 0) by (apply not_0_INR; lia). rewrite !xofZ, <- !INR_IZR_INZ. xf. reflexivity.
Qed.
