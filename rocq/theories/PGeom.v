(** Proofs about the model of geom.py. *)
From Coq Require Import ZArith List Bool Lia Floats.
From Verif Require Import Base Num Xr Flt MGeom SGeom.
Local Open Scope R_scope.

(** * Coordinate transforms *)

Lemma cos_atan_pos x : 0 < cos (atan x).
Proof. apply cos_gt_0; [destruct (atan_bound x); lra | destruct (atan_bound x); lra]. Qed.

Lemma sincos_atan y x (Hx : x <> 0) :
  sin (atan (y / x)) * x = y * cos (atan (y / x)).
Proof.
  assert (Hc := cos_atan_pos (y / x)).
  assert (tan (atan (y / x)) = y / x) by apply tan_atan.
  unfold tan in H.
  assert (E : sin (atan (y / x)) = y / x * cos (atan (y / x))) by (rewrite <- H at 2; field; lra).
  rewrite E. field. auto.
Qed.

Lemma cos_atan_scaled y x (Hx : x <> 0) :
  sqrt (y * y + x * x) * cos (atan (y / x)) = Rabs x /\
  sqrt (y * y + x * x) * sin (atan (y / x)) = Rabs x * (y / x).
Proof.
  assert (Hc := cos_atan_pos (y / x)).
  assert (Hs := sincos_atan y x Hx).
  assert (Hsq : (sqrt (y*y + x*x) * cos (atan (y/x))) * (sqrt (y*y + x*x) * cos (atan (y/x))) = x * x).
  { assert (0 <= y*y + x*x) by nra.
    transitivity ((sqrt (y*y+x*x) * sqrt (y*y+x*x)) * (cos (atan (y/x)) * cos (atan (y/x)))); [ring|].
    rewrite sqrt_sqrt by auto.
    assert (P := sin2_cos2 (atan (y/x))). unfold Rsqr in P.
    set (s := sin (atan (y/x))) in *. set (c := cos (atan (y/x))) in *.
    assert (y * c * (y * c) = s * x * (s * x)) by (rewrite Hs; ring).
    replace ((y*y + x*x) * (c*c)) with (y*c*(y*c) + x*x*(c*c)) by ring.
    rewrite H0. transitivity (x * x * (s*s + c*c)); [ring|]. rewrite P. ring. }
  assert (Hp : 0 <= sqrt (y*y + x*x) * cos (atan (y/x))).
  { apply Rmult_le_pos; [apply sqrt_pos|lra]. }
  assert (E1 : sqrt (y*y + x*x) * cos (atan (y/x)) = Rabs x).
  { rewrite <- (Rabs_pos_eq (sqrt (y*y + x*x) * cos (atan (y/x)))) by auto.
    apply Rsqr_eq_abs_0. unfold Rsqr. auto. }
  split; [auto|].
  assert (E2 : sin (atan (y/x)) = cos (atan (y/x)) * (y / x)) by (apply Rmult_eq_reg_r with x; auto; rewrite Hs; field; auto).
  rewrite E2. rewrite <- Rmult_assoc, E1. reflexivity.
Qed.

Lemma polar y x :
  sqrt (y * y + x * x) * cos (Ratan2 y x) = x /\
  sqrt (y * y + x * x) * sin (Ratan2 y x) = y.
Proof.
  unfold Ratan2. destruct (Rlt_dec 0 x).
  - destruct (cos_atan_scaled y x) as [A B]; [lra|]. rewrite A, B, (Rabs_pos_eq x) by lra.
    split; [auto|field; lra].
  - destruct (Rlt_dec x 0).
    + destruct (cos_atan_scaled y x) as [A B]; [lra|]. rewrite (Rabs_left x) in A, B by lra.
      destruct (Rle_dec 0 y).
      * rewrite neg_cos, neg_sin. split.
        { transitivity (- (sqrt (y*y + x*x) * cos (atan (y/x)))); [ring|]. rewrite A; ring. }
        { transitivity (- (sqrt (y*y + x*x) * sin (atan (y/x)))); [ring|]. rewrite B; field; lra. }
      * replace (atan (y/x) - PI) with (- (PI - atan (y/x))) by ring.
        rewrite cos_neg, sin_neg, sin_PI_x.
        replace (PI - atan (y/x)) with (- atan (y/x) + PI) by ring. rewrite neg_cos, cos_neg. split.
        { transitivity (- (sqrt (y*y + x*x) * cos (atan (y/x)))); [ring|]. rewrite A; ring. }
        { transitivity (- (sqrt (y*y + x*x) * sin (atan (y/x)))); [ring|]. rewrite B; field; lra. }
    + assert (x = 0) by lra; subst x. rewrite Rmult_0_l, Rplus_0_r.
      destruct (Rlt_dec 0 y).
      * rewrite cos_PI2, sin_PI2, sqrt_square by lra. lra.
      * destruct (Rlt_dec y 0).
        { rewrite cos_neg, sin_neg, cos_PI2, sin_PI2.
          replace (y * y) with (- y * - y) by ring. rewrite sqrt_square by lra. lra. }
        { assert (y = 0) by lra; subst. rewrite Rmult_0_l, sqrt_0. lra. }
Qed.

(** Angles enter as [d + PI/2]; both maps reduce to a rotation by [d]. *)
Lemma sinp d : sin (d + PI / 2) = cos d.
Proof. rewrite Rplus_comm. symmetry. rewrite sin_plus, sin_PI2, cos_PI2. ring. Qed.
Lemma cosp d : cos (d + PI / 2) = - sin d.
Proof. rewrite cos_plus, sin_PI2, cos_PI2. ring. Qed.

Lemma mod2real_fin x y ox oy d :
  mod2real (Fin x) (Fin y) (Fin ox, Fin oy) (Fin d) =
  (Fin (ox + x * cos d + y * sin d), Fin (oy - x * sin d + y * cos d)).
Proof.
  unfold mod2real; xcbn; unfold fdiv; rewrite xdiv_fin by lra. xcbn.
  change (fst (Fin ox, Fin oy)) with (Fin ox); change (snd (Fin ox, Fin oy)) with (Fin oy).
  cbn [xadd xsub xmul xlift]. rewrite sinp, cosp. f_equal; f_equal; ring.
Qed.

Lemma real2mod_fin X Y ox oy d :
  real2mod (Fin X) (Fin Y) (Fin ox, Fin oy) (Fin d) =
  (Fin ((X - ox) * cos d - (Y - oy) * sin d), Fin ((X - ox) * sin d + (Y - oy) * cos d)).
Proof.
  unfold real2mod, fsq. cbn [fst snd]. xcbn.
  rewrite xsqrt_fin by (apply Rplus_le_le_0_compat; apply Rle_0_sqr). rewrite xdiv_fin by lra. cbn [xatan2 xadd xsub xmul xlift].
  destruct (polar (X - ox) (Y - oy)) as [A B].
  set (r := sqrt _) in *. set (t := Ratan2 _ _) in *.
  rewrite cosp, sinp, sin_minus, cos_minus.
  f_equal; f_equal.
  - transitivity (- ((r * cos t) * sin d - cos d * (r * sin t))); [ring|]. rewrite A, B. ring.
  - transitivity (cos d * (r * cos t) + sin d * (r * sin t)); [ring|]. rewrite A, B. ring.
Qed.

Lemma world_roundtrip X Y ox oy d :
  let m := real2mod (Fin X) (Fin Y) (Fin ox, Fin oy) (Fin d) in
  mod2real (fst m) (snd m) (Fin ox, Fin oy) (Fin d) = (Fin X, Fin Y).
Proof.
  cbv zeta. rewrite real2mod_fin. cbn [fst snd]. rewrite mod2real_fin.
  assert (P := sin2_cos2 d). unfold Rsqr in P.
  set (s := sin d) in *; set (c := cos d) in *.
  f_equal; f_equal.
  - transitivity (ox + (X - ox) * (s * s + c * c)); [ring|]. rewrite P; ring.
  - transitivity (oy + (Y - oy) * (s * s + c * c)); [ring|]. rewrite P; ring.
Qed.

Lemma model_roundtrip x y ox oy d :
  let w := mod2real (Fin x) (Fin y) (Fin ox, Fin oy) (Fin d) in
  real2mod (fst w) (snd w) (Fin ox, Fin oy) (Fin d) = (Fin x, Fin y).
Proof.
  cbv zeta. rewrite mod2real_fin. cbn [fst snd]. rewrite real2mod_fin.
  assert (P := sin2_cos2 d). unfold Rsqr in P.
  set (s := sin d) in *; set (c := cos d) in *.
  f_equal; f_equal.
  - transitivity (x * (s * s + c * c)); [ring|]. rewrite P; ring.
  - transitivity (y * (s * s + c * c)); [ring|]. rewrite P; ring.
Qed.

Lemma transform_isometry p q o d :
  exists p' q',
    mod2real (Fin (fst p)) (Fin (snd p)) (fp o) (Fin d) = fp p' /\
    mod2real (Fin (fst q)) (Fin (snd q)) (fp o) (Fin d) = fp q' /\
    dist2 p' q' = dist2 p q.
Proof.
  destruct o as [ox oy]. unfold fp; cbn [fst snd].
  exists (ox + fst p * cos d + snd p * sin d, oy - fst p * sin d + snd p * cos d).
  exists (ox + fst q * cos d + snd q * sin d, oy - fst q * sin d + snd q * cos d).
  rewrite !mod2real_fin. cbn [fst snd]. repeat split; auto.
  unfold dist2; cbn [fst snd].
  assert (P := sin2_cos2 d). unfold Rsqr in P.
  set (s := sin d) in *; set (c := cos d) in *.
  transitivity (((fst p - fst q) * (fst p - fst q) + (snd p - snd q) * (snd p - snd q)) * (s * s + c * c)); [ring|].
  rewrite P; ring.
Qed.

(** * intersectPolyline *)

Definition leftOf (x : R) (p : pt2) : bool := Rltb (fst p) x.

Lemma crosses_left p q x : crosses p q x <-> leftOf x p <> leftOf x q.
Proof.
  unfold crosses, leftOf. destruct (Rltb (fst p) x) eqn:A; destruct (Rltb (fst q) x) eqn:B; rb; split; intros; try congruence; lra.
Qed.

(** The loop body, by index into the polyline. *)
Definition hitY (x : R) (p q : pt2) : R := snd p + (x - fst p) * (snd q - snd p) / (fst q - fst p).

Lemma hit_between x p q : crosses p q x ->
  (hitY x p q - snd p) * (fst q - fst p) = (x - fst p) * (snd q - snd p) /\
  Rmin (snd p) (snd q) <= hitY x p q <= Rmax (snd p) (snd q).
Proof.
  intros H. assert (Hd : fst q - fst p <> 0) by (destruct H; lra).
  split; [unfold hitY; field; auto|].
  set (t := (x - fst p) / (fst q - fst p)).
  assert (Ht : 0 <= t <= 1).
  { unfold t; destruct H as [H|H].
    - split; [apply Rmult_le_pos; [lra|left; apply Rinv_0_lt_compat; lra]|].
      apply Rmult_le_reg_r with (fst q - fst p); [lra|]. unfold Rdiv; rewrite Rmult_assoc, Rinv_l by auto; lra.
    - replace ((x - fst p) / (fst q - fst p)) with ((fst p - x) / (fst p - fst q)) by (field; lra).
      split; [apply Rmult_le_pos; [lra|left; apply Rinv_0_lt_compat; lra]|].
      apply Rmult_le_reg_r with (fst p - fst q); [lra|]. unfold Rdiv; rewrite Rmult_assoc, Rinv_l by lra; lra. }
  replace (hitY x p q) with (snd p + t * (snd q - snd p)) by (unfold hitY, t; field; auto).
  unfold Rmin, Rmax; destruct (Rle_dec (snd p) (snd q)); nra.
Qed.

(** One step of [intersectPolyline] with positions shifted by a prefix. *)
Lemma intersect_gen x pre l :
  exists c,
    all_ok (map (fun i =>
      let! p := ix (map fp (pre ++ l)) i in
      let! q := ix (map fp (pre ++ l)) (S i) in
      Ok (snd p + (Fin x - fst p) * (snd q - snd p) / (fst q - fst p))%n)
      (where_from (length pre) (fun b => b)
         (map2 xorb (removelast (map (leftOf x) l)) (tl (map (leftOf x) l))))) = Ok (map Fin c)
    /\ crossings x l c.
Proof.
  revert pre; induction l as [|p l IH]; intros pre; [exists []; split; [reflexivity|constructor]|].
  destruct l as [|q l]; [exists []; split; [reflexivity|constructor]|].
  specialize (IH (pre ++ [p])). destruct IH as (c & Hc & Hs).
  rewrite <- app_assoc in Hc. cbn [app] in Hc.
  rewrite app_length in Hc. cbn [length] in Hc. rewrite Nat.add_1_r in Hc.
  cbn [map removelast tl map2] in Hc |- *.
  set (tailL := match map (leftOf x) l with [] => [] | _ :: _ => _ end) in *.
  cbn [where_from].
  destruct (xorb (leftOf x p) (leftOf x q)) eqn:E.
  - assert (Hcr : crosses p q x) by (apply crosses_left; intros F; rewrite F, xorb_nilpotent in E; discriminate).
    exists (hitY x p q :: c). split.
    + cbn [map all_ok].
      assert (H1 : ix (map fp (pre ++ p :: q :: l)) (length pre) = Ok (fp p)).
      { apply ix_ok. rewrite map_app, nth_error_app2 by (rewrite map_length; lia).
        rewrite map_length, Nat.sub_diag. reflexivity. }
      assert (H2 : ix (map fp (pre ++ p :: q :: l)) (S (length pre)) = Ok (fp q)).
      { apply ix_ok. rewrite map_app, nth_error_app2 by (rewrite map_length; lia).
        rewrite map_length. replace (S (length pre) - length pre)%nat with 1%nat by lia. reflexivity. }
      rewrite H1, H2. cbn [bind]. rewrite Hc. cbn [bind].
      unfold fp at 1 2 3 4 5 6. cbn [fst snd]. xcbn. rewrite xdiv_fin by (destruct Hcr; lra). reflexivity.
    + destruct (hit_between x p q Hcr) as [A B]. apply cr_hit; auto.
  - exists c. split; [exact Hc|]. apply cr_skip; auto. intros F. apply crosses_left in F.
    apply F. apply xorb_eq in E. auto.
Qed.

Lemma intersect_spec l x :
  exists c, intersectPolyline (map fp l) (Fin x) = Ok (map Fin c) /\ crossings x l c.
Proof.
  destruct (intersect_gen x [] l) as (c & Hc & Hs). exists c. split; [|exact Hs].
  unfold intersectPolyline. rewrite map_map.
  replace (map (fun a => fltb (fst (fp a)) (Fin x)) l) with (map (leftOf x) l) by reflexivity.
  exact Hc.
Qed.

Lemma crossings_parity l c x : crossings x l c ->
  forall p z, nth_error l 0 = Some p -> nth_error (rev l) 0 = Some z ->
  Nat.even (length c) = Bool.eqb (leftOf x p) (leftOf x z).
Proof.
  intros H; induction H; intros a z Ha Hz.
  - discriminate.
  - simpl in Ha, Hz. inversion Ha; inversion Hz; subst. rewrite eqb_reflx. reflexivity.
  - cbn [nth_error] in Ha. inversion Ha; subst a.
    assert (Hz' : nth_error (rev (q :: l)) 0 = Some z).
    { apply nth_error_rev0 in Hz as (l' & E). apply nth_error_rev0. destruct l' as [|b l']; [discriminate|].
      exists l'. inversion E. reflexivity. }
    rewrite (IHcrossings q z eq_refl Hz').
    assert (leftOf x p = leftOf x q) by (destruct (Bool.bool_dec (leftOf x p) (leftOf x q)); auto; exfalso; apply H; apply crosses_left; auto).
    rewrite H1. reflexivity.
  - cbn [nth_error] in Ha. inversion Ha; subst a.
    assert (Hz' : nth_error (rev (q :: l)) 0 = Some z).
    { apply nth_error_rev0 in Hz as (l' & E). apply nth_error_rev0. destruct l' as [|b l']; [discriminate|].
      exists l'. inversion E. reflexivity. }
    cbn [length]. rewrite Nat.even_succ, <- Nat.negb_even, (IHcrossings q z eq_refl Hz').
    apply crosses_left in H. destruct (leftOf x p), (leftOf x q), (leftOf x z); simpl; congruence.
Qed.

Lemma intersect_closed l x p ys :
  nth_error l 0 = Some p -> nth_error (rev l) 0 = Some p ->
  intersectPolyline (map fp l) (Fin x) = Ok ys -> Nat.even (length ys) = true.
Proof.
  intros H0 Hl H. destruct (intersect_spec l x) as (c & Hc & Hs).
  rewrite Hc in H; inversion H. rewrite map_length, (crossings_parity _ _ _ Hs p p H0 Hl). apply eqb_reflx.
Qed.

(** The crossings determine the result: two lists satisfying the specification agree. *)
Lemma crossings_unique l x c c' : crossings x l c -> crossings x l c' -> c = c'.
Proof.
  intros H; revert c'; induction H; intros c' H'; inversion H'; subst; auto; try (exfalso; tauto).
  f_equal; auto.
  assert (Hd : fst q - fst p <> 0) by (destruct H; lra).
  apply Rmult_eq_reg_r with (fst q - fst p); auto. lra.
Qed.

(** * trimLine *)

Lemma pynth_ok {A} (l : list A) z a :
  pynth l z = Ok a -> exists i, pyix (length l) z = Some i /\ nth_error l i = Some a.
Proof.
  unfold pynth. destruct (pyix (length l) z) as [i|]; [|discriminate].
  rewrite ix_ok. eauto.
Qed.

Lemma pyix_succ n k i j : pyix n k = Some i -> pyix n (k + 1) = Some j -> k <> (-1)%Z -> j = S i.
Proof.
  unfold pyix. intros Hi Hj Hk.
  destruct (k <? 0)%Z eqn:E1; destruct (k + 1 <? 0)%Z eqn:E2;
    repeat match goal with
    | H : (if ?b then _ else _) = Some _ |- _ => destruct b eqn:?; [|discriminate]
    end;
    rewrite ?Z.ltb_lt, ?Z.ltb_ge, ?Z.leb_le in *; inversion Hi; inversion Hj; lia.
Qed.

Lemma pyix_m1 n i : pyix n (-1) = Some i -> (1 <= n)%nat /\ i = (n - 1)%nat.
Proof.
  unfold pyix. simpl. destruct (- Z.of_nat n <=? -1)%Z eqn:E; [|discriminate].
  apply Z.leb_le in E. intros H; inversion H. lia.
Qed.

Lemma increasing_lt l : increasing l ->
  forall d i a b, nth_error l i = Some a -> nth_error l (i + S d) = Some b -> a < b.
Proof.
  intros Hi; induction d; intros i a b Ha Hb.
  - rewrite Nat.add_1_r in Hb. eauto.
  - destruct (nth_error l (i + S d)) as [m|] eqn:Em.
    + apply Rlt_trans with m; [eauto|]. apply (Hi (i + S d)%nat); auto. rewrite <- Hb; f_equal; lia.
    + apply nth_error_None in Em. assert (nth_error l (i + S (S d)) = None) by (apply nth_error_None; lia). congruence.
Qed.

(** A search that stops has found a segment whose X range contains the result,
    unless the intersection was undefined (NaN). *)
Lemma trimSearch_inv {F} {NF : Num F} f (a b : F * F) TX TY k k' xi :
  trimSearch f a b TX TY k = Ok (k', xi) ->
  exists t0 t1 y0 y1 den,
    trimDen a b TX TY k' = Ok (t0, t1, y0, y1, den) /\
    xi = (((fst a * snd b - snd a * fst b) * (t0 - t1) - (fst a - fst b) * (t0 * y1 - y0 * t1)) / den)%n /\
    (xi <? t0)%n = false /\ (t1 <? xi)%n = false.
Proof.
  revert k; induction f as [|f IH]; intros k; [discriminate|].
  cbn [trimSearch]. intros H. apply bind_ok in H as ([[[[t0 t1] y0] y1] den] & Hd & H).
  destruct (_ <? t0)%n eqn:E1; [eauto|]. destruct (t1 <? _)%n eqn:E2; [eauto|].
  inversion H; subst. exists t0, t1, y0, y1, den. auto.
Qed.

Lemma trimDen_inv {F} {NF : Num F} (a b : F * F) TX TY k t0 t1 y0 y1 den :
  trimDen a b TX TY k = Ok (t0, t1, y0, y1, den) ->
  pynth TX k = Ok t0 /\ pynth TX (k + 1) = Ok t1 /\ pynth TY k = Ok y0 /\ pynth TY (k + 1) = Ok y1 /\
  den = ((fst a - fst b) * (y0 - y1) - (snd a - snd b) * (t0 - t1))%n.
Proof.
  unfold trimDen. intros H.
  apply bind_ok in H as (u0 & H0 & H). apply bind_ok in H as (u1 & H1 & H).
  apply bind_ok in H as (v0 & H2 & H). apply bind_ok in H as (v1 & H3 & H).
  inversion H; subst. auto.
Qed.

Lemma nth_error_map_fin l i v : nth_error (map Fin l) i = Some v -> exists r, nth_error l i = Some r /\ v = Fin r.
Proof. rewrite nth_error_map. destruct (nth_error l i); simpl; [|discriminate]. intros H; inversion H; eauto. Qed.

Lemma trimEnd_spec f e a b TX TY x' y' :
  length TX = length TY -> increasing TX ->
  trimEnd f e (fp a) (fp b) (map Fin TX) (map Fin TY) = Ok (Fin x', y') ->
  exists yr j, y' = Fin yr /\ on_line a b (x', yr) /\ on_seg TX TY j (x', yr).
Proof.
  intros Hlen Hinc H. unfold trimEnd in H.
  apply bind_ok in H as (k0 & Hk0 & H). apply bind_ok in H as ([k xi] & Hs & H).
  apply bind_ok in H as ([[[[t0 t1] y0] y1] den] & Hd & H). inversion H; subst xi. clear H.
  apply trimSearch_inv in Hs as (t0' & t1' & y0' & y1' & den' & Hd' & Hxi & Hlo & Hhi).
  rewrite Hd in Hd'. inversion Hd'; subst t0' t1' y0' y1' den'. clear Hd'.
  apply trimDen_inv in Hd as (P0 & P1 & P2 & P3 & Hden).
  apply pynth_ok in P0 as (i0 & I0 & N0). apply pynth_ok in P1 as (i1 & I1 & N1).
  apply pynth_ok in P2 as (i2 & I2 & N2). apply pynth_ok in P3 as (i3 & I3 & N3).
  rewrite map_length in *. rewrite <- Hlen in I2, I3.
  assert (i2 = i0) by congruence; assert (i3 = i1) by congruence; subst i2 i3.
  apply nth_error_map_fin in N0 as (r0 & N0 & ->). apply nth_error_map_fin in N1 as (r1 & N1 & ->).
  apply nth_error_map_fin in N2 as (s0 & N2 & ->). apply nth_error_map_fin in N3 as (s1 & N3 & ->).
  unfold fp in *; cbn [fst snd] in *. subst den. xcbn. symmetry in Hxi. apply xdiv_inv in Hxi as (Hnz & Hxi).
  rb. rewrite xdiv_fin in * by auto.
  assert (Hk : k <> (-1)%Z).
  { intros ->. apply pyix_m1 in I0 as (Hn & ->). unfold pyix in I1. cbn in I1.
    destruct (0 <? Z.of_nat (length TX))%Z; [|discriminate]. inversion I1; subst i1.
    change (Z.to_nat 0) with 0%nat in *.
    destruct (Nat.eq_dec (length TX) 1) as [E1|E1].
    - rewrite E1 in N0, N2. change (1 - 1)%nat with 0%nat in N0, N2. rewrite N0 in N1; rewrite N2 in N3.
      inversion N1; inversion N3; subst. apply Hnz. ring.
    - assert (r1 < r0); [|lra].
      apply (increasing_lt _ Hinc (length TX - 2) 0 _ _ N1). rewrite <- N0. f_equal; lia. }
  assert (i1 = S i0) by (eapply pyix_succ; eauto). subst i1.
  eexists _, i0. split; [reflexivity|]. split.
  - unfold on_line; cbn [fst snd]. rewrite Hxi. field. auto.
  - exists r0, r1, s0, s1. repeat split; auto; cbn [fst snd]; try lra.
    unfold on_line; cbn [fst snd]. rewrite Hxi. field. auto.
Qed.

(** The X of a moved node is a number or NaN, never infinite, when the trim line is finite. *)
Lemma trimEnd_finite f e a b TX TY x' y' :
  trimEnd f e (fp a) (fp b) (map Fin TX) (map Fin TY) = Ok (x', y') -> x' = NaN \/ is_fin x'.
Proof.
  intros H. unfold trimEnd in H.
  apply bind_ok in H as (k0 & Hk0 & H). apply bind_ok in H as ([k xi] & Hs & H).
  apply bind_ok in H as ([[[[t0 t1] y0] y1] den] & Hd & H). inversion H; subst xi. clear H.
  apply trimSearch_inv in Hs as (t0' & t1' & y0' & y1' & den' & Hd' & Hxi & Hlo & Hhi).
  apply trimDen_inv in Hd' as (P0 & P1 & _).
  apply pynth_ok in P0 as (i0 & _ & N0). apply pynth_ok in P1 as (i1 & _ & N1).
  apply nth_error_map_fin in N0 as (r0 & _ & ->). apply nth_error_map_fin in N1 as (r1 & _ & ->).
  destruct x'; auto; simpl in *; congruence.
Qed.

Lemma pynth_m1 {A} (l : list A) : pynth l (-1) = last_ l.
Proof.
  unfold pynth, last_. destruct l as [|x l] using rev_ind; [reflexivity|].
  rewrite rev_app_distr, app_length. unfold pyix. cbn [length].
  destruct (-1 <? 0)%Z eqn:E; [|discriminate].
  destruct (_ <=? -1)%Z eqn:E2; [|apply Z.leb_gt in E2; lia].
  replace (Z.to_nat (Z.of_nat (length l + 1) + -1)) with (length l) by lia.
  unfold ix. rewrite nth_error_app2, Nat.sub_diag by lia. reflexivity.
Qed.

Lemma trimLine_spec f L TX SY EY L' :
  (3 <= length L)%nat -> length TX = length SY -> length TX = length EY -> increasing TX ->
  trimLine f (map fp L) (map Fin TX) (map Fin SY) (map Fin EY) = Ok L' ->
  length L' = length L /\
  (forall i, (0 < i < length L - 1)%nat -> nth_error L' i = nth_error (map fp L) i) /\
  (forall a b x' y', nth_error L 0 = Some a -> nth_error L 1 = Some b ->
     nth_error L' 0 = Some (Fin x', y') ->
     exists yr j, y' = Fin yr /\ on_line a b (x', yr) /\ on_seg TX SY j (x', yr)) /\
  (forall y z x' y', nth_error L (length L - 2) = Some y -> nth_error L (length L - 1) = Some z ->
     nth_error L' (length L - 1) = Some (Fin x', y') ->
     exists yr j, y' = Fin yr /\ on_line y z (x', yr) /\ on_seg TX EY j (x', yr)).
Proof.
  intros H3 HS HE Hinc H. unfold trimLine in H.
  apply bind_ok in H as (a & Ha & H). apply bind_ok in H as (b & Hb & H).
  apply bind_ok in H as (e & He & H). apply bind_ok in H as (y & Hy & H).
  apply bind_ok in H as (z & Hz & H). apply bind_ok in H as (e2 & He2 & H).
  inversion H; subst L'. clear H.
  rewrite ix_ok in Ha, Hb.
  rewrite nth_error_map in Ha, Hb.
  destruct (nth_error L 0) as [a0|] eqn:Ea; [|discriminate]. inversion Ha; subst a.
  destruct (nth_error L 1) as [b0|] eqn:Eb; [|discriminate]. inversion Hb; subst b.
  rewrite !upd_length, map_length in *.
  assert (Hy' : exists y0, nth_error L (length L - 2) = Some y0 /\ y = fp y0).
  { apply pynth_ok in Hy as (i & Hi & Hn). rewrite upd_length, map_length in Hi.
    assert (i = (length L - 2)%nat).
    { unfold pyix in Hi. simpl in Hi. destruct (- Z.of_nat (length L) <=? -2)%Z eqn:E; [|discriminate].
      inversion Hi. lia. }
    subst i. rewrite nth_error_upd_ne in Hn by lia. rewrite nth_error_map in Hn.
    destruct (nth_error L (length L - 2)); [|discriminate]. inversion Hn; eauto. }
  assert (Hz' : exists z0, nth_error L (length L - 1) = Some z0 /\ z = fp z0).
  { apply pynth_ok in Hz as (i & Hi & Hn). rewrite upd_length, map_length in Hi.
    apply pyix_m1 in Hi as (_ & ->).
    rewrite nth_error_upd_ne in Hn by lia. rewrite nth_error_map in Hn.
    destruct (nth_error L (length L - 1)); [|discriminate]. inversion Hn; eauto. }
  destruct Hy' as (y0 & Ny & ->). destruct Hz' as (z0 & Nz & ->).
  split; [auto|]. split; [|split].
  - intros i Hi. rewrite !nth_error_upd_ne by lia. auto.
  - intros a1 b1 x' y' A1 B1 N. inversion A1; inversion B1; subst a1 b1.
    rewrite nth_error_upd_ne, nth_error_upd_eq in N by (rewrite ?map_length; lia). inversion N; subst e.
    eapply trimEnd_spec; eauto.
  - intros y1 z1 x' y' A1 B1 N. rewrite Ny in A1; rewrite Nz in B1. inversion A1; inversion B1; subst y1 z1.
    rewrite nth_error_upd_eq in N by (rewrite ?upd_length, ?map_length; lia). inversion N; subst e2.
    eapply trimEnd_spec; eauto.
Qed.

(** Two segments that send the search back and forth (binary64). *)
Definition loopLine : list (float * float) := [(0.5, 20); (1.5, 21); (1.5, 22)]%float.
Definition loopX : list float := [0; 1; 2]%float.
Definition loopY : list float := [0; 10; 0]%float.

Lemma trimSearch_loops2 f :
  trimSearch (S (S f)) (0.5, 20)%float (1.5, 21)%float loopX loopY 0 =
  trimSearch f (0.5, 20)%float (1.5, 21)%float loopX loopY 0.
Proof. vm_compute. reflexivity. Qed.

Lemma trimSearch_loops f : trimSearch f (0.5, 20)%float (1.5, 21)%float loopX loopY 0 = Exc EFuel.
Proof.
  induction f as [f IH] using (well_founded_induction lt_wf).
  destruct f as [|[|f]]; [reflexivity|vm_compute; reflexivity|].
  rewrite trimSearch_loops2. apply IH. lia.
Qed.

Lemma trimLine_loops f : trimLine f loopLine loopX loopY loopY = Exc EFuel.
Proof.
  unfold trimLine, loopLine. cbn [ix of_opt nth_error bind fst snd].
  unfold trimEnd.
  replace (first_where _ _) with (Some 0%nat) by (vm_compute; reflexivity).
  cbn [of_opt bind]. change (Z.of_nat 0) with 0%Z. rewrite trimSearch_loops. reflexivity.
Qed.

(** * Concrete cases *)

Lemma world_example :
  real2mod (Fin 3) (Fin 4) (Fin 1, Fin 1) (Fin (PI / 2)) = (Fin (-3), Fin 2).
Proof. rewrite real2mod_fin, cos_PI2, sin_PI2. f_equal; f_equal; ring. Qed.

Lemma model_example :
  mod2real (Fin (-3)) (Fin 2) (Fin 1, Fin 1) (Fin (PI / 2)) = (Fin 3, Fin 4).
Proof. rewrite mod2real_fin, cos_PI2, sin_PI2. f_equal; f_equal; ring. Qed.

Lemma intersect_example :
  intersectPolyline (map fp [(0, 0); (2, 2); (0, 4); (0, 0)]) (Fin 1) = Ok [Fin 1; Fin 3].
Proof.
  destruct (intersect_spec [(0, 0); (2, 2); (0, 4); (0, 0)] 1) as (c & Hc & Hs).
  rewrite Hc. f_equal. change [Fin 1; Fin 3] with (map Fin [1; 3]). f_equal.
  apply (crossings_unique _ _ _ _ Hs).
  apply cr_hit; unfold crosses, Rmin, Rmax; cbn [fst snd]; try lra; [destruct (Rle_dec 0 2); lra|].
  apply cr_hit; unfold crosses, Rmin, Rmax; cbn [fst snd]; try lra; [destruct (Rle_dec 2 4); lra|].
  apply cr_skip; [unfold crosses; cbn [fst snd]; lra|]. constructor.
Qed.

Lemma trimDen2 a b (t0 t1 y0 y1 : xr) :
  trimDen a b [t0; t1] [y0; y1] 0 =
  Ok (t0, t1, y0, y1, ((fst a - fst b) * (y0 - y1) - (snd a - snd b) * (t0 - t1))%n).
Proof. reflexivity. Qed.

Lemma trim_example :
  trimLine 1 (map fp [(1, 1); (1, 2); (1, 3)]) (map Fin [0; 2]) (map Fin [0; 0]) (map Fin [5; 7]) =
  Ok (map fp [(1, 0); (1, 2); (1, 6)]).
Proof.
  unfold trimLine, fp. cbn [map ix of_opt nth_error bind fst snd].
  assert (H1 : trimEnd 1 (Fin 1) (Fin 1, Fin 1) (Fin 1, Fin 2) [Fin 0; Fin 2] [Fin 0; Fin 0] = Ok (Fin 1, Fin 0)).
  { unfold trimEnd. cbn [tl removelast map2]. xcbn. rdecide. cbn [andb first_where where_ where_from nth_error of_opt bind].
    change (Z.of_nat 0) with 0%Z. cbn [trimSearch].
    rewrite trimDen2.
    cbn [bind fst snd]. xcbn. rewrite xdiv_fin by lra. cbn [xltb]. rdecide. cbn [bind].
    rewrite trimDen2.
    cbn [bind fst snd]. xcbn. rewrite xdiv_fin by lra. repeat f_equal; field. }
  rewrite H1. cbn [bind upd].
  change (pynth [(Fin 1, Fin 0); (Fin 1, Fin 2); (Fin 1, Fin 3)] (-2)) with (@Ok (xr * xr) (Fin 1, Fin 2)).
  change (pynth [(Fin 1, Fin 0); (Fin 1, Fin 2); (Fin 1, Fin 3)] (-1)) with (@Ok (xr * xr) (Fin 1, Fin 3)).
  cbn [bind fst snd].
  assert (H2 : trimEnd 1 (Fin 1) (Fin 1, Fin 2) (Fin 1, Fin 3) [Fin 0; Fin 2] [Fin 5; Fin 7] = Ok (Fin 1, Fin 6)).
  { unfold trimEnd. cbn [tl removelast map2]. xcbn. rdecide. cbn [andb first_where where_ where_from nth_error of_opt bind].
    change (Z.of_nat 0) with 0%Z. cbn [trimSearch].
    rewrite trimDen2.
    cbn [bind fst snd]. xcbn. rewrite xdiv_fin by lra. cbn [xltb]. rdecide. cbn [bind].
    rewrite trimDen2.
    cbn [bind fst snd]. xcbn. rewrite xdiv_fin by lra. repeat f_equal; field. }
  rewrite H2. reflexivity.
Qed.

Lemma trim_example_pre : increasing [0; 2].
Proof. intros [|[|i]] a b Ha Hb; simpl in *; [inversion Ha; inversion Hb; lra|discriminate|destruct i; discriminate]. Qed.
