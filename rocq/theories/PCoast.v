(** Proofs about the model of coast.py. *)
From Coq Require Import ZArith List Bool Lia.
From Verif Require Import Base Num Xr MState MCoast SCoast.
Local Open Scope R_scope.

Lemma Rpower_half x : 0 < x -> Rpower x (1 / 2) = sqrt x.
Proof. intros H. replace (1/2) with (/2) by field. apply Rpower_sqrt; auto. Qed.

(** * Longshore transport *)

Section Lst.
  Variables (P : phys xr) (g d bc k2 W T L : R).
  Hypothesis HP : lst_pars P g d bc k2.
  Hypothesis Hg : 0 < g.
  Hypothesis HbW : 0 < bc * W.
  Hypothesis HC : g * T / (2 * PI) * tanh (2 * PI * d / L) <> 0.
  Hypothesis HL : L <> 0.

  Lemma celB_fin : celB P (Fin W) = Fin (sqrt (g * Rpower (bc * W) (4/10))).
  Proof.
    destruct HP as (Eg & Ed & Eb & Ek).
    unfold celB, breakerDepth. rewrite Eg, Eb. xcbn. rewrite xpow_pos by auto. xcbn.
    rewrite xpow_pos. 2:{ apply Rmult_lt_0_compat; auto. unfold Rpower; apply exp_pos. }
    rewrite Rpower_half; auto. apply Rmult_lt_0_compat; auto. unfold Rpower; apply exp_pos.
  Qed.

  Lemma celH_fin : celH P (Fin T) (Fin L) = Fin (g * T / (2 * PI) * tanh (2 * PI * d / L)).
  Proof.
    destruct HP as (Eg & Ed & Eb & Ek).
    unfold celH. rewrite Eg, Ed. xcbn. rewrite xdiv_fin by (pose proof PI_RGT_0; lra).
    rewrite xdiv_fin by auto. reflexivity.
  Qed.

  Lemma lstSegment_fin a :
    -1 <= sin a * cel_ratio g d bc W T L <= 1 ->
    lstSegment P (Fin W) (Fin T) (Fin L) (Fin a) = Fin (cerc k2 W (cel_ratio g d bc W T L) a).
  Proof.
    intros Ha. destruct HP as (Eg & Ed & Eb & Ek).
    unfold lstSegment. rewrite celB_fin, celH_fin. xcbn. rewrite xdiv_fin by auto.
    fold (cel_ratio g d bc W T L). xcbn. rewrite xasin_fin by auto. rewrite Ek.
    xcbn. rewrite sin_asin by auto. f_equal. unfold cerc. ring.
  Qed.

  Lemma lstSegment_nan a :
    sin a * cel_ratio g d bc W T L < -1 \/ 1 < sin a * cel_ratio g d bc W T L ->
    lstSegment P (Fin W) (Fin T) (Fin L) (Fin a) = NaN.
  Proof.
    intros Ha. destruct HP as (Eg & Ed & Eb & Ek).
    unfold lstSegment. rewrite celB_fin, celH_fin. xcbn. rewrite xdiv_fin by auto.
    fold (cel_ratio g d bc W T L). xcbn. unfold xasin.
    destruct (Rle_dec (-1) _); [|rewrite Ek; reflexivity].
    destruct (Rle_dec _ 1); [lra|rewrite Ek; reflexivity].
  Qed.

  Lemma localEDir_fin dx dir y y' : dx <> 0 ->
    localEDir (Fin dx) (Fin dir) (Fin y) (Fin y') = Fin (rel_angle dx dir y y').
  Proof. intros Hdx. unfold localEDir. xcbn. rewrite xdiv_fin by auto. reflexivity. Qed.
End Lst.

Lemma nth_error_removelast {A} (l : list A) i : (S i < length l)%nat -> nth_error (removelast l) i = nth_error l i.
Proof.
  revert i; induction l as [|x l IH]; intros i H; [simpl in H; lia|].
  destruct l as [|y l]; [simpl in H; lia|]. destruct i; [reflexivity|].
  change (removelast (x :: y :: l)) with (x :: removelast (y :: l)). simpl nth_error at 1 2.
  rewrite IH by (simpl in *; lia). reflexivity.
Qed.
Lemma length_removelast {A} (l : list A) : length (removelast l) = (length l - 1)%nat.
Proof.
  induction l as [|x l IH]; [reflexivity|]. destruct l as [|y l]; [reflexivity|].
  change (removelast (x :: y :: l)) with (x :: removelast (y :: l)). cbn [length] in *. lia.
Qed.
Lemma nth_error_tl {A} (l : list A) i : nth_error (tl l) i = nth_error l (S i).
Proof. destruct l; [destruct i; reflexivity|reflexivity]. Qed.

(** consecutive pairs *)
Lemma nth_error_pairs {A B} (f : A -> A -> B) (l : list A) i x y :
  nth_error l i = Some x -> nth_error l (S i) = Some y ->
  nth_error (map2 f (removelast l) (tl l)) i = Some (f x y).
Proof.
  intros Hx Hy. rewrite nth_error_map2, nth_error_removelast, nth_error_tl, Hx, Hy; auto.
  apply nth_error_Some; congruence.
Qed.
Lemma length_pairs {A B} (f : A -> A -> B) (l : list A) :
  length (map2 f (removelast l) (tl l)) = (length l - 1)%nat.
Proof. rewrite map2_length, length_removelast. destruct l; simpl; lia. Qed.

Lemma lst_length {F} {NF : Num F} ShoreY Dx W T L dir (P : phys F) :
  length (longShoreTransport ShoreY Dx W T L dir P) = (length ShoreY - 1)%nat.
Proof. apply length_pairs. Qed.

Lemma lst_closed P g d bc k2 W T L Y dx dir i y y' :
  lst_pars P g d bc k2 -> 0 < g -> 0 < bc * W -> L <> 0 -> dx <> 0 ->
  g * T / (2 * PI) * tanh (2 * PI * d / L) <> 0 ->
  nth_error Y i = Some y -> nth_error Y (S i) = Some y' ->
  -1 <= sin (rel_angle dx dir y y') * cel_ratio g d bc W T L <= 1 ->
  nth_error (longShoreTransport (map Fin Y) (Fin dx) (Fin W) (Fin T) (Fin L) (Fin dir) P) i
  = Some (Fin (cerc k2 W (cel_ratio g d bc W T L) (rel_angle dx dir y y'))).
Proof.
  intros HP Hg HbW HL Hdx HC Hy Hy' Ha. unfold longShoreTransport.
  erewrite nth_error_pairs; [|rewrite nth_error_map, Hy; reflexivity|rewrite nth_error_map, Hy'; reflexivity].
  rewrite localEDir_fin by auto. f_equal. eapply lstSegment_fin; eauto.
Qed.

Lemma lst_undefined P g d bc k2 W T L Y dx dir i y y' :
  lst_pars P g d bc k2 -> 0 < g -> 0 < bc * W -> L <> 0 -> dx <> 0 ->
  g * T / (2 * PI) * tanh (2 * PI * d / L) <> 0 ->
  nth_error Y i = Some y -> nth_error Y (S i) = Some y' ->
  1 < Rabs (sin (rel_angle dx dir y y') * cel_ratio g d bc W T L) ->
  nth_error (longShoreTransport (map Fin Y) (Fin dx) (Fin W) (Fin T) (Fin L) (Fin dir) P) i = Some NaN.
Proof.
  intros HP Hg HbW HL Hdx HC Hy Hy' Ha. unfold longShoreTransport.
  erewrite nth_error_pairs; [|rewrite nth_error_map, Hy; reflexivity|rewrite nth_error_map, Hy'; reflexivity].
  rewrite localEDir_fin by auto. f_equal. eapply lstSegment_nan; eauto.
  revert Ha; unfold Rabs; destruct (Rcase_abs _); lra.
Qed.

(** Consequences of the closed form. *)
Lemma cerc_zero k2 W r : cerc k2 W r 0 = 0.
Proof. unfold cerc. rewrite sin_0. ring. Qed.
Lemma cerc_odd k2 W r a : cerc k2 W r (- a) = - cerc k2 W r a.
Proof. unfold cerc. rewrite sin_neg, cos_neg. ring. Qed.
Lemma cerc_right k2 W r a : 0 < k2 -> 0 < W -> 0 < r -> 0 < a < PI / 2 -> cerc k2 W r a < 0.
Proof.
  intros Hk HW Hr Ha. assert (0 < sin a) by (apply sin_gt_0; lra).
  assert (0 < cos a) by (apply cos_gt_0; lra). unfold cerc.
  assert (0 < k2 * W * (sin a * cos a) * r) by (repeat apply Rmult_lt_0_compat; auto). lra.
Qed.
Lemma cerc_left k2 W r a : 0 < k2 -> 0 < W -> 0 < r -> - (PI / 2) < a < 0 -> 0 < cerc k2 W r a.
Proof.
  intros Hk HW Hr Ha. pose proof (cerc_right k2 W r (- a) Hk HW Hr). rewrite cerc_odd in H. lra.
Qed.
Lemma cerc_bound k2 W r a : 0 <= k2 -> 0 <= W -> 0 <= r -> Rabs (cerc k2 W r a) <= k2 * W * r / 2.
Proof.
  intros Hk HW Hr. unfold cerc.
  assert (Hs : Rabs (sin a * cos a) <= 1 / 2).
  { replace (sin a * cos a) with (sin (2 * a) / 2) by (rewrite sin_2a; field).
    unfold Rdiv. rewrite Rabs_mult, (Rabs_pos_eq (/2)) by lra.
    pose proof (SIN_bound (2 * a)). assert (Rabs (sin (2*a)) <= 1) by (apply Rabs_le; lra). lra. }
  replace (- k2 * W * (sin a * cos a) * r) with (- (k2 * W * r) * (sin a * cos a)) by ring.
  rewrite Rabs_mult, Rabs_Ropp, Rabs_pos_eq by (repeat apply Rmult_le_pos; auto).
  assert (0 <= k2 * W * r) by (repeat apply Rmult_le_pos; auto). nra.
Qed.
(** Waves directed offshore: 90 < |a| < 180 degrees. *)
Lemma cerc_offshore k2 W r a : 0 < k2 -> 0 < W -> 0 < r ->
  PI / 2 < Rabs a < PI -> cerc k2 W r a <> 0.
Proof.
  intros Hk HW Hr Ha. unfold cerc.
  assert (Hs : sin a <> 0 /\ cos a <> 0).
  { revert Ha; unfold Rabs; destruct (Rcase_abs a); intros Ha; split.
    - assert (0 < sin (- a)) by (apply sin_gt_0; lra). rewrite sin_neg in H. lra.
    - assert (cos (- a) < 0) by (apply cos_lt_0; lra). rewrite cos_neg in H. lra.
    - assert (0 < sin a) by (apply sin_gt_0; lra). lra.
    - assert (cos a < 0) by (apply cos_lt_0; lra). lra. }
  destruct Hs. repeat apply Rmult_integral_contrapositive_currified; auto; lra.
Qed.

Lemma cel_ratio_pos g d bc W T L : 0 < g -> 0 < T -> 0 < d -> 0 < L -> 0 < cel_ratio g d bc W T L.
Proof.
  intros Hg HT Hd HL. pose proof PI_RGT_0. unfold cel_ratio.
  assert (Ht : 0 < tanh (2 * PI * d / L)).
  { unfold tanh, sinh, cosh. set (x := 2 * PI * d / L).
    assert (0 < x) by (unfold x; apply Rdiv_lt_0_compat; auto; apply Rmult_lt_0_compat; auto; lra).
    assert (exp (- x) < exp x) by (apply exp_increasing; lra). pose proof (exp_pos (- x)). pose proof (exp_pos x).
    apply Rdiv_lt_0_compat; apply Rdiv_lt_0_compat; lra. }
  apply Rdiv_lt_0_compat.
  - apply sqrt_lt_R0. apply Rmult_lt_0_compat; auto. unfold Rpower; apply exp_pos.
  - apply Rmult_lt_0_compat; auto. apply Rdiv_lt_0_compat; [apply Rmult_lt_0_compat; auto|lra].
Qed.

(** No energy should go onshore here, but the transport is not zero. *)
Lemma lst_offshore P g d bc k2 W T L Y dx dir i y y' :
  lst_pars P g d bc k2 -> 0 < g -> 0 < d -> 0 < bc -> 0 < k2 -> 0 < W -> 0 < T -> 0 < L -> dx <> 0 ->
  nth_error Y i = Some y -> nth_error Y (S i) = Some y' ->
  -1 <= sin (rel_angle dx dir y y') * cel_ratio g d bc W T L <= 1 ->
  PI / 2 < Rabs (rel_angle dx dir y y') < PI ->
  exists q, nth_error (longShoreTransport (map Fin Y) (Fin dx) (Fin W) (Fin T) (Fin L) (Fin dir) P) i = Some (Fin q)
            /\ q <> 0.
Proof.
  intros HP Hg Hd Hb Hk HW HT HL Hdx Hy Hy' Hr Ha.
  pose proof (cel_ratio_pos g d bc W T L Hg HT Hd HL) as Hpos.
  exists (cerc k2 W (cel_ratio g d bc W T L) (rel_angle dx dir y y')). split.
  - eapply lst_closed; eauto; try (apply Rmult_lt_0_compat; auto); try lra.
    intros E. unfold cel_ratio in Hpos. rewrite E in Hpos. unfold Rdiv in Hpos. rewrite Rinv_0 in Hpos. lra.
  - apply cerc_offshore; auto.
Qed.

(** The same orientation everywhere: the same transport everywhere. *)
Lemma lst_uniform {F} {NF : Num F} (P : phys F) W T L Y Dx dir s :
  (forall i a b, nth_error Y i = Some a -> nth_error Y (S i) = Some b -> fsub a b = s) ->
  forall i j q q', nth_error (longShoreTransport Y Dx W T L dir P) i = Some q ->
    nth_error (longShoreTransport Y Dx W T L dir P) j = Some q' -> q = q'.
Proof.
  intros Hs.
  assert (H : forall i q, nth_error (longShoreTransport Y Dx W T L dir P) i = Some q ->
     q = lstSegment P W T L (fsub dir (fatan (fdiv s Dx)))).
  { intros i q Hq.
    assert (Hi : (i < length Y - 1)%nat) by (rewrite <- (lst_length Y Dx W T L dir P); apply nth_error_Some; congruence).
    destruct (nth_error Y i) as [a|] eqn:Ea; [|apply nth_error_None in Ea; lia].
    destruct (nth_error Y (S i)) as [b|] eqn:Eb; [|apply nth_error_None in Eb; lia].
    unfold longShoreTransport in Hq. rewrite (nth_error_pairs _ _ _ _ _ Ea Eb) in Hq. injection Hq as <-.
    unfold localEDir. rewrite (Hs _ _ _ Ea Eb). reflexivity. }
  intros i j q q' Hq Hq'. rewrite (H _ _ Hq), (H _ _ Hq'). reflexivity.
Qed.

Lemma lst_shift P W T L Y Dx dir c :
  longShoreTransport (map (fun y => Fin (y + c)) Y) Dx W T L dir P =
  longShoreTransport (map Fin Y) Dx W T L dir P.
Proof.
  unfold longShoreTransport. induction Y as [|a Y IH]; [reflexivity|].
  destruct Y as [|b Y]; [reflexivity|].
  cbn [map tl] in IH |- *.
  change (removelast (Fin (a + c) :: Fin (b + c) :: map (fun y => Fin (y + c)) Y))
    with (Fin (a + c) :: removelast (Fin (b + c) :: map (fun y => Fin (y + c)) Y)).
  change (removelast (Fin a :: Fin b :: map Fin Y)) with (Fin a :: removelast (Fin b :: map Fin Y)).
  cbn [map2]. f_equal; [|exact IH].
  unfold localEDir. xcbn. replace (a + c - (b + c)) with (a - b) by ring. reflexivity.
Qed.

(** * Runup *)

Lemma runup_fin T H s : 0 <= s -> runup (Fin T) (Fin H) (Fin s) = Fin (49 / 100 * sqrt s * T * H).
Proof.
  intros Hs. unfold runup. xcbn. destruct (Req_EM_T s 0) as [->|Hn].
  - rewrite xpow_zero by lra. xcbn. rewrite sqrt_0. reflexivity.
  - rewrite xpow_pos by lra. xcbn. rewrite Rpower_half by lra. reflexivity.
Qed.

Lemma runup_facts T H s : 0 <= T -> 0 <= H -> 0 <= s ->
  exists r, runup (Fin T) (Fin H) (Fin s) = Fin r /\ 0 <= r /\ (r = 0 <-> T = 0 \/ H = 0 \/ s = 0) /\
  (forall k, runup (Fin T) (Fin (k * H)) (Fin s) = Fin (k * r)) /\
  (forall k, runup (Fin (k * T)) (Fin H) (Fin s) = Fin (k * r)) /\
  (forall s', s <= s' -> exists r', runup (Fin T) (Fin H) (Fin s') = Fin r' /\ r <= r' /\ (s < s' -> 0 < T -> 0 < H -> r < r')).
Proof.
  intros HT HH Hs. exists (49 / 100 * sqrt s * T * H). pose proof (sqrt_pos s) as Hq.
  split; [apply runup_fin; auto|]. split; [repeat apply Rmult_le_pos; lra|]. split; [|split; [|split]].
  - split.
    + intros E. apply Rmult_integral in E as [E|E]; [|auto]. apply Rmult_integral in E as [E|E]; [|auto].
      apply Rmult_integral in E as [E|E]; [lra|]. right; right. apply sqrt_eq_0 in E; auto.
    + intros [->|[->| ->]]; rewrite ?sqrt_0; ring.
  - intros k. rewrite runup_fin by auto. f_equal. ring.
  - intros k. rewrite runup_fin by auto. f_equal. ring.
  - intros s' Hs'. exists (49 / 100 * sqrt s' * T * H). rewrite runup_fin by lra. split; [auto|].
    assert (sqrt s <= sqrt s') by (apply sqrt_le_1; lra). split.
    + apply Rmult_le_compat_r; auto. apply Rmult_le_compat_r; auto. lra.
    + intros Hlt HT' HH'. assert (sqrt s < sqrt s') by (apply sqrt_lt_1; lra).
      apply Rmult_lt_compat_r; auto. apply Rmult_lt_compat_r; auto. lra.
Qed.

(** * Overtopping *)

Lemma cst_fin P c e s i ru sea z0 t : ot_pars P c e s i -> 0 < e -> tZ0 t = Fin z0 ->
  cstTransect P (Fin ru) (Fin sea) t = Fin (ot_flux c e ru sea z0).
Proof.
  intros (Ec & Ee & _) He Hz. unfold cstTransect. rewrite Ec, Ee, Hz. unfold fmaximum. xcbn.
  unfold ot_flux. destruct (Rlt_dec 0 (ru + sea - z0)).
  - rdecide. rewrite xpow_pos by lra. reflexivity.
  - destruct (Rltb (ru + sea - z0) 0) eqn:E; rb.
    + rewrite xpow_zero by auto. xcbn. f_equal; ring.
    + replace (ru + sea - z0) with 0 by lra. rewrite xpow_zero by auto. xcbn. f_equal; ring.
Qed.

Lemma overwash_fin P c e s i t G : ot_pars P c e s i -> geomT t G ->
  overwash_rule s i G (overwashTransect P t).
Proof.
  intros (_ & _ & Es & Ei) HG. unfold overwashTransect, outletPresent. rewrite Es, Ei.
  destruct HG as [t y0 y3 y4 z0 E0 E1 E3 E4 Ez | t y0 y1 y2 y3 y4 z0 E0 E1 E2 E3 E4 Ez]; rewrite ?E0, ?E1, ?E2, ?E3, ?E4, ?Ez.
  - unfold fmaximum. xcbn. cbn [negb].
    destruct (Rleb y3 y4) eqn:A; rb; [apply ow_none; auto|].
    assert (Hm : (if Rltb (y0 - y3) (1 / 1000) then Fin (1 / 1000) else Fin (y0 - y3)) = Fin (Rmax (y0 - y3) (1/1000))).
    { unfold Rmax. rcase; destruct (Rle_dec (y0 - y3) (1/1000)); f_equal; lra. }
    rewrite Hm. xcbn. rcase; [apply ow_lagoon_high|apply ow_lagoon_low]; auto.
  - xcbn. cbn [negb]. destruct (Rleb y1 y2) eqn:A; rb; [apply ow_zero_width; auto|].
    xcbn. rcase; [apply ow_channel_high|apply ow_channel_low]; auto.
Qed.

Lemma ot_flux_nonneg c e ru sea z0 : 0 <= c -> 0 <= ot_flux c e ru sea z0.
Proof.
  intros Hc. unfold ot_flux. destruct (Rlt_dec _ _); [|lra].
  apply Rmult_le_pos; auto. left; unfold Rpower; apply exp_pos.
Qed.

Lemma ot_flux_zero c e ru sea z0 : 0 < c -> (ot_flux c e ru sea z0 = 0 <-> ru + sea <= z0).
Proof.
  intros Hc. unfold ot_flux. destruct (Rlt_dec _ _); [|split; intros; lra].
  assert (0 < c * Rpower (ru + sea - z0) e) by (apply Rmult_lt_0_compat; auto; unfold Rpower; apply exp_pos).
  split; lra.
Qed.

Lemma ot_flux_mono c e ru sea ru' sea' z0 : 0 <= c -> 0 < e -> ru <= ru' -> sea <= sea' ->
  ot_flux c e ru sea z0 <= ot_flux c e ru' sea' z0.
Proof.
  intros Hc He Hr Hs. pose proof (ot_flux_nonneg c e ru' sea' z0 Hc) as Hn. unfold ot_flux in *.
  destruct (Rlt_dec 0 (ru + sea - z0)); [|auto].
  destruct (Rlt_dec 0 (ru' + sea' - z0)); [|lra].
  apply Rmult_le_compat_l; auto. apply Rle_Rpower_l; lra.
Qed.

Lemma overtopping_spec P c e s i ru sea T G :
  ot_pars P c e s i -> 0 <= c -> 0 < e -> Forall2 geomT T G ->
  exists cst ow, overtopping P (Fin ru) (Fin sea) T = Ok (cst, ow) /\
    Forall2 (fun q g => q = Fin (ot_flux c e ru sea (snd g))) cst G /\
    Forall2 (fun b g => overwash_rule s i g b) ow G.
Proof.
  intros HP Hc He HF. unfold overtopping.
  assert (A : Forall2 (fun q (g : R * option (R * R) * R * R * R) => q = Fin (ot_flux c e ru sea (snd g)))
                (map (cstTransect P (Fin ru) (Fin sea)) T) G).
  { induction HF as [|t g T G Ht HF IH]; [constructor|]. simpl. constructor; auto.
    eapply cst_fin; eauto. destruct Ht; auto. }
  assert (B : Forall2 (fun b g => overwash_rule s i g b) (map (overwashTransect P) T) G).
  { clear A. induction HF as [|t g T G Ht HF IH]; [constructor|]. simpl. constructor; auto. eapply overwash_fin; eauto. }
  assert (C : forallb (fun q => (f0 <=? q)%n) (map (cstTransect P (Fin ru) (Fin sea)) T) = true).
  { clear - A Hc. induction A as [|q g l G Hq HF IH]; [reflexivity|]. cbn [forallb]. apply andb_true_intro; split; [|exact IH].
    subst q. apply Rleb_true. apply ot_flux_nonneg; auto. }
  rewrite C. cbn [assert_ bind]. eauto.
Qed.

Lemma overwash_rule_fun s i G b b' : overwash_rule s i G b -> overwash_rule s i G b' -> b = b'.
Proof. intros H H'; destruct H; inversion H'; subst; auto; exfalso; lra. Qed.

(** * Concrete cases: every parameter 1, celerity ratio 1 *)

Definition ones : phys xr :=
  mkPhys (Fin 1) (Fin 1) (Fin 1) (Fin 1) (Fin 1) (Fin 1) (Fin 1) (Fin 1) (Fin 1) (Fin 1)
         (Fin 1) (Fin 1) (Fin 1) (Fin 1) (Fin 1) (Fin 1) (Fin 1) (Fin 1) (Fin 1) (Fin 1)
         (Fin 1) (Fin 1) (Fin 1) (Fin 1) (Fin 1) (Fin 1) (Fin 1) (Fin 1) (Fin 1) (Fin 1)
         (Fin 1) (Fin 1) (Fin 1) (Fin 1) (Fin 1) (Fin 1) (Fin 1).
Definition T1 : R := 2 * PI / tanh (2 * PI).

Lemma tanh_pos x : 0 < x -> 0 < tanh x.
Proof.
  intros H. unfold tanh, sinh, cosh.
  assert (exp (- x) < exp x) by (apply exp_increasing; lra). pose proof (exp_pos (- x)). pose proof (exp_pos x).
  apply Rdiv_lt_0_compat; apply Rdiv_lt_0_compat; lra.
Qed.

Lemma T1_pos : 0 < T1.
Proof. pose proof PI_RGT_0. unfold T1. apply Rdiv_lt_0_compat; [lra|]. apply tanh_pos; lra. Qed.

Lemma ones_pars : lst_pars ones 1 1 1 1.
Proof. repeat split. Qed.

Lemma ones_cel : 1 * T1 / (2 * PI) * tanh (2 * PI * 1 / 1) = 1.
Proof.
  pose proof PI_RGT_0. pose proof (tanh_pos (2 * PI)). unfold T1.
  replace (2 * PI * 1 / 1) with (2 * PI) by field. field. split; lra.
Qed.

Lemma ones_ratio : cel_ratio 1 1 1 1 T1 1 = 1.
Proof.
  unfold cel_ratio. rewrite ones_cel. rewrite !Rmult_1_l.
  unfold Rpower. rewrite ln_1, Rmult_0_r, exp_0, sqrt_1. field.
Qed.

Lemma flat_angle dir : rel_angle 1 dir 0 0 = dir.
Proof. unfold rel_angle. replace ((0 - 0) / 1) with 0 by field. rewrite atan_0. ring. Qed.

Lemma lst_example :
  nth_error (longShoreTransport (map Fin [0; 0; 0]) (Fin 1) (Fin 1) (Fin T1) (Fin 1) (Fin (PI / 4)) ones) 1
  = Some (Fin (- (1 / 2))).
Proof.
  rewrite (lst_closed ones 1 1 1 1 1 T1 1 [0; 0; 0] 1 (PI / 4) 1 0 0); try lra; try reflexivity.
  - rewrite flat_angle, ones_ratio. unfold cerc. do 2 f_equal.
    rewrite sin_PI4, cos_PI4. pose proof sqrt2_neq_0.
    replace (1 / sqrt 2 * (1 / sqrt 2)) with (1 / (sqrt 2 * sqrt 2)) by (field; auto).
    rewrite sqrt_sqrt by lra. field.
  - apply ones_pars.
  - rewrite ones_cel. lra.
  - rewrite flat_angle, ones_ratio. pose proof (SIN_bound (PI / 4)). lra.
Qed.

Lemma lst_offshore_example :
  nth_error (longShoreTransport (map Fin [0; 0]) (Fin 1) (Fin 1) (Fin T1) (Fin 1) (Fin (3 * (PI / 4))) ones) 0
  = Some (Fin (1 / 2)).
Proof.
  rewrite (lst_closed ones 1 1 1 1 1 T1 1 [0; 0] 1 (3 * (PI / 4)) 0 0 0); try lra; try reflexivity.
  - rewrite flat_angle, ones_ratio. unfold cerc. do 2 f_equal.
    rewrite sin_3PI4, cos_3PI4. pose proof sqrt2_neq_0.
    replace (1 / sqrt 2 * (-1 / sqrt 2)) with (-1 / (sqrt 2 * sqrt 2)) by (field; auto).
    rewrite sqrt_sqrt by lra. field.
  - apply ones_pars.
  - rewrite ones_cel. lra.
  - rewrite flat_angle, ones_ratio. pose proof (SIN_bound (3 * (PI / 4))). lra.
Qed.

Lemma offshore_rule_false :
  exists P W T L Y dx dir i y y' q,
    nth_error Y i = Some (Fin y) /\ nth_error Y (S i) = Some (Fin y') /\ 0 < W /\
    PI / 2 < Rabs (rel_angle dx dir y y') < PI /\
    nth_error (longShoreTransport Y (Fin dx) (Fin W) (Fin T) (Fin L) (Fin dir) P) i = Some (Fin q) /\ q <> 0.
Proof.
  exists ones, 1, T1, 1, (map Fin [0; 0]), 1, (3 * (PI / 4)), 0%nat, 0, 0, (1 / 2).
  pose proof PI_RGT_0. repeat split; try lra; rewrite ?flat_angle, ?Rabs_pos_eq; try lra.
  apply lst_offshore_example.
Qed.

Lemma lst_nan_example :
  nth_error (longShoreTransport (map Fin [0; 0]) (Fin 1) (Fin 1) (Fin (T1 / 2)) (Fin 1) (Fin (PI / 2)) ones) 0
  = Some NaN.
Proof.
  assert (E : 1 * (T1 / 2) / (2 * PI) * tanh (2 * PI * 1 / 1) = 1 / 2).
  { pose proof ones_cel as C. pose proof PI_RGT_0.
    transitivity ((1 * T1 / (2 * PI) * tanh (2 * PI * 1 / 1)) / 2); [field; lra|rewrite C; reflexivity]. }
  apply (lst_undefined ones 1 1 1 1 1 (T1/2) 1 [0; 0] 1 (PI/2) 0 0 0); try lra; try reflexivity.
  - apply ones_pars.
  - rewrite flat_angle, sin_PI2. unfold cel_ratio. rewrite E.
    rewrite !Rmult_1_l. unfold Rpower. rewrite ln_1, Rmult_0_r, exp_0, sqrt_1.
    rewrite Rabs_pos_eq; lra.
Qed.

Definition exT (y1 : xr) (z0 : R) : tsect xr :=
  mkT (Fin 0) (Fin 10) y1 (Fin 3) (Fin 2) (Fin 0) (Fin z0) (Fin 0) (Fin 0) (Fin 0).

Lemma overtopping_example :
  exists cst ow, overtopping ones (Fin 2) (Fin 1) [exT NaN 1; exT (Fin 5) 10; exT (Fin 3) 2] = Ok (cst, ow)
  /\ ow = [false; true; true].
Proof.
  destruct (overtopping_spec ones 1 1 1 1 2 1 [exT NaN 1; exT (Fin 5) 10; exT (Fin 3) 2]
     [(10, None, 2, 0, 1); (10, Some (5, 3), 2, 0, 10); (10, Some (3, 3), 2, 0, 2)]) as (cst & ow & H1 & H2 & H3).
  - repeat split.
  - lra.
  - lra.
  - repeat constructor.
  - exists cst, ow. split; auto.
    inversion H3 as [|b1 g1 ow1 G1 R1 HB]; subst. inversion HB as [|b2 g2 ow2 G2 R2 HC]; subst.
    inversion HC as [|b3 g3 ow3 G3 R3 HD]; subst. inversion HD; subst.
    repeat f_equal.
    + eapply overwash_rule_fun; [apply R1|]. apply ow_lagoon_low; [lra|]. unfold Rmax; destruct (Rle_dec _ _); lra.
    + eapply overwash_rule_fun; [apply R2|]. apply ow_channel_high; lra.
    + eapply overwash_rule_fun; [apply R3|]. apply ow_zero_width; lra.
Qed.

Lemma runup_example : runup (Fin 10) (Fin 2) (Fin (1 / 4)) = Fin (49 / 10).
Proof.
  rewrite runup_fin by lra. f_equal. replace (1/4) with ((1/2)*(1/2)) by field. rewrite sqrt_square by lra. field.
Qed.

Lemma uniform_example : forall i a b,
  nth_error (map Fin [0; 1; 2; 3]) i = Some a -> nth_error (map Fin [0; 1; 2; 3]) (S i) = Some b -> fsub a b = Fin (-1).
Proof.
  intros i a b Ha Hb. do 4 (destruct i as [|i]; [simpl in Ha, Hb; inversion Ha; inversion Hb; xcbn; f_equal; ring|]).
  destruct i; discriminate.
Qed.
