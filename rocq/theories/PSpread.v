(** River sediment spread along the shore (mor.py:131-137) and the domain ends (mor.py:172). *)
From Coq Require Import ZArith List Bool Lia Reals Lra.
From Verif Require Import Base Num Xr MState MCoast MRiv MMor SMor PCoast PLag PCore PRate PBudget PShore.
Import ListNotations.
Local Open Scope R_scope.

(** ** The hat function on a regular grid *)
Definition hat (k : nat) (u : R) (i : nat) : R := Rmax (1 - Rabs (INR i - u) / INR k) 0.
Lemma hat_zero k u i : (0 < k)%nat -> INR i <= u - INR k \/ u + INR k <= INR i -> hat k u i = 0.
Proof.
  intros Hk H. unfold hat. apply lt_INR in Hk. cbn in Hk. apply Rmax_right.
  assert (1 <= Rabs (INR i - u) / INR k); [|lra].
  apply (Rmult_le_reg_r (INR k)); [lra|]. unfold Rdiv. rewrite Rmult_assoc, Rinv_l by lra.
  destruct H; [rewrite Rabs_left1 by lra|rewrite Rabs_right by lra]; lra.
Qed.
Lemma sum_zero (f : nat -> R) a n : (forall i, (a <= i < a + n)%nat -> f i = 0) -> rsum (map f (seq a n)) = 0.
Proof.
  revert a; induction n as [|n IH]; intros a H; [reflexivity|]. cbn [seq map].
  change (f a + rsum (map f (seq (S a) n)) = 0). rewrite H by lia. rewrite IH; [lra|]. intros; apply H; lia.
Qed.
Lemma sum_pairs (f : nat -> R) k a : rsum (map f (seq a k)) + rsum (map f (seq (a + k) k)) = rsum (map (fun i => f i + f (i + k)%nat) (seq a k)).
Proof.
  revert a. assert (G : forall n a b, rsum (map f (seq a n)) + rsum (map f (seq b n)) = rsum (map (fun i => f (a + i)%nat + f (b + i)%nat) (seq 0 n))).
  { induction n as [|n IH]; intros a b; [unfold rsum; cbn; lra|].
    rewrite !seq_S, !map_app, !rsum_app. specialize (IH a b). cbn [map].
    unfold rsum in *. cbn [fold_right]. rewrite Nat.add_0_l. lra. }
  intros a. rewrite G. f_equal. apply nth_error_ext. intros i. rewrite !nth_error_map.
  destruct (lt_dec i k).
  - rewrite (proj2 (nth_error_seq 0 k i i)), (proj2 (nth_error_seq a k i (a + i))) by lia. cbn [option_map].
    replace (a + k + i)%nat with (a + i + k)%nat by lia. reflexivity.
  - rewrite !(proj2 (nth_error_None _ _)) by (rewrite seq_length; lia). reflexivity.
Qed.
Lemma sum_ones (f : nat -> R) a n : (forall i, (a <= i < a + n)%nat -> f i = 1) -> rsum (map f (seq a n)) = INR n.
Proof.
  revert a; induction n as [|n IH]; intros a H; [reflexivity|]. cbn [seq map].
  change (f a + rsum (map f (seq (S a) n)) = INR (S n)). rewrite H by lia. rewrite IH by (intros; apply H; lia). rewrite S_INR. lra.
Qed.
Lemma archimed_floor u : 0 <= u -> exists m, INR m <= u < INR m + 1.
Proof.
  intros H. pose proof (Rfloor_spec u) as (A & B). assert (N : (0 <= Rfloor u)%Z).
  { apply Z.lt_succ_r. apply lt_IZR. unfold Z.succ. rewrite plus_IZR. lra. }
  exists (Z.to_nat (Rfloor u)). rewrite INR_IZR_INZ, Z2Nat.id by auto. lra.
Qed.
Lemma hat_sum k u n : (0 < k)%nat -> INR k <= u -> u + INR k <= INR (n - 1) -> (0 < n)%nat ->
  rsum (map (hat k u) (seq 1 (n - 2))) = INR k.
Proof.
  intros Hk H1 H2 Hn. assert (Pk : 1 <= INR k) by (apply (le_INR 1); lia).
  destruct (archimed_floor u) as (m & M1 & M2); [lra|].
  assert (Mk : (k <= m)%nat). { apply INR_le. apply Rnot_lt_le. intros X. apply INR_lt in X. assert (Y : (S m <= k)%nat) by lia. apply le_INR in Y. rewrite S_INR in Y. lra. }
  assert (Mn : (m + k <= n - 1)%nat). { apply INR_le. rewrite plus_INR. lra. }
  (* all transects, ends included *)
  assert (E : rsum (map (hat k u) (seq 0 n)) = rsum (map (hat k u) (seq 1 (n - 2)))).
  { replace n with (1 + (n - 2) + 1)%nat at 1 by lia. rewrite !seq_app, !map_app, !rsum_app. cbn [Nat.add].
    rewrite (sum_zero _ 0 1), (sum_zero _ (S (n - 2)) 1); [lra| |].
    - intros i Hi. apply hat_zero; auto. right. replace i with (n - 1)%nat by lia. lra.
    - intros i Hi. apply hat_zero; auto. left. replace i with 0%nat by lia. cbn. lra. }
  rewrite <- E. assert (EA : exists a, (a = m - k + 1)%nat) by eauto. destruct EA as (a & EA).
  replace n with (a + (k + k) + (n - 1 - (m + k)))%nat by lia.
  rewrite !seq_app, !map_app, !rsum_app. cbn [Nat.add].
  rewrite (sum_zero _ 0), (sum_zero _ (a + (k + k))).
  - rewrite sum_pairs, (sum_ones _ _ k); [lra|].
    intros i Hi. unfold hat.
    assert (I1 : INR i <= INR m) by (apply le_INR; lia).
    assert (I2 : INR m + 1 <= INR i + INR k) by (rewrite <- plus_INR; change (INR m + 1) with (INR m + INR 1); rewrite <- plus_INR; apply le_INR; lia).
    rewrite plus_INR. rewrite (Rabs_left1 (INR i - u)), (Rabs_right (INR i + INR k - u)) by lra.
    assert (Q : forall x, x <= INR k -> 0 <= 1 - x / INR k).
    { intros x Hx. assert (x / INR k <= 1); [|lra]. apply (Rmult_le_reg_r (INR k)); [lra|]. unfold Rdiv. rewrite Rmult_assoc, Rinv_l by lra. lra. }
    rewrite !Rmax_left by (apply Q; lra). field. lra.
  - intros i Hi. apply hat_zero; auto. right. assert (INR m + 1 + INR k <= INR i); [|lra].
    change (INR m + 1) with (INR m + INR 1). rewrite <- !plus_INR. apply le_INR. lia.
  - intros i Hi. apply hat_zero; auto. left. assert (INR i + INR k <= INR m); [|lra]. rewrite <- plus_INR. apply le_INR. lia.
Qed.

(** ** River sediment on the shoreline *)
Section Spread.
  Variables (P : phys xr) (d : R) (T : list (tsect xr)) (e0 e1 W Zend : xr) (online outlet : list nat)
            (CW CD : list xr) (fl : list nat) (closed : bool) (OW : list bool).
  Variables (LST q CST : list R) (Rq Rn : rates xr).
  Hypothesis SI : soundInputs P d T e1 W Zend online outlet CW CD fl closed (length q).
  Hypothesis H1 : ratesFor P (Fin d) T e0 e1 W Zend online outlet CW CD fl closed (map Fin LST) (map Fin q) (map Fin CST) OW = Ok Rq.
  Hypothesis H0 : ratesFor P (Fin d) T e0 e1 W Zend online outlet CW CD fl closed (map Fin LST) (map (fun _ => Fin 0) q) (map Fin CST) OW = Ok Rn.
  Lemma formS : realForm P d T e0 e1 W Zend online outlet CW CD fl closed LST q CST OW Rq.
  Proof. apply real; auto. Qed.
  Lemma formS0 : realForm P d T e0 e1 W Zend online outlet CW CD fl closed LST (none q) CST OW Rn.
  Proof. apply real; [rewrite none_len; auto|]. rewrite none_fin. auto. Qed.
  Lemma SI0 : soundInputs P d T e1 W Zend online outlet CW CD fl closed (length (none q)).
  Proof. rewrite none_len. exact SI. Qed.

  Lemma spread_at i t r r0 : (0 < i)%nat -> (S i < length T)%nat ->
    nth_error T i = Some t -> nth_error (rT Rq) i = Some r -> nth_error (rT Rn) i = Some r0 ->
    shoreVol P d t r r0 = Fin (if closed then 0 else
      let s := rv (pOutletSedSpreadDist P) in
      d * nth (length q - 1) q 0 / s * Rmax (1 - Rabs (rv (tX t) - rv e1) / s) 0).
  Proof.
    intros Hi Hn Ht Hr Hr0. pose proof SI as (SP & Hd & ST & _).
    destruct (shore_val P d T e0 e1 W Zend online outlet CW CD fl closed OW _ _ _ _ i t r SI formS Ht Hr Hi Hn) as (y & E & Y).
    destruct (shore_val P d T e0 e1 W Zend online outlet CW CD fl closed OW _ _ _ _ i t r0 SI0 formS0 Ht Hr0 Hi Hn) as (y0 & E0 & Y0). cbv zeta in *.
    rewrite (shoreVol_val P d t r r0 y y0 SP); auto; [|rewrite Forall_forall in ST; apply ST; eapply nth_error_In; eauto].
    rewrite Y, Y0. f_equal. rewrite !none_nth. destruct closed; [lra|]. unfold Rdiv. lra.
  Qed.
  Lemma spread_end i t r r0 : i = 0%nat \/ S i = length T ->
    nth_error T i = Some t -> nth_error (rT Rq) i = Some r -> nth_error (rT Rn) i = Some r0 -> rY0 r = rY0 r0.
  Proof.
    intros Hi Ht Hr Hr0. pose proof SI as (SP & Hd & ST & _).
    destruct (row_val SP Hd ST formS i t r Ht Hr) as (_ & _ & y & E & sp & rbv & B & Y).
    destruct (row_val SP Hd ST formS0 i t r0 Ht Hr0) as (_ & _ & y0 & E0 & sp0 & rbv0 & B0 & Y0).
    pose proof (rf_lst _ _ _ _ _ _ _ _ _ _ _ _ _ _ _ _ _ _ formS) as LL.
    rewrite olst_out in Y, Y0 by lia. subst. reflexivity.
  Qed.
  Lemma spread_sum : closed = false ->
    shorelineVol P d T Rq Rn = let s := rv (pOutletSedSpreadDist P) in
      nth (length q - 1) q 0 * (d / s * rsum (map (fun i => match nth_error T i with Some t => Rmax (1 - Rabs (rv (tX t) - rv e1) / s) 0 | None => 0 end) (seq 1 (length T - 2)))).
  Proof.
    intros HC. unfold shorelineVol. cbv zeta.
    pose proof (rf_len _ _ _ _ _ _ _ _ _ _ _ _ _ _ _ _ _ _ formS) as L1. pose proof (rf_len _ _ _ _ _ _ _ _ _ _ _ _ _ _ _ _ _ _ formS0) as L0.
    set (s := rv (pOutletSedSpreadDist P)) in *. set (qe := nth (length q - 1) q 0).
    set (f := fun i => match nth_error T i with Some t => Rmax (1 - Rabs (rv (tX t) - rv e1) / s) 0 | None => 0 end).
    rewrite (seq_at3 _ _ _ _ (fun i => (d * qe / s) * f i)).
    - generalize (seq 1 (length T - 2)). clearbody f. intros l.
      unfold rsum. induction l as [|a0 l IH]; cbn [map fold_right]; [unfold Rdiv; ring|]. rewrite IH. unfold Rdiv. ring.
    - intros i Hi. destruct (nth_error T i) as [t|] eqn:E1; [|apply nth_error_None in E1; lia].
      destruct (nth_error (rT Rq) i) as [r|] eqn:E2; [|apply nth_error_None in E2; lia].
      destruct (nth_error (rT Rn) i) as [r0|] eqn:E3; [|apply nth_error_None in E3; lia].
      exists t, r, r0. repeat split; auto. rewrite (spread_at i t r r0) by (auto; lia). rewrite HC. unfold f. rewrite E1. reflexivity.
  Qed.
  Lemma regular_at : regular d T -> forall i t, nth_error T i = Some t -> rv (tX t) = firstX T + INR i * d.
  Proof.
    intros (_ & Hreg). induction i as [|i IH]; intros t Ht.
    - unfold firstX. destruct T; [discriminate|]. injection Ht as ->. cbn. lra.
    - destruct (nth_error T i) as [t'|] eqn:E; [|apply nth_error_None in E; assert (S i < length T)%nat by (apply nth_error_Some; congruence); lia].
      rewrite (Hreg _ _ _ E Ht), (IH _ eq_refl), S_INR. lra.
  Qed.
  Lemma spread_total k : closed = false -> regular d T -> (0 < k)%nat -> rv (pOutletSedSpreadDist P) = INR k * d ->
    firstX T + INR k * d <= rv e1 <= lastX T - INR k * d ->
    shorelineVol P d T Rq Rn = nth (length q - 1) q 0.
  Proof.
    intros HC HR Hk Hs (B1 & B2). pose proof HR as (Hd & _). rewrite spread_sum by auto. cbv zeta. rewrite Hs.
    assert (Pk : 0 < INR k) by (apply lt_0_INR; auto).
    assert (HL : lastX T = firstX T + INR (length T - 1) * d /\ (0 < length T)%nat).
    { unfold lastX. destruct (rev T) as [|t l] eqn:E.
      - exfalso. apply (f_equal (@rev _)) in E. rewrite rev_involutive in E. cbn in E. subst T. unfold firstX in B1. unfold lastX in B2. cbn in B1, B2. assert (0 < INR k * d) by (apply Rmult_lt_0_compat; lra). lra.
      - apply (f_equal (@rev _)) in E. rewrite rev_involutive in E. cbn [rev] in E.
        split; [|rewrite E, app_length; cbn; lia]. apply regular_at; auto. rewrite E at 1. rewrite nth_error_app2; rewrite ?E, app_length, rev_length; cbn [length]; [|lia].
        replace (length l + 1 - 1 - length l)%nat with 0%nat by lia. reflexivity. }
    destruct HL as (HL & Hn).
    set (u := (rv e1 - firstX T) / d).
    assert (Eu : rv e1 = firstX T + u * d) by (unfold u; field; lra).
    rewrite (map_ext_in _ (hat k u)).
    - rewrite hat_sum; auto.
      + field. split; lra.
      + apply (Rmult_le_reg_r d); lra.
      + apply (Rmult_le_reg_r d); [lra|]. rewrite Eu, HL in B2. lra.
    - intros i Hi. apply in_seq in Hi. destruct (nth_error T i) as [t|] eqn:E; [|apply nth_error_None in E; lia].
      unfold hat. rewrite (regular_at HR i t E), Eu. f_equal. f_equal.
      replace (firstX T + INR i * d - (firstX T + u * d)) with ((INR i - u) * d) by ring.
      rewrite Rabs_mult, (Rabs_right d) by lra. field. split; lra.
  Qed.
End Spread.

(** ** Domain ends *)
Section Ends.
  Context {F} {NF : Num F}.
  Lemma ends_rate (P : phys F) Dx T e0 e1 W Zend online outlet CW CD fl closed LST q CST OW (RR : rates F) i r :
    ratesFor P Dx T e0 e1 W Zend online outlet CW CD fl closed LST q CST OW = Ok RR ->
    i = 0%nat \/ S i = length T -> nth_error (rT RR) i = Some r ->
    rY0 r = (- pShorelineErosionRate P / (fofQ 36525 100 * fofZ 86400))%n.
  Proof.
    intros H Hi Hr. unfold ratesFor in H. bok H rbq. unfold changeRates in H. cbv zeta in H.
    destruct (negb _) eqn:EN in H; [discriminate|]. apply negb_false_iff in EN.
    repeat (apply andb_prop in EN; let X := fresh "L" in destruct EN as [EN X]; apply Nat.eqb_eq in X).
    bok H g1. bok H g2. bok H sp. bok H ends. destruct ends as [[a b] c]. apply Ok_inj in H. subst RR. cbn [rT] in Hr.
    rewrite nth_error_mapi in Hr. destruct (nth_error T i) as [t|] eqn:Et; [|discriminate]. cbn [option_map] in Hr. apply Some_inj in Hr. subst r.
    cbn [rY0 rateOf]. destruct Hi as [->|Hi]; [reflexivity|].
    destruct i as [|k]; [reflexivity|]. rewrite (proj2 (nth_error_None LST (S k))) by lia.
    destruct (nth_error LST k); reflexivity.
  Qed.
End Ends.
