(** Proofs about the adaptive time step (mor.py:174-204). *)
From Coq Require Import ZArith List Bool Lia Reals Lra Floats.
From Verif Require Import Base Num Xr Flt MState MMor SAdapt.
Import ListNotations.
Local Open Scope Z_scope.

Lemma seconds_sec a : 0 <= a < 86400 -> seconds (sec a) = a.
Proof. intros H. unfold seconds, sec. rewrite Z.div_mul by lia. apply Z.mod_small; lia. Qed.
Lemma seconds_small t : 0 <= t < oneDay -> seconds t = t / 1000000000.
Proof. unfold oneDay, sec. intros H. unfold seconds. apply Z.mod_small. split; [apply Z.div_pos; lia|apply Z.div_lt_upper_bound; lia]. Qed.
Lemma seconds_nonneg t : 0 <= seconds t.
Proof. unfold seconds. apply Z.mod_pos_bound. lia. Qed.
Lemma sec_half a : sec (2 * a) / 2 = sec a.
Proof. unfold sec. replace (2 * a * 1000000000) with (a * 1000000000 * 2) by ring. apply Z.div_mul. lia. Qed.
Lemma sec_double a : sec a * 2 = sec (2 * a).
Proof. unfold sec. ring. Qed.

Section Gen.
  Context {F : Type} {NF : Num F}.

  (** ** Signs, for any limits *)
  Lemma adaptDown_nonneg fuel : forall (N : nump F) m rate dt r,
    0 <= dt -> adaptDown fuel N m rate dt = Ok r -> 0 <= r.
  Proof.
    induction fuel as [|f IH]; intros N m rate dt r H; cbn [adaptDown];
      destruct (_ && _); try discriminate; try (intros E; apply Ok_inj in E; lia).
    intros E. eapply IH; [|exact E]. apply Z.div_pos; lia.
  Qed.
  Lemma adaptUp_nonneg fuel : forall (N : nump F) m rate dt r,
    0 <= dt -> adaptUp fuel N m rate dt = Ok r -> 0 <= r.
  Proof.
    induction fuel as [|f IH]; intros N m rate dt r H; cbn [adaptUp];
      destruct (_ && _); try discriminate; try (intros E; apply Ok_inj in E; lia).
    intros E. eapply IH; [|exact E]. lia.
  Qed.
  Lemma adaptStep_nonneg fuel (N : nump F) TP rate dt r :
    0 <= dt -> adaptStep fuel N TP rate dt = Ok r -> 0 <= r.
  Proof.
    intros H E. unfold adaptStep in E. apply bind_ok in E. destruct E as (d & E1 & E2).
    eapply adaptUp_nonneg; [|exact E2]. eapply adaptDown_nonneg; [|exact E1]. auto.
  Qed.

  (** ** Powers of two *)
  Section Pow.
    Variables (N : nump F) (a : Z) (k : nat).
    Hypothesis (Ha : 1 <= a) (Hk : a * 2 ^ Z.of_nat k <= 43200).

    Lemma pow_le i : (i <= k)%nat -> 1 <= a * 2 ^ Z.of_nat i <= 43200.
    Proof.
      intros H. assert (1 <= 2 ^ Z.of_nat i) by (pose proof (Z.pow_pos_nonneg 2 (Z.of_nat i)); lia).
      assert (2 ^ Z.of_nat i <= 2 ^ Z.of_nat k) by (apply Z.pow_le_mono_r; lia). split; nia.
    Qed.
    Lemma pow_lt i j : (i < j)%nat -> a * 2 ^ Z.of_nat i < a * 2 ^ Z.of_nat j.
    Proof. intros H. assert (2 ^ Z.of_nat i < 2 ^ Z.of_nat j) by (apply Z.pow_lt_mono_r; lia). nia. Qed.
    Lemma secs i : (i <= k)%nat -> seconds (sec (a * 2 ^ Z.of_nat i)) = a * 2 ^ Z.of_nat i.
    Proof. intros H. apply seconds_sec. pose proof (pow_le i H). lia. Qed.
    Lemma secs0 : seconds (sec a) = a.
    Proof. pose proof (secs 0 ltac:(lia)) as H. cbn [Z.of_nat] in H. rewrite Z.pow_0_r, Z.mul_1_r in H. exact H. Qed.
    Lemma pow_S i : a * 2 ^ Z.of_nat (S i) = 2 * (a * 2 ^ Z.of_nat i).
    Proof. rewrite Nat2Z.inj_succ, Z.pow_succ_r by lia. ring. Qed.

    Lemma down_pow rate : forall j fuel, (j <= k)%nat -> (j <= fuel)%nat ->
      exists i, (i <= j)%nat /\
        adaptDown fuel N (sec a) rate (sec (a * 2 ^ Z.of_nat j)) = Ok (sec (a * 2 ^ Z.of_nat i)) /\
        (i = 0%nat \/ (nMaxMorChange N <? rate * fofZ (a * 2 ^ Z.of_nat i))%n = false).
    Proof.
      induction j as [|j IH]; intros fuel Hj Hf.
      - exists 0%nat. split; [lia|]. split; [|left; auto].
        destruct fuel; cbn [adaptDown]; cbn [Z.of_nat]; rewrite Z.pow_0_r, Z.mul_1_r, Z.ltb_irrefl; reflexivity.
      - destruct fuel as [|f]; [lia|]. cbn [adaptDown]. rewrite secs, secs0 by lia.
        destruct (a <? _)%Z eqn:E1; cbn [andb].
        + destruct (_ <? _)%n eqn:E2.
          * rewrite pow_S, sec_half. destruct (IH f) as (i & H1 & H2 & H3); try lia. exists i. split; [lia|]. split; auto.
          * exists (S j). split; [lia|]. split; auto.
        + exfalso. apply Z.ltb_ge in E1. pose proof (pow_lt 0 (S j) ltac:(lia)) as H.
          cbn [Z.of_nat] in H. rewrite Z.pow_0_r, Z.mul_1_r in H. cbn [Z.of_nat] in E1. lia.
    Qed.

    Lemma up_pow rate : forall d j fuel, (j + d = k)%nat -> (d <= fuel)%nat ->
      exists i, (j <= i <= k)%nat /\
        adaptUp fuel N (sec (a * 2 ^ Z.of_nat k)) rate (sec (a * 2 ^ Z.of_nat j)) = Ok (sec (a * 2 ^ Z.of_nat i)) /\
        (i = k \/ (rate * fofZ (a * 2 ^ Z.of_nat i) <? nMaxMorChange N / f2)%n = false) /\
        (i = j \/ exists i', i = S i' /\ (rate * fofZ (a * 2 ^ Z.of_nat i') <? nMaxMorChange N / f2)%n = true).
    Proof.
      induction d as [|d IH]; intros j fuel Hj Hf.
      - exists j. split; [lia|]. replace k with j by lia.
        split; [destruct fuel; cbn [adaptUp]; rewrite Z.ltb_irrefl; reflexivity|]. split; left; auto.
      - destruct fuel as [|f]; [lia|]. cbn [adaptUp]. rewrite !secs by lia.
        rewrite (proj2 (Z.ltb_lt _ _)) by (apply pow_lt; lia). cbn [andb].
        destruct (_ <? _)%n eqn:E2.
        + rewrite sec_double, <- pow_S. destruct (IH (S j) f) as (i & H1 & H2 & H3 & H4); try lia.
          exists i. split; [lia|]. split; [auto|]. split; [auto|]. right.
          destruct H4 as [->|H4]; [exists j; auto|exact H4].
        + exists j. split; [lia|]. split; [auto|]. split; auto.
    Qed.

    Lemma adapt_pow TP rate j fuel :
      tMorDtMin TP = sec a -> tMorDtMax TP = sec (a * 2 ^ Z.of_nat k) -> (j <= k)%nat -> (k <= fuel)%nat ->
      exists i, (i <= k)%nat /\ adaptStep fuel N TP rate (sec (a * 2 ^ Z.of_nat j)) = Ok (sec (a * 2 ^ Z.of_nat i)).
    Proof.
      intros H1 H2 Hj Hf. unfold adaptStep. rewrite H1, H2.
      destruct (down_pow rate j fuel) as (i1 & A1 & A2 & _); try lia. rewrite A2. cbn [bind].
      destruct (up_pow rate (k - i1) i1 fuel) as (i2 & B1 & B2 & _); try lia.
      exists i2. split; [lia|auto].
    Qed.
  End Pow.

  (** ** Any limits, maximum at most half a day *)
  Section Half.
    Variables (N : nump F) (rate : F).

    Lemma down_half : forall n m dt fuel, 0 <= m < oneDay -> 0 < dt < oneDay -> dt < 2 ^ Z.of_nat n -> (n <= fuel)%nat ->
      exists r, adaptDown fuel N m rate dt = Ok r /\ 0 < r < oneDay /\ r <= dt /\ (r = dt \/ m <= 2 * r + 1).
    Proof.
      induction n as [|n IH]; intros m dt fuel Hm Hd Hn Hf; [cbn in Hn; lia|].
      destruct fuel as [|f]; [lia|]. cbn [adaptDown].
      destruct (seconds m <? seconds dt) eqn:E1; cbn [andb]; [|exists dt; repeat split; try lia; auto].
      destruct (_ <? _)%n; [|exists dt; repeat split; try lia; auto].
      apply Z.ltb_lt in E1. pose proof (seconds_nonneg m).
      assert (L : m < dt). { rewrite !seconds_small in E1 by lia. apply Z.nle_gt. intros C. apply (Z.div_le_mono _ _ 1000000000) in C; lia. }
      rewrite (seconds_small dt) in E1 by lia.
      assert (B : 1000000000 <= dt). { apply Z.nlt_ge. intros C. rewrite Z.div_small in E1 by lia. lia. }
      rewrite Nat2Z.inj_succ, Z.pow_succ_r in Hn by lia.
      pose proof (Z.div_mod dt 2 ltac:(lia)). pose proof (Z.mod_pos_bound dt 2 ltac:(lia)).
      destruct (IH m (dt / 2) f) as (r & R1 & R2 & R3 & R4); try lia.
      exists r. split; [auto|]. split; [auto|]. split; [lia|]. right. destruct R4; lia.
    Qed.

    Lemma up_half : forall n m dt fuel, 0 <= m <= halfDay -> 0 < dt < oneDay -> m <= dt * 2 ^ Z.of_nat n -> (n <= fuel)%nat ->
      exists r, adaptUp fuel N m rate dt = Ok r /\ 0 < r < oneDay /\ dt <= r /\ (r = dt \/ r < 2 * m).
    Proof.
      assert (HD : 2 * halfDay = oneDay) by (vm_compute; reflexivity).
      induction n as [|n IH]; intros m dt fuel Hm Hd Hn Hf.
      - assert (E : (seconds dt <? seconds m) = false).
        { apply Z.ltb_ge. rewrite !seconds_small by lia. apply Z.div_le_mono; lia. }
        exists dt. destruct fuel; cbn [adaptUp]; rewrite E; cbn [andb]; repeat split; try lia; auto.
      - destruct fuel as [|f]; [lia|]. cbn [adaptUp].
        destruct (seconds dt <? seconds m) eqn:E1; cbn [andb]; [|exists dt; repeat split; try lia; auto].
        destruct (_ <? _)%n; [|exists dt; repeat split; try lia; auto].
        apply Z.ltb_lt in E1.
        assert (L : dt < m). { rewrite !seconds_small in E1 by lia. apply Z.nle_gt. intros C. apply (Z.div_le_mono _ _ 1000000000) in C; lia. }
        rewrite Nat2Z.inj_succ, Z.pow_succ_r in Hn by lia.
        destruct (IH m (dt * 2) f) as (r & R1 & R2 & R3 & R4); try lia.
        exists r. repeat split; auto; try lia. 
    Qed.

    Lemma adapt_half TP dt fuel :
      0 <= tMorDtMin TP < oneDay -> 0 <= tMorDtMax TP <= halfDay -> 0 < dt < oneDay -> (47 <= fuel)%nat ->
      exists r, adaptStep fuel N TP rate dt = Ok r /\ 0 < r < oneDay /\
        (r <= dt \/ r < 2 * tMorDtMax TP) /\ (dt <= r \/ tMorDtMin TP <= 2 * r + 1).
    Proof.
      intros Hm HM Hd Hf. unfold adaptStep.
      assert (P : oneDay <= 2 ^ Z.of_nat 47) by (vm_compute; discriminate).
      destruct (down_half 47 (tMorDtMin TP) dt fuel) as (r & R1 & R2 & R3 & R4); try lia. rewrite R1. cbn [bind].
      assert (Hh : halfDay < oneDay) by (vm_compute; reflexivity).
      destruct (up_half 47 (tMorDtMax TP) r fuel) as (r' & Q1 & Q2 & Q3 & Q4); try lia.
      exists r'. split; [auto|]. split; [auto|]. split; [destruct Q4; lia|]. destruct R4; lia.
    Qed.
  End Half.

  Lemma adapt_day (N : nump F) TP rate dt fuel r : tMorDtMax TP = oneDay -> 0 <= dt ->
    adaptStep fuel N TP rate dt = Ok r -> r <= dt.
  Proof.
    intros HM Hd E. unfold adaptStep in E. apply bind_ok in E. destruct E as (d & E1 & E2).
    assert (D : d = r).
    { rewrite HM in E2. change (seconds oneDay) with 0 in E2.
      destruct fuel; cbn [adaptUp] in E2; change (seconds oneDay) with 0 in E2;
        rewrite (proj2 (Z.ltb_ge (seconds d) 0)) in E2 by apply seconds_nonneg; cbn [andb] in E2; apply Ok_inj in E2; auto. }
    subst d. clear E2. revert dt Hd E1. induction fuel as [|f IH]; intros dt Hd; cbn [adaptDown];
      destruct (_ && _); try discriminate; try (intros E; apply Ok_inj in E; lia).
    intros E. apply IH in E; [|apply Z.div_pos; lia]. pose proof (Z.div_le_upper_bound dt 2 dt ltac:(lia) ltac:(lia)). lia.
  Qed.
End Gen.

(** ** Quality of the chosen step, exact arithmetic *)
Lemma adapt_quality (N : nump xr) a k TP (rate cap : R) j fuel :
  1 <= a -> a * 2 ^ Z.of_nat k <= 43200 -> tMorDtMin TP = sec a -> tMorDtMax TP = sec (a * 2 ^ Z.of_nat k) ->
  (j <= k)%nat -> (k <= fuel)%nat -> nMaxMorChange N = Fin cap ->
  exists i, (i <= k)%nat /\ adaptStep fuel N TP (Fin rate) (sec (a * 2 ^ Z.of_nat j)) = Ok (sec (a * 2 ^ Z.of_nat i)) /\
    let s := IZR (a * 2 ^ Z.of_nat i) in
    (i = 0%nat \/ (rate * s <= cap)%R) /\ (i = k \/ (cap / 2 <= rate * s)%R).
Proof.
  intros Ha Hk H1 H2 Hj Hf Hc. unfold adaptStep. rewrite H1, H2.
  destruct (down_pow N a k Ha Hk (Fin rate) j fuel) as (i1 & A1 & A2 & A3); try lia. rewrite A2. cbn [bind].
  destruct (up_pow N a k Ha Hk (Fin rate) (k - i1) i1 fuel) as (i2 & B1 & B2 & B3 & B4); try lia.
  exists i2. split; [lia|]. split; [auto|].
  rewrite Hc in *.
  assert (HF : forall z, (Fin rate * fofZ z)%n = Fin (rate * IZR z)) by reflexivity.
  assert (HH : (Fin cap / @f2 xr xr_num)%n = Fin (cap / 2)) by (apply xdiv_fin; lra).
  rewrite HH in *. split.
  - destruct B4 as [->|(i1' & -> & B4)].
    + destruct A3 as [A3|A3]; [auto|]. right. rewrite HF in A3. cbn in A3. apply Rltb_false in A3. lra.
    + right. rewrite HF in B4. cbn in B4. apply Rltb_true in B4.
      assert (E2 : (a * 2 ^ Z.of_nat (S i1'))%Z = (2 * (a * 2 ^ Z.of_nat i1'))%Z) by (rewrite Nat2Z.inj_succ, Z.pow_succ_r by lia; ring). rewrite E2, mult_IZR. lra.
  - destruct B3 as [B3|B3]; [auto|]. right. rewrite HF in B3. cbn in B3. apply Rltb_false in B3. lra.
Qed.

(** ** Doubling that never ends *)
Definition orbit : list Z := Eval vm_compute in
  (fix go n x := match n with O => [] | S m => x :: go m ((2 * x) mod 86400)%Z end) 64%nat 15%Z.
Lemma orbit_closed x : In x orbit -> In ((2 * x) mod 86400) orbit /\ x < 80000.
Proof.
  intros H. assert (A : forallb (fun x => existsb (Z.eqb ((2 * x) mod 86400)) orbit && (x <? 80000)) orbit = true) by (vm_compute; reflexivity).
  rewrite forallb_forall in A. apply A in H. apply andb_prop in H. destruct H as [H1 H2].
  apply existsb_exists in H1. destruct H1 as (y & Hy & E). apply Z.eqb_eq in E. rewrite E. split; [auto|]. apply Z.ltb_lt; auto.
Qed.
Lemma up_forever {F} {NF : Num F} (N : nump F) rate : (forall z, (rate * fofZ z <? nMaxMorChange N / f2)%n = true) ->
  forall fuel b, In (b mod 86400) orbit -> adaptUp fuel N (sec 80000) rate (sec b) = Exc EFuel.
Proof.
  intros Hr. assert (S : forall b, seconds (sec b) = b mod 86400).
  { intros b. unfold seconds, sec. rewrite Z.div_mul by lia. auto. }
  induction fuel as [|f IH]; intros b Hb; cbn [adaptUp]; rewrite !S; change (80000 mod 86400) with 80000;
    pose proof (orbit_closed _ Hb) as [H1 H2]; rewrite (proj2 (Z.ltb_lt _ _) H2); cbn [andb]; rewrite Hr; [auto|].
  rewrite sec_double. apply IH. rewrite <- Z.mul_mod_idemp_r by lia. auto.
Qed.
Lemma adapt_forever {F} {NF : Num F} (N : nump F) start fin hyd rate fuel :
  (forall z, (rate * fofZ z <? nMaxMorChange N / f2)%n = true) ->
  adaptStep fuel N (mkTime start fin hyd (sec 15) (sec 80000)) rate (sec 15) = Exc EFuel.
Proof.
  intros Hr. unfold adaptStep. cbn [tMorDtMin tMorDtMax].
  replace (adaptDown fuel N (sec 15) rate (sec 15)) with (@Ok Z (sec 15)).
  - cbn [bind]. apply up_forever; auto. vm_compute. auto.
  - destruct fuel; cbn [adaptDown]; rewrite Z.ltb_irrefl; reflexivity.
Qed.
Lemma adapt_forever_zero (N : nump xr) start fin hyd fuel cap : nMaxMorChange N = Fin cap -> (0 < cap)%R ->
  adaptStep fuel N (mkTime start fin hyd (sec 15) (sec 80000)) (Fin 0) (sec 15) = Exc EFuel.
Proof.
  intros Hc Hp. apply adapt_forever. intros z. rewrite Hc.
  change (Fin 0 * fofZ z)%n with (Fin (0 * IZR z)). assert (E : (Fin cap / @f2 xr xr_num)%n = Fin (cap / 2)) by (apply xdiv_fin; lra).
  rewrite E. cbn. apply Rltb_true. lra.
Qed.

(** ** The limits are not limits *)
Definition capOne : nump xr := mkNum (Fin 20) (Fin 1) (Fin 1) (Fin 1) (Fin 1) 10 (Fin 1) (Fin 1).
Definition exTP (a b : Z) : timep := mkTime 0 (sec 3600) (sec 5) (sec a) (sec b).
Lemma over_max : adaptStep 100 capOne (exTP 15 20) (Fin 0) (sec 15) = Ok (sec 30).
Proof.
  unfold adaptStep, exTP. cbn [tMorDtMin tMorDtMax].
  change (seconds (sec 20)) with 20. cbn [adaptDown].
  change (seconds (sec 15) <? seconds (sec 15)) with false. cbn [andb bind].
  cbn [adaptUp]. change (seconds (sec 20)) with 20. change (seconds (sec 15)) with 15. change (15 <? 20) with true. cbn [andb].
  assert (E : (Fin 0 * fofZ 15 <? nMaxMorChange capOne / f2)%n = true).
  { change (Fin 0 * fofZ 15)%n with (Fin (0 * 15)). cbn [nMaxMorChange capOne]. unfold f2. change (@fofZ xr xr_num 2) with (Fin 2).
    rewrite xdiv_fin by lra. cbn. apply Rltb_true. lra. }
  rewrite E. change (seconds (sec 15 * 2) <? 20) with false. reflexivity.
Qed.
Lemma under_min : adaptStep 100 capOne (exTP 15 3600) (Fin 1) (sec 20) = Ok (sec 10).
Proof.
  unfold adaptStep, exTP. cbn [tMorDtMin tMorDtMax]. cbn [adaptDown].
  change (seconds (sec 15)) with 15. change (seconds (sec 20)) with 20. change (15 <? 20) with true. cbn [andb].
  assert (E : (nMaxMorChange capOne <? Fin 1 * fofZ 20)%n = true).
  { cbn. apply Rltb_true. lra. }
  rewrite E. change (sec 20 / 2) with (sec 10). change (seconds (sec 10)) with 10. change (15 <? 10) with false. cbn [andb bind].
  cbn [adaptUp]. change (seconds (sec 10)) with 10. change (10 <? seconds (sec 3600)) with true. cbn [andb].
  assert (E2 : (Fin 1 * fofZ 10 <? nMaxMorChange capOne / f2)%n = false).
  { change (Fin 1 * fofZ 10)%n with (Fin (1 * 10)). cbn [nMaxMorChange capOne]. unfold f2. change (@fofZ xr xr_num 2) with (Fin 2).
    rewrite xdiv_fin by lra. cbn. apply Rltb_false. lra. }
  rewrite E2. reflexivity.
Qed.
Lemma limits_refuted : ~ (forall (N : nump xr) TP rate dt fuel r, adaptStep fuel N TP rate dt = Ok r ->
  tMorDtMin TP <= dt <= tMorDtMax TP -> tMorDtMin TP <= r <= tMorDtMax TP).
Proof.
  intros H. specialize (H _ _ _ _ _ _ over_max). unfold exTP, sec in H. cbn [tMorDtMin tMorDtMax] in H. lia.
Qed.
Lemma limits_refuted_below : ~ (forall (N : nump xr) TP rate dt fuel r, adaptStep fuel N TP rate dt = Ok r ->
  tMorDtMin TP <= dt <= tMorDtMax TP -> tMorDtMin TP <= r).
Proof.
  intros H. specialize (H _ _ _ _ _ _ under_min). unfold exTP, sec in H. cbn [tMorDtMin tMorDtMax] in H. lia.
Qed.
Lemma terminates_refuted : ~ (forall (N : nump xr) TP rate dt, 0 < tMorDtMin TP <= dt -> dt <= tMorDtMax TP < oneDay ->
  exists fuel r, adaptStep fuel N TP rate dt = Ok r).
Proof.
  intros H. destruct (H capOne (exTP 15 80000) (Fin 0) (sec 15)) as (fuel & r & E); try (unfold exTP, sec, oneDay; cbn; lia).
  unfold exTP in E. rewrite (adapt_forever_zero capOne _ _ _ _ 1 eq_refl) in E by lra. discriminate.
Qed.
Lemma exTP_ok : 1 <= 15 /\ 15 * 2 ^ Z.of_nat 8 <= 43200 /\ tMorDtMin (exTP 15 3840) = sec 15 /\
  tMorDtMax (exTP 15 3840) = sec (15 * 2 ^ Z.of_nat 8).
Proof. repeat split; vm_compute; try discriminate; reflexivity. Qed.
