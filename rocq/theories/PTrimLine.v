(** trimLine: when it succeeds and when it fails. *)
From Coq Require Import ZArith List Bool Lia.
From Verif Require Import Base Num Xr MGeom SGeom PGeom PCoast.
Import ListNotations.
Local Open Scope R_scope.

Section Straight.
  Context (TX : list R) (m c : R) (Inc : increasing TX).
  Notation TY := (map (fun t => m * t + c) TX).
  Context (a b : pt2) (x : R).
  Context (Hon : on_line a b (x, m * x + c)) (Hpar : (fst a - fst b) * m - (snd a - snd b) <> 0).

  Lemma den_at k t0 t1 : nth_error TX k = Some t0 -> nth_error TX (S k) = Some t1 ->
    trimDen (fp a) (fp b) (map Fin TX) (map Fin TY) (Z.of_nat k) =
    Ok (Fin t0, Fin t1, Fin (m * t0 + c), Fin (m * t1 + c), Fin ((t0 - t1) * ((fst a - fst b) * m - (snd a - snd b)))).
  Proof.
    intros H0 H1. pose proof (proj1 (nth_error_Some TX (S k)) ltac:(congruence)) as L. unfold trimDen, pynth.
    rewrite !map_length. replace (Z.of_nat k + 1)%Z with (Z.of_nat (S k)) by lia.
    assert (P : forall j, (j < length TX)%nat -> pyix (length TX) (Z.of_nat j) = Some j).
    { intros j Hj. unfold pyix. destruct (Z.of_nat j <? 0)%Z eqn:E; [apply Z.ltb_lt in E; lia|]. rewrite (proj2 (Z.ltb_lt _ _)) by lia. now rewrite Nat2Z.id. }
    rewrite !P by lia. unfold ix. rewrite !nth_error_map, H0, H1. cbn [option_map of_opt bind]. unfold fp. cbn [fst snd]. xg. do 2 f_equal. f_equal. ring.
  Qed.
  Lemma search_at f k t0 t1 : nth_error TX k = Some t0 -> nth_error TX (S k) = Some t1 ->
    trimSearch (S f) (fp a) (fp b) (map Fin TX) (map Fin TY) (Z.of_nat k) =
    if Rltb x t0 then trimSearch f (fp a) (fp b) (map Fin TX) (map Fin TY) (Z.of_nat k - 1)
    else if Rltb t1 x then trimSearch f (fp a) (fp b) (map Fin TX) (map Fin TY) (Z.of_nat k + 1)
    else Ok (Z.of_nat k, Fin x).
  Proof.
    intros H0 H1. pose proof (Inc k t0 t1 H0 H1) as L. cbn [trimSearch]. rewrite (den_at k t0 t1 H0 H1). cbn [bind]. 
    match goal with |- context [fdiv ?n ?d] => assert (EQ : fdiv n d = Fin x) end; [|rewrite EQ; reflexivity].
    unfold fp. cbn [fst snd]. xg. rewrite xdiv_fin by (apply Rmult_integral_contrapositive_currified; [lra|exact Hpar]). f_equal.
    unfold on_line in Hon. cbn [fst snd] in Hon. set (D := (fst a - fst b) * m - (snd a - snd b)) in *.
    apply Rmult_eq_reg_r with ((t0 - t1) * D); [|apply Rmult_integral_contrapositive_currified; [lra|exact Hpar]].
    unfold Rdiv. rewrite Rmult_assoc, Rinv_l by (apply Rmult_integral_contrapositive_currified; [lra|exact Hpar]).
    unfold D. replace (x * ((t0 - t1) * ((fst a - fst b) * m - (snd a - snd b)))) with ((t0 - t1) * (x * ((fst a - fst b) * m - (snd a - snd b)))) by ring.
    replace (x * ((fst a - fst b) * m - (snd a - snd b))) with ((fst a * snd b - snd a * fst b) - (fst a - fst b) * c) by nra. ring.
  Qed.

  Lemma search_down k : forall f t0 t1 h, nth_error TX 0 = Some h -> h <= x -> nth_error TX k = Some t0 -> nth_error TX (S k) = Some t1 -> x <= t1 -> (k < f)%nat ->
    exists j, trimSearch f (fp a) (fp b) (map Fin TX) (map Fin TY) (Z.of_nat k) = Ok (Z.of_nat j, Fin x) /\ (S j < length TX)%nat.
  Proof.
    induction k as [|k IH]; intros [|f] t0 t1 h Hh Lh H0 H1 L F; try lia.
    - rewrite (search_at f 0 t0 t1 H0 H1). rewrite Hh in H0. injection H0 as ->. rdecide. exists 0%nat. split; [reflexivity|]. apply nth_error_Some. congruence.
    - rewrite (search_at f (S k) t0 t1 H0 H1). replace (Rltb t1 x) with false by (symmetry; apply Rltb_false; lra).
      destruct (Rltb x t0) eqn:E; rb.
      + replace (Z.of_nat (S k) - 1)%Z with (Z.of_nat k) by lia. destruct (nth_error TX k) as [tk|] eqn:Ek; [|apply nth_error_None in Ek; pose proof (proj1 (nth_error_Some TX (S k)) ltac:(congruence)); lia].
        apply (IH f tk t0 h); auto; [lra|lia].
      + exists (S k). split; [reflexivity|]. apply nth_error_Some. congruence.
  Qed.
  Lemma search_up n : forall k f t0 t1 e, (S k + n = length TX - 1)%nat -> nth_error TX (length TX - 1) = Some e -> x <= e -> nth_error TX k = Some t0 -> nth_error TX (S k) = Some t1 -> t0 <= x -> (n < f)%nat ->
    exists j, trimSearch f (fp a) (fp b) (map Fin TX) (map Fin TY) (Z.of_nat k) = Ok (Z.of_nat j, Fin x) /\ (S j < length TX)%nat.
  Proof.
    induction n as [|n IH]; intros k [|f] t0 t1 e N He Le H0 H1 L F; try lia.
    - rewrite (search_at f k t0 t1 H0 H1). replace (S k) with (length TX - 1)%nat in H1 by lia. rewrite He in H1. injection H1 as ->. rdecide. exists k. split; [reflexivity|lia].
    - rewrite (search_at f k t0 t1 H0 H1). replace (Rltb x t0) with false by (symmetry; apply Rltb_false; lra).
      destruct (Rltb t1 x) eqn:E; rb.
      + replace (Z.of_nat k + 1)%Z with (Z.of_nat (S k)) by lia. destruct (nth_error TX (S (S k))) as [t2|] eqn:E2; [|apply nth_error_None in E2; lia].
        apply (IH (S k) f t1 t2 e); auto; [lia|lra|lia].
      + exists k. split; [reflexivity|lia].
  Qed.

  Lemma seg_of f e h z : nth_error TX 0 = Some h -> nth_error TX (length TX - 1) = Some z -> h < e <= z -> h <= x <= z -> (length TX <= f)%nat ->
    trimEnd f (Fin e) (fp a) (fp b) (map Fin TX) (map Fin TY) = Ok (Fin x, Fin (m * x + c)).
  Proof.
    intros Hh Hz Le Lx Lf. unfold trimEnd.
    destruct (first_where _ _) as [k0|] eqn:E.
    - apply first_where_Some in E as [(v & Hv & Tv) _]. rewrite nth_error_map2, nth_error_tl in Hv. destruct (nth_error (map Fin TX) (S k0)) as [t1'|] eqn:E1; [|discriminate].
      rewrite nth_error_map in E1. destruct (nth_error TX (S k0)) as [t1|] eqn:F1; [|discriminate]. injection E1 as <-.
      pose proof (proj1 (nth_error_Some TX (S k0)) ltac:(congruence)) as L1.
      destruct (nth_error TX k0) as [t0|] eqn:F0; [|apply nth_error_None in F0; lia].
      cbn [of_opt bind].
      assert (S1 : exists j, trimSearch f (fp a) (fp b) (map Fin TX) (map Fin TY) (Z.of_nat k0) = Ok (Z.of_nat j, Fin x) /\ (S j < length TX)%nat).
      { destruct (Rlt_dec x t0).
        - apply (search_down k0 f t0 t1 h); auto; [lra|pose proof (Inc k0 t0 t1 F0 F1); lra|lia].
        - apply (search_up (length TX - 1 - S k0) k0 f t0 t1 z); auto; [lia|lra|lra|lia]. }
      destruct S1 as (j & -> & Lj). cbn [bind].
      destruct (nth_error TX j) as [u0|] eqn:G0; [|apply nth_error_None in G0; lia]. destruct (nth_error TX (S j)) as [u1|] eqn:G1; [|apply nth_error_None in G1; lia].
      rewrite (den_at j u0 u1 G0 G1). cbn [bind]. unfold fp. cbn [fst snd]. xg. pose proof (Inc j u0 u1 G0 G1) as L.
      rewrite xdiv_fin by (apply Rmult_integral_contrapositive_currified; [lra|exact Hpar]). do 3 f_equal.
      unfold on_line in Hon. cbn [fst snd] in Hon. set (D := (fst a - fst b) * m - (snd a - snd b)) in *.
      apply Rmult_eq_reg_r with ((u0 - u1) * D); [|apply Rmult_integral_contrapositive_currified; [lra|exact Hpar]].
      unfold Rdiv. rewrite Rmult_assoc, Rinv_l by (apply Rmult_integral_contrapositive_currified; [lra|exact Hpar]).
      unfold D. replace ((m * x + c) * ((u0 - u1) * ((fst a - fst b) * m - (snd a - snd b)))) with
        ((u0 - u1) * (m * (x * ((fst a - fst b) * m - (snd a - snd b))) + c * ((fst a - fst b) * m - (snd a - snd b)))) by ring.
      replace (x * ((fst a - fst b) * m - (snd a - snd b))) with ((fst a * snd b - snd a * fst b) - (fst a - fst b) * c) by nra. ring.
    - exfalso. rewrite first_where_None in E.
      (* the last position before e, counting from the left *)
      assert (A : forall k t, nth_error TX k = Some t -> t < e).
      { induction k as [|k IH]; intros t Hk; [rewrite Hh in Hk; injection Hk as <-; lra|].
        destruct (nth_error TX k) as [t0|] eqn:F0; [|apply nth_error_None in F0; pose proof (proj1 (nth_error_Some TX (S k)) ltac:(congruence)); lia].
        specialize (IH t0 eq_refl). destruct (Rlt_dec t e); [assumption|exfalso].
        pose proof (proj1 (nth_error_Some TX (S k)) ltac:(congruence)) as L1.
        specialize (E k (Rleb e t && Rltb t0 e)). rewrite nth_error_map2, nth_error_tl, nth_error_removelast in E by (rewrite map_length; lia).
        rewrite !nth_error_map, Hk, F0 in E.
        cbn [option_map] in E. specialize (E eq_refl). revert E. rdecide. discriminate. }
      specialize (A _ _ Hz). lra.
  Qed.
End Straight.

Lemma pynth_m2 {A} (l : list A) : (2 <= length l)%nat -> pynth l (-2) = of_opt EIndex (nth_error l (length l - 2)).
Proof.
  intros L. unfold pynth, pyix. cbn [Z.ltb Z.compare]. rewrite (proj2 (Z.leb_le _ _)) by lia. unfold ix. do 2 f_equal. lia.
Qed.
Lemma ix_map_fp (L : list pt2) i (a : pt2) : nth_error L i = Some a -> ix (map fp L) i = Ok (fp a).
Proof. intros H. unfold ix. now rewrite nth_error_map, H. Qed.
Lemma trim_succeeds f (L : list pt2) TX m1 c1 m2 c2 (a b y z : pt2) h e x1 x2 :
  (3 <= length L)%nat -> increasing TX -> (length TX <= f)%nat -> nth_error TX 0 = Some h -> nth_error TX (length TX - 1) = Some e ->
  nth_error L 0 = Some a -> nth_error L 1 = Some b -> nth_error L (length L - 2) = Some y -> nth_error L (length L - 1) = Some z ->
  h < fst a <= e -> h < fst z <= e -> h <= x1 <= e -> h <= x2 <= e -> meets a b m1 c1 x1 -> meets y z m2 c2 x2 ->
  exists L', trimLine f (map fp L) (map Fin TX) (map Fin (straight m1 c1 TX)) (map Fin (straight m2 c2 TX)) = Ok L' /\
    nth_error L' 0 = Some (Fin x1, Fin (m1 * x1 + c1)) /\ nth_error L' (length L - 1) = Some (Fin x2, Fin (m2 * x2 + c2)).
Proof.
  intros H3 Inc Lf Hh He Ha Hb Hy Hz Ia Iz I1 I2 [M1 P1] [M2 P2]. unfold trimLine. rewrite (ix_map_fp _ _ _ Ha), (ix_map_fp _ _ _ Hb). cbn [bind].
  change (fst (fp a)) with (Fin (fst a)). unfold straight.
  rewrite (seg_of TX m1 c1 Inc a b x1 M1 ltac:(lra) f (fst a) h e Hh He Ia I1 Lf). cbn [bind].
  set (L1 := upd _ _ _). assert (LL : length L1 = length L) by (unfold L1; rewrite upd_length, map_length; reflexivity).
  rewrite pynth_m2 by lia. rewrite LL. assert (nth_error L1 (length L - 2) = Some (fp y)) as -> by (unfold L1; rewrite nth_error_upd_ne by lia; rewrite nth_error_map, Hy; reflexivity). cbn [of_opt bind].
  assert (pynth L1 (-1) = Ok (fp z)) as ->.
  { unfold pynth, pyix. cbn [Z.ltb Z.compare]. rewrite (proj2 (Z.leb_le _ _)) by lia. unfold ix. replace (Z.to_nat (Z.of_nat (length L1) + -1)) with (length L - 1)%nat by lia.
    unfold L1. rewrite nth_error_upd_ne by lia. rewrite nth_error_map, Hz. reflexivity. }
  cbn [bind]. change (fst (fp z)) with (Fin (fst z)).
  rewrite (seg_of TX m2 c2 Inc y z x2 M2 ltac:(lra) f (fst z) h e Hh He Iz I2 Lf). cbn [bind].
  eexists. split; [reflexivity|]. split.
  - rewrite nth_error_upd_ne by lia. unfold L1. rewrite nth_error_upd_eq by (rewrite map_length; lia). reflexivity.
  - rewrite nth_error_upd_eq by lia. reflexivity.
Qed.

Lemma end_range f e (a b : xr * xr) TX TY r : trimEnd f (Fin e) a b (map Fin TX) TY = Ok r -> in_some_seg TX e.
Proof.
  unfold trimEnd. destruct (first_where _ _) as [k|] eqn:E; [|discriminate]. intros _.
  apply first_where_Some in E as [(v & Hv & Tv) _]. rewrite nth_error_map2, nth_error_tl in Hv.
  destruct (nth_error (map Fin TX) (S k)) as [t1|] eqn:E1; [|discriminate]. pose proof (proj1 (nth_error_Some _ _) (ltac:(congruence) : nth_error (map Fin TX) (S k) <> None)) as L.
  rewrite nth_error_removelast in Hv by exact L. rewrite nth_error_map in Hv, E1.
  destruct (nth_error TX (S k)) as [r1|] eqn:F1; [|discriminate]. destruct (nth_error TX k) as [r0|] eqn:F0; [|discriminate].
  cbn [option_map] in *. injection E1 as <-. injection Hv as <-. xcbn. apply andb_true_iff in Tv as [T1 T2]. rb. exists k, r0, r1. auto.
Qed.
Lemma end_fails f e (a b : xr * xr) TX TY : ~ in_some_seg TX e -> trimEnd f (Fin e) a b (map Fin TX) TY = Exc EIndex.
Proof.
  intros N. unfold trimEnd. destruct (first_where _ _) as [k|] eqn:E; [|reflexivity]. exfalso. apply N.
  apply first_where_Some in E as [(v & Hv & Tv) _]. rewrite nth_error_map2, nth_error_tl in Hv.
  destruct (nth_error (map Fin TX) (S k)) as [t1|] eqn:E1; [|discriminate]. pose proof (proj1 (nth_error_Some _ _) (ltac:(congruence) : nth_error (map Fin TX) (S k) <> None)) as L.
  rewrite nth_error_removelast in Hv by exact L. rewrite nth_error_map in Hv, E1.
  destruct (nth_error TX (S k)) as [r1|] eqn:F1; [|discriminate]. destruct (nth_error TX k) as [r0|] eqn:F0; [|discriminate].
  cbn [option_map] in *. injection E1 as <-. injection Hv as <-. xcbn. apply andb_true_iff in Tv as [T1 T2]. rb. exists k, r0, r1. auto.
Qed.
Lemma trim_range f (L : list pt2) TX SY EY L' (a z : pt2) : (2 <= length L)%nat ->
  trimLine f (map fp L) (map Fin TX) SY EY = Ok L' -> nth_error L 0 = Some a -> nth_error L (length L - 1) = Some z ->
  in_some_seg TX (fst a) /\ in_some_seg TX (fst z).
Proof.
  intros L2 H Ha Hz. unfold trimLine in H. apply bind_ok in H as (a' & Ha' & H). apply bind_ok in H as (b & Hb & H).
  apply bind_ok in H as (e & He & H). apply bind_ok in H as (y & Hy & H). apply bind_ok in H as (z' & Hz' & H). apply bind_ok in H as (e2 & He2 & H).
  apply ix_ok in Ha'. rewrite nth_error_map, Ha in Ha'. injection Ha' as <-. split; [eapply end_range, He|].
  apply pynth_ok in Hz' as (i & Hi & Hn). rewrite upd_length, map_length in Hi. apply pyix_m1 in Hi as (_ & ->).
  rewrite nth_error_upd_ne, nth_error_map, Hz in Hn by lia. injection Hn as <-. eapply end_range, He2.
Qed.
Lemma trim_outside f (L : list pt2) TX SY EY (a b : pt2) : nth_error L 0 = Some a -> nth_error L 1 = Some b -> ~ in_some_seg TX (fst a) ->
  trimLine f (map fp L) (map Fin TX) SY EY = Exc EIndex.
Proof.
  intros Ha Hb N. unfold trimLine. rewrite (ix_map_fp _ _ _ Ha), (ix_map_fp _ _ _ Hb). cbn [bind].
  change (fst (fp a)) with (Fin (fst a)). rewrite end_fails by exact N. reflexivity.
Qed.
Lemma straight_example : increasing [0; 1; 2; 3] /\ meets (3, 1) (2, 2) 0 3 1 /\ meets (2, 2) (3, 4) 1 0 2 /\ ~ in_some_seg [0; 1; 2; 3] 0.
Proof.
  split; [|split; [|split]].
  - intros [|[|[|[|i]]]] a b Ha Hb; cbn in Ha, Hb; try discriminate; injection Ha as <-; injection Hb as <-; lra.
  - split; [unfold on_line|]; cbn [fst snd]; lra.
  - split; [unfold on_line|]; cbn [fst snd]; lra.
  - intros ([|[|[|[|i]]]] & t0 & t1 & A & B & C); cbn in A, B; try discriminate; injection A as <-; injection B as <-; lra.
Qed.
