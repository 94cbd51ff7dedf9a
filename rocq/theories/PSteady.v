(** Proofs about the model of riv.py solveSteady. *)
From Coq Require Import ZArith List Bool Lia.
From Verif Require Import Base Num Xr MState MRiv SRiv.
Local Open Scope R_scope.

(** * Termination (any number instance) *)
Section Term.
  Context {F : Type} {NF : Num F}.

  Lemma newton_nofuel f cnt maxit tol a bc cc (h : F) :
    (Nat.max 1 (maxit - cnt) <= f)%nat -> steadyNewton f cnt maxit tol a bc cc h <> Exc EFuel.
  Proof.
    revert cnt h; induction f as [|f IH]; intros cnt h Hf; [lia|].
    cbn [steadyNewton]. destruct (_ <? _)%n; [|discriminate].
    destruct (Nat.ltb (S cnt) maxit) eqn:E; [|discriminate].
    apply Nat.ltb_lt in E. apply IH. lia.
  Qed.

  Lemma newton_more f cnt maxit tol a bc cc (h r : F) :
    steadyNewton f cnt maxit tol a bc cc h = Ok r ->
    forall f', (maxit - 1 - cnt <= f')%nat -> steadyNewton f' cnt maxit tol a bc cc h = Ok r.
  Proof.
    revert cnt h; induction f as [|f IH]; intros cnt h H f' Hf'.
    - cbn [steadyNewton] in H. destruct f'; cbn [steadyNewton]; destruct (_ <? _)%n; try discriminate; auto.
    - cbn [steadyNewton] in H. destruct f' as [|f']; cbn [steadyNewton].
      + destruct (_ <? _)%n; [|auto]. destruct (Nat.ltb (S cnt) maxit) eqn:E; [|discriminate].
        apply Nat.ltb_lt in E. lia.
      + destruct (_ <? _)%n; [|auto]. destruct (Nat.ltb (S cnt) maxit) eqn:E; [|discriminate].
        apply Nat.ltb_lt in E. apply IH; auto. lia.
  Qed.

  Lemma newton_same f f' cnt maxit tol a bc cc (h : F) :
    (Nat.max 1 (maxit - cnt) <= f)%nat -> (Nat.max 1 (maxit - cnt) <= f')%nat ->
    steadyNewton f cnt maxit tol a bc cc h = steadyNewton f' cnt maxit tol a bc cc h.
  Proof.
    revert f' cnt h; induction f as [|f IH]; intros [|f'] cnt h H1 H2; try lia.
    cbn [steadyNewton]. destruct (_ <? _)%n; [|auto].
    destruct (Nat.ltb (S cnt) maxit) eqn:E; auto. apply Nat.ltb_lt in E. apply IH; lia.
  Qed.

  Lemma step_nofuel f N rough q dx z b (d : steady F) : (Nat.max 1 (nMaxIt N) <= f)%nat ->
    steadyStep f N rough q dx z b d <> Exc EFuel.
  Proof.
    intros Hf. unfold steadyStep.
    match goal with |- context [steadyNewton f 0 ?m ?t ?a ?b ?c ?h] =>
      pose proof (newton_nofuel f 0 m t a b c h) as HN; destruct (steadyNewton f 0 m t a b c h) end; cbn [bind].
    - discriminate.
    - intros E; inversion E; subst. apply HN; auto; lia.
  Qed.

  Lemma march_nofuel f N rough q dswl dx zs bs : (Nat.max 1 (nMaxIt N) <= f)%nat ->
    steadyMarch (F := F) f N rough q dswl dx zs bs <> Exc EFuel.
  Proof.
    intros Hf. revert dx bs; induction zs as [|z zs IH]; intros dx bs; [cbn [steadyMarch]; intros X; discriminate X|].
    cbn [steadyMarch]. destruct bs as [|b bs]; [destruct zs; intros X; discriminate X|].
    assert (H : match dx with
      | [] => Exc EIndex
      | d :: dx' => let! r := steadyMarch f N rough q dswl dx' zs bs in
                    let! s := ix r 0 in let! s' := steadyStep f N rough q d z b s in Ok (s' :: r)
      end <> Exc EFuel).
    { destruct dx as [|d dx]; [discriminate|]. specialize (IH dx bs).
      destruct (steadyMarch f N rough q dswl dx zs bs) as [r|e]; cbn [bind]; [|congruence].
      unfold ix. destruct (nth_error r 0) as [s|]; cbn [of_opt bind]; [|discriminate].
      pose proof (step_nofuel f N rough q d z b s Hf).
      destruct (steadyStep f N rough q d z b s); cbn [bind]; congruence. }
    destruct zs; [destruct bs; [discriminate|exact H]|exact H].
  Qed.

  Lemma march_same f f' N rough q dswl dx zs bs :
    (Nat.max 1 (nMaxIt N) <= f)%nat -> (Nat.max 1 (nMaxIt N) <= f')%nat ->
    steadyMarch (F := F) f N rough q dswl dx zs bs = steadyMarch f' N rough q dswl dx zs bs.
  Proof.
    intros Hf Hf'. revert dx bs; induction zs as [|z zs IH]; intros dx bs; [reflexivity|].
    cbn [steadyMarch]. destruct bs as [|b bs]; [reflexivity|].
    assert (H : match dx with
      | [] => Exc EIndex
      | d :: dx' => let! r := steadyMarch f N rough q dswl dx' zs bs in
                    let! s := ix r 0 in let! s' := steadyStep f N rough q d z b s in Ok (s' :: r)
      end = match dx with
      | [] => Exc EIndex
      | d :: dx' => let! r := steadyMarch f' N rough q dswl dx' zs bs in
                    let! s := ix r 0 in let! s' := steadyStep f' N rough q d z b s in Ok (s' :: r)
      end).
    { destruct dx as [|d dx]; [reflexivity|]. rewrite (IH dx bs).
      destruct (steadyMarch f' N rough q dswl dx zs bs) as [r|e]; cbn [bind]; auto.
      destruct (ix r 0) as [s|]; cbn [bind]; auto.
      unfold steadyStep. rewrite (newton_same f f'); auto; lia. }
    destruct zs; [destruct bs; [reflexivity|exact H]|exact H].
  Qed.

  Lemma march_few f N rough q dswl dx zs bs r :
    steadyMarch (F := F) f N rough q dswl dx zs bs = Ok r ->
    steadyMarch (nMaxIt N - 1) N rough q dswl dx zs bs = Ok r.
  Proof.
    revert dx bs r; induction zs as [|z zs IH]; intros dx bs r; [discriminate|].
    cbn [steadyMarch]. destruct bs as [|b bs]; [auto|].
    assert (H : forall r, match dx with
      | [] => Exc EIndex
      | d :: dx' => let! r := steadyMarch f N rough q dswl dx' zs bs in
                    let! s := ix r 0 in let! s' := steadyStep f N rough q d z b s in Ok (s' :: r)
      end = Ok r -> match dx with
      | [] => Exc EIndex
      | d :: dx' => let! r := steadyMarch (nMaxIt N - 1) N rough q dswl dx' zs bs in
                    let! s := ix r 0 in let! s' := steadyStep (nMaxIt N - 1) N rough q d z b s in Ok (s' :: r)
      end = Ok r).
    { clear r. intros r. destruct dx as [|d dx]; [auto|]. intros H.
      apply bind_ok in H as (r0 & H0 & H). rewrite (IH _ _ _ H0). cbn [bind].
      apply bind_ok in H as (s & Hs & H). rewrite Hs. cbn [bind].
      apply bind_ok in H as (s' & Hs' & H). unfold steadyStep in *.
      apply bind_ok in Hs' as (h & Hh & Hs'). erewrite newton_more; [|exact Hh|lia].
      cbn [bind] in *. inversion Hs'; subst. exact H. }
    destruct zs; [destruct bs; [auto|apply H]|apply H].
  Qed.

  Lemma steady_terminates (dx z b : list F) rough q dswl N fuel : (Nat.max 1 (nMaxIt N) <= fuel)%nat ->
    solveSteadyF fuel dx z b rough q dswl N <> Exc EFuel /\
    solveSteadyF fuel dx z b rough q dswl N = solveSteady dx z b rough q dswl N.
  Proof.
    intros Hf. unfold solveSteady, solveSteadyF. split.
    - pose proof (march_nofuel fuel N rough q dswl dx z b Hf).
      destruct (steadyMarch fuel N rough q dswl dx z b); cbn [bind]; congruence.
    - rewrite (march_same fuel (S (nMaxIt N))); auto. lia.
  Qed.

  Lemma steady_few (dx z b : list F) rough q dswl N r :
    solveSteady dx z b rough q dswl N = Ok r ->
    solveSteadyF (nMaxIt N - 1) dx z b rough q dswl N = Ok r.
  Proof.
    unfold solveSteady, solveSteadyF. intros H. apply bind_ok in H as (m & Hm & H).
    rewrite (march_few _ _ _ _ _ _ _ _ _ Hm). exact H.
  Qed.

  (** * Shape of the result (any number instance) *)

  (** Every section holds [steadyAt] of its depth. *)
  Lemma march_shape f N rough q dswl dx zs bs r :
    steadyMarch (F := F) f N rough q dswl dx zs bs = Ok r ->
    length r = length zs /\ length bs = length zs /\ (length zs <= S (length dx))%nat /\
    forall i s z b, nth_error r i = Some s -> nth_error zs i = Some z -> nth_error bs i = Some b ->
      s = steadyAt (nBeta N) rough q z b (sDep s).
  Proof.
    revert dx bs r; induction zs as [|z zs IH]; intros dx bs r; [discriminate|].
    cbn [steadyMarch]. destruct bs as [|b bs]; [destruct zs; discriminate|].
    assert (H : match dx with
      | [] => Exc EIndex
      | d :: dx' => let! r := steadyMarch f N rough q dswl dx' zs bs in
                    let! s := ix r 0 in let! s' := steadyStep f N rough q d z b s in Ok (s' :: r)
      end = Ok r ->
      length r = length (z :: zs) /\ length (b :: bs) = length (z :: zs) /\ (length (z :: zs) <= S (length dx))%nat /\
      forall i s z' b', nth_error r i = Some s -> nth_error (z :: zs) i = Some z' -> nth_error (b :: bs) i = Some b' ->
        s = steadyAt (nBeta N) rough q z' b' (sDep s)).
    { destruct dx as [|d dx]; [discriminate|]. intros H.
      apply bind_ok in H as (r0 & H0 & H). apply bind_ok in H as (s & Hs & H).
      apply bind_ok in H as (s' & Hs' & H). inversion H; subst r.
      destruct (IH _ _ _ H0) as (L1 & L2 & L3 & IHs). cbn [length]. repeat split; try lia.
      intros [|i] s0 z0 b0 E1 E2 E3; cbn [nth_error] in *; [|eauto].
      inversion E1; inversion E2; inversion E3; subst.
      unfold steadyStep in Hs'. apply bind_ok in Hs' as (h & Hh & Hs'). inversion Hs'. reflexivity. }
    destruct zs as [|z2 zs]; [|exact H]. destruct bs as [|b2 bs]; [|exact H].
    intros E; inversion E; subst. cbn [length]. repeat split; try lia.
    intros [|i] s0 z0 b0 E1 E2 E3; cbn [nth_error] in *; [|destruct i; discriminate].
    inversion E1; inversion E2; inversion E3; subst. reflexivity.
  Qed.

  (** The section [i] was computed from section [i+1]. *)
  Lemma march_step f N rough q dswl dx zs bs r :
    steadyMarch (F := F) f N rough q dswl dx zs bs = Ok r ->
    forall i s d z b, nth_error r i = Some s -> nth_error r (S i) = Some d ->
      nth_error zs i = Some z -> nth_error bs i = Some b ->
      exists x, nth_error dx i = Some x /\ steadyStep f N rough q x z b d = Ok s.
  Proof.
    revert dx bs r; induction zs as [|z zs IH]; intros dx bs r; [discriminate|].
    cbn [steadyMarch]. destruct bs as [|b bs]; [destruct zs; discriminate|].
    assert (H : match dx with
      | [] => Exc EIndex
      | d :: dx' => let! r := steadyMarch f N rough q dswl dx' zs bs in
                    let! s := ix r 0 in let! s' := steadyStep f N rough q d z b s in Ok (s' :: r)
      end = Ok r ->
      forall i s d z' b', nth_error r i = Some s -> nth_error r (S i) = Some d ->
      nth_error (z :: zs) i = Some z' -> nth_error (b :: bs) i = Some b' ->
      exists x, nth_error dx i = Some x /\ steadyStep f N rough q x z' b' d = Ok s).
    { destruct dx as [|d dx]; [discriminate|]. intros H.
      apply bind_ok in H as (r0 & H0 & H). apply bind_ok in H as (s & Hs & H).
      apply bind_ok in H as (s' & Hs' & H). inversion H; subst r.
      intros [|i] s0 d0 z0 b0 E1 E2 E3 E4; cbn [nth_error] in *; [|eauto].
      inversion E1; inversion E3; inversion E4; subst. apply ix_ok in Hs.
      change (nth_error r0 0 = Some d0) in E2. assert (s = d0) by congruence. subst. eauto. }
    destruct zs as [|z2 zs]; [|exact H]. destruct bs as [|b2 bs]; [|exact H].
    intros E; inversion E; subst. intros [|i] s0 d0 z0 b0 E1 E2 E3 E4; cbn [nth_error] in *; [discriminate|destruct i; discriminate].
  Qed.

  Lemma march_last f N rough q dswl dx zs bs r :
    steadyMarch (F := F) f N rough q dswl dx zs bs = Ok r ->
    forall z b s, nth_error zs (length zs - 1) = Some z -> nth_error bs (length zs - 1) = Some b ->
      nth_error r (length zs - 1) = Some s -> s = steadyEnd (nBeta N) rough q dswl z b.
  Proof.
    revert dx bs r; induction zs as [|z zs IH]; intros dx bs r; [discriminate|].
    cbn [steadyMarch]. destruct bs as [|b bs]; [destruct zs; discriminate|].
    destruct zs as [|z2 zs].
    - destruct bs as [|b2 bs].
      + intros E; inversion E; subst. cbn [length Nat.sub nth_error]. intros ? ? ? E1 E2 E3.
        inversion E1; inversion E2; inversion E3; subst; reflexivity.
      + destruct dx; [discriminate|]. cbn. discriminate.
    - destruct dx as [|d dx]; [discriminate|]. intros H.
      apply bind_ok in H as (r0 & H0 & H). apply bind_ok in H as (s & Hs & H).
      apply bind_ok in H as (s' & Hs' & H). inversion H; subst r.
      specialize (IH _ _ _ H0). intros z0 b0 s0 E1 E2 E3.
      replace (length (z :: z2 :: zs) - 1)%nat with (S (length (z2 :: zs) - 1)) in E1, E2, E3 by (cbn [length]; lia).
      cbn [nth_error] in E1, E2, E3. eauto.
  Qed.
End Term.

(** * Real-valued facts *)

Lemma Rpower_13_cube x : 0 < x -> let h := Rpower x (1 / 3) in h * h * h = x.
Proof.
  intros H h. unfold h. rewrite <- !Rpower_plus. replace (1/3 + 1/3 + 1/3) with 1 by field. apply Rpower_1; auto.
Qed.

Definition hc (q b : R) : R := Rpower (q * q / (b * b * (981 / 100))) (1 / 3).

Lemma hc_critical q b : q <> 0 -> 0 < b -> critical q b (hc q b).
Proof.
  intros Hq Hb. split.
  - unfold hc, Rpower. apply exp_pos.
  - unfold hc. apply Rpower_13_cube.
    apply Rdiv_lt_0_compat; [nra|]. apply Rmult_lt_0_compat; [nra|lra].
Qed.

Lemma critical_unique q b h h' : critical q b h -> critical q b h' -> h = h'.
Proof.
  intros [P E] [P' E']. rewrite <- E' in E.
  assert ((h - h') * (h * h + h * h' + h' * h') = 0) by (ring_simplify; ring_simplify in E; lra).
  apply Rmult_integral in H as [H|H]; [lra|nra].
Qed.

Lemma critDep_fin q b : q <> 0 -> 0 < b -> critDep (Fin q) (Fin b) = Fin (hc q b).
Proof.
  intros Hq Hb. unfold critDep, grav, fsq. xcbn.
  rewrite xdiv_fin by (assert (0 < b * b) by nra; nra).
  rewrite xpow_pos; [reflexivity|].
  apply Rdiv_lt_0_compat; [nra|]. apply Rmult_lt_0_compat; [nra|lra].
Qed.

Lemma steadyAt_fin beta n q z b h : 0 < b -> 0 < h ->
  steadyAt (Fin beta) (Fin n) (Fin q) (Fin z) (Fin b) (Fin h) =
  mkSt (Fin z) (Fin h) (Fin (velocity q b h)) (Fin (energy beta q z b h)) (Fin (friction n q b h)).
Proof.
  intros Hb Hh. unfold steadyAt, grav, fsq. xcbn.
  rewrite xdiv_fin by nra. xcbn. rewrite !xdiv_fin by lra. rewrite xpow_pos by auto.
  rewrite xdiv_fin by (unfold Rpower; apply Rgt_not_eq, exp_pos). reflexivity.
Qed.

Lemma Rpower_m2 h : 0 < h -> Rpower h (-2) = / (h * h).
Proof.
  intros H. replace (-2) with (- (1 + 1)) by ring. rewrite Rpower_Ropp, Rpower_plus, Rpower_1; auto.
Qed.
Lemma Rpower_m103 h : 0 < h -> Rpower h (-10 / 3) = / (h * h) * / Rpower h (4 / 3).
Proof.
  intros H. replace (-10/3) with (-2 + - (4/3)) by field. rewrite Rpower_plus, Rpower_Ropp, Rpower_m2; auto.
Qed.

(** The model's residual is the energy equation. *)
Lemma steadyErr_fin beta n q dx z b h z' b' h' : 0 < b -> 0 < h -> 0 < b' -> 0 < h' ->
  steadyErr (fmul (Fin beta) (fdiv (fsq (Fin q)) (fmul (fmul f2 grav) (fsq (Fin b)))))
            (fdiv (fmul (fmul (Fin dx) (fsq (Fin q))) (fsq (Fin n))) (fmul f2 (fsq (Fin b))))
            (fsub (fsub (Fin z) (fdiv (fmul (Fin (friction n q b' h')) (Fin dx)) f2)) (Fin (energy beta q z' b' h')))
            (Fin h)
  = Fin (energy_residual beta n q dx z b h z' b' h').
Proof.
  intros Hb Hh Hb' Hh'. unfold steadyErr, grav, fsq. xcbn.
  assert (0 < b * b) by nra.
  rewrite !xdiv_fin by nra. rewrite !xpow_pos by auto. xcbn. f_equal.
  rewrite Rpower_m2, Rpower_m103 by auto.
  assert (0 < Rpower h (4/3)) by (unfold Rpower; apply exp_pos).
  unfold energy_residual. unfold friction at 2. unfold energy at 2. unfold velocity at 1 2 3 4.
  field. lra.
Qed.

(** Exit of the Newton loop. *)
Lemma newton_exit {F} {NF : Num F} f cnt maxit tol a bc cc (h r : F) :
  steadyNewton f cnt maxit tol a bc cc h = Ok r -> fltb tol (fabs (steadyErr a bc cc r)) = false.
Proof.
  revert cnt h; induction f as [|f IH]; intros cnt h; cbn [steadyNewton];
    destruct (tol <? fabs (steadyErr a bc cc h))%n eqn:E; intros H.
  - discriminate H.
  - injection H as <-. exact E.
  - destruct (Nat.ltb (S cnt) maxit); [eapply IH; exact H|discriminate H].
  - injection H as <-. exact E.
Qed.

(** Depths are NaN, or numbers not below critical depth. *)
Definition okDep (q b : R) (h : xr) : Prop := h = NaN \/ exists r, h = Fin r /\ hc q b <= r.

Lemma steadyErr_pinf a bc cc : is_fin a -> is_fin bc -> is_fin cc -> steadyErr a bc cc PInf = PInf.
Proof.
  intros (a' & ->) (b' & ->) (c' & ->). unfold steadyErr. xcbn. unfold xpow.
  destruct (Req_EM_T (-2) 0); [lra|]. destruct (Rlt_dec 0 (-2)); [lra|].
  destruct (Req_EM_T (-10/3) 0); [lra|]. destruct (Rlt_dec 0 (-10/3)); [lra|]. reflexivity.
Qed.

Lemma steadyErr_ninf a bc cc : is_fin a -> is_fin bc -> is_fin cc -> steadyErr a bc cc NInf = NInf.
Proof.
  intros (a' & ->) (b' & ->) (c' & ->). unfold steadyErr. xcbn. unfold xpow.
  destruct (Req_EM_T (-2) 0); [lra|]. destruct (Rlt_dec 0 (-2)); [lra|].
  destruct (Req_EM_T (-10/3) 0); [lra|]. destruct (Rlt_dec 0 (-10/3)); [lra|]. reflexivity.
Qed.

Lemma steadyErr_nan a bc cc : steadyErr a bc cc NaN = NaN.
Proof. unfold steadyErr. xcbn. reflexivity. Qed.

Section March.
  Variables (beta n q tol dswl : R) (N : nump xr).
  Hypothesis Hq : q <> 0.
  Hypothesis HB : nBeta N = Fin beta.
  Hypothesis HT : nErrTol N = Fin tol.

  Lemma end_ok z b : 0 < b -> okDep q b (sDep (steadyEnd (Fin beta) (Fin n) (Fin q) (Fin dswl) (Fin z) (Fin b))) /\
    sDep (steadyEnd (Fin beta) (Fin n) (Fin q) (Fin dswl) (Fin z) (Fin b)) = Fin (Rmax (dswl - z) (hc q b)).
  Proof.
    intros Hb. unfold steadyEnd. cbn [sDep steadyAt]. rewrite critDep_fin by auto.
    unfold fmaximum. xcbn.
    assert (E : (if Rltb (dswl - z) (hc q b) then Fin (hc q b) else Fin (dswl - z)) = Fin (Rmax (dswl - z) (hc q b))).
    { unfold Rmax. rcase; destruct (Rle_dec _ _); f_equal; lra. }
    rewrite E. split; auto. right. eexists; split; [reflexivity|apply Rmax_r].
  Qed.

  (** One step from a section with a numeric depth. *)
  Lemma step_ok f dx z b z' b' h' s : 0 < b -> 0 < b' -> 0 < h' ->
    steadyStep f N (Fin n) (Fin q) (Fin dx) (Fin z) (Fin b)
      (mkSt (Fin z') (Fin h') (Fin (velocity q b' h')) (Fin (energy beta q z' b' h')) (Fin (friction n q b' h'))) = Ok s ->
    okDep q b (sDep s) /\
    forall h, sDep s = Fin h ->
      h = hc q b \/ (hc q b <= h /\ Rabs (energy_residual beta n q dx z b h z' b' h') <= tol).
  Proof.
    intros Hb Hb' Hh' H. unfold steadyStep in H. apply bind_ok in H as (h & Hh & H). apply Ok_inj in H; subst s.
    rewrite HB, HT in Hh. cbn [sDep sElev sSf sEn] in Hh. pose proof (newton_exit _ _ _ _ _ _ _ _ _ Hh) as Hex.
    cbn [sDep steadyAt]. rewrite critDep_fin by auto.
    assert (Hc := proj1 (hc_critical q b Hq Hb)).
    destruct h as [h| | |].
    - xg. destruct (Rltb h (hc q b)) eqn:E; rb.
      + split; [right; eexists; split; [reflexivity|lra]|]. intros h0 E0; inversion E0; auto.
      + split; [right; eexists; split; [reflexivity|lra]|]. intros h0 E0; inversion E0; subst h0. right. split; [lra|].
        assert (Hs := steadyErr_fin beta n q dx z b h z' b' h' Hb ltac:(lra) Hb' Hh').
        rewrite Hs in Hex. xcbn. rb. exact Hex.
    - exfalso. rewrite steadyErr_pinf in Hex.
      + discriminate.
      + unfold grav, fsq; xg. assert (0 < b * b) by nra. rewrite xdiv_fin by nra. eexists; reflexivity.
      + unfold grav, fsq; xg. assert (0 < b * b) by nra. rewrite xdiv_fin by nra. eexists; reflexivity.
      + unfold grav, fsq; xg. assert (0 < b * b) by nra. rewrite xdiv_fin by lra. eexists; reflexivity.
    - exfalso. rewrite steadyErr_ninf in Hex.
      + discriminate.
      + unfold grav, fsq; xg. assert (0 < b * b) by nra. rewrite xdiv_fin by nra. eexists; reflexivity.
      + unfold grav, fsq; xg. assert (0 < b * b) by nra. rewrite xdiv_fin by nra. eexists; reflexivity.
      + unfold grav, fsq; xg. assert (0 < b * b) by nra. rewrite xdiv_fin by lra. eexists; reflexivity.
    - cbn. split; [left; reflexivity|]. intros h0 E0; discriminate.
  Qed.

  Lemma newton_nan f cnt maxit t a bc cc : steadyNewton f cnt maxit t a bc cc NaN = Ok NaN.
  Proof.
    assert (E : (t <? fabs (steadyErr a bc cc NaN))%n = false).
    { rewrite steadyErr_nan. xcbn. destruct t; reflexivity. }
    destruct f; cbn [steadyNewton]; rewrite E; reflexivity.
  Qed.

  (** One step from a section whose depth is NaN: NaN. *)
  Lemma step_nan f dx z b z' b' s :
    steadyStep f N (Fin n) (Fin q) dx (Fin z) (Fin b) (steadyAt (Fin beta) (Fin n) (Fin q) z' b' NaN) = Ok s ->
    sDep s = NaN.
  Proof.
    intros H. unfold steadyStep in H. cbn [sDep sElev steadyAt] in H.
    assert (E : forall x y, (fsub (fadd NaN x) (Fin y) = NaN)) by (intros; reflexivity).
    replace (NaN + z' - Fin z + _)%n with NaN in H by reflexivity.
    rewrite newton_nan in H. cbn [bind] in H. inversion H. cbn [sDep steadyAt]. xcbn. reflexivity.
  Qed.

  Lemma march_ok f dx zs bs r :
    Forall (fun b => 0 < b) bs ->
    steadyMarch f N (Fin n) (Fin q) (Fin dswl) (map Fin dx) (map Fin zs) (map Fin bs) = Ok r ->
    forall i s b, nth_error r i = Some s -> nth_error bs i = Some b -> okDep q b (sDep s).
  Proof.
    intros Hb. revert dx bs r Hb; induction zs as [|z zs IH]; intros dx bs r Hb; [discriminate|].
    cbn [map]. destruct bs as [|b bs]; [cbn; destruct (map Fin zs); discriminate|].
    inversion Hb as [|? ? Hb0 Hbs]; subst. cbn [map].
    intros H0. pose proof (march_shape _ _ _ _ _ _ _ _ _ H0) as (L1 & L2 & L3 & Hsh).
    cbn [steadyMarch] in H0.
    assert (H : match map Fin dx with
      | [] => Exc EIndex
      | d :: dx' => let! r := steadyMarch f N (Fin n) (Fin q) (Fin dswl) dx' (map Fin zs) (map Fin bs) in
                    let! s := ix r 0 in let! s' := steadyStep f N (Fin n) (Fin q) d (Fin z) (Fin b) s in Ok (s' :: r)
      end = Ok r -> forall i s b', nth_error r i = Some s -> nth_error (b :: bs) i = Some b' -> okDep q b' (sDep s)).
    { destruct dx as [|d dx]; [discriminate|]. cbn [map]. intros H.
      apply bind_ok in H as (r0 & Hr0 & H). apply bind_ok in H as (s & Hs & H).
      apply bind_ok in H as (s' & Hs' & H). inversion H; subst r.
      specialize (IH _ _ _ Hbs Hr0).
      intros [|i] s0 b0 E1 E2; cbn [nth_error] in *; [|eauto]. inversion E1; inversion E2; subst s0 b0.
      apply ix_ok in Hs.
      pose proof (march_shape _ _ _ _ _ _ _ _ _ Hr0) as (M1 & M2 & M3 & Msh). rewrite !map_length in *.
      assert (Hl : (0 < length r0)%nat) by (apply nth_error_Some; congruence).
      destruct zs as [|z2 zs]; [cbn in M1; lia|]. destruct bs as [|b2 bs]; [cbn in *; lia|].
      specialize (Msh 0%nat s (Fin z2) (Fin b2) Hs eq_refl eq_refl). rewrite HB in Msh.
      specialize (IH 0%nat s b2 Hs eq_refl). inversion Hbs; subst.
      destruct IH as [E|(h & E & Eh)]; rewrite E in Msh.
      - subst s. left. eapply step_nan; eauto.
      - assert (0 < h) by (pose proof (proj1 (hc_critical q b2 Hq ltac:(auto))); lra).
        rewrite steadyAt_fin in Msh by auto. subst s.
        eapply step_ok in Hs'; [apply Hs'|auto|auto|auto]. }
    destruct zs as [|z2 zs]; cbn [map] in *; [|exact (H H0)]. destruct bs as [|b2 bs]; cbn [map] in *; [|exact (H H0)].
    apply Ok_inj in H0. subst r. intros [|i] s0 b0 E1 E2; cbn [nth_error] in *; [|destruct i; discriminate].
    apply Some_inj in E1, E2. subst s0 b0. rewrite HB. apply end_ok; auto.
  Qed.

  Lemma march_energy f dx zs bs r :
    Forall (fun b => 0 < b) bs ->
    steadyMarch f N (Fin n) (Fin q) (Fin dswl) (map Fin dx) (map Fin zs) (map Fin bs) = Ok r ->
    forall i s s' z b z' b' h h',
      nth_error r i = Some s -> nth_error r (S i) = Some s' ->
      nth_error zs i = Some z -> nth_error bs i = Some b ->
      nth_error zs (S i) = Some z' -> nth_error bs (S i) = Some b' ->
      sDep s = Fin h -> sDep s' = Fin h' ->
      exists x, nth_error dx i = Some x /\
      (h = hc q b \/ (hc q b <= h /\ Rabs (energy_residual beta n q x z b h z' b' h') <= tol)).
  Proof.
    intros Hb H i s s' z b z' b' h h' E1 E2 E3 E4 E5 E6 E7 E8.
    destruct (march_step _ _ _ _ _ _ _ _ _ H i s s' (Fin z) (Fin b)) as (x & Hx & Hst);
      try rewrite nth_error_map; rewrite ?E3, ?E4; auto.
    rewrite nth_error_map in Hx. destruct (nth_error dx i) as [x'|]; [|discriminate]. inversion Hx; subst x.
    exists x'. split; [auto|].
    pose proof (march_shape _ _ _ _ _ _ _ _ _ H) as (_ & _ & _ & Msh).
    specialize (Msh (S i) s' (Fin z') (Fin b') E2).
    rewrite !nth_error_map, E5, E6 in Msh. specialize (Msh eq_refl eq_refl). rewrite HB, E8 in Msh.
    pose proof (march_ok _ _ _ _ _ Hb H _ _ _ E2 E6) as [C|(h2 & C & C2)]; [congruence|].
    rewrite E8 in C. inversion C; subst h2.
    assert (Hb0 : 0 < b) by (rewrite Forall_forall in Hb; apply Hb; eapply nth_error_In; eauto).
    assert (Hb1 : 0 < b') by (rewrite Forall_forall in Hb; apply Hb; eapply nth_error_In; eauto).
    assert (0 < h') by (pose proof (proj1 (hc_critical q b' Hq Hb1)); lra).
    rewrite steadyAt_fin in Msh by auto. subst s'.
    eapply step_ok in Hst; auto. destruct Hst as [_ Hst]. auto.
  Qed.
End March.

(** * Statements about solveSteady *)

Lemma steady_inv {F} {NF : Num F} dx z b rough q dswl N h v :
  solveSteady (F := F) dx z b rough q dswl N = Ok (h, v) ->
  exists r, steadyMarch (S (nMaxIt N)) N rough q dswl dx z b = Ok r /\ h = map sDep r /\ v = map sVel r.
Proof. unfold solveSteady, solveSteadyF. intros H. apply bind_ok in H as (r & Hr & H). apply Ok_inj in H. injection H as <- <-. eauto. Qed.

Lemma steady_discharge dx z b rough q dswl N h v :
  solveSteady dx z b rough (Fin q) dswl N = Ok (h, v) ->
  length h = length z /\ length v = length z /\ length b = length z /\
  forall i bi hi, nth_error b i = Some (Fin bi) -> nth_error h i = Some (Fin hi) -> bi <> 0 -> hi <> 0 ->
  exists vi, nth_error v i = Some (Fin vi) /\ bi * hi * vi = q.
Proof.
  intros H. apply steady_inv in H as (r & Hr & -> & ->).
  pose proof (march_shape _ _ _ _ _ _ _ _ _ Hr) as (L1 & L2 & _ & Hsh). rewrite !map_length.
  repeat split; auto. intros i bi hi Hb Hh Hbn Hhn. rewrite nth_error_map in *.
  destruct (nth_error r i) as [s|] eqn:Es; [|discriminate]. cbn [option_map] in *. inversion Hh as [Hd].
  destruct (nth_error z i) as [zi|] eqn:Ez.
  2:{ apply nth_error_None in Ez. assert (i < length r)%nat by (apply nth_error_Some; congruence). lia. }
  specialize (Hsh i s zi (Fin bi) Es Ez Hb). rewrite Hd in Hsh.
  exists (q / (bi * hi)). split; [|field; auto].
  rewrite Hsh. cbn [sVel steadyAt]. xcbn. rewrite xdiv_fin; [reflexivity|]. apply Rmult_integral_contrapositive_currified; auto.
Qed.

Lemma steady_downstream dx z b n q dswl N h v beta zl bl hl :
  q <> 0 -> Forall (fun x => 0 < x) b -> nBeta N = Fin beta ->
  solveSteady (map Fin dx) (map Fin z) (map Fin b) (Fin n) (Fin q) (Fin dswl) N = Ok (h, v) ->
  nth_error z (length z - 1) = Some zl -> nth_error b (length z - 1) = Some bl ->
  nth_error h (length z - 1) = Some hl ->
  exists c, critical q bl c /\ hl = Fin (Rmax (dswl - zl) c).
Proof.
  intros Hq Hb HB H Ez Eb Eh. apply steady_inv in H as (r & Hr & -> & ->).
  rewrite nth_error_map in Eh. destruct (nth_error r (length z - 1)) as [s|] eqn:Es; [|discriminate].
  assert (0 < bl) by (rewrite Forall_forall in Hb; apply Hb; eapply nth_error_In; eauto).
  exists (hc q bl). split; [apply hc_critical; auto|]. inversion Eh.
  pose proof (march_last _ _ _ _ _ _ _ _ _ Hr (Fin zl) (Fin bl) s) as HL. rewrite !map_length, !nth_error_map, Ez, Eb in HL.
  rewrite (HL eq_refl eq_refl Es), HB. apply end_ok; auto.
Qed.

Lemma steady_energy dx z b n q dswl N h v beta tol :
  q <> 0 -> Forall (fun x => 0 < x) b -> nBeta N = Fin beta -> nErrTol N = Fin tol ->
  solveSteady (map Fin dx) (map Fin z) (map Fin b) (Fin n) (Fin q) (Fin dswl) N = Ok (h, v) ->
  forall i z0 b0 h0 z1 b1 h1,
    nth_error z i = Some z0 -> nth_error b i = Some b0 -> nth_error h i = Some (Fin h0) ->
    nth_error z (S i) = Some z1 -> nth_error b (S i) = Some b1 -> nth_error h (S i) = Some (Fin h1) ->
  exists x c, nth_error dx i = Some x /\ critical q b0 c /\
    (h0 = c \/ (c <= h0 /\ Rabs (energy_residual beta n q x z0 b0 h0 z1 b1 h1) <= tol)).
Proof.
  intros Hq Hb HB HT H i z0 b0 h0 z1 b1 h1 Z0 B0 H0 Z1 B1 H1. apply steady_inv in H as (r & Hr & -> & ->).
  rewrite nth_error_map in H0, H1.
  destruct (nth_error r i) as [s|] eqn:E0; [|discriminate]. destruct (nth_error r (S i)) as [s'|] eqn:E1; [|discriminate].
  inversion H0; inversion H1.
  destruct (march_energy beta n q tol dswl N Hq HB HT _ _ _ _ _ Hb Hr i s s' z0 b0 z1 b1 h0 h1) as (x & Hx & Hd); auto.
  exists x, (hc q b0). split; [auto|]. split; [|exact Hd]. apply hc_critical; auto.
  rewrite Forall_forall in Hb; apply Hb; eapply nth_error_In; eauto.
Qed.

Lemma steady_depths dx z b n q dswl N h v beta tol :
  q <> 0 -> Forall (fun x => 0 < x) b -> nBeta N = Fin beta -> nErrTol N = Fin tol ->
  solveSteady (map Fin dx) (map Fin z) (map Fin b) (Fin n) (Fin q) (Fin dswl) N = Ok (h, v) ->
  forall i b0 x, nth_error b i = Some b0 -> nth_error h i = Some x ->
  x = NaN \/ exists c r, x = Fin r /\ critical q b0 c /\ c <= r.
Proof.
  intros Hq Hb HB HT H i b0 x B0 H0. apply steady_inv in H as (r & Hr & -> & ->).
  rewrite nth_error_map in H0. destruct (nth_error r i) as [s|] eqn:E0; [|discriminate]. inversion H0; subst x.
  destruct (march_ok beta n q tol dswl N Hq HB HT _ _ _ _ _ Hb Hr i s b0 E0 B0) as [E|(h0 & E & Eh)]; [auto|].
  right. exists (hc q b0), h0. split; [auto|]. split; [|exact Eh]. apply hc_critical; auto.
  rewrite Forall_forall in Hb; apply Hb; eapply nth_error_In; eauto.
Qed.

(** * Giving up *)

Lemma Rpow_neg_frac h : h < 0 -> Rpow h (-10 / 3) = NaN.
Proof.
  intros H. unfold Rpow. destruct (Req_EM_T (-10/3) 0); [lra|]. destruct (Rlt_dec 0 h); [lra|].
  destruct (Req_EM_T h 0); [lra|]. destruct (Req_EM_T (-10/3) (IZR (Rfloor (-10/3)))) as [e|]; [|reflexivity].
  exfalso. assert (E : (Rfloor (-10/3) = -4)%Z) by (apply Rfloor_unique; cbn; lra). rewrite E in e. cbn in e. lra.
Qed.

Lemma newton_neg f cnt maxit t a bc cc h : h < 0 ->
  steadyNewton f cnt maxit t (Fin a) (Fin bc) (Fin cc) (Fin h) = Ok (Fin h).
Proof.
  intros Hh. assert (E : (t <? fabs (steadyErr (Fin a) (Fin bc) (Fin cc) (Fin h)))%n = false).
  { assert (E : steadyErr (Fin a) (Fin bc) (Fin cc) (Fin h) = NaN).
    { unfold steadyErr. xg. cbn [xpow]. rewrite Rpow_neg_frac by auto. xg.
      destruct (Rpow h (IZR (-2))); xg; try reflexivity;
        match goal with |- context [match ?x with _ => _ end] => destruct x end; reflexivity. }
    rewrite E. destruct t; reflexivity. }
  destruct f; cbn [steadyNewton]; rewrite E; reflexivity.
Qed.

Lemma steady_gives_up dx z b n q dswl N h v beta tol :
  q <> 0 -> Forall (fun x => 0 < x) b -> nBeta N = Fin beta -> nErrTol N = Fin tol ->
  solveSteady (map Fin dx) (map Fin z) (map Fin b) (Fin n) (Fin q) (Fin dswl) N = Ok (h, v) ->
  forall i z0 b0 h0 z1 b1 h1 x,
    nth_error z i = Some z0 -> nth_error b i = Some b0 -> nth_error h i = Some h0 ->
    nth_error z (S i) = Some z1 -> nth_error b (S i) = Some b1 -> nth_error h (S i) = Some (Fin h1) ->
    nth_error dx i = Some x -> h1 + z1 - z0 + friction n q b1 h1 * x < 0 ->
  exists c, critical q b0 c /\ h0 = Fin c.
Proof.
  intros Hq Hb HB HT H i z0 b0 h0 z1 b1 h1 x Z0 B0 H0 Z1 B1 H1 X Hneg.
  pose proof (steady_depths _ _ _ _ _ _ _ _ _ _ _ Hq Hb HB HT H (S i) b1 (Fin h1) B1 H1) as HD.
  destruct HD as [C|(c & h1' & C & Hc & Hle)]; [discriminate|]. injection C as <-.
  apply steady_inv in H as (r & Hr & -> & ->). rewrite nth_error_map in H0, H1.
  destruct (nth_error r i) as [s|] eqn:E0; [|discriminate]. destruct (nth_error r (S i)) as [s'|] eqn:E1; [|discriminate].
  cbn [option_map] in H0, H1. apply Some_inj in H0, H1.
  assert (Hb0 : 0 < b0) by (rewrite Forall_forall in Hb; apply Hb; eapply nth_error_In; eauto).
  assert (Hb1 : 0 < b1) by (rewrite Forall_forall in Hb; apply Hb; eapply nth_error_In; eauto).
  destruct (march_step _ _ _ _ _ _ _ _ _ Hr i s s' (Fin z0) (Fin b0)) as (x' & Hx & Hst);
    try rewrite nth_error_map; rewrite ?Z0, ?B0; auto.
  rewrite nth_error_map, X in Hx. apply Some_inj in Hx. subst x'.
  pose proof (march_shape _ _ _ _ _ _ _ _ _ Hr) as (_ & _ & _ & Msh).
  specialize (Msh (S i) s' (Fin z1) (Fin b1) E1). rewrite !nth_error_map, Z1, B1 in Msh.
  specialize (Msh eq_refl eq_refl). rewrite HB, H1 in Msh.
  assert (0 < h1) by (destruct Hc; lra). rewrite steadyAt_fin in Msh by auto. subst s'.
  unfold steadyStep in Hst. cbn [sDep sElev sSf sEn] in Hst. rewrite HB in Hst.
  apply bind_ok in Hst as (hh & Hn & Hst).
  assert (Ea : exists a, (Fin beta * (fsq (Fin q) / (f2 * grav * fsq (Fin b0))))%n = Fin a).
  { unfold grav, fsq; xg. assert (0 < b0 * b0) by nra. rewrite xdiv_fin by nra. eexists; reflexivity. }
  assert (Eb : exists a, (Fin x * fsq (Fin q) * fsq (Fin n) / (f2 * fsq (Fin b0)))%n = Fin a).
  { unfold grav, fsq; xg. assert (0 < b0 * b0) by nra. rewrite xdiv_fin by nra. eexists; reflexivity. }
  assert (Ec : exists a, (Fin z0 - Fin (friction n q b1 h1) * Fin x / f2 - Fin (energy beta q z1 b1 h1))%n = Fin a).
  { xg. rewrite xdiv_fin by lra. eexists; reflexivity. }
  destruct Ea as (a & Ea), Eb as (bb & Eb), Ec as (cc & Ec). rewrite Ea, Eb, Ec in Hn.
  match type of Hn with context [steadyNewton _ _ _ _ _ _ _ ?e] =>
    assert (Eh : e = Fin (h1 + z1 - z0 + friction n q b1 h1 * x)) by reflexivity; rewrite Eh in Hn end.
  rewrite newton_neg in Hn by exact Hneg. apply Ok_inj in Hn. subst hh.
  apply Ok_inj in Hst. subst s. cbn [sDep steadyAt] in H0. rewrite critDep_fin in H0 by auto.
  exists (hc q b0). split; [apply hc_critical; auto|]. subst h0. xg.
  assert (0 < hc q b0) by (apply hc_critical; auto). rdecide. reflexivity.
Qed.

(** Zero inflow, dry end. *)
Lemma xdiv_nan y : xdiv NaN y = NaN.
Proof. destruct y; reflexivity. Qed.

Lemma steady_dry_end dx z b n dswl N beta zl :
  Forall (fun x => 0 < x) b -> nBeta N = Fin beta -> length b = length z -> (length z <= S (length dx))%nat ->
  nth_error z (length z - 1) = Some zl -> dswl <= zl ->
  exists h v, solveSteady (map Fin dx) (map Fin z) (map Fin b) (Fin n) (Fin 0) (Fin dswl) N = Ok (h, v) /\
    nth_error h (length z - 1) = Some (Fin 0) /\ nth_error v (length z - 1) = Some NaN /\
    forall i, (i < length z - 1)%nat -> nth_error h i = Some NaN /\ nth_error v i = Some NaN.
Proof.
  intros Hb HB Hlb Hld Hz Hd. unfold solveSteady, solveSteadyF.
  enough (G : exists r, steadyMarch (S (nMaxIt N)) N (Fin n) (Fin 0) (Fin dswl) (map Fin dx) (map Fin z) (map Fin b) = Ok r /\
     length r = length z /\
     (exists s, nth_error r (length z - 1) = Some s /\ sDep s = Fin 0) /\
     (forall i s, nth_error r i = Some s -> sVel s = NaN /\ sSf s = NaN /\ ((i < length z - 1)%nat -> sDep s = NaN))).
  { destruct G as (r & -> & Hl & (s & Hs & Hs0) & G). cbn [bind]. do 2 eexists. split; [reflexivity|].
    split; [rewrite nth_error_map, Hs; cbn; congruence|]. split; [rewrite nth_error_map, Hs; cbn; f_equal; apply (G _ _ Hs)|].
    intros i Hi. destruct (nth_error r i) as [si|] eqn:E.
    - destruct (G _ _ E) as (G1 & G2 & G3). rewrite !nth_error_map, E. cbn [option_map]. rewrite G1, G3; auto.
    - apply nth_error_None in E. lia. }
  generalize (S (nMaxIt N)). intros f.
  revert dx b Hb Hlb Hld Hz; induction z as [|z0 z IH]; intros dx b Hb Hlb Hld Hz; [discriminate|].
  destruct b as [|b0 b]; [discriminate|]. inversion Hb as [|? ? Hb0 Hbs]; subst.
  destruct z as [|z1 z].
  - destruct b; [|discriminate]. cbn in Hz. apply Some_inj in Hz. subst z0. cbn [map steadyMarch].
    assert (E : fmaximum (Fin dswl - Fin zl)%n (critDep (Fin 0) (Fin b0)) = Fin 0).
    { unfold critDep, grav, fsq, fmaximum. xg. assert (0 < b0 * b0) by nra. rewrite xdiv_fin by nra.
      replace (0 * 0 / _) with 0 by (field; nra). rewrite xpow_zero by lra. xg. rcase; f_equal; lra. }
    assert (Ev : (Fin 0 / (Fin b0 * Fin 0))%n = NaN).
    { xg. unfold xdiv. rewrite Rmult_0_r. destruct (Req_EM_T 0 0); [|lra]. unfold sgn_inf.
      rdecide. reflexivity. }
    eexists. split; [reflexivity|]. split; [reflexivity|]. unfold steadyEnd. rewrite E. unfold steadyAt. rewrite Ev. split.
    + eexists; split; reflexivity.
    + intros [|i] s Hs; cbn [nth_error] in Hs; [|destruct i; discriminate]. apply Some_inj in Hs. subst s.
      cbn [sVel sSf sDep]. split; [reflexivity|]. split; [apply xdiv_nan|cbn; lia].
  - destruct dx as [|d dx]; [cbn in Hld; lia|]. cbn [length] in *.
    destruct (IH dx b) as (r & Hr & Hl & (s & Hs & Hs0) & G); auto; try lia.
    { replace (S (S (length z)) - 1)%nat with (S (S (length z) - 1)) in Hz by lia. exact Hz. }
    cbn [map steadyMarch] in *. rewrite Hr. cbn [bind].
    destruct r as [|r0 r]; [discriminate|]. cbn [ix nth_error of_opt bind].
    destruct (G 0%nat r0 eq_refl) as (G1 & G2 & G3).
    assert (E : steadyStep f N (Fin n) (Fin 0) (Fin d) (Fin z0) (Fin b0) r0 =
                Ok (steadyAt (nBeta N) (Fin n) (Fin 0) (Fin z0) (Fin b0) NaN)).
    { unfold steadyStep. rewrite G2.
      replace (sDep r0 + sElev r0 - Fin z0 + NaN * Fin d)%n with NaN
        by (xg; destruct (sDep r0), (sElev r0); reflexivity).
      rewrite newton_nan. cbn [bind]. reflexivity. }
    rewrite E. cbn [bind]. eexists. split; [reflexivity|]. split; [cbn [length] in *; lia|].
    replace (S (S (length z)) - 1)%nat with (S (S (length z) - 1)) by lia. split; [exists s; split; auto|].
    intros [|i] s' Hs'; cbn [nth_error] in Hs'.
    + apply Some_inj in Hs'. subst s'. cbn [steadyAt sVel sSf sDep]. split; [reflexivity|]. split; [apply xdiv_nan|reflexivity].
    + destruct (G i s' Hs') as (K1 & K2 & K3). repeat split; auto. intros; apply K3; lia.
Qed.

(** * Concrete cases *)

(** Frictionless channel of two sections, discharge 1. *)
Definition exN : nump xr := mkNum (Fin 1) (Fin 1) (Fin 1) (Fin 1) (Fin 0) 3 (Fin 1) (Fin 1).

Lemma hc_lt2 : 0 < hc 1 1 < 2.
Proof.
  destruct (hc_critical 1 1) as [H E]; try lra. split; auto. apply Rnot_le_lt. intros H2.
  assert (4 <= hc 1 1 * hc 1 1) by nra. assert (8 <= hc 1 1 * hc 1 1 * hc 1 1) by nra. lra.
Qed.

Lemma friction_zero q b h : friction 0 q b h = 0.
Proof. unfold friction, Rdiv. ring. Qed.

Lemma steady_example :
  solveSteady [Fin 1] [Fin 0; Fin 0] [Fin 1; Fin 1] (Fin 0) (Fin 1) (Fin 2) exN =
  Ok ([Fin 2; Fin 2], [Fin (1 / 2); Fin (1 / 2)]).
Proof.
  pose proof hc_lt2 as Hc.
  unfold solveSteady, solveSteadyF. cbn [steadyMarch].
  assert (E : steadyEnd (nBeta exN) (Fin 0) (Fin 1) (Fin 2) (Fin 0) (Fin 1)
              = mkSt (Fin 0) (Fin 2) (Fin (velocity 1 1 2)) (Fin (energy 1 1 0 1 2)) (Fin (friction 0 1 1 2))).
  { unfold steadyEnd. rewrite critDep_fin by lra. unfold fmaximum. xg. rdecide.
    replace (2 - 0) with 2 by ring. cbn [exN nBeta]. rewrite steadyAt_fin by lra. reflexivity. }
  rewrite E. cbn [bind ix nth_error of_opt].
  assert (E2 : steadyStep (S (nMaxIt exN)) exN (Fin 0) (Fin 1) (Fin 1) (Fin 0) (Fin 1)
     (mkSt (Fin 0) (Fin 2) (Fin (velocity 1 1 2)) (Fin (energy 1 1 0 1 2)) (Fin (friction 0 1 1 2)))
     = Ok (mkSt (Fin 0) (Fin 2) (Fin (velocity 1 1 2)) (Fin (energy 1 1 0 1 2)) (Fin (friction 0 1 1 2)))).
  { unfold steadyStep. cbn [sDep sElev sSf sEn exN nBeta nErrTol nMaxIt].
    replace (Fin 2 + Fin 0 - Fin 0 + Fin (friction 0 1 1 2) * Fin 1)%n with (Fin 2)
      by (rewrite friction_zero; xg; f_equal; ring).
    cbn [steadyNewton]. rewrite steadyErr_fin by lra. xg.
    replace (energy_residual 1 0 1 1 0 1 2 0 1 2) with 0
      by (unfold energy_residual; rewrite friction_zero; lra).
    rewrite Rabs_R0. rdecide. cbn [bind]. rewrite critDep_fin by lra. xg. rdecide.
    rewrite steadyAt_fin by lra. reflexivity. }
  rewrite E2. cbn [bind map sDep sVel]. unfold velocity. repeat f_equal; lra.
Qed.

(** Bed step of 10 m: the upper section gets critical depth. *)
Lemma gives_up_example : exists c,
  solveSteady [Fin 1] [Fin 10; Fin 0] [Fin 1; Fin 1] (Fin 0) (Fin 1) (Fin 2) exN =
  Ok ([Fin c; Fin 2], [Fin (1 / c); Fin (1 / 2)]) /\ critical 1 1 c /\
  Rabs (energy_residual 1 0 1 1 10 1 c 0 1 2) > 1.
Proof.
  pose proof hc_lt2 as Hc. exists (hc 1 1). split; [|split].
  - unfold solveSteady, solveSteadyF. cbn [steadyMarch].
    assert (E : steadyEnd (nBeta exN) (Fin 0) (Fin 1) (Fin 2) (Fin 0) (Fin 1)
              = mkSt (Fin 0) (Fin 2) (Fin (velocity 1 1 2)) (Fin (energy 1 1 0 1 2)) (Fin (friction 0 1 1 2))).
    { unfold steadyEnd. rewrite critDep_fin by lra. unfold fmaximum. xg. rdecide.
      replace (2 - 0) with 2 by ring. cbn [exN nBeta]. rewrite steadyAt_fin by lra. reflexivity. }
    rewrite E. cbn [bind ix nth_error of_opt].
    assert (E2 : steadyStep (S (nMaxIt exN)) exN (Fin 0) (Fin 1) (Fin 1) (Fin 10) (Fin 1)
     (mkSt (Fin 0) (Fin 2) (Fin (velocity 1 1 2)) (Fin (energy 1 1 0 1 2)) (Fin (friction 0 1 1 2)))
     = Ok (mkSt (Fin 10) (Fin (hc 1 1)) (Fin (velocity 1 1 (hc 1 1))) (Fin (energy 1 1 10 1 (hc 1 1))) (Fin (friction 0 1 1 (hc 1 1))))).
    { unfold steadyStep. cbn [sDep sElev sSf sEn exN nBeta nErrTol nMaxIt].
      replace (Fin 2 + Fin 0 - Fin 10 + Fin (friction 0 1 1 2) * Fin 1)%n with (Fin (-8))
        by (rewrite friction_zero; xg; f_equal; ring).
      assert (Ea : exists a, (Fin 1 * (fsq (Fin 1) / (f2 * grav * fsq (Fin 1))))%n = Fin a).
      { unfold grav, fsq; xg. rewrite xdiv_fin by lra. eexists; reflexivity. }
      assert (Eb : exists a, (Fin 1 * fsq (Fin 1) * fsq (Fin 0) / (f2 * fsq (Fin 1)))%n = Fin a).
      { unfold grav, fsq; xg. rewrite xdiv_fin by lra. eexists; reflexivity. }
      assert (Ec : exists a, (Fin 10 - Fin (friction 0 1 1 2) * Fin 1 / f2 - Fin (energy 1 1 0 1 2))%n = Fin a).
      { xg. rewrite xdiv_fin by lra. eexists; reflexivity. }
      destruct Ea as (? & ->), Eb as (? & ->), Ec as (? & ->). rewrite newton_neg by lra.
      cbn [bind]. rewrite critDep_fin by lra. xg. rdecide. rewrite steadyAt_fin by lra. reflexivity. }
    rewrite E2. cbn [bind map sDep sVel]. unfold velocity. rewrite !Rmult_1_l. reflexivity.
  - apply hc_critical; lra.
  - unfold energy_residual. rewrite !friction_zero. unfold energy, velocity.
    apply Rlt_gt, Rlt_le_trans with (r2 := 7); [lra|]. eapply Rle_trans; [|apply Rle_abs].
    assert (0 < / hc 1 1) by (apply Rinv_0_lt_compat; lra).
    assert (0 <= 1 / (1 * hc 1 1) * (1 / (1 * hc 1 1))).
    { apply Rle_0_sqr. }
    lra.
Qed.

Lemma dry_end_example :
  solveSteady [Fin 1] [Fin 1; Fin 0] [Fin 1; Fin 1] (Fin 0) (Fin 0) (Fin (-1)) exN = Ok ([NaN; Fin 0], [NaN; NaN]).
Proof.
  destruct (steady_dry_end [1] [1; 0] [1; 1] 0 (-1) exN 1 0) as (h & v & E & H1 & H2 & H3);
    try reflexivity; try lra; repeat constructor; try lra.
  cbn [map] in E. rewrite E. pose proof (steady_inv _ _ _ _ _ _ _ _ _ E) as (r & Hr & -> & ->).
  pose proof (march_shape _ _ _ _ _ _ _ _ _ Hr) as (L & _). destruct r as [|r0 [|r1 [|]]]; try discriminate.
  destruct (H3 0%nat) as [A B]; [cbn; lia|]. cbn in *. congruence.
Qed.

Lemma numbers_refuted : ~ (forall dx z b n q dswl N h v,
  Forall is_fin dx -> Forall is_fin z -> Forall (fun x => exists r, x = Fin r /\ 0 < r) b ->
  solveSteady dx z b (Fin n) (Fin q) (Fin dswl) N = Ok (h, v) ->
  Forall is_fin h /\ Forall is_fin v).
Proof.
  intros H.
  destruct (H [Fin 1] [Fin 1; Fin 0] [Fin 1; Fin 1] 0 0 (-1) exN [NaN; Fin 0] [NaN; NaN]) as [A _].
  1-2: repeat constructor; eexists; reflexivity.
  1: repeat constructor; eexists; (split; [reflexivity|lra]).
  1: exact dry_end_example.
  inversion A as [|? ? B]. destruct B as (? & B). discriminate.
Qed.
