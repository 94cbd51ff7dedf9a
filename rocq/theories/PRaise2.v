(** The same in exact arithmetic, for a level any distance away. *)
From Coq Require Import ZArith List Bool Reals Lra.
From Verif Require Import Base Num Xr MState MCoast MRiv MMor MOut MCore SShift SRaise PShift PShift2 PRaiseH PRaise.
Import ListNotations.
Local Open Scope R_scope.

Lemma bm_add a b x y : (byMetres a x + byMetres b y)%n = byMetres (a + b) (x + y)%n.
Proof. destruct x, y; try reflexivity. cbn. f_equal. lra. Qed.
Lemma bm_sub a b x y : (byMetres a x - byMetres b y)%n = byMetres (a - b) (x - y)%n.
Proof. destruct x, y; try reflexivity. cbn. f_equal. lra. Qed.
Lemma bm_0 x : byMetres 0 x = x.
Proof. destruct x; try reflexivity. cbn. f_equal. lra. Qed.
Lemma bm_mul k c x : (Fin k * byMetres c x)%n = byMetres (k * c) (Fin k * x)%n.
Proof. destruct x as [r| | |]; [cbn; f_equal; lra| | |reflexivity]; cbn; unfold sgn_inf; repeat destruct (Rltb _ _); reflexivity. Qed.
Lemma bm_eq a b x : a = b -> byMetres a x = byMetres b x.
Proof. intros ->. reflexivity. Qed.

Section Exact.
  Variable c : R.
  Notation sh := (byMetres c).
  Notation dn := (byMetres (- c)).
  Lemma r_add_r a d : (d + sh a = sh (d + a))%n.
  Proof. destruct a, d; try reflexivity. cbn. f_equal. lra. Qed.
  Lemma r_dn_add a b : (dn a + sh b = a + b)%n.
  Proof. rewrite bm_add, (bm_eq _ 0) by lra. apply bm_0. Qed.
  Lemma r_add_dn a b : (sh a + dn b = a + b)%n.
  Proof. rewrite bm_add, (bm_eq _ 0) by lra. apply bm_0. Qed.
  Lemma r_half a b : (fofQ 1 2 * sh a + fofQ 1 2 * sh b = sh (fofQ 1 2 * a + fofQ 1 2 * b))%n.
  Proof. change (@fofQ xr _ 1 2) with (Fin (1 / 2)). rewrite !bm_mul, bm_add. apply bm_eq. lra. Qed.
  Lemma r_nan_low x : x = @fnan xr _ -> (x <? fofQ (-99999) 10)%n = false. Proof. intros ->. reflexivity. Qed.
  Lemma r_diss_nan (t : tsect xr) : fisnan (tY1 t) = true -> dissolve (raisedT sh t) = raisedT sh (dissolve t).
  Proof.
    intros H. unfold dissolve, raisedT. cbn [tX tY0 tY1 tY2 tY3 tY4 tZ0 tZ1 tZ2 tZ3]. assert (E : tY1 t = NaN) by (destruct (tY1 t); try discriminate H; reflexivity). rewrite E.
    assert (Q : forall x, (@fdiv xr _ x (NaN - tY4 t)%n) = NaN) by (intros x; change (NaN - tY4 t)%n with NaN; destruct x; reflexivity). rewrite !Q. reflexivity.
  Qed.
  Lemma r_sum l : fsum (map sh l) = byMetres (INR (length l) * c) (fsum l).
  Proof.
    induction l as [|x l IH]; [cbn; f_equal; lra|]. change (fsum (map sh (x :: l))) with (sh x + fsum (map sh l))%n. change (fsum (x :: l)) with (x + fsum l)%n.
    rewrite IH, bm_add. apply bm_eq. change (length (x :: l)) with (S (length l)). rewrite S_INR. lra.
  Qed.
  Lemma r_mean l : nanmean (map sh l) = sh (nanmean l).
  Proof.
    unfold nanmean. cbv zeta. rewrite (filter_map sh _ (fun x => negb (fisnan x))) by (intros x; rewrite b_isnan; reflexivity). set (k := filter _ l). rewrite map_length, r_sum.
    change (@fofZ xr _ (Z.of_nat (length k))) with (Fin (IZR (Z.of_nat (length k)))). rewrite <- INR_IZR_INZ. destruct k as [|x k].
    - cbn. replace (0 * c) with 0 by lra. rewrite Rplus_0_l. cbn. destruct (Req_EM_T 0 0) as [_|E]; [|lra]. unfold sgn_inf, Rltb. destruct (Rlt_dec 0 0); [lra|reflexivity].
    - assert (Hn : 0 < INR (length (x :: k))) by (apply lt_0_INR; cbn; auto with arith). set (n := INR _) in *. clearbody n. destruct (fsum (x :: k)) as [r| | |]; [|cbn..].
      + cbn [byMetres]. change (@fdiv xr _) with xdiv. rewrite !xdiv_fin by lra. cbn [byMetres]. f_equal. field. lra.
      + destruct (Rltb n 0); reflexivity.
      + destruct (Rltb n 0); reflexivity.
      + reflexivity.
  Qed.
  Lemma r_seep r : seepOK sh (Fin r).
  Proof.
    intros za zb W Wo ha hb. change (@f2 xr _) with (Fin 2). change (@f1 xr _) with (Fin 1). change (Fin 2 * Fin r)%n with (Fin (2 * r)). change (Fin 1 - Fin r)%n with (Fin (1 - r)).
    rewrite !bm_mul, bm_add, bm_sub. rewrite <- (bm_0 (hb + ha)%n) at 1. rewrite bm_sub, bm_mul, bm_add, (bm_eq _ 0) by lra. apply bm_0.
  Qed.
  Definition steady_raised := solveSteady_u sh (b_sub_ss c) (b_add_s c) r_add_r (b_sub_s c).
  Definition channel_raised := assemble_u sh dn (b_sub_ss c) (b_ltb c) (b_isnan c).
  Lemma unsteady_raised solve z B la ll cl h V dx dt Qs Ws (N : nump xr) P r : nTheta N = Fin r ->
    solveFullPreissmann solve (map sh z) B la ll cl h V dx dt Qs (map sh Ws) N (raisedPars sh dn P) = solveFullPreissmann solve z B la ll cl h V dx dt Qs Ws N P.
  Proof. intros H. apply (preissmann_u sh dn (b_sub_ss c) (b_add_s c) r_add_r (b_sub_s c)). rewrite H. apply r_seep. Qed.
  Definition update_raised := update_r sh dn (b_sub_ss c) (b_add_s c) r_add_r (b_ltb c) (b_isnan c) (b_nan c) r_dn_add r_add_dn r_half r_nan_low r_diss_nan.
  Lemma steps_raised af o (v : env xr) r n k s : nTheta (vN v) = Fin r ->
    (forall m s1 T1, (m < n)%nat -> steps af m k o v s = Ok s1 -> correctedPass af (o (k + m)%nat) v s1 = Ok T1 -> Forall (calm sh) T1) ->
    steps af n k o (raisedSetup sh dn v) (raisedRun sh s) = thenDo (raisedRun sh) (steps af n k o v s).
  Proof.
    intros H. apply (steps_r sh dn (b_sub_ss c) (b_add_s c) r_add_r (b_sub_s c) (b_ltb c) (b_isnan c) (b_nan c) r_dn_add r_add_dn r_half r_nan_low r_diss_nan r_mean). rewrite H. apply r_seep.
  Qed.
  Definition init_raised := init_r sh dn (b_sub_ss c) (b_add_s c) r_add_r (b_sub_s c) (b_ltb c) (b_isnan c) (b_nan c).
  Lemma merge_raised x y0 y1 y2 y3 y4 z0 z1 z2 z3 : y4 < y1 -> exists z,
    tZ3 (dissolve (mkT (Fin x) (Fin y0) (Fin y1) (Fin y2) (Fin y3) (Fin y4) (Fin z0) (Fin z1) (Fin z2) (Fin z3))) = Fin z /\
    tZ3 (dissolve (raisedT sh (mkT (Fin x) (Fin y0) (Fin y1) (Fin y2) (Fin y3) (Fin y4) (Fin z0) (Fin z1) (Fin z2) (Fin z3)))) = Fin (z + c * (1 + (y3 - y2) / (y1 - y4))).
  Proof.
    intros H. unfold dissolve, raisedT. cbn [tX tY0 tY1 tY2 tY3 tY4 tZ0 tZ1 tZ2 tZ3 byMetres]. change (@fsub xr _) with xsub. cbn [xsub]. change (@fdiv xr _) with xdiv. change (@fmul xr _) with xmul. cbn [xmul].
    change (@fadd xr _) with xadd. cbn [xadd]. rewrite !xdiv_fin by lra. eexists. split; [reflexivity|]. f_equal. field. lra.
  Qed.
End Exact.
