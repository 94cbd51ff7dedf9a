(** Left and right exchanged: the assembled channel. *)
From Coq Require Import ZArith List Bool Reals Lra Lia.
From Verif Require Import Base Num Xr MState MCoast MRiv MMor MOut MCore SShift SMirror PShift PMirror.
Import ListNotations.

Section Chan.
  Local Open Scope num_scope.
  Implicit Types T : list (tsect xr).
  Notation mir := (@acrossT xr xr_num).
  Notation below n := (Forall (fun i => (i < n)%nat)).

  Lemma outletIx_below T e0 e1 : below (length T) (outletIx T e0 e1).
  Proof. apply Forall_forall. intros i H. unfold outletIx, ixLR, ixRL in H. destruct (e0 <? e1); [|apply in_rev in H]; eapply where_lt; eauto. Qed.
  Lemma outletPart_across P T e0 e1 w cl : NoDup (map tX T) ->
    outletPart P (across T) (xopp e0) (xopp e1) w cl = thenDo (fun r => (map (fromEnd (length T)) (fst (fst r)), snd (fst r), snd r)) (outletPart P T e0 e1 w cl).
  Proof.
    intros N. unfold outletPart. destruct cl; [reflexivity|]. cbv zeta. rewrite outletIx_across by exact N. rewrite gather_across by apply outletIx_below.
    destruct (gather T (outletIx T e0 e1)) as [ts|e]; cbn [thenDo bind]; [|reflexivity]. rewrite map_map.
    change (fun x => outletWidth (mir x)) with (@outletWidth xr xr_num).
    destruct (existsb _ _ || _); [reflexivity|]. destruct (map outletWidth ts); reflexivity.
  Qed.
  Lemma outletPart_below P T e0 e1 w cl r : outletPart P T e0 e1 w cl = Ok r -> below (length T) (fst (fst r)).
  Proof.
    unfold outletPart. destruct cl; [intros H; apply Ok_inj in H; subst; constructor|]. cbv zeta. intros H. apply bind_ok in H. destruct H as (ts & _ & H).
    destruct (existsb _ _ || _); [apply Ok_inj in H; subst; constructor|]. destruct (map outletWidth ts); [discriminate|]. apply Ok_inj in H. subst. apply outletIx_below.
  Qed.

  Lemma arange_below n x0 k : (k < n)%nat -> below n (arange x0 (S k)).
  Proof. intros H. apply Forall_forall. intros i Hi. unfold arange in Hi. apply in_seq in Hi. lia. Qed.
  Lemma arange_down_below n x0 k : (x0 < n)%nat -> below n (arange_down x0 k).
  Proof. intros H. apply Forall_forall. intros i Hi. unfold arange_down in Hi. apply in_rev, in_seq in Hi. lia. Qed.
  Lemma lagoonPart_across Dx T x0 e0 cl : (x0 < length T)%nat -> beside e0 ->
    lagoonPart Dx (across T) (fromEnd (length T) x0) (xopp e0) cl =
    thenDo (fun r => match r with (on, a, b, c, d) => (map (fromEnd (length T)) on, a, b, c, d) end) (lagoonPart Dx T x0 e0 cl).
  Proof.
    intros Hx [B1 B2]. unfold lagoonPart. cbv zeta. rewrite opp_eqb0, opp_ltb0.
    assert (E : (e0 =? f0) = false). { destruct e0; cbn; try reflexivity. apply Reqb_false. intros ->. apply B1. reflexivity. }
    rewrite E. rewrite skipn_across, firstn_across, !area_across, !len_across by exact Hx.
    rewrite (last_across (fun t => f0 <? lagoonWidth t) (fun t => f0 <? lagoonWidth t)) by reflexivity.
    rewrite (first_across (fun t => f0 <? lagoonWidth t) (fun t => f0 <? lagoonWidth t)) by reflexivity.
    rewrite (last_across (fun t => tX t <? xopp e0) (fun t => e0 <? tX t)) by (intros t; apply opp_ltb).
    rewrite (first_across (fun t => xopp e0 <? tX t) (fun t => tX t <? e0)) by (intros t; apply opp_ltb).
    rewrite (filter_across (fun t => tX t <? xopp e0) (fun t => e0 <? tX t)) by (intros t; apply opp_ltb).
    rewrite (filter_across (fun t => xopp e0 <? tX t) (fun t => tX t <? e0)) by (intros t; apply opp_ltb).
    rewrite !area_across, !len_across.
    destruct (e0 <? f0) eqn:A, (f0 <? e0) eqn:B.
    - exfalso. destruct e0; try discriminate. cbn in A, B. apply Rltb_true in A, B. lra.
    - destruct cl.
      + destruct (first_where _ T) as [k|] eqn:K; cbn [option_map of_opt bind thenDo]; [|reflexivity]. apply first_lt in K. rewrite arange_dn by assumption. reflexivity.
      + destruct (first_where _ T) as [k|] eqn:K; cbn [option_map of_opt bind thenDo]; [|reflexivity]. apply first_lt in K. rewrite arange_dn by assumption. reflexivity.
    - destruct cl.
      + destruct (last_where _ T) as [k|] eqn:K; cbn [option_map of_opt bind thenDo]; [|reflexivity]. apply lastw_lt in K. rewrite arange_up by assumption. reflexivity.
      + destruct (last_where _ T) as [k|] eqn:K; cbn [option_map of_opt bind thenDo]; [|reflexivity]. apply lastw_lt in K. rewrite arange_up by assumption. reflexivity.
    - exfalso. destruct e0; try discriminate; [|apply B2; reflexivity]. cbn in A, B. apply Rltb_false in A, B. apply B1. f_equal. lra.
  Qed.
  Lemma lagoonPart_below Dx T x0 e0 cl r : (x0 < length T)%nat -> lagoonPart Dx T x0 e0 cl = Ok r -> below (length T) (fst (fst (fst (fst r)))).
  Proof.
    intros Hx H. unfold lagoonPart in H. cbv zeta in H. destruct (e0 =? f0), (f0 <? e0), cl;
      try (apply Ok_inj in H; subst r; constructor; [exact Hx|constructor]);
      apply bind_ok in H; destruct H as (k & K & H); apply Ok_inj in H; subst r; cbn [fst];
      (match type of K with of_opt _ ?o = _ => destruct o as [k'|] eqn:Q; [|discriminate]; apply Ok_inj in K; subst k' end);
      first [apply arange_below; apply lastw_lt in Q; exact Q | apply arange_down_below; exact Hx].
  Qed.

  Lemma lagoonCut_across P Dx T on ea el cl : below (length T) on ->
    lagoonCut P Dx (across T) (map (fromEnd (length T)) on) ea el cl =
    thenDo (fun r => match r with (o, a, b, c) => (map (fromEnd (length T)) o, a, b, c) end) (lagoonCut P Dx T on ea el cl).
  Proof.
    intros H. unfold lagoonCut. rewrite gather_across by exact H. destruct (gather T on) as [ts|e]; cbn [thenDo bind]; [|reflexivity].
    rewrite (first_map mir (fun t => lagoonWidth t <? pMinOutletWidth P) (fun t => lagoonWidth t <? pMinOutletWidth P)) by reflexivity.
    destruct (first_where _ ts) as [k|]; [|reflexivity]. cbn [thenDo]. rewrite skipn_map, firstn_map. unfold areaOf, lenOf. rewrite !map_map. reflexivity.
  Qed.
  Lemma lagoonCut_below P Dx T on ea el cl r : below (length T) on -> lagoonCut P Dx T on ea el cl = Ok r -> below (length T) (fst (fst (fst r))).
  Proof.
    intros B H. unfold lagoonCut in H. apply bind_ok in H. destruct H as (ts & _ & H). destruct (first_where _ ts) as [k|]; apply Ok_inj in H; subst r; cbn [fst]; [|exact B].
    rewrite Forall_forall in *. intros i Hi. apply B. rewrite <- (firstn_skipn k on). apply in_or_app. left. exact Hi.
  Qed.

  (** The spacing at the end of the outlet channel. *)
  Lemma gap_across e0 e1 Dx d : betweenGrid e0 e1 Dx -> e0 <> NaN ->
    (if xopp e0 <? xopp e1 then d + fmod (xopp e1) Dx else d + (Dx - fmod (xopp e1) Dx)) = (if e0 <? e1 then d + fmod e1 Dx else d + (Dx - fmod e1 Dx)).
  Proof.
    intros (b & x & -> & -> & D & [[N G]|[-> (k & ->)]]) NN.
    - rewrite opp_ltb. cbn [fmod xr_num xopp]. rewrite !xmod_fin by lra. rewrite floor_opp by assumption. rewrite minus_IZR, opp_IZR.
      destruct (Fin b <? e0) eqn:A, (e0 <? Fin b) eqn:B.
      + exfalso. destruct e0; try discriminate. cbn in A, B. apply Rltb_true in A, B. lra.
      + f_equal. cbn [fsub xr_num xsub]. f_equal. lra.
      + f_equal. cbn [fsub xr_num xsub]. f_equal. lra.
      + exfalso. destruct e0; try discriminate; [|apply NN; reflexivity]. cbn in A, B. apply Rltb_false in A, B. apply N. f_equal. lra.
    - rewrite opp_ltb. assert (E : (Fin (IZR k * x) <? Fin (IZR k * x)) = false) by (cbn; apply Rltb_false; lra). rewrite E.
      cbn [fmod xr_num xopp]. rewrite !xmod_fin by lra. rewrite floor_grid by exact D. replace (- (IZR k * x))%R with (IZR (- k) * x)%R by (rewrite opp_IZR; lra).
      rewrite floor_grid by exact D. f_equal. cbn [fsub xr_num xsub]. f_equal. lra.
  Qed.
  Lemma chanShape_across P Dx T e0 e1 eW eE cl R on out ow : below (length T) on -> below (length T) out -> e0 <> NaN -> cl = true \/ betweenGrid e0 e1 Dx ->
    chanShape P Dx (across T) (xopp e0) (xopp e1) eW eE cl R (map (fromEnd (length T)) on) (map (fromEnd (length T)) out) ow =
    chanShape P Dx T e0 e1 eW eE cl R on out ow.
  Proof.
    intros H1 H2 NN B. unfold chanShape. cbv zeta. rewrite !gather_across by assumption. destruct (gather T on) as [ts|e]; cbn [thenDo bind]; [|reflexivity].
    rewrite !map_length, !map_map. destruct cl; [reflexivity|]. destruct B as [B|B]; [discriminate|].
    destruct (gather T out) as [us|e]; cbn [thenDo bind]; [|reflexivity]. rewrite !map_map.
    replace (upd_with (repeat Dx (length R + length on + length out + 1)) (length R + length on + length out + 1 - 2)
      (fun d => if xopp e0 <? xopp e1 then d + fmod (xopp e1) Dx else d + (Dx - fmod (xopp e1) Dx))) with
      (upd_with (repeat Dx (length R + length on + length out + 1)) (length R + length on + length out + 1 - 2)
      (fun d => if e0 <? e1 then d + fmod e1 Dx else d + (Dx - fmod e1 Dx))).
    { reflexivity. }
    unfold upd_with. destruct (nth_error _ _); [|reflexivity]. f_equal. symmetry. apply gap_across; assumption.
  Qed.
  Lemma chanHyd_across T cl RD RV LWL LVel OD OV ED EV on out : below (length T) on -> below (length T) out ->
    length LWL = length T -> length LVel = length T -> length OD = length T -> length OV = length T ->
    chanHyd (across T) cl RD RV (rev LWL) (rev LVel) (rev OD) (rev OV) ED EV (map (fromEnd (length T)) on) (map (fromEnd (length T)) out) =
    chanHyd T cl RD RV LWL LVel OD OV ED EV on out.
  Proof.
    intros H1 H2 L1 L2 L3 L4. unfold chanHyd. rewrite gather_across by assumption. rewrite !gather_fromEnd by assumption.
    destruct (gather T on) as [ts|e]; cbn [thenDo bind]; [|reflexivity]. rewrite map_map. reflexivity.
  Qed.

  Lemma last_fromEnd n (l : list nat) : last_ (map (fromEnd n) l) = thenDo (fromEnd n) (last_ l).
  Proof. apply last_map. Qed.
  Lemma last_in {A} (l : list A) x : last_ l = Ok x -> In x l.
  Proof. unfold last_. destruct (nth_error (rev l) 0) eqn:E; [|discriminate]. intros H. apply Ok_inj in H. subst. apply nth_error_In, in_rev in E. exact E. Qed.
  Lemma ix_in {A} (l : list A) i x : ix l i = Ok x -> In x l.
  Proof. unfold ix. destruct (nth_error l i) eqn:E; [|discriminate]. intros H. apply Ok_inj in H. subst. eapply nth_error_In; eauto. Qed.

  Lemma assemble_across T e0 e1 eW eE Cl RE RD RV LWL LVel OD OV ED EV Dx P : NoDup (map tX T) -> beside e0 -> Cl = true \/ betweenGrid e0 e1 Dx ->
    length LWL = length T -> length LVel = length T -> length OD = length T -> length OV = length T ->
    assembleChannel (across T) (xopp e0) (xopp e1) eW eE Cl RE RD RV (rev LWL) (rev LVel) (rev OD) (rev OV) ED EV Dx P =
    thenDo (acrossChan (length T)) (assembleChannel T e0 e1 eW eE Cl RE RD RV LWL LVel OD OV ED EV Dx P).
  Proof.
    intros N B G L1 L2 L3 L4. unfold assembleChannel. rewrite x0_across by exact N. destruct (x0Ix T) as [x0|] eqn:X0; cbn [thenDo bind]; [|reflexivity].
    assert (Hx := x0_lt _ _ X0). cbv zeta. rewrite outletPart_across by exact N. destruct (outletPart P T e0 e1 eW Cl) as [[[out ow] cl]|] eqn:O; cbn [thenDo bind fst snd]; [|reflexivity].
    assert (Bo := outletPart_below _ _ _ _ _ _ _ O). cbn [fst] in Bo.
    assert (Gc : cl = true \/ betweenGrid e0 e1 Dx).
    { destruct G as [->|G]; [|right; exact G]. left. unfold outletPart in O. apply Ok_inj in O. injection O as <- <- <-. reflexivity. }
    clear O. unfold across at 1. rewrite <- (map_length mir T), ix_fromEnd by (rewrite map_length; exact Hx). rewrite map_length. fold (across T).
    rewrite ix_map. destruct (ix T x0) as [t0|]; cbn [thenDo bind]; [|reflexivity]. change (lagoonWidth (mir t0)) with (lagoonWidth t0).
    destruct (assert_ (f0 <? lagoonWidth t0)); cbn [thenDo bind]; [|reflexivity].
    replace (forallb (fun t => negb (fisnan (lagoonWidth t))) (across T)) with (forallb (fun t => negb (fisnan (lagoonWidth t))) T)
      by (unfold across; rewrite forallb_rev; symmetry; apply (forallb_map mir); reflexivity).
    destruct (assert_ (forallb _ T)); cbn [thenDo bind]; [|reflexivity].
    rewrite lagoonPart_across by assumption. destruct (lagoonPart Dx T x0 e0 cl) as [[[[[on sa] sl] ea] el]|] eqn:LP; cbn [thenDo bind]; [|reflexivity].
    assert (Bl := lagoonPart_below _ _ _ _ _ _ Hx LP). cbn [fst] in Bl. clear LP. rewrite map_length.
    destruct (assert_ (negb (Nat.eqb (length on) 0))); cbn [thenDo bind]; [|reflexivity].
    rewrite lagoonCut_across by exact Bl. destruct (lagoonCut P Dx T on ea el cl) as [[[[on' ea'] el'] cl']|] eqn:LC; cbn [thenDo bind]; [|reflexivity].
    assert (Bc := lagoonCut_below _ _ _ _ _ _ _ _ Bl LC). cbn [fst] in Bc.
    assert (Gc' : cl' = true \/ betweenGrid e0 e1 Dx).
    { destruct Gc as [->|Gc]; [|right; exact Gc]. left. unfold lagoonCut in LC. apply bind_ok in LC. destruct LC as (ts & _ & LC).
      destruct (first_where _ ts); apply Ok_inj in LC; injection LC as _ _ _ <-; reflexivity. }
    clear LC Gc Bl. rewrite ix_map, last_fromEnd.
    destruct (ix on' 0) as [i0|] eqn:I0; cbn [thenDo bind]; [|reflexivity]. destruct (last_ on') as [il|] eqn:IL; cbn [thenDo bind]; [|reflexivity].
    apply ix_in in I0. apply last_in in IL. rewrite Forall_forall in Bc. apply Bc in I0, IL. rewrite <- Forall_forall in Bc. rewrite !map_length.
    replace (Z.abs (Z.of_nat (fromEnd (length T) il) - Z.of_nat (fromEnd (length T) i0))) with (Z.abs (Z.of_nat il - Z.of_nat i0)) by (unfold fromEnd; lia).
    destruct (assert_ (Z.eqb _ _)); cbn [thenDo bind]; [|reflexivity].
    rewrite gather_across by exact Bc. destruct (gather T on') as [lts|]; cbn [thenDo bind]; [|reflexivity].
    rewrite (forallb_map mir (fun t => f0 <? lagoonWidth t) (fun t => f0 <? lagoonWidth t)) by reflexivity.
    destruct (assert_ (forallb _ lts)); cbn [thenDo bind]; [|reflexivity].
    rewrite chanShape_across by (try assumption; apply (proj2 B)). destruct (chanShape P Dx T e0 e1 eW eE cl' RE on' out ow) as [[[[dx flag] elev] width]|]; cbn [thenDo bind]; [|reflexivity].
    rewrite chanHyd_across by assumption. destruct (chanHyd T cl' RD RV LWL LVel OD OV (padEnd ED) (padEnd EV) on' out) as [[dep vel]|]; cbn [thenDo bind]; [|reflexivity].
    destruct (if existsb fisnan dep then fillDep dep else Ok dep) as [dep'|]; cbn [thenDo bind]; [|reflexivity].
    destruct (if existsb fisnan vel then fillVel dep' vel else Ok vel) as [vel'|]; cbn [thenDo bind]; [|reflexivity].
    do 6 (match goal with |- bind (assert_ ?b) _ = _ => destruct (assert_ b); cbn [thenDo bind]; [|reflexivity] end).
    reflexivity.
  Qed.
End Chan.
