(** The data flow of one pass. *)
From Coq Require Import ZArith List Bool Lia.
From Verif Require Import Base Num Xr MState MCoast MRiv MMor MOut MCore SRun SStep PSteady PChan PLag PCore PLoad PSynth.
Import ListNotations.
Local Open Scope Z_scope.

Section Step.
  Context {F : Type} {NF : Num F}.
  Lemma at1_value (s : series F) t x : at1 s t = Ok x -> valueAt s t x.
  Proof. unfold at1. intros H. apply bind_ok in H as (l & A & B). apply ix_ok in B. exists l. auto. Qed.
  Lemma river_part flag (l r : list F) : selFlag flag (Nat.eqb 0) l = Ok r -> riverPart flag l r.
  Proof.
    unfold selFlag. destruct (Nat.eqb (length flag) (length l)) eqn:E; [|discriminate]. apply Nat.eqb_eq in E. intros H. apply Ok_inj in H. subst r.
    revert l E. induction flag as [|f flag IH]; intros [|x l] E; try discriminate; [constructor|]. cbn [map]. injection E as E. specialize (IH l E).
    unfold filter2 in *. cbn. destruct f; cbn; [apply rp_river|apply rp_other; [discriminate|]]; exact IH.
  Qed.

  Lemma step_flow af o v s s' : step af o v s = Ok s' ->
    exists c m sea flow f dep vel bed ow cst,
      SRun.assembled v s = Ok c /\ forcedBy v s sea flow f /\
      solution o v c flow sea f dep vel /\
      riverPart (chFlag c) dep (gRDep s') /\ riverPart (chFlag c) vel (gRVel s') /\
      bed = calcBedload (chWidth c) dep vel (vP v) (nPsi (vN v)) /\
      overBarrier v s f = Ok (cst, ow) /\
      updateMorphology af (oJunk1 o) (oJunk2 o) (vP v) (vN v) (vTP v) (gT s) (gE0 s) (gE1 s) (gW s) (gZ s) (gRiver s)
        (chOnline c) (chOutlet c) (gLWL s') (gODep s') (chWidth c) dep (chFlag c) (chClosed c) (alongshore v s f) bed cst ow (gDt s) = Ok m /\
      storeHydraulics dep vel (chOnline c) (chOutlet c) (chFlag c) (map tZ3 (gT s)) (chClosed c) =
        Ok (gLWL s', gLVel s', gODep s', gOVel s', gEDep s', gEVel s') /\
      (gT s' = oT m /\ gE0 s' = oE0 m /\ gE1 s' = oE1 m /\ gW s' = oW m /\ gZ s' = oZ m /\ gRiver s' = oRiver m /\ gClosed s' = (if oBreach m then false else chClosed c)) /\
      (forall w, gOuts s' = gOuts s ++ [w] ->
         wTime w = gTime s' /\ wSea w = fcSea f /\ wFlow w = fcFlow f /\ wHs w = fcHs f /\ wDir w = fcDir f /\
         wLST w = alongshore v s f /\ wCST w = cst /\ wOW w = map fofb ow /\ wClosed w = chClosed c /\
         riverPart (removelast (chFlag c)) bed (wRBed w) /\
         storeBedload bed (length (gT s)) (chOnline c) (chOutlet c) (chFlag c) (chClosed c) = Ok (wLBed w, wOBed w, wEBed w)) /\
      (forall w, gTs s' = gTs s ++ [w] ->
         sTime w = gTime s' /\ sSea w = fcSea f /\ sFlow w = fcFlow f /\ sHs w = fcHs f /\ sDir w = fcDir f /\
         sLagWl w = nanmean (gLWL s') /\ sE0 w = gE0 s' /\ sE1 w = gE1 s' /\ sClosedT w = chClosed c /\ sMorDt w = gDt s' /\
         (exists d u b, last_ dep = Ok d /\ last_ vel = Ok u /\ last_ (chWidth c) = Ok b /\ sOutflow w = (d * u * b)%n) /\
         nth_error bed 0 = Some (sSedIn w)).
  Proof.
    intros H. unfold step in H. cbv zeta in H. bok H c. bok H flow. bok H sea. bok H hyd. destruct hyd as [dep vel].
    bok H st. destruct st as [[[[[lwl lvel] odep] ovel] edep] evel]. bok H u. bok H dir. bok H pow. bok H per. bok H len. bok H hs.
    bok H seaN. bok H flowN. bok H ot. destruct ot as [cst ow]. bok H m. bok H rdep. bok H rvel. bok H outs. destruct outs as [outs outT].
    bok H ts. destruct ts as [ts tsT]. apply Ok_inj in H. subst s'.
    cbn [gT gE0 gE1 gW gZ gRiver gRDep gRVel gLWL gLVel gODep gOVel gEDep gEVel gClosed gTime gDt gOuts gTs].
    exists c, m, sea, flow, (mkForcing seaN flowN dir pow per len hs), dep, vel, (calcBedload (chWidth c) dep vel (vP v) (nPsi (vN v))), ow, cst.
    cbn [fcSea fcFlow fcDir fcPow fcPer fcLen fcHs].
    split; [exact Ec|]. split.
    { constructor; cbn [fcSea fcFlow fcDir fcPow fcPer fcLen fcHs]; try (apply at1_value; assumption).
      - split; [exact Esea|]. apply in_last_. exact EseaN.
      - split; [exact Eflow|]. apply in_last_. exact EflowN. }
    split.
    { unfold hydraulics in Ehyd. unfold solution, unsteady, steady. cbn [fcSea fcFlow]. destruct (solveFullPreissmann _ _ _ _ _ _ _ _ _ _ _ _ _ _) as [r|e]; [left; exact Ehyd|right].
      exists e. split; [reflexivity|]. rewrite EseaN, EflowN in Ehyd. cbn [bind] in Ehyd. exact Ehyd. }
    split; [apply river_part; assumption|]. split; [apply river_part; assumption|]. split; [reflexivity|]. split; [exact Eot|]. split; [exact Em|]. split; [exact Est|]. split; [repeat (split; [reflexivity|]); reflexivity|]. split.
    - intros w Hw. destruct (gOutT s <=? _) eqn:E.
      + bok Eouts sb. destruct sb as [[lb ob] eb]. bok Eouts rb. apply Ok_inj in Eouts. pose proof (f_equal fst Eouts) as Q. cbn [fst] in Q. rewrite <- Q in Hw.
        apply app_inv_head in Hw. pose proof (f_equal (hd w) Hw) as Q2. cbn [hd] in Q2. clear Hw. subst w.
        cbn [wTime wSea wFlow wHs wDir wLST wCST wOW wClosed wRBed wLBed wOBed wEBed]. repeat (split; [reflexivity|]). split; [apply river_part; assumption|]. exact Esb.
      + apply Ok_inj in Eouts. pose proof (f_equal fst Eouts) as Q. cbn [fst] in Q. rewrite <- Q in Hw. exfalso.
        apply (f_equal (@length _)) in Hw. rewrite app_length in Hw. cbn [length] in Hw. lia.
    - intros w Hw. destruct (gTsT s <=? _) eqn:E.
      + bok Ets d. bok Ets uu. bok Ets b. bok Ets b0. apply Ok_inj in Ets. pose proof (f_equal fst Ets) as Q. cbn [fst] in Q. rewrite <- Q in Hw.
        apply app_inv_head in Hw. pose proof (f_equal (hd w) Hw) as Q2. cbn [hd] in Q2. clear Hw. subst w.
        cbn [sTime sSea sFlow sHs sDir sLagWl sOutflow sSedIn sE0 sE1 sClosedT sMorDt]. repeat (split; [reflexivity|]). split; [|apply ix_ok; assumption].
        exists d, uu, b. auto.
      + apply Ok_inj in Ets. pose proof (f_equal fst Ets) as Q. cbn [fst] in Q. rewrite <- Q in Hw. exfalso.
        apply (f_equal (@length _)) in Hw. rewrite app_length in Hw. cbn [length] in Hw. lia.
  Qed.

  Lemma value_fun (b : series F) t x y : valueAt b t x -> valueAt b t y -> x = y.
  Proof. intros (l & A & B) (l' & A' & B'). rewrite A in A'. apply Ok_inj in A'. subst l'. rewrite B in B'. now apply Some_inj. Qed.
  Lemma over_fun v (s : state F) b l l' x y : over_pass v s b l x -> over_pass v s b l' y -> l = l' /\ x = y.
  Proof. intros (A & B) (A' & B'). rewrite A in A'. apply Ok_inj in A'. subst l'. split; [reflexivity|]. rewrite B in B'. now apply Some_inj. Qed.
  Lemma forced_fun v (s : state F) a b f a' b' f' : forcedBy v s a b f -> forcedBy v s a' b' f' -> a = a' /\ b = b' /\ f = f'.
  Proof.
    intros [S1 F1 D1 P1 E1 L1 H1] [S2 F2 D2 P2 E2 L2 H2]. destruct (over_fun _ _ _ _ _ _ _ S1 S2) as [<- Q1]. destruct (over_fun _ _ _ _ _ _ _ F1 F2) as [<- Q2].
    split; [reflexivity|]. split; [reflexivity|]. destruct f as [x1 x2 x3 x4 x5 x6 x7], f' as [y1 y2 y3 y4 y5 y6 y7]. cbn [fcSea fcFlow fcDir fcPow fcPer fcLen fcHs] in *.
    pose proof (value_fun _ _ _ _ D1 D2). pose proof (value_fun _ _ _ _ P1 P2). pose proof (value_fun _ _ _ _ E1 E2).
    pose proof (value_fun _ _ _ _ L1 L2). pose proof (value_fun _ _ _ _ H1 H2). congruence.
  Qed.
  Lemma rp_fun flag (l r r' : list F) : riverPart flag l r -> riverPart flag l r' -> r = r'.
  Proof. intros H. revert r'. induction H; intros r' H'; inversion H'; subst; try congruence; [f_equal|]; auto. Qed.
  Lemma rp_nth flag (l r : list F) : riverPart flag l r -> forall j x, nth_error r j = Some x ->
    exists i, nth_error flag i = Some 0%nat /\ nth_error l i = Some x /\ length (filter (Nat.eqb 0) (firstn i flag)) = j.
  Proof.
    induction 1 as [|flag l r p H IH|f flag l r p N H IH]; intros j x Hj.
    - now destruct j.
    - destruct j as [|j]; cbn in Hj; [exists 0%nat; auto|]. destruct (IH _ _ Hj) as (i & A & B & C). exists (S i). cbn. auto.
    - destruct (IH _ _ Hj) as (i & A & B & C). exists (S i). destruct f; [congruence|]. cbn. auto.
  Qed.
  Lemma count_inj : forall (flag : list nat) i j, nth_error flag i = Some 0%nat -> nth_error flag j = Some 0%nat ->
    length (filter (Nat.eqb 0) (firstn i flag)) = length (filter (Nat.eqb 0) (firstn j flag)) -> i = j.
  Proof.
    induction flag as [|f flag IH]; intros [|i] [|j]; cbn [nth_error firstn filter]; intros A B C; try discriminate; try reflexivity.
    - apply Some_inj in A. subst f. discriminate.
    - apply Some_inj in B. subst f. discriminate.
    - f_equal. apply IH; auto. destruct (Nat.eqb 0 f); [injection C as C|]; exact C.
  Qed.
  Lemma rp_same flag (l r l' r' : list F) j x y : riverPart flag l r -> riverPart flag l' r' ->
    nth_error r j = Some x -> nth_error r' j = Some y -> exists i, nth_error l i = Some x /\ nth_error l' i = Some y.
  Proof.
    intros A B C D. destruct (rp_nth _ _ _ A _ _ C) as (i & P & Q & R). destruct (rp_nth _ _ _ B _ _ D) as (i' & P' & Q' & R').
    assert (i = i') as <- by (eapply count_inj; eauto; congruence). eauto.
  Qed.

  Lemma solution_fun o v c flow sea (f : forcing F) dep vel dep' vel' : solution o v c flow sea f dep vel -> solution o v c flow sea f dep' vel' ->
    dep = dep' /\ vel = vel'.
  Proof. unfold solution. intros [A|(e & A & B)] [A'|(e' & A' & B')]; try congruence; rewrite ?A, ?B in *; [apply Ok_inj in A'; injection A' as -> ->|apply Ok_inj in B'; injection B' as -> ->]; auto. Qed.
  Lemma step_forced af o v s s' : step af o v s = Ok s' ->
    exists c sea flow f dep vel, SRun.assembled v s = Ok c /\ forcedBy v s sea flow f /\ solution o v c flow sea f dep vel.
  Proof. intros H. destruct (step_flow _ _ _ _ _ H) as (c & m & sea & flow & f & dep & vel & bed & ow & cst & A & B & D & _). exists c, sea, flow, f, dep, vel. auto. Qed.
  Ltac same A B D c' Hc Hf Hd :=
    rewrite Hc in A; apply Ok_inj in A; subst c';
    destruct (forced_fun _ _ _ _ _ _ _ _ Hf B) as (<- & <- & <-); destruct (solution_fun _ _ _ _ _ _ _ _ _ _ Hd D) as (<- & <-).
  Lemma step_hydraulics af o v s s' c sea flow f dep vel : step af o v s = Ok s' -> SRun.assembled v s = Ok c -> forcedBy v s sea flow f ->
    solution o v c flow sea f dep vel ->
    riverPart (chFlag c) dep (gRDep s') /\ riverPart (chFlag c) vel (gRVel s') /\
    storeHydraulics dep vel (chOnline c) (chOutlet c) (chFlag c) (map tZ3 (gT s)) (chClosed c) =
      Ok (gLWL s', gLVel s', gODep s', gOVel s', gEDep s', gEVel s').
  Proof.
    intros H Hc Hf Hd. destruct (step_flow _ _ _ _ _ H) as (c' & m & sea' & flow' & f' & dep' & vel' & bed & ow & cst & A & B & D & E1 & E2 & _ & _ & _ & S & _).
    same A B D c' Hc Hf Hd. auto.
  Qed.
  Lemma step_morphology af o v s s' c sea flow f dep vel : step af o v s = Ok s' -> SRun.assembled v s = Ok c -> forcedBy v s sea flow f ->
    solution o v c flow sea f dep vel ->
    exists cst ow m, overBarrier v s f = Ok (cst, ow) /\
      updateMorphology af (oJunk1 o) (oJunk2 o) (vP v) (vN v) (vTP v) (gT s) (gE0 s) (gE1 s) (gW s) (gZ s) (gRiver s)
        (chOnline c) (chOutlet c) (gLWL s') (gODep s') (chWidth c) dep (chFlag c) (chClosed c) (alongshore v s f)
        (calcBedload (chWidth c) dep vel (vP v) (nPsi (vN v))) cst ow (gDt s) = Ok m /\
      gT s' = oT m /\ gE0 s' = oE0 m /\ gE1 s' = oE1 m /\ gW s' = oW m /\ gZ s' = oZ m /\ gRiver s' = oRiver m /\ gClosed s' = (if oBreach m then false else chClosed c).
  Proof.
    intros H Hc Hf Hd. destruct (step_flow _ _ _ _ _ H) as (c' & m & sea' & flow' & f' & dep' & vel' & bed & ow & cst & A & B & D & E1 & E2 & E3 & E4 & E5 & S & M & _).
    same A B D c' Hc Hf Hd. subst bed. exists cst, ow, m. auto.
  Qed.
  Lemma step_record af o v s s' c sea flow f w : step af o v s = Ok s' -> SRun.assembled v s = Ok c -> forcedBy v s sea flow f ->
    gOuts s' = gOuts s ++ [w] ->
    wTime w = gTime s' /\ wSea w = fcSea f /\ wFlow w = fcFlow f /\ wHs w = fcHs f /\ wDir w = fcDir f /\
    wLST w = alongshore v s f /\ (exists ow, overBarrier v s f = Ok (wCST w, ow) /\ wOW w = map fofb ow) /\ wClosed w = chClosed c.
  Proof.
    intros H Hc Hf Hw. destruct (step_forced _ _ _ _ _ H) as (c1 & sea1 & flow1 & f1 & dep & vel & X1 & X2 & Hd).
    rewrite Hc in X1. apply Ok_inj in X1. subst c1. destruct (forced_fun _ _ _ _ _ _ _ _ Hf X2) as (<- & <- & <-). clear X2.
    destruct (step_flow _ _ _ _ _ H) as (c' & m & sea' & flow' & f' & dep' & vel' & bed & ow & cst & A & B & D & E1 & E2 & E3 & E4 & E5 & S & M & O & _).
    same A B D c' Hc Hf Hd. destruct (O _ Hw) as (O1 & O2 & O3 & O4 & O5 & O6 & O7 & O8 & O9 & _). rewrite O7, O8. repeat (split; [assumption|]). split; [eauto|assumption].
  Qed.
  Lemma step_bedload af o v s s' c sea flow f dep vel w : step af o v s = Ok s' -> SRun.assembled v s = Ok c -> forcedBy v s sea flow f ->
    solution o v c flow sea f dep vel -> gOuts s' = gOuts s ++ [w] ->
    riverPart (removelast (chFlag c)) (calcBedload (chWidth c) dep vel (vP v) (nPsi (vN v))) (wRBed w) /\
    storeBedload (calcBedload (chWidth c) dep vel (vP v) (nPsi (vN v))) (length (gT s)) (chOnline c) (chOutlet c) (chFlag c) (chClosed c) =
      Ok (wLBed w, wOBed w, wEBed w).
  Proof.
    intros H Hc Hf Hd Hw. destruct (step_flow _ _ _ _ _ H) as (c' & m & sea' & flow' & f' & dep' & vel' & bed & ow & cst & A & B & D & E1 & E2 & E3 & E4 & E5 & S & M & O & _).
    same A B D c' Hc Hf Hd. subst bed. destruct (O _ Hw) as (_ & _ & _ & _ & _ & _ & _ & _ & _ & P & Q). auto.
  Qed.
  Lemma step_series af o v s s' c sea flow f dep vel w : step af o v s = Ok s' -> SRun.assembled v s = Ok c -> forcedBy v s sea flow f ->
    solution o v c flow sea f dep vel -> gTs s' = gTs s ++ [w] ->
    sTime w = gTime s' /\ sSea w = fcSea f /\ sFlow w = fcFlow f /\ sHs w = fcHs f /\ sDir w = fcDir f /\
    sLagWl w = nanmean (gLWL s') /\ sE0 w = gE0 s' /\ sE1 w = gE1 s' /\ sClosedT w = chClosed c /\ sMorDt w = gDt s' /\
    (exists d u b, last_ dep = Ok d /\ last_ vel = Ok u /\ last_ (chWidth c) = Ok b /\ sOutflow w = (d * u * b)%n) /\
    nth_error (calcBedload (chWidth c) dep vel (vP v) (nPsi (vN v))) 0 = Some (sSedIn w).
  Proof.
    intros H Hc Hf Hd Hw. destruct (step_flow _ _ _ _ _ H) as (c' & m & sea' & flow' & f' & dep' & vel' & bed & ow & cst & A & B & D & E1 & E2 & E3 & E4 & E5 & S & M & _ & O).
    same A B D c' Hc Hf Hd. subst bed. exact (O _ Hw).
  Qed.
End Step.
Lemma step_discharge af o v (s s' : state xr) c sea flow f q bs : step af o v s = Ok s' -> SRun.assembled v s = Ok c -> forcedBy v s sea flow f ->
  (forall r, unsteady o v c flow sea <> Ok r) -> fcFlow f = Fin q -> riverPart (chFlag c) (chWidth c) bs ->
  forall i b h, nth_error bs i = Some (Fin b) -> nth_error (gRDep s') i = Some (Fin h) -> (b <> 0 -> h <> 0 ->
  exists u, nth_error (gRVel s') i = Some (Fin u) /\ b * h * u = q)%R.
Proof.
  intros H Hc Hf NO Hq HB i b h Hb Hh Nb Nh. destruct (step_forced _ _ _ _ _ H) as (c1 & sea1 & flow1 & f1 & dep & vel & X1 & X2 & X).
  rewrite Hc in X1. apply Ok_inj in X1. subst c1. destruct (forced_fun _ _ _ _ _ _ _ _ Hf X2) as (<- & <- & <-).
  destruct (step_hydraulics _ _ _ _ _ _ _ _ _ _ _ H Hc Hf X) as (D & V & _).
  destruct X as [X|(e & _ & X)]; [destruct (NO _ X)|]. unfold steady in X. rewrite Hq in X.
  destruct (steady_discharge _ _ _ _ _ _ _ _ _ X) as (L1 & L2 & L3 & Q).
  assert (G : forall fl (l r l' r' : list xr), riverPart fl l r -> riverPart fl l' r' -> length r = length r').
  { intros fl l r l' r' A. revert l' r'. induction A; intros l' r' B; inversion B; subst; cbn; try congruence; [f_equal|]; eauto. }
  assert (exists u, nth_error (gRVel s') i = Some u) as (u & Hu).
  { destruct (nth_error (gRVel s') i) eqn:E; [eauto|]. apply nth_error_None in E. rewrite <- (G _ _ _ _ _ D V) in E. apply nth_error_None in E. congruence. }
  destruct (rp_same _ _ _ _ _ _ _ _ HB D Hb Hh) as (j & J1 & J2). destruct (rp_nth _ _ _ D _ _ Hh) as (k & K1 & K2 & K3).
  destruct (rp_nth _ _ _ V _ _ Hu) as (k' & K1' & K2' & K3'). assert (k = k') as <- by (eapply count_inj; eauto; congruence).
  destruct (rp_nth _ _ _ HB _ _ Hb) as (k2 & M1 & M2 & M3). assert (k = k2) as <- by (eapply count_inj; eauto; congruence).
  destruct (Q k b h M2 K2 Nb Nh) as (u' & U1 & U2). rewrite K2' in U1. apply Some_inj in U1. subst u. eauto.
Qed.
