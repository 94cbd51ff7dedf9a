(** Proofs about what an update can change and in which direction. *)
From Coq Require Import ZArith List Bool Lia Reals Lra.
From Verif Require Import Base Num Xr MState MCoast MRiv MMor SMor SVol STouch SLedger SFrame PCoast PLag PCore PRate PBudget PShore PRateEx PCap PVol PLevel PUpdate PQuiet PLedger PLedger2 PLedger3.
Import ListNotations.

Section Gen.
  Context {F : Type} {NF : Num F}.
  Lemma rework_frame (P : phys F) W Z t0 k t t' c : reworked P W Z t0 k t t' -> ~ In c (changes k) -> colOf c t' = colOf c t.
  Proof.
    intros H N. destruct H; cbn [changes In] in N; destruct c; cbn [colOf tY0 tY1 tY2 tY3 tY4 tZ0 tZ1 tZ2 tZ3]; try reflexivity; exfalso; apply N; tauto.
  Qed.
  Lemma story_frame (P : phys F) W Z t0 n t l u c : story P W Z t0 n t l u -> Forall (fun p => ~ In c (changes (fst p))) l -> colOf c u = colOf c t.
  Proof.
    induction 1 as [n t|n k t t' l u Hn R _ IH]; intros N; [reflexivity|]. inversion N; subst. rewrite IH by assumption.
    eapply rework_frame; eassumption.
  Qed.
  Lemma story_place (P : phys F) W Z t0 n t l u : story P W Z t0 n t l u -> tX u = tX t.
  Proof. induction 1 as [n t|n k t t' l u Hn R _ IH]; [reflexivity|]. rewrite IH. destruct R; reflexivity. Qed.
End Gen.

Local Open Scope R_scope.
Section Mono.
  Variables (P : phys xr) (w z : R) (t0 : tsect xr).
  Hypothesis NP : numberedPars P.
  Hypothesis N0 : numbers t0.
  Ltac cols := cbn [tX tY0 tY1 tY2 tY3 tY4 tZ0 tZ1 tZ2 tZ3 hasChannel] in *.

  Lemma rework_mono k t t' : reworked P (Fin w) (Fin z) t0 k t t' -> numbers t -> proper P t0 k t -> coastal P t0 k t ->
    rv (tY4 t') <= rv (tY4 t) /\ (k <> Fill -> k <> Elongate -> rv (tZ0 t) <= rv (tZ0 t')).
  Proof.
    intros H N Q C. destruct NP as ((cl & CL) & (B & HB) & (bt & BT) & (sp & SP) & (mw & MW) & (mo & MO)).
    destruct N0 as (_ & _ & _ & (z00 & Z00) & _). destruct (bar_fin t0 N0) as ((bw & BW) & (bb & BB)).
    destruct (row_cases t N) as (x & y0 & y3 & y4 & z0 & z3 & R). clear N.
    destruct H as [t over ret H H0 H1|t v H H0 H1 H2|t v H H0 H1 H2|t v l H H0 H1 H2|t|t s H H0|t|t y5 H H0 H1|t y5 over ret H H0 H1 H2 H3|t|t|t over s H H0 H1|t|t w0 z1 y1 y2 y5 y6 H H0 H1 H2 H3 H4|t H];
      cbn [proper coastal] in Q, C; cbn [tY4 tZ0]; rewrite ?CL, ?HB, ?BT, ?SP, ?MW, ?MO, ?Z00, ?BW, ?BB in *; cbn [rv] in *;
      try (split; [lra | intros K1 K2; first [lra | exfalso; congruence]]).
    - (* Cliff *)
      destruct C as (C1 & C2). split; [|intros _ _; lra].
      assert (Z : tZ0 t = Fin z0 /\ tY4 t = Fin y4 /\ tY0 t = Fin y0) by (destruct R as [(y1 & y2 & z1 & z2 & ->)|(q & z1 & z2 & ->)]; repeat split).
      destruct Z as (Z & Z4 & Z0'). rewrite Z, Z4, Z0' in *. clear R. cbn [rv] in *. rewrite leb_fin in H. rb.
      assert (D : 1 + (B - z0) / (cl + z00) = (cl + z00 + B - z0) / (cl + z00)) by (field; lra).
      assert (Dp : 0 < 1 + (B - z0) / (cl + z00)) by (rewrite D; apply Rdiv_lt_0_compat; lra).
      subst over ret. rewrite xq. xf. cbn.
      assert (0 < (y4 - y0 + 1 / 1000) / (1 + (B - z0) / (cl + z00))) by (apply Rdiv_lt_0_compat; lra). lra.
    - (* Front *)
      destruct Q as (Q1 & Q2 & Q3). destruct C as (C1 & C2). destruct R as [(y1 & y2 & z1 & z2 & ->)|(q & z1 & z2 & ->)]; cols; [|rewrite ltb_nan_l in H; discriminate].
      subst v. rewrite ltb_fin in H. rb. split; [lra|]. intros _ _. xf. cbn.
      assert (0 <= (y2 - y1) * bb / bw) by (apply Rmult_le_pos; [apply Rmult_le_pos; lra | left; apply Rinv_0_lt_compat; lra]). lra.
    - (* Flat *)
      destruct Q as (Q1 & Q2 & Q3). destruct C as (C1 & C2). destruct R as [(y1 & y2 & z1 & z2 & ->)|(q & z1 & z2 & ->)]; cols; [|rewrite ltb_nan_l in H; discriminate].
      subst v. rewrite x0 in *. rewrite !PRate.xsub in *. rewrite ?PRate.xmul, ?PRate.xopp in *. rewrite ltb_fin in H. cbn [rv] in *.
      assert (y0 - y3 <> 0) by lra. split; [lra|]. intros _ _.
      assert (L : exists v, l = Fin v) by (destruct H2 as [(_ & ->)|(_ & ->)]; rewrite ?PRate.xmul; eexists; reflexivity).
      destruct L as (v & ->). rewrite ltb_fin in H1. rb. xf. cbn.
      assert (0 <= ((y2 - y1) * bb - v) / (y0 - y3)) by (apply Rmult_le_pos; [lra | left; apply Rinv_0_lt_compat; lra]).
      pose proof (Rmax_l z0 z2). lra.
    - (* CrowdCliff *)
      destruct Q as (Q & Q2 & Q3). destruct C as (C1 & C2). destruct R as [(y1 & y2 & z1 & z2 & ->)|(q & z1 & z2 & ->)]; cols; [|discriminate]. cbn [rv] in *.
      split; [|intros _ _; lra].
      assert (D : 1 + (B - z2) / (z2 - z1) = (B - z1) / (z2 - z1)) by (field; lra).
      assert (Dp : 0 < 1 + (B - z2) / (z2 - z1)) by (rewrite D; apply Rdiv_lt_0_compat; lra).
      subst y5 over ret. rewrite xq in *. rewrite PRate.xsub in H1. rewrite ltb_fin in H1. rb. xf. cbn.
      assert (0 < (y4 - (y2 - 1 / 10000)) / (1 + (B - z2) / (z2 - z1))) by (apply Rdiv_lt_0_compat; lra). lra.
    - (* Raise *)
      destruct Q as (z2' & Q). destruct R as [(y1 & y2 & z1 & z2 & ->)|(q & z1 & z2 & ->)]; cols; [|subst z2]; (split; [lra|]); intros _ _; xf; cbn; apply Rmax_l.
    - (* Breach *)
      split; [|intros _ _; lra]. subst y6. clear H3 y5. destruct (_ <=? _)%n eqn:E; [|apply Rle_refl].
      assert (Z4 : tY4 t = Fin y4) by (destruct R as [(a & b & c & e & ->)|(q & c & e & ->)]; reflexivity). rewrite Z4 in *.
      assert (F : exists y, y2 = Fin y).
      { subst y2 y1 w0. assert (Z0' : tY0 t = Fin y0 /\ tY3 t = Fin y3) by (destruct R as [(a & b & c & e & ->)|(q & c & e & ->)]; split; reflexivity).
        destruct Z0' as (-> & ->). rewrite x2, PRate.xmul, pmax_fin. xf. rewrite pmin_fin. eexists; reflexivity. }
      destruct F as (y & ->). rewrite leb_fin in E. rb. rewrite xq. xf. cbn. lra.
    - (* Keep *)
      split; [|intros _ _; lra]. destruct R as [(y1 & y2 & z1 & z2 & ->)|(q & z1 & z2 & ->)]; cols; rewrite PRate.xsub, ltb_fin in H; rb; rewrite xq; xf; cbn; lra.
  Qed.

  Lemma story_mono n t l u : story P (Fin w) (Fin z) t0 n t l u -> numbers t -> properAll P t0 l -> coastalAll P t0 l ->
    numbers u /\ rv (tY4 u) <= rv (tY4 t) /\ (crestKept l -> rv (tZ0 t) <= rv (tZ0 u)).
  Proof.
    induction 1 as [n t|n k t t' l u Hn R _ IH]; intros N Q C; [split; [exact N|]; split; [lra | intros; lra]|].
    inversion Q as [|? ? Q1 Q2]; subst. inversion C as [|? ? C1 C2]; subst. cbn [fst snd] in Q1, C1.
    destruct (worth_section P w z t0 NP N0 _ _ _ R N Q1) as (N' & _). destruct (rework_mono _ _ _ R N Q1 C1) as (M1 & M2).
    destruct (IH N' Q2 C2) as (U & A & B). split; [exact U|]. split; [lra|]. intros K. inversion K as [|? ? (K1 & K2) K3]; subst. cbn [fst] in K1, K2.
    specialize (M2 K1 K2). specialize (B K3). lra.
  Qed.
End Mono.

Lemma clip_sign L x : 0 <= L -> exists y, clipF (Fin L) (Fin x) = Fin y /\ (x <= 0 -> y <= 0) /\ (0 <= x -> 0 <= y).
Proof.
  intros HL. unfold clipF. rewrite PRate.xopp, PRate.xmax, PRate.xmin. eexists. split; [reflexivity|].
  unfold Rmin, Rmax. split; intros; repeat destruct (Rle_dec _ _); lra.
Qed.
Lemma scat_in {A} idx (v : list A) i : scat idx v i <> None -> In i idx.
Proof.
  revert v. induction idx as [|j idx IH]; intros [|x v]; cbn [scat]; try congruence.
  destruct (Nat.eqb_spec j i) as [->|E]; intros H; [left; reflexivity | right; eapply IH; exact H].
Qed.
Lemma bank_pos P CW CD q j : 0 <= xk (rxJ P CW CD q j).
Proof. unfold rxJ. cbn [xk]. pose proof (Rmin_r (gain q j) 0). destruct (tooWide P CW CD j); lra. Qed.

Section Movement.
  Variables (fuel : nat) (P : phys xr) (N : nump xr) (TP : timep) (T : list (tsect xr)) (e0 e1 W Zend : xr) (RiverElev : list xr)
            (online outlet : list nat) (LagoonWL OutletDep CW CD : list xr) (fl : list nat) (closed : bool) (l q c : list R) (OW : list bool)
            (dt0 : Z) (a : applied xr) (d : R).
  Hypothesis HD : nDx N = Fin d.
  Hypothesis Hd : 0 < d.
  Hypothesis SI : soundInputs P d T e1 W Zend online outlet CW CD fl closed (length q).
  Hypothesis HA : morApply fuel P N TP T e0 e1 W Zend RiverElev online outlet LagoonWL OutletDep CW CD fl closed (map Fin l) (map Fin q) (map Fin c) OW dt0 = Ok a.
  Hypothesis HM : is_fin (nMaxMorChange N) /\ 0 <= rv (nMaxMorChange N).

  Lemma crests_wide i t : nth_error T i = Some t -> 0 < rv (crest t).
  Proof.
    intros Ht. pose proof HA as H. unfold morApply in H. bok H x0. bok H rb. bok H WL. bok H u. apply assert_ok in Eu. clear H.
    pose proof (proj1 (forallb_forall _ _) Eu t (nth_error_In _ _ Ht)) as K. cbv beta in K.
    destruct SI as (_ & _ & ST & _). rewrite Forall_forall in ST. destruct (ST t (nth_error_In _ _ Ht)) as (_ & (y0 & Y0) & (y3 & Y3) & _ & _ & _ & NC & _).
    unfold crestWidth in K. unfold crest. destruct (outletPresent t).
    - destruct (NC eq_refl) as ((y1 & Y1) & _). rewrite Y0, Y1 in *. change (f0 <? Fin y0 - Fin y1)%n with (Rltb 0 (y0 - y1)) in K. rb. cbn. lra.
    - rewrite Y0, Y3 in *. change (f0 <? Fin y0 - Fin y3)%n with (Rltb 0 (y0 - y3)) in K. rb. cbn. lra.
  Qed.

  Lemma moved_mono i t0 t : nth_error T i = Some t0 -> nth_error (aT a) i = Some t ->
    (In i online -> rv (tZ3 t0) < rv (pBackshoreElev P)) -> 0 <= nth i c 0 ->
    rv (tY4 t) <= rv (tY4 t0) /\ rv (tZ0 t0) <= rv (tZ0 t).
  Proof.
    intros Ht0 Ht HB HC. pose proof (crests_wide _ _ Ht0) as HW.
    destruct (apply_inv _ _ _ _ _ _ _ _ _ _ _ _ _ _ _ _ _ _ _ _ _ _ _ _ HA) as (rbq & RR & rate & R' & A1 & A2 & A3 & A4 & A5 & A6 & A7 & A8).
    rewrite HD in A2. pose proof (real _ _ _ _ _ _ _ _ _ _ _ _ _ _ _ _ _ _ SI A2) as RF.
    destruct (rf_row _ _ _ _ _ _ _ _ _ _ _ _ _ _ _ _ _ _ RF i t0 Ht0) as (sp & rbv & y & _ & (Hr & SL & SO) & _).
    pose proof SI as (SP & Hd0 & ST & _). rewrite Forall_forall in ST. pose proof (ST t0 (nth_error_In _ _ Ht0)) as S0.
    set (lag := option_map (rxJ P CW CD q) (scat online (flagged closed fl 1) i)) in *.
    set (out := option_map (rxJ P CW CD q) (scat (if closed then [] else outlet) (if closed then [] else flagged closed fl 2) i)) in *.
    rewrite (rateOf_val P d lag out y (nth i c 0) (nth i OW false) t0 SP Hd0 S0 SL SO) in Hr.
    assert (G4 : - on lag (fun x => xk x / 2 / ((rv (pBackshoreElev P) - rv (tZ3 t0)) * d)) <= 0).
    { unfold lag. destruct (scat online (flagged closed fl 1) i) as [j|] eqn:E; cbn [option_map on]; [|lra].
      assert (I : In i online) by (apply (scat_in online (flagged closed fl 1)); congruence). specialize (HB I). pose proof (bank_pos P CW CD q j).
      assert (0 <= xk (rxJ P CW CD q j) / 2 / ((rv (pBackshoreElev P) - rv (tZ3 t0)) * d)); [|lra].
      apply Rmult_le_pos; [lra|]. left. apply Rinv_0_lt_compat, Rmult_lt_0_compat; lra. }
    assert (G0 : 0 <= (1 - (if nth i OW false then 1 else 0)) * nth i c 0 / rv (crest t0)).
    { apply Rmult_le_pos; [|left; apply Rinv_0_lt_compat; exact HW]. apply Rmult_le_pos; [destruct (nth i OW false); lra | exact HC]. }
    match type of G4 with ?x <= 0 => set (g4 := x) in * end. match type of G0 with 0 <= ?x => set (g0 := x) in * end.
    assert (L : exists r b4 b0, nth_error (rT R') i = Some r /\ rY4 r = Fin b4 /\ rZ0 r = Fin b0 /\ b4 <= 0 /\ 0 <= b0).
    { unfold limitRates in A5. destruct (_ <? _)%n eqn:E in A5.
      - bok A5 u. destruct (_ =? _)%Z eqn:E0 in A5; [discriminate|]. apply Z.eqb_neq in E0. apply Ok_inj in A5. subst R'.
        destruct HM as ((cap & HM1) & HM2). rewrite HM1 in *. cbn [rv] in HM2.
        assert (S1 : 0 < IZR (seconds (aDt a))) by (apply IZR_lt; assert (0 <= seconds (aDt a))%Z by (unfold seconds; apply Z.mod_pos_bound; lia); lia).
        rewrite PRate.xofZ, PRate.xdivf by lra.
        assert (HL : 0 <= cap / IZR (seconds (aDt a))) by (apply Rmult_le_pos; [auto|left; apply Rinv_0_lt_compat; auto]).
        destruct (clip_sign _ g4 HL) as (b4 & B4 & B4' & _). destruct (clip_sign _ g0 HL) as (b0 & B0 & _ & B0').
        eexists _, b4, b0. split; [cbn [clipRates rT]; apply map_nth_error, Hr|]. cbn [clipRow rY4 rZ0]. repeat split; auto.
      - apply Ok_inj in A5. subst R'. eexists _, g4, g0. split; [exact Hr|]. cbn [rY4 rZ0]. repeat split; auto. }
    destruct L as (r & b4 & b0 & Lr & R4 & R0 & N4 & N0). rewrite A7, nth_error_map2 in Ht.
    match type of Ht with match nth_error ?L i with _ => _ end = _ => set (T1 := L) in * end.
    destruct (nth_error T1 i) as [u|] eqn:Eu; [|discriminate]. rewrite Lr in Ht. apply Some_inj in Ht. subst t.
    assert (U : tY4 u = tY4 t0 /\ tZ0 u = tZ0 t0).
    { unfold T1 in Eu. destruct rbq as [[rb v]|]; [|rewrite Ht0 in Eu; apply Some_inj in Eu; subst; auto].
      destruct (f0 <? v)%n; [rewrite Ht0 in Eu; apply Some_inj in Eu; subst; auto|].
      destruct (Nat.eq_dec (prevIx (length T) rb) i) as [E|E].
      - subst i. rewrite nth_error_upd_with_eq, Ht0 in Eu. cbn in Eu. apply Some_inj in Eu. subst u. split; reflexivity.
      - rewrite nth_error_upd_with_ne in Eu by auto. rewrite Ht0 in Eu. apply Some_inj in Eu. subst; auto. }
    destruct U as (U4 & U0). destruct S0 as (_ & _ & _ & (y4 & Y4) & (z0 & Z0) & _).
    unfold applyRow. cbn [tY4 tZ0]. rewrite U4, U0, Y4, Z0, R4, R0, PRate.xofZ, !PRate.xmul, !PRate.xadd. cbn [rv].
    assert (0 <= IZR (seconds (aDt a))) by (apply IZR_le; unfold seconds; apply Z.mod_pos_bound; lia). split; nra.
  Qed.
End Movement.

Lemma update_mono fuel j1 j2 (P : phys xr) N TP T e0 e1 W Zend RiverElev online outlet LagoonWL OutletDep CW CD fl closed l q c OW dt0 o d :
  nDx N = Fin d -> 0 < d -> numberedPars P -> soundInputs P d T e1 W Zend online outlet CW CD fl closed (length q) ->
  is_fin (nMaxMorChange N) /\ 0 <= rv (nMaxMorChange N) ->
  updateMorphology fuel j1 j2 P N TP T e0 e1 W Zend RiverElev online outlet LagoonWL OutletDep CW CD fl closed (map Fin l) (map Fin q) (map Fin c) OW dt0 = Ok o ->
  exists w z, forall i t0 t', nth_error T i = Some t0 -> nth_error (oT o) i = Some t' ->
    (In i online -> rv (tZ3 t0) < rv (pBackshoreElev P)) -> 0 <= nth i c 0 ->
    exists t s, story P (Fin w) (Fin z) t0 0 t s t' /\
      (properAll P t0 s -> coastalAll P t0 s ->
       rv (tY4 t') <= rv (tY4 t0) /\ (crestKept s -> rv (tZ0 t0) <= rv (tZ0 t'))).
Proof.
  intros HD Hd NP SI HM HU. pose proof HU as H. unfold updateMorphology in H. apply bind_ok in H as (a & HA & _).
  destruct (moved_numbers fuel P N TP T e0 e1 W Zend RiverElev online outlet LagoonWL OutletDep CW CD fl closed l q c OW dt0 a d HD SI HA HM) as (NT & NA & (w & EW) & (z & EZ)).
  exists w, z. intros i t0 t' Ht0 Ht' HB HC.
  destruct (update_story fuel j1 j2 P N TP T e0 e1 W Zend RiverElev online outlet LagoonWL OutletDep CW CD fl closed (map Fin l) (map Fin q) (map Fin c) OW dt0 o a HU HA) as (LA & LO & ST).
  assert (exists t, nth_error (aT a) i = Some t) as (t & Ht).
  { destruct (nth_error (aT a) i) eqn:E; [eauto|]. apply nth_error_None in E. assert (i < length T)%nat by (apply nth_error_Some; congruence). lia. }
  destruct (ST i t0 t Ht0 Ht) as (t2 & s & Ht2 & S). rewrite Ht' in Ht2. apply Some_inj in Ht2. subst t2. rewrite EW, EZ in S.
  exists t, s. split; [exact S|]. intros Q C. rewrite Forall_forall in NT, NA.
  destruct (story_mono P w z t0 NP (NT _ (nth_error_In _ _ Ht0)) _ _ _ _ S (NA _ (nth_error_In _ _ Ht)) Q C) as (_ & M1 & M2).
  destruct (moved_mono fuel P N TP T e0 e1 W Zend RiverElev online outlet LagoonWL OutletDep CW CD fl closed l q c OW dt0 a d HD Hd SI HA HM i t0 t Ht0 Ht HB HC) as (M3 & M4).
  split; [lra|]. intros K. specialize (M2 K). lra.
Qed.
