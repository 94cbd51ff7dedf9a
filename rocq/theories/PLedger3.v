(** The sediment balance of any update (mor.py:12-692), exact arithmetic. *)
From Coq Require Import ZArith List Bool Lia Reals Lra.
From Verif Require Import Base Num Xr MState MCoast MRiv MMor SMor SVol STouch SLedger PCoast PLag PCore PRate PBudget PShore PRateEx PCap PVol PLevel PUpdate PQuiet PLedger PLedger2.
Import ListNotations.
Local Open Scope R_scope.

Section Ledger.
  Variables (fuel : nat) (P : phys xr) (N : nump xr) (TP : timep) (T : list (tsect xr)) (e0 e1 W Zend : xr) (RiverElev : list xr)
            (online outlet : list nat) (LagoonWL OutletDep CW CD : list xr) (fl : list nat) (closed : bool) (l q c : list R) (OW : list bool)
            (dt0 : Z) (a : applied xr) (d : R).
  Hypothesis HD : nDx N = Fin d.
  Hypothesis SI : soundInputs P d T e1 W Zend online outlet CW CD fl closed (length q).
  Hypothesis FZ : Forall is_fin RiverElev.
  Hypothesis HA : morApply fuel P N TP T e0 e1 W Zend RiverElev online outlet LagoonWL OutletDep CW CD fl closed (map Fin l) (map Fin q) (map Fin c) OW dt0 = Ok a.
  Hypothesis HM : is_fin (nMaxMorChange N) /\ 0 <= rv (nMaxMorChange N).
  Hypothesis HS : (seconds (tMorDtMin TP) < seconds (aDt a))%Z.
  Hypothesis HF : forall j, In j (seq 1 (length fl - (if closed then 1 else 2))) -> (nth j fl 9 <= (if closed then 1 else 3))%nat.
  Variables (k : nat) (tk gk : tsect xr).
  Hypothesis HK : closed = false -> firstRight T e1 (S k) /\ nth_error T k = Some tk /\ nth_error (aT a) k = Some gk.

  (** The moved transects consist of numbers. *)
  Lemma shift_numbers (t : tsect xr) r s M : numbers t -> bndR M r -> numbers (applyRow (Fin s) t r).
  Proof.
    intros ((y0 & Y0) & (y3 & Y3) & (y4 & Y4) & (z0 & Z0) & (z3 & Z3) & NC) ((a0 & A0 & _) & (a1 & A1 & _) & (a2 & A2 & _) & (a3 & A3 & _) & (a4 & A4 & _) & (b0 & B0 & _) & (b1 & B1 & _) & (b2 & B2 & _) & (b3 & B3 & _)).
    unfold numbers, applyRow, hasChannel. cbn [tX tY0 tY1 tY2 tY3 tY4 tZ0 tZ1 tZ2 tZ3]. rewrite Y0, Y3, Y4, Z0, Z3, A0, A1, A2, A3, A4, B0, B1, B2, B3.
    do 5 (split; [eexists; reflexivity|]). intros H. unfold hasChannel in NC. destruct (tY1 t) eqn:E; try discriminate H; destruct NC as ((y1 & Y1) & (y2 & Y2) & (z1 & Z1) & (z2 & Z2)); try reflexivity; try discriminate Y1.
    rewrite Y2, Z1, Z2. do 3 (split; [eexists; reflexivity|]). eexists; reflexivity.
  Qed.
  Lemma sound_numbers t : soundT P t -> numbers t.
  Proof. intros (_ & A & B & C & D & E & G & _). unfold numbers. auto 10. Qed.
  Lemma moved_numbers : Forall numbers T /\ Forall numbers (aT a) /\ is_fin (aW a) /\ is_fin (aZ a).
  Proof.
    clear HS HF HK FZ.
    destruct HM as ((cap & HM1) & HM2). rewrite HM1 in HM2. cbn [rv] in HM2.
    destruct (cap_main fuel P N TP T e0 e1 W Zend RiverElev online outlet LagoonWL OutletDep CW CD fl closed l q c OW dt0 a d cap HD HM1 HM2 SI HA) as (RR & M' & R' & A1 & AL & (_ & A2 & (wd & A2b & _) & (ag & A2c & _) & _) & A3 & A4 & A5 & (rbq & A6 & A7) & A8).
    pose proof SI as (SP & Hd & ST & _ & ((w & EW & _) & (z & EZ & _)) & _).
    assert (NT : Forall numbers T) by (eapply Forall_impl; [|exact ST]; apply sound_numbers).
    split; [exact NT|]. split.
    - rewrite A7. apply Forall_forall. intros t Ht. apply In_nth_error in Ht. destruct Ht as (i & Hi). rewrite nth_error_map2 in Hi.
      match type of Hi with match nth_error ?L i with _ => _ end = _ => set (T1 := L) in * end.
      destruct (nth_error T1 i) as [u|] eqn:Eu; [|discriminate]. destruct (nth_error (rT R') i) as [r|] eqn:Er; [|discriminate]. apply Some_inj in Hi. subst t.
      apply (shift_numbers _ _ _ M'); [|rewrite Forall_forall in A2; apply A2; eapply nth_error_In; eauto].
      rewrite Forall_forall in NT, ST. unfold T1 in Eu. destruct rbq as [[rb v]|]; [|apply NT; eapply nth_error_In; eauto].
      destruct (f0 <? v)%n; [apply NT; eapply nth_error_In; eauto|].
      destruct (Nat.eq_dec (prevIx (length T) rb) i) as [E|E]; [|rewrite nth_error_upd_with_ne in Eu by auto; apply NT; eapply nth_error_In; eauto].
      subst i. rewrite nth_error_upd_with_eq in Eu. destruct (nth_error T (prevIx (length T) rb)) as [t|] eqn:Et; [|discriminate]. cbn in Eu. apply Some_inj in Eu. subst u.
      pose proof (NT _ (nth_error_In _ _ Et)) as ((y0 & Y0) & NR). pose proof (ST _ (nth_error_In _ _ Et)) as (_ & _ & _ & _ & (z0 & Z0) & _ & _ & HH & _).
      split; [|exact NR]. cbn [setY0 tY0]. destruct SP as ((cl & CL) & _). unfold shorefaceHeight. rewrite Y0, CL, Z0 in *. cbn [rv] in HH.
      case_eq closed; intros EC; rewrite EC in A6; [discriminate|]. destruct A6 as (rb' & v' & _ & _ & EQ). injection EQ as _ ->. xf. eexists; reflexivity.
    - destruct closed; [destruct A8 as (_ & -> & ->); rewrite EW, EZ; split; eexists; reflexivity|].
      destruct A8 as (_ & -> & ->). rewrite EW, EZ, A2b, A2c. split; eexists; reflexivity.
  Qed.

  (** The movement of any update. *)
  Lemma applied_balance : exists RR,
    ratesFor P (Fin d) T e0 e1 W Zend online outlet CW CD fl closed (map Fin l) (map Fin q) (map Fin c) OW = Ok RR /\
    let s := IZR (seconds (aDt a)) in
    volume P d (aT a) - volume P d T + (riverVolume P d (aRiver a) - riverVolume P d RiverElev)
    + (if closed then 0 else (rv (aZ a) - rv Zend) * (rv W * d) - (rv (aW a) - rv W) * ((rv (pBeachTopElev P) - rv Zend) * rv (pSpitWidth P))) =
    s * (nth 0 q 0 - (if closed then 0 else nth (length q - 1) q 0) + (nth 0 l 0 - nth (length l - 1) l 0) + endsGain P d c T
         + (if closed then 0 else landed P d (nth (length q - 1) q 0) e1 T + Rabs (nth k l 0) - (if (S (S k) <? length T)%nat then Rmax (nth k l 0) 0 else 0)))
    + s * s * crossed d T (rT RR)
    + (if closed then 0 else Rmin (nth k l 0) 0 * height P gk / height P tk).
  Proof.
    destruct HM as ((cap & HM1) & HM2). rewrite HM1 in HM2. cbn [rv] in HM2.
    destruct (cap_main fuel P N TP T e0 e1 W Zend RiverElev online outlet LagoonWL OutletDep CW CD fl closed l q c OW dt0 a d cap HD HM1 HM2 SI HA) as (RR & M' & R' & A1 & AL & A2 & A3 & A4 & A5 & (rbq & A6 & A7) & A8).
    destruct A4 as [->|A4]; [|lia]. exists RR. split; [exact A1|]. cbv zeta. set (s := IZR (seconds (aDt a))) in *.
    pose proof (rates_finite _ _ _ _ _ _ _ _ _ _ _ _ _ _ _ _ _ _ SI A1) as (FR & FT & (wd & FW) & (ag & FA) & _).
    pose proof (balance P d T e0 e1 W Zend online outlet CW CD fl closed l q c OW RR SI A1 s k (fun E => proj1 (HK E)) HF) as B.
    pose proof SI as (SP & Hd & ST & _ & ((w & EW & _) & (z & EZ & _)) & _).
    assert (BR : riverVolume P d (aRiver a) - riverVolume P d RiverElev = s * riverGain P d RR).
    { unfold applyRiver in A5. destruct RiverElev as [|r0 rs] eqn:ER.
      - destruct (Nat.eqb_spec (length (rRiv RR)) 0) as [E|E]; [|discriminate]. apply Ok_inj in A5. rewrite <- A5. unfold riverGain. destruct (rRiv RR); [|discriminate]. unfold riverVolume. cbn. lra.
      - destruct (Nat.eqb_spec (length (rRiv RR)) (length rs)) as [E|E]; [|discriminate]. apply Ok_inj in A5. rewrite <- A5. inversion FZ as [|? ? _ FZ']; subst.
        pose proof (river_volume P d s rs (rRiv RR) E FZ' FR) as V. unfold riverGain. rewrite <- V. unfold riverVolume. unfold rsum. cbn [map fold_right]. lra. }
    assert (BV : volume P d (aT a) = volume P d (map2 (shifted s) T (rT RR)) + (if closed then 0 else Rmin (nth k l 0) 0 * height P gk / height P tk)).
    { rewrite A7. case_eq closed; intros EC; rewrite EC in A6.
      - subst rbq. change (applyRow (Fin s)) with (shifted s). lra.
      - destruct A6 as (rb & v & B1 & B2 & ->). destruct (HK EC) as (K1 & K2 & K3). apply firstRight_Rb in K1. rewrite K1 in B1. apply Ok_inj in B1. subst rb.
        cbn [prevIx] in *. rewrite (nth_error_nth _ _ 0 B2). change (f0 <? Fin v)%n with (Rltb 0 v). change (f0 <? Fin v)%n with (Rltb 0 v) in A7. destruct (Rltb 0 v) eqn:EV.
        + apply Rltb_true in EV. rewrite Rmin_right by lra. change (applyRow (Fin s)) with (shifted s). lra.
        + apply Rltb_false in EV. rewrite Rmin_left by lra. change (applyRow (Fin s)) with (shifted s) in *.
          assert (exists r, nth_error (rT RR) k = Some r) as (r & Hr).
          { destruct (nth_error (rT RR) k) eqn:E; [eauto|]. apply nth_error_None in E. rewrite AL in E. apply nth_error_None in E. congruence. }
          rewrite Forall_forall in ST, FT. pose proof (ST _ (nth_error_In _ _ K2)) as TS. pose proof (FT _ (nth_error_In _ _ Hr)) as TR.
          rewrite (vol_upd P d s _ T k (rT RR) tk r K2 Hr). rewrite dump_section by auto.
          rewrite A7, (map2_nth _ _ _ k (setY0 (tY0 tk + Fin v / (shorefaceHeight P tk * Fin d))%n tk) r) in K3; [|rewrite nth_error_upd_with_eq, K2; reflexivity|exact Hr].
          apply Some_inj in K3. rewrite <- K3. reflexivity. }
    rewrite BV, BR.
    destruct closed; [nra|]. destruct A8 as (_ & -> & ->). rewrite FW, FA, EW, EZ in *. unfold endGain in B. rewrite FW, FA in B.
    replace (Fin w + Fin wd * Fin s)%n with (Fin (w + wd * s)) by reflexivity. replace (Fin z + Fin ag * Fin s)%n with (Fin (z + ag * s)) by reflexivity. cbn [rv] in *. nra.
  Qed.
End Ledger.

(** Stories of all the transects. *)
Lemma pick_all {A B C D} (Q : A -> B -> C -> D -> Prop) : forall (T : list A) (G : list B) (O : list C), length G = length T -> length O = length T ->
  (forall i t g, nth_error T i = Some t -> nth_error G i = Some g -> exists o l, nth_error O i = Some o /\ Q t g o l) ->
  exists L : list D, length L = length T /\ forall i t g o, nth_error T i = Some t -> nth_error G i = Some g -> nth_error O i = Some o ->
    exists l, nth_error L i = Some l /\ Q t g o l.
Proof.
  induction T as [|t T IH]; intros [|g G] [|o O] L1 L2 H; try discriminate.
  - exists []. split; [reflexivity|]. intros [|i]; discriminate.
  - destruct (IH G O ltac:(cbn in *; lia) ltac:(cbn in *; lia) (fun i => H (S i))) as (L & LL & HL).
    destruct (H 0%nat t g eq_refl eq_refl) as (o' & l & E & K). cbn in E. injection E as <-.
    exists (l :: L). split; [cbn; lia|]. intros [|i] t' g' o'' A1 A2 A3.
    + cbn in *. injection A1 as <-. injection A2 as <-. injection A3 as <-. eauto.
    + apply (HL i t' g' o''); auto.
Qed.
Lemma ledger_sum P d w z : forall (T G O : list (tsect xr)) L, length G = length T -> length O = length T -> length L = length T ->
  (forall i t0 t u l, nth_error T i = Some t0 -> nth_error G i = Some t -> nth_error O i = Some u -> nth_error L i = Some l ->
     section P u = section P t + made P w z t0 l) ->
  volume P d O = volume P d G + d * rsum (map2 (fun t0 l => made P w z t0 l) T L).
Proof.
  induction T as [|t T IH]; intros [|g G] [|o O] [|l L] L1 L2 L3 H; try discriminate; [unfold volume, total; cbn; lra|].
  cbn [map2]. rewrite !vol_cons. rewrite (IH G O L ltac:(cbn in *; lia) ltac:(cbn in *; lia) ltac:(cbn in *; lia) (fun i => H (S i))).
  rewrite (H 0%nat t g o l eq_refl eq_refl eq_refl eq_refl). unfold rsum. cbn [fold_right]. ring.
Qed.

(** All transects' stories, what they make, and the whole balance. *)
Lemma update_ledger fuel j1 j2 (P : phys xr) N TP T e0 e1 W Zend RiverElev online outlet LagoonWL OutletDep CW CD fl closed l q c OW dt0 o a d :
  nDx N = Fin d -> numberedPars P -> soundInputs P d T e1 W Zend online outlet CW CD fl closed (length q) ->
  updateMorphology fuel j1 j2 P N TP T e0 e1 W Zend RiverElev online outlet LagoonWL OutletDep CW CD fl closed (map Fin l) (map Fin q) (map Fin c) OW dt0 = Ok o ->
  morApply fuel P N TP T e0 e1 W Zend RiverElev online outlet LagoonWL OutletDep CW CD fl closed (map Fin l) (map Fin q) (map Fin c) OW dt0 = Ok a ->
  is_fin (nMaxMorChange N) /\ 0 <= rv (nMaxMorChange N) ->
  exists L : list (list (kind * tsect xr)), length L = length T /\
    (forall i t0 t t', nth_error T i = Some t0 -> nth_error (aT a) i = Some t -> nth_error (oT o) i = Some t' ->
       exists l, nth_error L i = Some l /\ story P (aW a) (aZ a) t0 0 t l t' /\
         (properAll P t0 l -> section P t' = section P t + made P (rv (aW a)) (rv (aZ a)) t0 l)) /\
    ((forall i t0 l, nth_error T i = Some t0 -> nth_error L i = Some l -> properAll P t0 l) ->
     volume P d (oT o) = volume P d (aT a) + d * rsum (map2 (fun t0 l => made P (rv (aW a)) (rv (aZ a)) t0 l) T L)).
Proof.
  intros HD NP SI HU HA HM. destruct (update_story _ _ _ _ _ _ _ _ _ _ _ _ _ _ _ _ _ _ _ _ _ _ _ _ _ _ _ HU HA) as (L1 & L2 & HS).
  destruct (moved_numbers fuel P N TP T e0 e1 W Zend RiverElev online outlet LagoonWL OutletDep CW CD fl closed l q c OW dt0 a d HD SI HA HM) as (N1 & N2 & (w & EW) & (z & EZ)).
  rewrite EW, EZ in *. cbn [rv].
  destruct (pick_all (fun t0 t t' l => story P (Fin w) (Fin z) t0 0 t l t') T (aT a) (oT o) L1 L2 HS) as (L & LL & HL).
  assert (SEC : forall i t0 t t' l, nth_error T i = Some t0 -> nth_error (aT a) i = Some t -> story P (Fin w) (Fin z) t0 0 t l t' -> properAll P t0 l -> section P t' = section P t + made P w z t0 l).
  { intros i t0 t t' l' A1 A2 A3 A4. rewrite Forall_forall in N1, N2. eapply (story_section P w z t0 NP); eauto; [apply N1|apply N2]; eapply nth_error_In; eauto. }
  exists L. split; [exact LL|]. split.
  - intros i t0 t t' A1 A2 A3. destruct (HL i t0 t t' A1 A2 A3) as (l' & B1 & B2). exists l'. split; [exact B1|]. split; [exact B2|]. intros Q. eapply SEC; eauto.
  - intros Q. apply ledger_sum; auto. intros i t0 t u l' A1 A2 A3 A4. destruct (HL i t0 t u A1 A2 A3) as (l2 & B1 & B2). rewrite A4 in B1. apply Some_inj in B1. subst l2. eapply SEC; eauto.
Qed.
