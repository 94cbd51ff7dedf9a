(** A small coast on which the sediment budgets apply. *)
From Coq Require Import ZArith List Bool Lia Reals Lra.
From Verif Require Import Base Num Xr MState MCoast MRiv MMor SMor PCoast PLag PCore PRate PBudget PShore PSpread.
Import ListNotations.
Local Open Scope R_scope.

Lemma gather_exists {A} (T : list A) idx : (forall i, In i idx -> (i < length T)%nat) -> exists g, gather T idx = Ok g.
Proof.
  induction idx as [|i idx IH]; intros H; [eexists; reflexivity|].
  destruct (nth_error T i) as [x|] eqn:E; [|apply nth_error_None in E; specialize (H i (or_introl eq_refl)); lia].
  destruct IH as (g & Hg); [intros; apply H; right; auto|]. exists (x :: g). cbn [gather]. unfold ix. rewrite E. cbn [bind of_opt]. rewrite Hg. reflexivity.
Qed.

Lemma rates_exist P Dx T e0 e1 W Zend online outlet CW CD fl (closed : bool) LST (q : list R) CST OW :
  length CW = S (length q) -> length CD = S (length q) -> length fl = S (length q) ->
  length (flagged closed fl 1) = length online -> S (length LST) = length T -> length CST = length T -> length OW = length T ->
  (forall i, In i online -> (i < length T)%nat) ->
  (closed = false -> length (flagged closed fl 2) = length outlet /\ (forall i, In i outlet -> (i < length T)%nat) /\
     (0 < length q)%nat /\ (exists j, flagged closed fl 3 = [j]) /\ (0 < length LST)%nat /\ exists rb, outletRb T e1 = Ok rb) ->
  exists RR, ratesFor P Dx T e0 e1 W Zend online outlet CW CD fl closed LST (map Fin q) CST OW = Ok RR.
Proof.
  intros H1 H2 H3 H4 H5 H6 H7 H8 HO. unfold ratesFor. destruct closed.
  - cbn [bind]. unfold changeRates. cbv zeta. rewrite !sel_form by auto. rewrite map_length, H4, H5, H6, H7, !Nat.eqb_refl. cbn [negb andb length Nat.eqb].
    destruct (gather_exists T online H8) as (g & ->). cbn [bind gather]. eexists. reflexivity.
  - destruct (HO eq_refl) as (O1 & O2 & O3 & (j & O4) & O5 & rb & O6). rewrite O6. cbn [bind].
    assert (exists v, nth_error LST (prevIx (length LST) rb) = Some v) as (v & Hv).
    { assert (HR : (rb < length T)%nat).
      { unfold outletRb in O6. destruct (first_where _ T) as [k|] eqn:E; [|discriminate]. cbn in O6. apply Ok_inj in O6. subst k.
        apply first_where_Some in E. destruct E as ((t & E & _) & _). apply nth_error_Some. congruence. }
      destruct (nth_error LST (prevIx (length LST) rb)) as [v|] eqn:E; eauto. apply nth_error_None in E. destruct rb; cbn [prevIx] in E; lia. }
    unfold ix. rewrite Hv. cbn [of_opt bind]. unfold changeRates. cbv zeta. rewrite !sel_form by auto.
    rewrite !map_length, H4, O1, H5, H6, H7, !Nat.eqb_refl. cbn [negb andb].
    destruct (gather_exists T online H8) as (g & ->). destruct (gather_exists T outlet O2) as (g2 & ->). cbn [bind].
    assert (exists z, last_ (map Fin q) = Ok z) as (z & ->).
    { unfold last_. destruct (rev (map Fin q)) eqn:E; [|eexists; reflexivity]. apply (f_equal (@length _)) in E. rewrite rev_length, map_length in E. cbn in E. lia. }
    cbn [bind]. rewrite O4. cbn [map bind]. destruct (endRates _ _ _ _ _ _ _ _) as [[a b] c]. eexists. reflexivity.
Qed.

(** Seven transects 20 m apart, a lagoon behind two of them, an outlet channel
    crossing one, the outlet end between transects 3 and 4. *)
Definition exP (s : R) : phys xr :=
  mkPhys (Fin 2650) (Fin 1000) (Fin 1000) (Fin 9.81) (Fin 0.4) (Fin 0.4) (Fin 0.8) (Fin 10) (Fin 10) (Fin 0.1)
         (Fin 0.003) (Fin 0.03) (Fin 0.05) (Fin 5) (Fin 1.5) (Fin 1000) (Fin 60) (Fin 0.03) (Fin 0.02) (Fin 20)
         (Fin 7) (Fin 3) (Fin 1) (Fin 1) (Fin 3) (Fin 20) (Fin 4) (Fin 50) (Fin 10) (Fin s)
         (Fin 1) (Fin 1) (Fin 1) (Fin 1) (Fin 1) (Fin 1) (Fin 1).
Definition exBare (x : R) : tsect xr := mkT (Fin x) (Fin 0) NaN NaN (Fin (-50)) (Fin (-50)) (Fin 4) NaN NaN (Fin 0).
Definition exLag (x : R) : tsect xr := mkT (Fin x) (Fin 0) NaN NaN (Fin (-50)) (Fin (-100)) (Fin 4) NaN NaN (Fin 0).
Definition exOut (x : R) : tsect xr := mkT (Fin x) (Fin 0) (Fin (-20)) (Fin (-30)) (Fin (-50)) (Fin (-100)) (Fin 4) (Fin 0) (Fin 3) (Fin 0).
Definition exT : list (tsect xr) := [exBare (-60); exBare (-40); exLag (-20); exOut 0; exBare 20; exBare 40; exBare 60].
Definition exCW : list xr := map Fin [60; 60; 50; 50; 10; 10; 10].
Definition exCD : list xr := map Fin [2; 2; 1; 5; 2; 2; 2].
Definition exFl : list nat := [0; 0; 1; 1; 2; 3; 4]%nat.
Definition exQ : list R := [6; 5; 7; 4; 4; 3].
Definition exLst : list R := [2; 5; 1; 4; 2; 7].
Definition exCst : list R := [1; 1; 2; 2; 1; 1; 0].
Definition exOw : list bool := [true; false; true; true; false; false; true].

Lemma exRight : firstRight exT (Fin 10) 4.
Proof.
  split.
  - exists (exBare 20). split; [reflexivity|]. change (Rltb 10 20 = true). apply Rltb_true. lra.
  - intros j t Hj Ht. do 4 (destruct j as [|j]; [injection Ht as <-; match goal with |- (Fin ?a <? tX ?t)%n = _ => change (Rltb a (rv (tX t)) = false); cbn [tX rv exBare exLag exOut]; apply Rltb_false; lra end|]). lia.
Qed.
Lemma exBare_ok s x : soundT (exP s) (exBare x).
Proof.
  unfold soundT. change (outletPresent (exBare x)) with false. unfold crest, rear. change (outletPresent (exBare x)) with false.
  cbn [exBare tX tY0 tY1 tY2 tY3 tY4 tZ0 tZ1 tZ2 tZ3 pClosureDepth exP]. rewrite !xsub. cbn [rv]. repeat split; try (eexists; reflexivity); try discriminate; lra.
Qed.
Lemma exLag_ok s x : soundT (exP s) (exLag x).
Proof.
  unfold soundT. change (outletPresent (exLag x)) with false. unfold crest, rear. change (outletPresent (exLag x)) with false.
  cbn [exLag tX tY0 tY1 tY2 tY3 tY4 tZ0 tZ1 tZ2 tZ3 pClosureDepth exP]. rewrite !xsub. cbn [rv]. repeat split; try (eexists; reflexivity); try discriminate; lra.
Qed.
Lemma exOut_ok s x : soundT (exP s) (exOut x).
Proof.
  unfold soundT. change (outletPresent (exOut x)) with true. unfold crest, rear. change (outletPresent (exOut x)) with true.
  cbn [exOut tX tY0 tY1 tY2 tY3 tY4 tZ0 tZ1 tZ2 tZ3 pClosureDepth exP]. rewrite !xsub. cbn [rv]. repeat split; try (eexists; reflexivity); try discriminate; lra.
Qed.
Lemma exSound s (closed : bool) : s <> 0 -> soundInputs (exP s) 20 exT (Fin 10) (Fin 10) (Fin 0) [2; 3]%nat [3]%nat exCW exCD exFl closed 6.
Proof.
  intros Hs. unfold soundInputs.
  split; [unfold soundPars; repeat split; first [solve [eexists; reflexivity] | solve [eexists; split; [reflexivity|first [lra|exact Hs]]]]|].
  split; [lra|]. split.
  { unfold exT. repeat (apply Forall_cons; [first [apply exBare_ok | apply exLag_ok | apply exOut_ok]|]). apply Forall_nil. }
  split; [eexists; reflexivity|]. split; [split; eexists; (split; [reflexivity|cbn [pBeachTopElev exP rv]; lra])|].
  split; [repeat constructor; cbn; intuition lia|]. split; [repeat constructor; cbn; intuition lia|].
  split; [|split; [|repeat split]].
  - intros i t [<-|[<-|[]]] Ht; injection Ht as <-; unfold soundLagoon, bankTop.
    + change (outletPresent (exLag (-20))) with false. cbn. lra.
    + change (outletPresent (exOut 0)) with true. cbn. lra.
  - intros _ i t [<-|[]] Ht; injection Ht as <-. split; [reflexivity|]. cbn. lra.
Qed.
Lemma exRates s (l q c : list R) : length l = 6%nat -> length q = 6%nat -> length c = 7%nat -> exists RR,
  ratesFor (exP s) (Fin 20) exT (Fin 0) (Fin 10) (Fin 10) (Fin 0) [2; 3]%nat [3]%nat exCW exCD exFl false (map Fin l) (map Fin q) (map Fin c) exOw = Ok RR.
Proof.
  intros Hl Hq Hc. apply rates_exist; rewrite ?map_length, ?Hl, ?Hq, ?Hc; try reflexivity.
  - intros i [<-|[<-|[]]]; cbn; lia.
  - intros _. split; [reflexivity|]. split; [intros i [<-|[]]; cbn; lia|]. split; [lia|]. split; [exists 5%nat; reflexivity|]. split; [lia|].
    exists 4%nat. apply firstRight_Rb, exRight.
Qed.
Lemma zeros_map (l : list R) : map (fun _ => Fin 0) l = map Fin (none l).
Proof. symmetry. apply none_fin. Qed.

(** The hypotheses of the budget theorems hold here, with every forcing acting. *)
Definition budgetCase (s : R) (LST Bedload CST : list xr) (RR : rates xr) : Prop :=
  ratesFor (exP s) (Fin 20) exT (Fin 0) (Fin 10) (Fin 10) (Fin 0) [2; 3]%nat [3]%nat exCW exCD exFl false LST Bedload CST exOw = Ok RR.
Lemma budget_example : soundInputs (exP 40) 20 exT (Fin 10) (Fin 10) (Fin 0) [2; 3]%nat [3]%nat exCW exCD exFl false 6 /\
  firstRight exT (Fin 10) 4 /\
  (forall j, In j (seq 1 (length exFl - 2)) -> (nth j exFl 9 <= 3)%nat) /\
  (exists RR, budgetCase 40 (map Fin exLst) (map Fin exQ) (map Fin exCst) RR) /\
  (exists RR, budgetCase 40 (map Fin exLst) (map (fun _ => Fin 0) exQ) (map Fin exCst) RR) /\
  (exists RR, budgetCase 40 (map (fun _ => Fin 0) exLst) (map Fin exQ) (map Fin exCst) RR) /\
  (exists RR, budgetCase 40 (map Fin exLst) (map Fin exQ) (map (fun _ => Fin 0) exCst) RR) /\
  regular 20 exT /\ rv (pOutletSedSpreadDist (exP 40)) = INR 2 * 20 /\ firstX exT + INR 2 * 20 <= 10 <= lastX exT - INR 2 * 20 /\
  gain exQ 1 = 1 /\ gain exQ 2 = -2 /\ gain exQ 3 = 3 /\ tooWide (exP 40) exCW exCD 2 = true /\ tooWide (exP 40) exCW exCD 3 = false.
Proof.
  split; [apply (exSound 40 false); lra|]. split; [apply exRight|].
  split; [intros j; cbn; intros [<-|[<-|[<-|[<-|[<-|[]]]]]]; cbn; lia|].
  split; [apply exRates; reflexivity|]. split; [rewrite zeros_map; apply exRates; reflexivity|].
  split; [unfold budgetCase; rewrite zeros_map; apply exRates; reflexivity|].
  split; [unfold budgetCase; rewrite zeros_map; apply exRates; reflexivity|].
  split.
  { split; [lra|]. intros i t t' H H'. do 6 (destruct i as [|i]; [injection H as <-; injection H' as <-; cbn; lra|]). destruct i; discriminate. }
  split; [cbn; lra|]. split; [cbn; lra|]. unfold gain, exQ. cbn [nth Nat.sub].
  split; [lra|]. split; [lra|]. split; [lra|]. unfold tooWide, exCW, exCD. cbn [map nth pWidthDepthRatio exP].
  rewrite !xdivf by lra. split; [apply Rltb_true; lra|apply Rltb_false; lra].
Qed.

Lemma spread_refuted :
  ~ (forall P d T e0 e1 W Zend online outlet CW CD fl OW (LST q CST : list R) (Rq Rn : rates xr),
      soundInputs P d T e1 W Zend online outlet CW CD fl false (length q) ->
      ratesFor P (Fin d) T e0 e1 W Zend online outlet CW CD fl false (map Fin LST) (map Fin q) (map Fin CST) OW = Ok Rq ->
      ratesFor P (Fin d) T e0 e1 W Zend online outlet CW CD fl false (map Fin LST) (map (fun _ => Fin 0) q) (map Fin CST) OW = Ok Rn ->
      regular d T -> d <= rv (pOutletSedSpreadDist P) ->
      firstX T + rv (pOutletSedSpreadDist P) <= rv e1 <= lastX T - rv (pOutletSedSpreadDist P) ->
      shorelineVol P d T Rq Rn = nth (length q - 1) q 0).
Proof.
  intros H. destruct (exRates 30 exLst exQ exCst) as (Rq & Hq); try reflexivity.
  destruct (exRates 30 exLst (none exQ) exCst) as (Rn & Hn); try reflexivity. rewrite none_fin in Hn.
  assert (SI := exSound 30 false ltac:(lra)). change 6%nat with (length exQ) in SI.
  specialize (H _ _ _ _ _ _ _ _ _ _ _ _ _ _ _ _ _ _ SI Hq Hn).
  assert (X := H ltac:(apply budget_example) ltac:(cbn; lra) ltac:(cbn; lra)).
  rewrite (spread_sum _ _ _ _ _ _ _ _ _ _ _ _ _ _ _ _ _ _ _ SI Hq Hn eq_refl) in X. cbv zeta in X.
  change (rv (pOutletSedSpreadDist (exP 30))) with 30 in X. cbn [exT length seq Nat.sub map nth_error rv] in X.
  cbn [exBare exLag exOut tX rv] in X. change (rv (Fin 10)) with 10 in X. change (nth (length exQ - 1) exQ 0) with 3 in X. unfold rsum in X. cbn [fold_right] in X.
  rewrite (Rabs_left1 (-40 - 10)), (Rabs_left1 (-20 - 10)), (Rabs_left1 (0 - 10)), (Rabs_right (20 - 10)), (Rabs_right (40 - 10)) in X by lra.
  rewrite (Rmax_right (1 - - (-40 - 10) / 30)), (Rmax_right (1 - - (-20 - 10) / 30)), (Rmax_left (1 - - (0 - 10) / 30)), (Rmax_left (1 - (20 - 10) / 30)), (Rmax_right (1 - (40 - 10) / 30)) in X by lra. lra.
Qed.
