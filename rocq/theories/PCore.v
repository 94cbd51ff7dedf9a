(** Proofs about the main loop (core.py:100-235). *)
From Coq Require Import ZArith List Bool Lia Reals Sorting.Sorted.
From Verif Require Import Base Num MState MCoast MRiv MMor MOut MCore SCore SRun PChan PAdapt PInterp.
Import ListNotations.
Local Open Scope Z_scope.

Tactic Notation "bok" hyp(H) ident(x) := let e := fresh "E" x in apply bind_ok in H; destruct H as (x & e & H).
Tactic Notation "both" hyp(H1) hyp(H2) ident(x) :=
  let e := fresh "E" x in apply bind_ok in H1; destruct H1 as (x & e & H1); rewrite e in H2; cbn [bind] in H2.

Section Gen.
  Context {F : Type} {NF : Num F}.

  Lemma morApply_dt fuel P N TP (T : list (tsect F)) e0 e1 W Zd RE on out LW OD CW CD CF Cl LST B CST OW dt a :
    morApply fuel P N TP T e0 e1 W Zd RE on out LW OD CW CD CF Cl LST B CST OW dt = Ok a -> 0 <= dt -> 0 <= aDt a.
  Proof.
    unfold morApply. cbv zeta. intros H Hd. bok H x0. bok H rbq. bok H WL. bok H u. bok H R. bok H rate. bok H d. bok H R'. bok H river.
    assert (Q : 0 <= d) by (eapply adaptStep_nonneg; eauto).
    destruct Cl; apply Ok_inj in H; subst a; exact Q.
  Qed.
  Lemma mor_dt fuel j1 j2 P N TP (T : list (tsect F)) e0 e1 W Zd RE on out LW OD CW CD CF Cl LST B CST OW dt m :
    updateMorphology fuel j1 j2 P N TP T e0 e1 W Zd RE on out LW OD CW CD CF Cl LST B CST OW dt = Ok m -> 0 <= dt -> 0 <= oDt m.
  Proof.
    unfold updateMorphology. intros H Hd. bok H a. bok H b. destruct b as [[[[T1 pres] e0'] e1'] ol]. bok H c.
    destruct c as [[[[[T2 e0''] e1''] W'] Z'] br]. apply Ok_inj in H. subst m. cbn [oDt]. eapply morApply_dt; eauto.
  Qed.

  Lemma hydTimes_length start dur freq : length (hydTimes start dur freq) = Z.to_nat (dur / freq).
  Proof. unfold hydTimes. rewrite map_length, seq_length. reflexivity. Qed.
  Lemma hydTimes_nil start dur freq : 0 < freq -> hydTimes start dur freq = [] <-> dur < freq.
  Proof.
    intros Hf. split.
    - intros H. apply (f_equal (@length _)) in H. rewrite hydTimes_length in H. cbn in H.
      apply Z.nle_gt. intros C. assert (1 <= dur / freq) by (apply Z.div_le_lower_bound; lia). lia.
    - intros H. apply length_zero_iff_nil. rewrite hydTimes_length.
      assert (dur / freq <= 0). { apply Z.lt_succ_r. apply Z.div_lt_upper_bound; lia. } lia.
  Qed.

  (** One pass, taken apart. *)

  Record pass (af : nat) (o : oracle F) (v : env F) (s s' : state F) (c : chan F) (m : morOut F) : Prop := {
    p_asm : SRun.assembled v s = Ok c;
    p_flow : exists flow, interpolateAt (vFlow v) (hydTimes (gTime s) (gDt s) (tHydDt (vTP v))) = Ok flow;
    p_mor : exists lwl odep dep lst bed cst ow,
      updateMorphology af (oJunk1 o) (oJunk2 o) (vP v) (vN v) (vTP v) (gT s) (gE0 s) (gE1 s) (gW s) (gZ s) (gRiver s)
        (chOnline c) (chOutlet c) lwl odep (chWidth c) dep (chFlag c) (chClosed c) lst bed cst ow (gDt s) = Ok m;
    p_T : gT s' = oT m; p_E0 : gE0 s' = oE0 m; p_E1 : gE1 s' = oE1 m; p_W : gW s' = oW m; p_Z : gZ s' = oZ m;
    p_river : gRiver s' = oRiver m;
    p_dt : gDt s' = Z.min (oDt m) (tEnd (vTP v) - gTime s);
    p_time : gTime s' = gTime s + gDt s';
    p_closed : gClosed s' = if oBreach m then false else chClosed c;
    p_out : (gTime s' < gOutT s /\ gOuts s' = gOuts s /\ gOutT s' = gOutT s) \/
            (gOutT s <= gTime s' /\ (exists w, gOuts s' = gOuts s ++ [w] /\ wTime w = gTime s') /\ gOutT s' = gOutT s + vOutInt v);
    p_ts : (gTime s' < gTsT s /\ gTs s' = gTs s /\ gTsT s' = gTsT s) \/
           (gTsT s <= gTime s' /\ (exists w, gTs s' = gTs s ++ [w] /\ sTime w = gTime s') /\ gTsT s' = gTsT s + vTsInt v)
  }.

  Lemma step_inv af o v s s' : step af o v s = Ok s' -> exists c m, pass af o v s s' c m.
  Proof.
    unfold step. cbv zeta. intros H. bok H c. bok H flow. bok H sea. bok H hyd. destruct hyd as [dep vel].
    bok H st. destruct st as [[[[[lwl lvel] odep] ovel] edep] evel]. bok H u. bok H dir. bok H pow. bok H per. bok H len. bok H hs.
    bok H seaN. bok H flowN. bok H ot. destruct ot as [cst ow]. bok H m. bok H rdep. bok H rvel. bok H outs. destruct outs as [outs outT].
    bok H ts. destruct ts as [ts tsT]. apply Ok_inj in H. subst s'.
    assert (C : clampDt (tEnd (vTP v)) (gTime s) (oDt m) = Z.min (oDt m) (tEnd (vTP v) - gTime s)).
    { unfold clampDt. destruct (_ <? _) eqn:E; [apply Z.ltb_lt in E|apply Z.ltb_ge in E]; lia. }
    rewrite C in *. exists c, m. constructor; cbn [gT gE0 gE1 gW gZ gRiver gDt gTime gClosed gOuts gOutT gTs gTsT]; auto.
    - exists flow. auto.
    - do 7 eexists. eassumption.
    - destruct (gOutT s <=? _) eqn:E; [apply Z.leb_le in E; right|apply Z.leb_gt in E; left].
      + bok Eouts sb. destruct sb as [[lb ob] eb]. bok Eouts rb. apply Ok_inj in Eouts. injection Eouts as <- <-. split; [auto|]. split; [|auto].
        eexists. split; [reflexivity|reflexivity].
      + apply Ok_inj in Eouts. injection Eouts as <- <-. auto.
    - destruct (gTsT s <=? _) eqn:E; [apply Z.leb_le in E; right|apply Z.leb_gt in E; left].
      + bok Ets d. bok Ets uu. bok Ets w. bok Ets b0. apply Ok_inj in Ets. injection Ets as <- <-. split; [auto|]. split; [|auto].
        eexists. split; [reflexivity|reflexivity].
      + apply Ok_inj in Ets. injection Ets as <- <-. auto.
  Qed.

  (** ** Clock *)
  Definition clocked (v : env F) (s : state F) : Prop := gTime s <= tEnd (vTP v) /\ 0 <= gDt s.

  Lemma step_clock af o v s s' : clocked v s -> step af o v s = Ok s' -> clocked v s' /\ gTime s <= gTime s'.
  Proof.
    intros [H1 H2] H. apply step_inv in H. destruct H as (c & m & P).
    destruct (p_mor _ _ _ _ _ _ _ P) as (? & ? & ? & ? & ? & ? & ? & M). apply mor_dt in M; [|auto].
    unfold clocked. rewrite (p_time _ _ _ _ _ _ _ P), (p_dt _ _ _ _ _ _ _ P). lia.
  Qed.
  Lemma steps_clock af o v : forall n k s s', clocked v s -> steps af n k o v s = Ok s' -> clocked v s' /\ gTime s <= gTime s'.
  Proof.
    induction n as [|n IH]; intros k s s' C H; cbn [steps] in H.
    - apply Ok_inj in H. subst. split; [auto|lia].
    - bok H s1. destruct (step_clock _ _ _ _ _ C Es1) as [C1 L1]. destruct (IH _ _ _ C1 H) as [C2 L2]. split; [auto|lia].
  Qed.
  Lemma init_facts v T e0 e1 W Z0 River RWL RV LWL LVel OD OV ED EV Cl s :
    init v T e0 e1 W Z0 River RWL RV LWL LVel OD OV ED EV Cl = Ok s ->
    gTime s = tStart (vTP v) /\ gDt s = tMorDtMin (vTP v) /\ gOutT s = tStart (vTP v) + vOutInt v /\
    gTsT s = tStart (vTP v) + vTsInt v /\ gOuts s = [] /\ gTs s = [].
  Proof.
    unfold init. cbv zeta. intros H. bok H fl. bok H se. bok H c. bok H x. destruct x as [[dep vel] [[[[[a b] d] e] f] g]].
    bok H rd. bok H rv. apply Ok_inj in H. subst s. repeat split.
  Qed.
  Lemma run_clock af n o v s : tStart (vTP v) <= tEnd (vTP v) -> 0 <= tMorDtMin (vTP v) ->
    run af n o v s -> tStart (vTP v) <= gTime s <= tEnd (vTP v) /\ 0 <= gDt s.
  Proof.
    intros H1 H2 (T & e0 & e1 & W & Z0 & Ri & RWL & RV & LWL & LVel & OD & OV & ED & EV & Cl & s0 & I & S).
    apply init_facts in I. destruct I as (I1 & I2 & _). assert (C : clocked v s0) by (split; lia).
    destruct (steps_clock _ _ _ _ _ _ _ C S) as [[C1 C2] L]. lia.
  Qed.
  Lemma clock_range af n m o v s s' : tStart (vTP v) <= tEnd (vTP v) -> 0 <= tMorDtMin (vTP v) ->
    run af n o v s -> steps af m n o v s = Ok s' ->
    tStart (vTP v) <= gTime s /\ gTime s <= gTime s' /\ gTime s' <= tEnd (vTP v).
  Proof.
    intros H1 H2 R S. destruct (run_clock _ _ _ _ _ H1 H2 R) as [A B]. assert (C : clocked v s) by (split; lia).
    destruct (steps_clock _ _ _ _ _ _ _ C S) as [[C1 C2] L]. lia.
  Qed.

  (** ** No normal end *)
  Lemma loop_never af o v : forall fuel k s s', clocked v s -> loop af fuel k o v s <> Ok s'.
  Proof.
    induction fuel as [|f IH]; intros k s s' C H; cbn [loop] in H; rewrite (proj2 (Z.leb_le _ _) (proj1 C)) in H; [discriminate|].
    bok H s1. destruct (step_clock _ _ _ _ _ C Es1) as [C1 _]. exact (IH _ _ _ C1 H).
  Qed.
  Lemma never_ends af fuel o v T e0 e1 W Z0 River RWL RV LWL LVel OD OV ED EV Cl s0 s :
    tStart (vTP v) <= tEnd (vTP v) -> 0 <= tMorDtMin (vTP v) ->
    init v T e0 e1 W Z0 River RWL RV LWL LVel OD OV ED EV Cl = Ok s0 -> loop af fuel 0 o v s0 <> Ok s.
  Proof. intros H1 H2 I. apply loop_never. apply init_facts in I. split; lia. Qed.

  (** ** What stops it *)
  Lemma step_short af o v s c : 0 < tHydDt (vTP v) -> gDt s < tHydDt (vTP v) -> SRun.assembled v s = Ok c -> step af o v s = Exc EIndex.
  Proof.
    intros Hf Hd A. unfold step. cbv zeta. unfold SRun.assembled in A. rewrite A. cbn [bind].
    rewrite (proj2 (hydTimes_nil (gTime s) (gDt s) (tHydDt (vTP v)) Hf) Hd). reflexivity.
  Qed.
  Lemma step_long af o v s s' : 0 < tHydDt (vTP v) -> step af o v s = Ok s' -> tHydDt (vTP v) <= gDt s.
  Proof.
    intros Hf H. apply Z.nlt_ge. intros C. pose proof H as H0. apply step_inv in H0. destruct H0 as (c & m & P).
    rewrite (step_short af o v s c Hf C (p_asm _ _ _ _ _ _ _ P)) in H. discriminate.
  Qed.
  Lemma step_at_end af o v s s' : gTime s = tEnd (vTP v) -> 0 <= gDt s -> step af o v s = Ok s' -> gTime s' = tEnd (vTP v) /\ gDt s' = 0.
  Proof.
    intros E D H. apply step_inv in H. destruct H as (c & m & P).
    destruct (p_mor _ _ _ _ _ _ _ P) as (? & ? & ? & ? & ? & ? & ? & M). apply mor_dt in M; [|auto].
    rewrite (p_time _ _ _ _ _ _ _ P), (p_dt _ _ _ _ _ _ _ P). lia.
  Qed.
  Lemma two_at_end af k o v s s' : 0 < tHydDt (vTP v) -> gTime s = tEnd (vTP v) -> 0 <= gDt s -> steps af 2 k o v s <> Ok s'.
  Proof.
    intros Hf E D H. cbn [steps] in H. bok H s1. destruct (step_at_end _ _ _ _ _ E D Es1) as [E1 D1].
    bok H s2. apply step_long in Es2; [|auto]. lia.
  Qed.

  Lemma steps_bound af o v : 0 < tHydDt (vTP v) -> forall n k s s', clocked v s -> steps af n k o v s = Ok s' ->
    Z.of_nat n <= (tEnd (vTP v) - gTime s) / tHydDt (vTP v) + 2.
  Proof.
    intros Hf. induction n as [|n IH]; intros k s s' C H.
    - pose proof (Z.div_pos (tEnd (vTP v) - gTime s) (tHydDt (vTP v))). unfold clocked in C. lia.
    - destruct n as [|n].
      + pose proof (Z.div_pos (tEnd (vTP v) - gTime s) (tHydDt (vTP v))). unfold clocked in C. lia.
      + cbn [steps] in H. bok H s1. pose proof (step_clock _ _ _ _ _ C Es1) as [C1 _].
        assert (L : tHydDt (vTP v) <= gDt s1). { bok H s2. eapply step_long; eauto. }
        assert (S1 : steps af (S n) (S k) o v s1 = Ok s') by exact H.
        specialize (IH _ _ _ C1 S1). apply step_inv in Es1. destruct Es1 as (c & m & P). pose proof (p_time _ _ _ _ _ _ _ P) as T.
        assert (A : (tEnd (vTP v) - gTime s1) / tHydDt (vTP v) <= (tEnd (vTP v) - gTime s) / tHydDt (vTP v) - 1).
        { replace ((tEnd (vTP v) - gTime s) / tHydDt (vTP v) - 1) with ((tEnd (vTP v) - gTime s + (-1) * tHydDt (vTP v)) / tHydDt (vTP v)) by (rewrite Z.div_add by lia; lia).
          apply Z.div_le_mono; lia. }
        lia.
  Qed.
  Lemma run_bound af n o v s : 0 < tHydDt (vTP v) -> tStart (vTP v) <= tEnd (vTP v) -> 0 <= tMorDtMin (vTP v) ->
    run af n o v s -> Z.of_nat n <= (tEnd (vTP v) - tStart (vTP v)) / tHydDt (vTP v) + 2.
  Proof.
    intros Hf H1 H2 (T & e0 & e1 & W & Z0 & Ri & RWL & RV & LWL & LVel & OD & OV & ED & EV & Cl & s0 & I & S).
    apply init_facts in I. destruct I as (I1 & I2 & _). assert (C : clocked v s0) by (split; lia).
    apply steps_bound in S; auto. rewrite I1 in S. auto.
  Qed.
  (** With enough fuel the loop stops in the exception raised by one of its passes. *)
  Lemma loop_stops af o v : forall fuel k s, clocked v s ->
    (exists n sn e, (n < fuel)%nat /\ steps af n k o v s = Ok sn /\ step af (o (k + n)%nat) v sn = Exc e /\ loop af fuel k o v s = Exc e) \/
    (exists sn, steps af fuel k o v s = Ok sn).
  Proof.
    induction fuel as [|f IH]; intros k s C; [right; exists s; reflexivity|].
    cbn [loop steps]. rewrite (proj2 (Z.leb_le _ _) (proj1 C)).
    destruct (step af (o k) v s) as [s1|e] eqn:E; cbn [bind].
    - pose proof (step_clock _ _ _ _ _ C E) as [C1 _]. destruct (IH (S k) s1 C1) as [(n & sn & e & A1 & A2 & A3 & A4)|(sn & A)].
      + left. exists (S n), sn, e. split; [lia|]. split; [cbn [steps]; rewrite E; exact A2|]. split; [|exact A4].
        rewrite <- A3. do 2 f_equal. lia.
      + right. exists sn. exact A.
    - left. exists 0%nat, s, e. split; [lia|]. split; [reflexivity|]. split; [rewrite Nat.add_0_r; exact E|reflexivity].
  Qed.
  Lemma run_stops af fuel o v T e0 e1 W Z0 River RWL RV LWL LVel OD OV ED EV Cl s0 :
    0 < tHydDt (vTP v) -> tStart (vTP v) <= tEnd (vTP v) -> 0 <= tMorDtMin (vTP v) ->
    init v T e0 e1 W Z0 River RWL RV LWL LVel OD OV ED EV Cl = Ok s0 ->
    (tEnd (vTP v) - tStart (vTP v)) / tHydDt (vTP v) + 2 < Z.of_nat fuel ->
    exists n sn e, (n < fuel)%nat /\ steps af n 0 o v s0 = Ok sn /\ step af (o n) v sn = Exc e /\ loop af fuel 0 o v s0 = Exc e.
  Proof.
    intros Hf H1 H2 I L. apply init_facts in I. destruct I as (I1 & I2 & _). assert (C : clocked v s0) by (split; lia).
    destruct (loop_stops af o v fuel 0 s0 C) as [H|(sn & H)]; [exact H|].
    exfalso. apply steps_bound in H; auto. rewrite I1 in H. lia.
  Qed.

  (** ** Output records *)

  Lemma scheduled_step {A} (time : A -> Z) start int recs next now recs' next' now' :
    scheduled time start int recs next now -> now <= now' ->
    ((now' < next /\ recs' = recs /\ next' = next) \/
     (next <= now' /\ (exists w, recs' = recs ++ [w] /\ time w = now') /\ next' = next + int)) ->
    scheduled time start int recs' next' now'.
  Proof.
    intros (S1 & S2 & S3) L [(H1 & -> & ->)|(H1 & (w & -> & Hw) & ->)].
    - split; [auto|]. split; [|auto]. intros k w Hk. apply S2 in Hk. lia.
    - split; [rewrite app_length, Nat2Z.inj_add; cbn [length]; subst next; ring|]. split.
      + intros k x Hk. destruct (Nat.lt_ge_cases k (length recs)) as [C|C].
        * rewrite nth_error_app1 in Hk by auto. apply S2 in Hk. lia.
        * rewrite nth_error_app2 in Hk by auto. destruct (k - length recs)%nat as [|q] eqn:E; [|destruct q; discriminate].
          cbn in Hk. apply Some_inj in Hk. subst x. replace k with (length recs) by lia. lia.
      + intros i j x y Hij Hx Hy.
        assert (Hi : (i < length recs)%nat). { assert (j < length (recs ++ [w]))%nat by (apply nth_error_Some; congruence). rewrite app_length in H. cbn in H. lia. }
        rewrite nth_error_app1 in Hx by auto. destruct (Nat.lt_ge_cases j (length recs)) as [C|C].
        * rewrite nth_error_app1 in Hy by auto. eauto.
        * rewrite nth_error_app2 in Hy by auto. destruct (j - length recs)%nat as [|q] eqn:E; [|destruct q; discriminate].
          cbn in Hy. apply Some_inj in Hy. subst y. apply S2 in Hx. lia.
  Qed.
  Lemma records af n o v s : tStart (vTP v) <= tEnd (vTP v) -> 0 <= tMorDtMin (vTP v) -> run af n o v s ->
    (scheduled wTime (tStart (vTP v)) (vOutInt v) (gOuts s) (gOutT s) (gTime s) /\ (length (gOuts s) <= n)%nat) /\
    (scheduled sTime (tStart (vTP v)) (vTsInt v) (gTs s) (gTsT s) (gTime s) /\ (length (gTs s) <= n)%nat).
  Proof.
    intros H1 H2 (T & e0 & e1 & W & Z0 & Ri & RWL & RV & LWL & LVel & OD & OV & ED & EV & Cl & s0 & I & S).
    apply init_facts in I. destruct I as (I1 & I2 & I3 & I4 & I5 & I6). assert (C : clocked v s0) by (split; lia).
    assert (B : forall n k s s', clocked v s -> steps af n k o v s = Ok s' ->
      scheduled wTime (tStart (vTP v)) (vOutInt v) (gOuts s) (gOutT s) (gTime s) ->
      scheduled sTime (tStart (vTP v)) (vTsInt v) (gTs s) (gTsT s) (gTime s) ->
      (scheduled wTime (tStart (vTP v)) (vOutInt v) (gOuts s') (gOutT s') (gTime s') /\ (length (gOuts s') <= length (gOuts s) + n)%nat) /\
      (scheduled sTime (tStart (vTP v)) (vTsInt v) (gTs s') (gTsT s') (gTime s') /\ (length (gTs s') <= length (gTs s) + n)%nat)).
    { clear. induction n as [|n IH]; intros k s s' C H A1 A2; cbn [steps] in H.
      - apply Ok_inj in H. subst. split; (split; [assumption|lia]).
      - bok H s1. pose proof (step_clock _ _ _ _ _ C Es1) as [C1 L]. apply step_inv in Es1. destruct Es1 as (c & m & P).
        pose proof (p_out _ _ _ _ _ _ _ P) as P1. pose proof (p_ts _ _ _ _ _ _ _ P) as P2.
        destruct (IH _ _ _ C1 H) as [[B1 B2] [B3 B4]].
        + eapply scheduled_step; eauto.
        + eapply scheduled_step; eauto.
        + assert (Q1 : (length (gOuts s1) <= length (gOuts s) + 1)%nat).
          { destruct P1 as [(_ & -> & _)|(_ & (w & -> & _) & _)]; [lia|]. rewrite app_length. cbn [length]. lia. }
          assert (Q2 : (length (gTs s1) <= length (gTs s) + 1)%nat).
          { destruct P2 as [(_ & -> & _)|(_ & (w & -> & _) & _)]; [lia|]. rewrite app_length. cbn [length]. lia. }
          split; (split; [auto|lia]). }
    assert (E0 : forall (A : Type) (tm : A -> Z) st i nx nw, nx = st + i -> scheduled tm st i [] nx nw).
    { intros. split; [cbn [length Z.of_nat]; lia|]. split; intros; [destruct k|destruct i0]; discriminate. }
    specialize (B n 0%nat s0 s C S). rewrite I5, I6 in B. cbn [length Nat.add] in B. apply B; apply E0; lia.
  Qed.

  (** ** Flag *)
  Lemma asm_shut (v : env F) s c : SRun.assembled v s = Ok c -> gClosed s = true -> chClosed c = true.
  Proof.
    intros H C. apply assemble_inv in H. destruct H. destruct (chClosed c) eqn:E; [auto|exfalso].
    assert (D : cl1 = false) by (eapply cut_closed; [exact a_cut|reflexivity]).
    subst cl1. clear -a_out C. unfold outletPart in a_out. rewrite C in a_out.
    apply Ok_inj in a_out. congruence.
  Qed.
  Lemma opens af o v s s' : step af o v s = Ok s' -> gClosed s = true -> gClosed s' = false ->
    exists m, morphology af o v s m /\ oBreach m = true /\ gT s' = oT m /\ gE0 s' = oE0 m /\ gE1 s' = oE1 m.
  Proof.
    intros H C D. apply step_inv in H. destruct H as (c & m & P). pose proof (p_closed _ _ _ _ _ _ _ P) as E.
    exists m. split.
    { destruct (p_mor _ _ _ _ _ _ _ P) as (a1 & a2 & a3 & a4 & a5 & a6 & a7 & M). exists c, a1, a2, a3, a4, a5, a6, a7. split; [apply P|exact M]. }
    split; [|split; [apply P|split; apply P]]. destruct (oBreach m) eqn:B; [auto|].
    rewrite (asm_shut _ _ _ (p_asm _ _ _ _ _ _ _ P) C) in E. congruence.
  Qed.
  Lemma shuts af o v s s' : step af o v s = Ok s' -> gClosed s = false -> gClosed s' = true ->
    exists m c, morphology af o v s m /\ oBreach m = false /\ SRun.assembled v s = Ok c /\ chClosed c = true.
  Proof.
    intros H C D. apply step_inv in H. destruct H as (c & m & P). pose proof (p_closed _ _ _ _ _ _ _ P) as E.
    exists m, c. split.
    { destruct (p_mor _ _ _ _ _ _ _ P) as (a1 & a2 & a3 & a4 & a5 & a6 & a7 & M). exists c, a1, a2, a3, a4, a5, a6, a7. split; [apply P|exact M]. }
    destruct (oBreach m); [congruence|]. split; [auto|]. split; [apply P|congruence].
  Qed.

  (** ** Which times the hydraulics see *)
  Lemma hydTimes_spec start dur freq k t : 0 < freq -> 0 <= dur ->
    nth_error (hydTimes start dur freq) k = Some t <-> t = start + (Z.of_nat k + 1) * freq /\ t <= start + dur.
  Proof.
    intros Hf Hd. unfold hydTimes. rewrite nth_error_map.
    assert (Q : 0 <= dur / freq) by (apply Z.div_pos; lia).
    assert (D := Z.mul_div_le dur freq Hf). assert (D2 := Z.mul_succ_div_gt dur freq Hf).
    split.
    - intros H. destruct (nth_error (seq 1 (Z.to_nat (dur / freq))) k) as [j|] eqn:E; [|discriminate].
      cbn in H. apply Some_inj in H. assert (L : (k < Z.to_nat (dur / freq))%nat) by (erewrite <- seq_length; apply nth_error_Some; rewrite E; discriminate).
      assert (J : j = (1 + k)%nat). { pose proof (nth_error_nth _ _ 0%nat E) as N. rewrite seq_nth in N by auto. auto. }
      subst j t. split; [lia|]. assert (Z.of_nat k + 1 <= dur / freq) by lia. replace (Z.of_nat (1 + k)) with (Z.of_nat k + 1) by lia. nia.
    - intros [-> L]. assert (K : (k < Z.to_nat (dur / freq))%nat).
      { assert ((Z.of_nat k + 1) * freq <= dur) by lia. assert (Z.of_nat k + 1 <= dur / freq) by (apply Z.div_le_lower_bound; lia). lia. }
      destruct (nth_error (seq 1 (Z.to_nat (dur / freq))) k) as [j|] eqn:E.
      + assert (J : j = (1 + k)%nat). { pose proof (nth_error_nth _ _ 0%nat E) as N. rewrite seq_nth in N by auto. auto. }
        subst j. cbn [option_map]. f_equal. lia.
      + apply nth_error_None in E. rewrite seq_length in E. lia.
  Qed.
  Lemma hydTimes_last start dur freq : 0 < freq -> freq <= dur ->
    last_ (hydTimes start dur freq) = Ok (start + dur / freq * freq).
  Proof.
    intros Hf Hd. rewrite last_rev. unfold hydTimes. rewrite <- map_rev.
    assert (Q : 1 <= dur / freq) by (apply Z.div_le_lower_bound; lia).
    destruct (Z.to_nat (dur / freq)) as [|n] eqn:E; [lia|]. rewrite seq_S, rev_app_distr. cbn [rev app map hd_error of_opt]. do 2 f_equal. lia.
  Qed.
  Lemma step_record af o v s s' : 0 < tHydDt (vTP v) -> step af o v s = Ok s' ->
    gTime s' = gTime s + gDt s' /\
    (gOuts s' = gOuts s \/
     exists w fs ss, gOuts s' = gOuts s ++ [w] /\ wTime w = gTime s' /\
       interpolateAt (vFlow v) (hydTimes (gTime s) (gDt s) (tHydDt (vTP v))) = Ok fs /\ last_ fs = Ok (wFlow w) /\
       interpolateAt (vSea v) (hydTimes (gTime s) (gDt s) (tHydDt (vTP v))) = Ok ss /\ last_ ss = Ok (wSea w) /\
       last_ (hydTimes (gTime s) (gDt s) (tHydDt (vTP v))) = Ok (gTime s + gDt s / tHydDt (vTP v) * tHydDt (vTP v))).
  Proof.
    intros Hf H. pose proof (step_long _ _ _ _ _ Hf H) as L. pose proof (step_inv _ _ _ _ _ H) as (c0 & m0 & P0).
    split; [apply P0|]. clear P0 c0 m0.
    unfold step in H. cbv zeta in H. bok H c. bok H flow. bok H sea. bok H hyd. destruct hyd as [dep vel].
    bok H st. destruct st as [[[[[lwl lvel] odep] ovel] edep] evel]. bok H u. bok H dir. bok H pow. bok H per. bok H len. bok H hs.
    bok H seaN. bok H flowN. bok H ot. destruct ot as [cst ow]. bok H m. bok H rdep. bok H rvel. bok H outs. destruct outs as [outs outT].
    bok H ts. destruct ts as [ts tsT]. apply Ok_inj in H. subst s'. cbn [gOuts gTime].
    destruct (gOutT s <=? _) eqn:E; [right|left; apply Ok_inj in Eouts; injection Eouts as <- <-; reflexivity].
    bok Eouts sb. destruct sb as [[lb ob] eb]. bok Eouts rb. apply Ok_inj in Eouts. injection Eouts as <- <-.
    eexists _, flow, sea. split; [reflexivity|]. cbn [wTime wFlow wSea]. split; [reflexivity|]. split; [auto|]. split; [auto|]. split; [auto|].
    split; [auto|]. apply hydTimes_last; auto.
  Qed.

  (** ** EndTime does not enter the morphology *)
  Lemma end_ignored af o v e s s1 s2 : step af o v s = Ok s1 -> step af o (withEnd v e) s = Ok s2 ->
    gT s1 = gT s2 /\ gE0 s1 = gE0 s2 /\ gE1 s1 = gE1 s2 /\ gW s1 = gW s2 /\ gZ s1 = gZ s2 /\ gRiver s1 = gRiver s2.
  Proof.
    unfold step. cbv zeta. cbn [withEnd vP vN vTP vFlow vSea vWaves vOutInt vTsInt tStart tEnd tHydDt].
    unfold hydraulics. cbn [withEnd vP vN vTP tHydDt]. intros H1 H2.
    assert (U : forall fuel j1 j2 P N TP e (T : list (tsect F)) e0 e1 W Zd RE on out LW OD CW CD CF Cl LST B CST OW dt,
      updateMorphology fuel j1 j2 P N (mkTime (tStart TP) e (tHydDt TP) (tMorDtMin TP) (tMorDtMax TP)) T e0 e1 W Zd RE on out LW OD CW CD CF Cl LST B CST OW dt =
      updateMorphology fuel j1 j2 P N TP T e0 e1 W Zd RE on out LW OD CW CD CF Cl LST B CST OW dt) by reflexivity.
    both H1 H2 c. both H1 H2 fl. both H1 H2 se. both H1 H2 hyd. destruct hyd as [dep vel]. both H1 H2 st.
    destruct st as [[[[[lwl lvel] odep] ovel] edep] evel]. both H1 H2 uu. both H1 H2 dir. both H1 H2 pow. both H1 H2 per.
    both H1 H2 len. both H1 H2 hs. both H1 H2 seaN. both H1 H2 flowN. both H1 H2 ot. destruct ot as [cst ow].
    bok H1 m. rewrite U, Em in H2. cbn [bind] in H2. both H1 H2 rdep. both H1 H2 rvel.
    bok H1 o1. destruct o1 as [outs1 outT1]. bok H1 t1. destruct t1 as [ts1 tsT1]. apply Ok_inj in H1.
    bok H2 o2. destruct o2 as [outs2 outT2]. bok H2 t2. destruct t2 as [ts2 tsT2]. apply Ok_inj in H2.
    subst s1 s2. repeat split.
  Qed.
End Gen.
