(** Proofs: result files as written by the main loop and read by a hot start. *)
From Coq Require Import String ZArith List Bool Lia Sorted.
From Verif Require Import Base Num MState MCoast MRiv MMor MOut MCore MLoad SOut POut SRun PCore.
Import List ListNotations.
Local Open Scope string_scope.
Local Open Scope list_scope.

Section Gen.
  Context {F : Type} {NF : Num F}.
  Local Open Scope num_scope.

  (** Refusing the second file. *)
  Lemma refuse_second r32 fs n1 n2 X nriv ans1 ans2 a b fs' r : n1 <> n2 -> fs n1 <> None -> fs n2 <> None ->
    consent ans1 -> ~ consent ans2 -> shaped (length X) nriv a ->
    mainFiles r32 fs n1 n2 X nriv false ans1 ans2 a b = (fs', r) ->
    r = Exc EConflict /\ fs' n2 = fs n2 /\ (forall m, m <> n1 -> fs' m = fs m) /\
    exists f, fs' n1 = Some f /\ ncTimes f = [wTime a] /\ ncX f = map r32 X.
  Proof.
    intros N H1 H2 C1 C2 S H. unfold mainFiles in H.
    destruct (newOutFile r32 fs n1 X nriv false ans1) as [fs1 r1] eqn:E1.
    destruct (new_out _ _ _ _ _ _ _ _ _ E1) as (O1 & [(-> & G1 & _)|(_ & _ & _ & _ & Q)]); [|contradiction].
    rewrite G1 in H.
    destruct (write_ok r32 (mkNc (map r32 X) nriv [] (fun _ _ => None)) a) as (f & Hf).
    { cbn [ncX ncRiv]. rewrite map_length. exact S. }
    rewrite Hf in H. destruct (newTsOutFile (fset fs1 n1 (Some f)) n2 false ans2) as [fs2 r2] eqn:E2.
    destruct (new_ts _ _ _ _ _ _ E2) as (O2 & D2).
    assert (G2 : fset fs1 n1 (Some f) n2 = fs n2).
    { unfold fset. destruct (String.eqb_spec n2 n1); [congruence|]. apply O1. congruence. }
    rewrite G2 in D2. destruct D2 as [(_ & _ & [Q|[Q|Q]])|(-> & K & _ & _ & _)]; [contradiction|discriminate|contradiction|].
    injection H as <- <-. split; [reflexivity|]. split; [exact K|]. split.
    - intros m Hm. destruct (String.eqb_spec m n2) as [->|M]; [exact K|].
      rewrite (O2 m M). unfold fset. destruct (String.eqb_spec m n1); [contradiction|]. apply O1, Hm.
    - exists f. rewrite (O2 n1 N). unfold fset. rewrite String.eqb_refl. split; [reflexivity|].
      destruct (write_frame _ _ _ _ Hf) as (A & _ & B). rewrite A, B. split; reflexivity.
  Qed.

  (** Both files created. *)
  Lemma both_files r32 fs n1 n2 X nriv ow ans1 ans2 a b fs' : n1 <> n2 ->
    mainFiles r32 fs n1 n2 X nriv ow ans1 ans2 a b = (fs', Ok tt) ->
    (fs n1 = None \/ ow = true \/ consent ans1) /\ (fs n2 = None \/ ow = true \/ consent ans2) /\
    (forall m, m <> n1 -> m <> n2 -> fs' m = fs m) /\
    exists f g, fs' n1 = Some f /\ fs' n2 = Some g /\ writeCurrent r32 (mkNc (map r32 X) nriv [] (fun _ _ => None)) a = Ok f /\
      g = writeTsOut r32 (mkNc [] 0 [] (fun _ _ => None)) b.
  Proof.
    intros N H. unfold mainFiles in H.
    destruct (newOutFile r32 fs n1 X nriv ow ans1) as [fs1 r1] eqn:E1.
    destruct (new_out _ _ _ _ _ _ _ _ _ E1) as (O1 & [(-> & G1 & Q1)|(-> & _)]); [|discriminate].
    rewrite G1 in H. destruct (writeCurrent _ _ _) as [f|] eqn:Hf; [|discriminate].
    destruct (newTsOutFile (fset fs1 n1 (Some f)) n2 ow ans2) as [fs2 r2] eqn:E2.
    destruct (new_ts _ _ _ _ _ _ E2) as (O2 & D2).
    assert (G2 : fset fs1 n1 (Some f) n2 = fs n2).
    { unfold fset. destruct (String.eqb_spec n2 n1); [congruence|]. apply O1. congruence. }
    rewrite G2 in D2. destruct D2 as [(-> & K & Q2)|(-> & _)]; [|discriminate].
    rewrite K in H. injection H as <-. split; [exact Q1|]. split; [exact Q2|]. split.
    - intros m M1 M2. unfold fset at 1. destruct (String.eqb_spec m n2); [contradiction|].
      rewrite (O2 m M2). unfold fset. destruct (String.eqb_spec m n1); [contradiction|]. apply O1, M1.
    - exists f. eexists. unfold fset at 1 2. rewrite String.eqb_refl. destruct (String.eqb_spec n1 n2); [contradiction|].
      rewrite (O2 n1 N). unfold fset. rewrite String.eqb_refl. repeat split; assumption.
  Qed.

  (** The two names equal: the second file replaces the first. *)
  Lemma same_name r32 fs n X nriv ow ans1 ans2 a b fs' : mainFiles r32 fs n n X nriv ow ans1 ans2 a b = (fs', Ok tt) ->
    (ow = true \/ consent ans2) /\ exists g, fs' n = Some g /\ ncX g = [] /\ forall k, ncVar g "shoreline_y" k = None.
  Proof.
    intros H. unfold mainFiles in H.
    destruct (newOutFile r32 fs n X nriv ow ans1) as [fs1 r1] eqn:E1.
    destruct (new_out _ _ _ _ _ _ _ _ _ E1) as (O1 & [(-> & G1 & Q1)|(-> & _)]); [|discriminate].
    rewrite G1 in H. destruct (writeCurrent _ _ _) as [f|] eqn:Hf; [|discriminate].
    destruct (newTsOutFile (fset fs1 n (Some f)) n ow ans2) as [fs2 r2] eqn:E2.
    destruct (new_ts _ _ _ _ _ _ E2) as (O2 & [(-> & K & Q2)|(-> & _)]); [|discriminate].
    rewrite K in H. injection H as <-. split.
    - destruct Q2 as [Q|Q]; [|exact Q]. unfold fset in Q. rewrite String.eqb_refl in Q. discriminate.
    - eexists. unfold fset at 1. rewrite String.eqb_refl. split; [reflexivity|]. split; [reflexivity|].
      intros k. cbn [ncVar writeTsOut]. rewrite fold_rows. destruct (Nat.eqb _ _); reflexivity.
  Qed.

  Lemma same_ok r32 fs n X nriv ans1 ans2 a b : shaped (length X) nriv a ->
    exists fs', mainFiles r32 fs n n X nriv true ans1 ans2 a b = (fs', Ok tt).
  Proof.
    intros S. unfold mainFiles. destruct (newOutFile r32 fs n X nriv true ans1) as [fs1 r1] eqn:E1.
    destruct (new_out _ _ _ _ _ _ _ _ _ E1) as (_ & [(-> & G1 & _)|(_ & _ & _ & Q & _)]); [|discriminate].
    rewrite G1. destruct (write_ok r32 (mkNc (map r32 X) nriv [] (fun _ _ => None)) a) as (f & ->).
    { cbn [ncX ncRiv]. rewrite map_length. exact S. }
    destruct (newTsOutFile (fset fs1 n (Some f)) n true ans2) as [fs2 r2] eqn:E2.
    destruct (new_ts _ _ _ _ _ _ E2) as (_ & [(-> & G2 & _)|(_ & _ & _ & Q & _)]); [|discriminate].
    rewrite G2. eexists. reflexivity.
  Qed.

  (** The time step in the time-series file is the seconds field. *)
  Lemma ts_row r32 (f : ncfile F) b v x : lookup v (tsRows b) = Some [x] -> String.eqb v "outlet_closed" = false ->
    ncVar (writeTsOut r32 f b) v (length (ncTimes f)) = Some [r32 x].
  Proof. intros L N. cbn [ncVar writeTsOut]. rewrite fold_rows, Nat.eqb_refl, L. unfold stored. rewrite N. reflexivity. Qed.
  Lemma ts_all r32 (f : ncfile F) b : let f' := writeTsOut r32 f b in let k := length (ncTimes f) in
    ncTimes f' = ncTimes f ++ [sTime b] /\
    (forall v j, (j < k)%nat -> ncVar f' v j = ncVar f v j) /\
    ncVar f' "sea_level" k = Some [r32 (sSea b)] /\ ncVar f' "river_flow" k = Some [r32 (sFlow b)] /\
    ncVar f' "hs_offshore" k = Some [r32 (sHs b)] /\ ncVar f' "wave_dir" k = Some [r32 (sDir b)] /\
    ncVar f' "lagoon_level" k = Some [r32 (sLagWl b)] /\ ncVar f' "lagoon_outflow" k = Some [r32 (sOutflow b)] /\
    ncVar f' "sed_inflow" k = Some [r32 (sSedIn b)] /\ ncVar f' "outlet_end_x" k = Some [r32 (sE0 b); r32 (sE1 b)] /\
    ncVar f' "outlet_closed" k = Some [fofb (sClosedT b)] /\ ncVar f' "mordt" k = Some [r32 (fofZ (seconds (sMorDt b)))].
  Proof.
    cbv zeta. split; [reflexivity|]. split.
    { intros v j L. cbn [ncVar writeTsOut]. rewrite fold_rows. rewrite (proj2 (Nat.eqb_neq j (length (ncTimes f)))) by lia. reflexivity. }
    repeat split; try (apply ts_row; reflexivity);
      cbn [ncVar writeTsOut]; rewrite fold_rows, Nat.eqb_refl; reflexivity.
  Qed.

  (** What a pass writes is what it carries on with, but for the status. *)
  Lemma step_written af o v s s' : step af o v s = Ok s' ->
    gOuts s' = gOuts s \/
    exists w, gOuts s' = gOuts s ++ [w] /\ wTime w = gTime s' /\ wT w = gT s' /\ wE0 w = gE0 s' /\ wE1 w = gE1 s' /\
      wW w = gW s' /\ wZend w = gZ s' /\ wRiv w = gRiver s' /\ wRDep w = gRDep s' /\ wRVel w = gRVel s' /\
      wLWL w = gLWL s' /\ wLVel w = gLVel s' /\ wODep w = gODep s' /\ wOVel w = gOVel s' /\ wEDep w = gEDep s' /\ wEVel w = gEVel s' /\
      exists m, morphology af o v s m /\ gClosed s' = (if oBreach m then false else wClosed w).
  Proof.
    intros H. unfold step in H. cbv zeta in H. bok H c. bok H flow. bok H sea. bok H hyd. destruct hyd as [dep vel].
    bok H st. destruct st as [[[[[lwl lvel] odep] ovel] edep] evel]. bok H u. bok H dir. bok H pow. bok H per. bok H len. bok H hs.
    bok H seaN. bok H flowN. bok H ot. destruct ot as [cst ow]. bok H m. bok H rdep. bok H rvel. bok H outs. destruct outs as [outs outT].
    bok H ts. destruct ts as [ts tsT]. apply Ok_inj in H. subst s'.
    cbn [gT gE0 gE1 gW gZ gRiver gRDep gRVel gLWL gLVel gODep gOVel gEDep gEVel gClosed gTime gOuts].
    destruct (gOutT s <=? _)%Z.
    - bok Eouts sb. destruct sb as [[lb ob] eb]. bok Eouts rb. apply Ok_inj in Eouts.
      pose proof (f_equal fst Eouts) as Eo. cbn [fst] in Eo. right. eexists. split; [symmetry; exact Eo|].
      cbn [wTime wT wE0 wE1 wW wZend wRiv wRDep wRVel wLWL wLVel wODep wOVel wEDep wEVel wClosed]. repeat (split; [reflexivity|]).
      exists m. split; [|reflexivity]. exists c. do 7 eexists. split; [exact Ec|]. exact Em.
    - apply Ok_inj in Eouts. left. symmetry. exact (f_equal fst Eouts).
  Qed.

  (** Hot start. *)
  Section Hot.
    Variable r32 : F -> F.
    Hypotheses (Z0 : (f0 =? f0)%n = true) (Z1 : (f1 =? f0)%n = false).
    Lemma hot_resumes X a r : readsAs r32 X a r -> forall h start,
      h = mkHot (rdT r) (rdE0 r) (rdE1 r) (rdW r) (rdZend r) (rdRiv r) (rdRWL r) (rdRVel r)
              (rdLWL r) (rdLVel r) (hotDep (rdOWL r) (rdT r)) (rdOVel r)
              [rdEWL r - rdZend r; rdDDep r] [rdEVel r; rdDVel r] (rdClosed r) start ->
      length (wT a) = length X -> resumes r32 X a h.
    Proof.
      intros [] h start -> L.
      split; cbn [htT htE0 htE1 htW htZ htRiver htRVel htRWL htLWL htLVel htOVel htODep htEDep htEVel htClosed]; auto.
      - tauto.
      - intros i d t Hd Ht. unfold hotDep. rewrite nth_error_map2, (ra_owl i d t Hd Ht).
        destruct ra_T as [_ RT]. assert (exists x, nth_error X i = Some x) as [x Hx].
        { destruct (nth_error X i) eqn:E; [eauto|]. apply nth_error_None in E. rewrite <- L in E.
          apply nth_error_None in E. congruence. }
        rewrite (RT i x t Hx Ht). reflexivity.
      - intros d0 d1 l E. destruct (ra_enddep _ _ _ E) as [-> ->]. destruct ra_end as [_ ->]. reflexivity.
      - intros d0 d1 l E. destruct (ra_endvel _ _ _ E) as [-> ->]. reflexivity.
    Qed.

    Lemma hot_load f l f' want start cont Dx k a x0 x1 : ncTimes f = [] -> writeAll r32 f l = Ok f' ->
      nth_error (ncX f) 0 = Some x0 -> nth_error (ncX f) 1 = Some x1 -> (r32 (x1 - x0) =? Dx)%n = true ->
      nth_error l k = Some a -> closest (map wTime l) want k -> (forall j, closest (map wTime l) want j -> j = k) ->
      exists h, hotLoad r32 f' want start cont Dx = Ok h /\ resumes r32 (ncX f) a h /\ htStart h = (if cont then wTime a else start).
    Proof.
      intros E0 HW X0 X1 D Hk C U. destruct (all_frame _ _ _ _ HW) as (AX & AR & AT). rewrite E0 in AT. cbn [app] in AT.
      destruct (closest_ok (ncTimes f') want) as (idx & t & Hc).
      { rewrite AT. destruct l; [destruct k; discriminate|discriminate]. }
      destruct (closest_spec _ _ _ _ Hc) as (S & SS & i & Hi & Ht). rewrite AT in S, Ht.
      assert (idx = [k]).
      { pose proof (proj2 (S k) C) as Ik. destruct idx as [|p idx]; [destruct Ik|].
        assert (forall q, In q (p :: idx) -> q = k) as Q by (intros q Iq; apply U, S, Iq).
        destruct idx as [|q idx]; [rewrite (Q p (or_introl eq_refl)); reflexivity|].
        pose proof (Q p (or_introl eq_refl)). pose proof (Q q (or_intror (or_introl eq_refl))). subst p q.
        inversion SS as [|? ? _ FA]; subst. inversion FA; subst. lia. }
      subst idx. injection Hi as <-.
      destruct (all_back r32 Z0 Z1 _ _ _ HW k a Hk) as (r & Hr & RA & _). rewrite E0 in Hr. cbn [length Nat.add] in Hr.
      pose proof (all_shaped _ _ _ _ HW) as SH. rewrite Forall_forall in SH.
      pose proof (SH a (nth_error_In _ _ Hk)) as (LT & _).
      unfold hotLoad. rewrite Hc. cbn [bind hotRead]. rewrite Hr. cbn [bind].
      assert (exists t0 t1, nth_error (rdT r) 0 = Some t0 /\ nth_error (rdT r) 1 = Some t1 /\ tX t0 = x0 /\ tX t1 = x1) as (t0 & t1 & T0 & T1 & E2 & E3).
      { destruct RA. destruct ra_T as [_ RT].
        assert (forall i x, nth_error (ncX f) i = Some x -> exists t, nth_error (wT a) i = Some t) as G.
        { intros i x Hx. destruct (nth_error (wT a) i) eqn:E; [eauto|]. apply nth_error_None in E. rewrite LT in E.
          apply nth_error_None in E. congruence. }
        destruct (G _ _ X0) as [u0 U0]. destruct (G _ _ X1) as [u1 U1].
        exists (storedT r32 x0 u0), (storedT r32 x1 u1). split; [apply RT; assumption|]. split; [apply RT; assumption|]. split; reflexivity. }
      unfold hotCheckDx, ix. rewrite T0, T1. cbn [of_opt bind]. rewrite E2, E3, D. cbn [assert_ bind].
      eexists. split; [reflexivity|]. split.
      - eapply hot_resumes; [exact RA|reflexivity|exact LT].
      - cbn [htStart]. rewrite nth_error_map, Hk in Ht. cbn in Ht. injection Ht as <-. reflexivity.
    Qed.

    Lemma hot_tie f want start cont Dx i j : closest (ncTimes f) want i -> closest (ncTimes f) want j -> i <> j ->
      hotLoad r32 f want start cont Dx = Exc EValue.
    Proof.
      intros Ci Cj N. destruct (closest_ok (ncTimes f) want) as (idx & t & Hc).
      { destruct Ci as (u & Hu & _). intros E. rewrite E in Hu. destruct i; discriminate. }
      destruct (closest_spec _ _ _ _ Hc) as (S & _). apply S in Ci, Cj.
      unfold hotLoad. rewrite Hc. cbn [bind]. destruct idx as [|p [|q l]]; cbn [hotRead bind]; try reflexivity.
      destruct Ci as [->|[]], Cj as [->|[]]. contradiction.
    Qed.

    Lemma hot_spacing f want start cont Dx k t : closestTimeIx (ncTimes f) want = Ok ([k], t) ->
      forall x0 x1, nth_error (ncX f) 0 = Some x0 -> nth_error (ncX f) 1 = Some x1 -> (r32 (x1 - x0) =? Dx)%n = false ->
      forall h, hotLoad r32 f want start cont Dx <> Ok h.
    Proof.
      intros Hc x0 x1 X0 X1 D h H. unfold hotLoad in H. rewrite Hc in H. cbn [bind hotRead] in H.
      bok H r. bok H u. clear H. unfold hotCheckDx in Eu. bok Eu b. bok Eu a.
      assert (G : forall i v, nth_error (rdT r) i = Some v -> nth_error (ncX f) i = Some (tX v)).
      { intros i v. unfold readTimestep in Er. repeat (apply bind_ok in Er as (? & _ & Er)). apply Ok_inj in Er. subst r. cbn [rdT].
        generalize (ncX f). revert i.
        repeat match goal with |- context [zipT _ ?a] => fail 1 | |- _ => idtac end.
        intros i l. revert i v.
        match goal with |- forall i v, nth_error (zipT l ?a ?b ?c ?d ?e ?g ?h ?j ?k) i = _ -> _ => generalize a b c d e g h j k end.
        clear. induction l as [|x l IH]; intros a b c d e g h j k i v Hn.
        - destruct i; discriminate.
        - destruct a, b, c, d, e, g, h, j, k; try (destruct i; discriminate). destruct i as [|i]; cbn in Hn |- *.
          + injection Hn as <-. reflexivity.
          + eapply IH, Hn. }
      unfold ix in Ea, Eb. destruct (nth_error (rdT r) 1) eqn:E1; [|discriminate]. destruct (nth_error (rdT r) 0) eqn:E2; [|discriminate].
      apply Ok_inj in Ea, Eb. subst. apply G in E1, E2. rewrite X0 in E2. rewrite X1 in E1. injection E1 as ->. injection E2 as ->.
      rewrite D in Eu. discriminate.
    Qed.
  End Hot.
End Gen.
