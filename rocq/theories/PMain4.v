(** Proofs: starting, ending, one name for both files, and the live figures. *)
From Coq Require Import String ZArith List Bool Lia.
From Verif Require Import Base Num MState MCoast MRiv MMor MOut MCore MLoad MVis MConf MMain SOut SRun SMain SPlan SConf POut PHot PCore PConf PConf2 PConf3 PConf4 PChan PPlan PMain PMain2.
Import List ListNotations.
Local Open Scope string_scope.
Local Open Scope list_scope.

Section Gen.
  Context {F : Type} {NF : Num F}.

  (** ** Before the loop *)
  Lemma main_early (X : conv F) (W : world F) r32 file ow ans1 ans2 af n o fs e :
    prepare X W r32 file = Exc e -> main X W r32 file ow ans1 ans2 af n o fs = (fs, Raised e).
  Proof. intros H. unfold main. rewrite H. reflexivity. Qed.
  Lemma main_refused (X : conv F) (W : world F) r32 file ow ans1 ans2 af n o fs y fs1 e :
    prepare X W r32 file = Ok y ->
    mainFiles r32 fs (mdOut (ryM y)) (mdTsOut (ryM y)) (map tX (mdT (ryM y))) (length (mdRiver (ryM y))) ow ans1 ans2 (ryA y) (ryB y) = (fs1, Exc e) ->
    main X W r32 file ow ans1 ans2 af n o fs = (fs1, Raised e).
  Proof. intros H M. unfold main. rewrite H, M. reflexivity. Qed.

  (** The first record of a cold start fits. *)
  Lemma first_shaped (X : conv F) (W : world F) r32 file y : prepare X W r32 file = Ok y ->
    forallb (fun x => (x =? f0)%n) (mdLVel (ryM y)) = true -> shaped (length (mdT (ryM y))) (length (mdRiver (ryM y))) (ryA y).
  Proof.
    unfold prepare. intros H C. bok H m. cbv zeta in H. bok H flow. bok H sea. bok H dir. bok H hs. bok H cdv. destruct cdv as [[c0 dep0] vel0].
    bok H s. bok H d. bok H u. bok H w. apply Ok_inj in H. subst y. cbn [ryM ryA] in *.
    unfold init in Es. cbv zeta in Es. bok Es x1. bok Es x2. bok Es c. rewrite C in Es. bok Es h. destruct h as [[dep vel] [[[[[lwl lvel] odep] ovel] edep] evel]].
    bok Eh dv. destruct dv as [dep' vel']. bok Eh h. apply Ok_inj in Eh. injection Eh as -> -> ->.
    bok Es rd. bok Es rv. apply Ok_inj in Es. subst s.
    destruct (layout _ _ _ _ _ _ _ _ _ _ _ _ _ _ _ _ _ _ Ec) as (HF & _).
    destruct (store_len _ _ _ _ _ _ _ _ _ _ _ _ _ Eh0) as (L1 & L2 & L3 & L4 & _ & Lo & Lc). rewrite map_length in L1, L2, L3, L4.
    assert (EN : (2 <= length edep)%nat /\ (2 <= length evel)%nat).
    { destruct (chClosed c) eqn:Q; [destruct (Lc eq_refl); lia|]. destruct (Lo eq_refl) as [<- <-]. rewrite HF, flags34. lia. }
    apply sel_count in Erd, Erv. rewrite HF, flags0 in Erd, Erv.
    unfold shaped. cbn [wT wLWL wLVel wLBed wODep wOVel wOBed wCST wOW wLST wRiv wRDep wRVel wRBed wEDep wEVel gLWL gLVel gODep gOVel gRDep gRVel gEDep gEVel].
    unfold zeros. rewrite !repeat_length. destruct EN. repeat split; assumption.
  Qed.
  Lemma create_ok r32 fs n1 n2 X nriv ow ans1 ans2 (a : wargs F) b : n1 <> n2 -> shaped (length X) nriv a ->
    (fs n1 = None \/ ow = true \/ consent ans1) -> (fs n2 = None \/ ow = true \/ consent ans2) ->
    exists fs1, mainFiles r32 fs n1 n2 X nriv ow ans1 ans2 a b = (fs1, Ok tt).
  Proof.
    intros N S C1 C2. unfold mainFiles.
    destruct (newOutFile r32 fs n1 X nriv ow ans1) as [fs1 r1] eqn:E1.
    destruct (new_out _ _ _ _ _ _ _ _ _ E1) as (O1 & [(-> & G1 & Q1)|(_ & _ & Q1 & Q2 & Q3)]).
    2:{ destruct C1 as [C1|[C1|C1]]; [contradiction|congruence|contradiction]. }
    rewrite G1. destruct (write_ok r32 (mkNc (map r32 X) nriv [] (fun _ _ => None)) a) as (f & ->).
    { cbn [ncX ncRiv]. rewrite map_length. exact S. }
    destruct (newTsOutFile (fset fs1 n1 (Some f)) n2 ow ans2) as [fs2 r2] eqn:E2.
    destruct (new_ts _ _ _ _ _ _ E2) as (O2 & [(-> & K & Q)|(_ & _ & Q1' & Q2 & Q3)]); [rewrite K; eauto|].
    assert (G2 : fset fs1 n1 (Some f) n2 = fs n2).
    { unfold fset. destruct (String.eqb_spec n2 n1); [congruence|]. apply O1. congruence. }
    rewrite G2 in Q1'. destruct C2 as [C2|[C2|C2]]; [contradiction|congruence|contradiction].
  Qed.

  (** A cold start whose files may be created: nothing but a pass or a figure stops it. *)
  Lemma cold_files (X : conv F) (W : world F) r32 file c ow ans1 ans2 fs y : (f0 =? f0)%n = true ->
    validate X (wdConf W file) = Ok c -> c "HotStart" "InitialConditionsNetCDF" = Some CNone ->
    prepare X W r32 file = Ok y -> let m := ryM y in mdOut m <> mdTsOut m ->
    (fs (mdOut m) = None \/ ow = true \/ consent ans1) -> (fs (mdTsOut m) = None \/ ow = true \/ consent ans2) ->
    exists fs1, mainFiles r32 fs (mdOut m) (mdTsOut m) (map tX (mdT m)) (length (mdRiver m)) ow ans1 ans2 (ryA y) (ryB y) = (fs1, Ok tt).
  Proof.
    intros Z0 V C Y. cbv zeta. intros N C1 C2. apply create_ok; auto. rewrite map_length. eapply first_shaped; eauto.
    destruct (prepared _ _ _ _ _ Y) as (L & _). destruct (cold_start _ _ _ _ _ _ L V C) as (_ & _ & E & _). rewrite E.
    rewrite forallb_forall. intros x I. apply in_map_iff in I as (t & <- & _). exact Z0.
  Qed.

  (** ** The end *)
  Lemma main_ends r32 (X : conv F) (W : world F) file ow ans1 ans2 af n o fs fs' out y :
    (f0 =? f0)%n = true -> (f1 =? f0)%n = false ->
    prepare X W r32 file = Ok y -> let v := ryV y in mdOut (ryM y) <> mdTsOut (ryM y) ->
    (0 < tHydDt (vTP v))%Z -> (tStart (vTP v) <= tEnd (vTP v))%Z -> (0 <= tMorDtMin (vTP v))%Z ->
    ((tEnd (vTP v) - tStart (vTP v)) / tHydDt (vTP v) + 2 < Z.of_nat n)%Z ->
    main X W r32 file ow ans1 ans2 af n o fs = (fs', out) -> exists e, out = Raised e.
  Proof.
    intros Z0 Z1 Y. cbv zeta. intros N H1 H2 H3 B H.
    destruct (mainFiles r32 fs (mdOut (ryM y)) (mdTsOut (ryM y)) (map tX (mdT (ryM y))) (length (mdRiver (ryM y))) ow ans1 ans2 (ryA y) (ryB y)) as [fs1 [[]|e]] eqn:MF.
    2:{ rewrite (main_refused _ _ _ _ _ _ _ _ _ _ _ _ _ _ Y MF) in H. injection H as <- <-. eauto. }
    destruct (main_files _ _ _ _ _ _ _ _ _ _ _ _ _ _ _ Z0 Z1 Y N MF H) as (j & s & J & S & _ & _ & _ & Q).
    destruct (prepared _ _ _ _ _ Y) as (_ & St & _). pose proof (start_run _ _ _ _ _ _ _ _ _ _ St S) as R.
    destruct out as [t p|t p|e]; [|destruct Q as [-> Q]; pose proof (run_clock _ _ _ _ _ H2 H3 R); lia|eauto].
    destruct Q as [-> ->]. pose proof (run_bound _ _ _ _ _ H1 H2 H3 R). lia.
  Qed.
  (** The records on file are those due, in order of time, none early. *)
  Lemma main_schedule r32 (X : conv F) (W : world F) file ow ans1 ans2 af n o fs fs' out y fs1 :
    (f0 =? f0)%n = true -> (f1 =? f0)%n = false ->
    prepare X W r32 file = Ok y -> let m := ryM y in let T := mdTP m in mdOut m <> mdTsOut m ->
    mainFiles r32 fs (mdOut m) (mdTsOut m) (map tX (mdT m)) (length (mdRiver m)) ow ans1 ans2 (ryA y) (ryB y) = (fs1, Ok tt) ->
    (tStart T <= tEnd T)%Z -> (0 <= tMorDtMin T)%Z ->
    main X W r32 file ow ans1 ans2 af n o fs = (fs', out) ->
    exists now f g l l', fs' (mdOut m) = Some f /\ fs' (mdTsOut m) = Some g /\ ncTimes f = tStart T :: l /\ ncTimes g = tStart T :: l' /\
      (tStart T <= now <= tEnd T)%Z /\ (exists next, scheduled (fun t => t) (tStart T) (mdOutInt m) l next now) /\
      (exists next, scheduled (fun t => t) (tStart T) (mdTsInt m) l' next now).
  Proof.
    intros Z0 Z1 Y. cbv zeta. intros N MF H2 H3 H.
    destruct (main_files _ _ _ _ _ _ _ _ _ _ _ _ _ _ _ Z0 Z1 Y N MF H) as (j & s & J & S & (f & Gf & _ & Tf & _) & (g & Gg & Tg & _) & _ & _).
    destruct (prepared _ _ _ _ _ Y) as (_ & St & EV & TA & _ & _ & _ & _ & _ & _ & _ & _ & _ & _ & _ & _ & _ & _ & _ & _ & _ & _ & _ & TB & _).
    pose proof (start_run _ _ _ _ _ _ _ _ _ _ St S) as R.
    assert (TT : vTP (ryV y) = mdTP (ryM y)) by (rewrite EV; reflexivity).
    assert (OI : vOutInt (ryV y) = mdOutInt (ryM y)) by (rewrite EV; reflexivity). assert (TI : vTsInt (ryV y) = mdTsInt (ryM y)) by (rewrite EV; reflexivity).
    rewrite <- TT in H2, H3. destruct (records _ _ _ _ _ H2 H3 R) as ((S1 & _) & (S2 & _)). pose proof (run_clock _ _ _ _ _ H2 H3 R) as [K _].
    rewrite TT, OI in S1. rewrite TT, TI in S2. rewrite TT in K. cbn [map] in Tf, Tg. rewrite TA in Tf. rewrite TB in Tg.
    assert (M : forall (A : Type) (tm : A -> Z) st i l nx nw, scheduled tm st i l nx nw -> scheduled (fun t => t) st i (map tm l) nx nw).
    { intros A tm st i l nx nw (B1 & B2 & B3). split; [rewrite map_length; exact B1|]. split.
      - intros k w K1. rewrite nth_error_map in K1. destruct (nth_error l k) as [a|] eqn:E; [|discriminate]. apply Some_inj in K1. subst w. eapply B2, E.
      - intros p q w x L K1 K2. rewrite nth_error_map in K1, K2. destruct (nth_error l p) as [a|] eqn:E; [|discriminate]. destruct (nth_error l q) as [a'|] eqn:E'; [|discriminate].
        apply Some_inj in K1, K2. subst w x. eapply B3; eauto. }
    exists (gTime s), f, g, (map wTime (gOuts s)), (map sTime (gTs s)). split; [exact Gf|]. split; [exact Gg|]. split; [exact Tf|]. split; [exact Tg|]. split; [exact K|].
    split; eexists; apply M; eassumption.
  Qed.

  (** ** One name for both files *)
  Lemma gT_some af o v (s s' : state F) : step af o v s = Ok s' -> gT s <> [].
  Proof.
    intros H E. apply step_inv in H as (c & m & P). pose proof (p_asm _ _ _ _ _ _ _ P) as A. unfold SRun.assembled in A. rewrite E in A. discriminate.
  Qed.
  Lemma passes_same r32 nm plotInt af o v b : forall n k fs s p fs' out, gOuts s = [] -> tsAt r32 fs nm (b :: gTs s) ->
    passes r32 nm nm plotInt af n k o v fs s p = (fs', out) ->
    match out with
    | Running t _ | Finished t _ => gOuts t = [] /\ holdsTs r32 fs' nm (b :: gTs t)
    | Raised _ => True
    end /\ (forall m, m <> nm -> fs' m = fs m) /\ exists g, fs' nm = Some g /\ ncX g = [].
  Proof.
    assert (EX : forall l (f : ncfile F), ncX (fold_left (writeTsOut r32) l f) = ncX f).
    { induction l as [|x l IH]; intros f; [reflexivity|]. cbn [fold_left]. rewrite IH. reflexivity. }
    assert (TX : forall fs l, tsAt r32 fs nm l -> exists g, fs nm = Some g /\ ncX g = []).
    { intros fs l T. eexists. split; [exact T|]. rewrite EX. reflexivity. }
    induction n as [|n IH]; intros k fs s p fs' out G T H; cbn [passes] in H; destruct (gTime s <=? _)%Z.
    1,2: injection H as <- <-; split; [split; [exact G|apply tsAt_holds, T]|]; split; [reflexivity|]; eapply TX, T.
    2: injection H as <- <-; split; [split; [exact G|apply tsAt_holds, T]|]; split; [reflexivity|]; eapply TX, T.
    destruct (step af (o k) v s) as [s1|e] eqn:E.
    2:{ injection H as <- <-. split; [exact I|]. split; [reflexivity|]. eapply TX, T. }
    destruct (plotBed (o k) v plotInt p s s1) as [u|e].
    2:{ injection H as <- <-. split; [exact I|]. split; [reflexivity|]. eapply TX, T. }
    destruct (step_shaped _ _ _ _ _ E) as (_ & LT & LR & O & Q).
    assert (Q' : exists l, gTs s1 = gTs s ++ l) by (destruct Q as [Q|(w & Q)]; [exists []; rewrite app_nil_r; auto|exists [w]; auto]).
    destruct Q' as (l & EQ). unfold saved in H. rewrite G, EQ, skipn_app_len in H. cbn [List.length skipn] in H.
    destruct O as [O|(w & O & S)]; rewrite G in O; cbn [app] in O; rewrite O in H.
    - cbn [onFileAll] in H. destruct (onAll_ts r32 nm l fs _ T) as (fs2 & E2 & G2 & O2). rewrite E2 in H.
      assert (T2 : tsAt r32 fs2 nm (b :: gTs s1)). { unfold tsAt. rewrite EQ. change (b :: gTs s ++ l) with ((b :: gTs s) ++ l). rewrite fold_left_app. exact G2. }
      destruct (drawPass (o k) v plotInt p s s1) as [p1|e].
      + destruct (IH _ _ _ _ _ _ O T2 H) as (A & B & D). split; [exact A|]. split; [|exact D]. intros m M. rewrite B, O2; auto.
      + injection H as <- <-. split; [exact I|]. split; [exact O2|]. eapply TX, T2.
    - cbn [onFileAll] in H. unfold onFile in H. rewrite T in H.
      match type of H with context [writeCurrent r32 ?f w] => destruct (writeCurrent r32 f w) as [g|e] eqn:Wr end.
      + exfalso. match type of Wr with writeCurrent r32 ?f w = _ => pose proof (all_shaped r32 [w] f g) as AS end. cbn [writeAll] in AS. rewrite Wr in AS. specialize (AS eq_refl). inversion AS as [|? ? (B & _) _]; subst.
        rewrite EX in B. cbn [ncX List.length] in B. destruct S as (B' & _). pose proof (gT_some _ _ _ _ _ E). destruct (gT s); [congruence|]. cbn [List.length] in B'. lia.
      + injection H as <- <-. split; [exact I|]. split; [reflexivity|]. eapply TX, T.
  Qed.
  Lemma main_same r32 (X : conv F) (W : world F) file ow ans1 ans2 af n o fs fs' out y :
    prepare X W r32 file = Ok y -> let nm := mdOut (ryM y) in mdTsOut (ryM y) = nm ->
    main X W r32 file ow ans1 ans2 af n o fs = (fs', out) ->
    match out with
    | Running t _ | Finished t _ => gOuts t = [] /\ holdsTs r32 fs' nm (ryB y :: gTs t) /\ (forall m, m <> nm -> fs' m = fs m)
    | Raised _ => True
    end.
  Proof.
    intros Y. cbv zeta. intros N H. unfold main in H. rewrite Y, N in H.
    destruct (mainFiles r32 fs (mdOut (ryM y)) (mdOut (ryM y)) _ _ ow ans1 ans2 (ryA y) (ryB y)) as [fs1 [[]|e]] eqn:MF.
    2:{ injection H as <- <-. exact I. }
    destruct (firstFig y) as [p|e].
    2:{ injection H as <- <-. exact I. }
    destruct (prepared _ _ _ _ _ Y) as (_ & _ & _ & _ & _ & _ & _ & _ & _ & _ & _ & _ & _ & _ & _ & _ & _ & _ & _ & GT & GR & GO & GS & _).
    set (nm := mdOut (ryM y)) in *.
    assert (K : fs1 nm = Some (writeTsOut r32 (mkNc [] 0 [] (fun _ _ => None)) (ryB y)) /\ forall m, m <> nm -> fs1 m = fs m).
    { unfold mainFiles in MF. destruct (newOutFile _ _ _ _ _ _ _) as [fsa ra] eqn:E1.
      destruct (new_out _ _ _ _ _ _ _ _ _ E1) as (O1 & [(-> & G1 & _)|(-> & _)]); [|discriminate].
      rewrite G1 in MF. destruct (writeCurrent _ _ _) as [f|] eqn:Hf; [|discriminate].
      destruct (newTsOutFile (fset fsa nm (Some f)) nm ow ans2) as [fs2 r2] eqn:E2.
      destruct (new_ts _ _ _ _ _ _ E2) as (O2 & [(-> & K & Q2)|(-> & _)]); [|discriminate].
      rewrite K in MF. injection MF as <-. split; [unfold fset; rewrite String.eqb_refl; reflexivity|].
      intros m M. unfold fset at 1. destruct (String.eqb_spec m nm); [contradiction|]. rewrite O2 by exact M. unfold fset. destruct (String.eqb_spec m nm); [contradiction|]. apply O1, M. }
    destruct K as (K & O). destruct (passes_same r32 nm _ _ _ _ (ryB y) _ _ _ _ _ _ _ GO ltac:(unfold tsAt; rewrite GS; exact K) H) as (A & B & _).
    destruct out; [| |exact I]; destruct A as (A1 & A2); (split; [exact A1|]; split; [exact A2|]; intros m M; rewrite B, O; auto).
  Qed.
End Gen.
