(** Proofs: the result files of a whole program. *)
From Coq Require Import String ZArith List Bool Lia.
From Verif Require Import Base Num MState MCoast MRiv MMor MOut MCore MLoad MVis MConf MMain SOut SRun SMain POut PHot PCore PConf4 PMain.
Import List ListNotations.
Local Open Scope list_scope.

Section Gen.
  Context {F : Type} {NF : Num F}.
  Variable r32 : F -> F.

  Definition blank (X : list F) (nriv : nat) : ncfile F := mkNc (map r32 X) nriv [] (fun _ _ => None).
  Definition resAt (X : list F) nriv (fs : fsys F) n l : Prop := exists f, fs n = Some f /\ writeAll r32 (blank X nriv) l = Ok f.
  Definition tsAt (fs : fsys F) n (l : list (targs F)) : Prop := fs n = Some (fold_left (writeTsOut r32) l (mkNc [] 0 [] (fun _ _ => None))).

  Lemma writeAll_app : forall l m (f : ncfile F), writeAll r32 f (l ++ m) = let! g := writeAll r32 f l in writeAll r32 g m.
  Proof. induction l as [|a l IH]; intros m f; cbn [app writeAll]; [reflexivity|]. destruct (writeCurrent r32 f a); cbn [bind]; [apply IH|reflexivity]. Qed.

  Lemma ts_fold : forall l (f : ncfile F), let g := fold_left (writeTsOut r32) l f in
    ncTimes g = ncTimes f ++ map sTime l /\
    (forall v j, (j < length (ncTimes f))%nat -> ncVar g v j = ncVar f v j) /\
    forall k b, nth_error l k = Some b -> tsRow r32 g (length (ncTimes f) + k) b.
  Proof.
    induction l as [|b l IH]; intros f; cbn [fold_left map].
    - rewrite app_nil_r. split; [reflexivity|]. split; [reflexivity|]. intros [|k]; discriminate.
    - destruct (ts_all r32 f b) as (T & E & V). destruct (IH (writeTsOut r32 f b)) as (T' & E' & V'). cbv zeta in *.
      rewrite T in T', E', V'. rewrite app_length in E', V'. cbn [length] in E', V'.
      split; [rewrite T', <- app_assoc; reflexivity|]. split.
      + intros v j L. rewrite E' by lia. apply E, L.
      + intros [|k] c H; cbn [nth_error] in H.
        * apply Some_inj in H. subst c. rewrite Nat.add_0_r. unfold tsRow. rewrite !E' by lia. exact V.
        * replace (length (ncTimes f) + S k)%nat with (length (ncTimes f) + 1 + k)%nat by lia. apply V', H.
  Qed.
  Lemma tsAt_holds fs n l : tsAt fs n l -> holdsTs r32 fs n l.
  Proof.
    intros H. eexists. split; [exact H|]. destruct (ts_fold l (mkNc [] 0 [] (fun _ _ => None))) as (T & _ & V). split; [exact T|].
    intros k b K. apply (V k b K).
  Qed.
  Lemma resAt_holds X nriv fs n l : (f0 =? f0)%n = true -> (f1 =? f0)%n = false -> resAt X nriv fs n l -> holdsResults r32 X fs n l.
  Proof.
    intros Z0 Z1 (f & G & A). exists f. split; [exact G|]. destruct (all_frame r32 _ _ _ A) as (AX & _ & AT). split; [exact AX|]. split; [exact AT|].
    intros k a K. destruct (all_back r32 Z0 Z1 _ _ _ A k a K) as (r & R & RA & _). exists r. split; [exact R|exact RA].
  Qed.

  (** Saving the records of a pass. *)
  Lemma onAll_ok {A} (f : ncfile F -> A -> res (ncfile F)) name : forall l fs old new, fs name = Some old ->
    (fix go (g : ncfile F) (l : list A) := match l with [] => Ok g | a :: l => let! h := f g a in go h l end) old l = Ok new ->
    exists fs', onFileAll f fs name l = (fs', Ok tt) /\ fs' name = Some new /\ forall m, m <> name -> fs' m = fs m.
  Proof.
    induction l as [|a l IH]; intros fs old new H W.
    - apply Ok_inj in W. subst new. exists fs. split; [reflexivity|]. split; [exact H|]. reflexivity.
    - apply bind_ok in W as (h & Hh & W). cbn [onFileAll]. unfold onFile. rewrite H, Hh.
      destruct (IH (fset fs name (Some h)) h new) as (fs' & E & G & O); [unfold fset; rewrite String.eqb_refl; reflexivity|exact W|].
      exists fs'. split; [exact E|]. split; [exact G|]. intros m M. rewrite O by exact M. unfold fset. destruct (String.eqb_spec m name); [contradiction|reflexivity].
  Qed.
  Lemma onAll_write name l fs old new : fs name = Some old -> writeAll r32 old l = Ok new ->
    exists fs', onFileAll (writeCurrent r32) fs name l = (fs', Ok tt) /\ fs' name = Some new /\ forall m, m <> name -> fs' m = fs m.
  Proof.
    intros H W. apply onAll_ok with old; [exact H|]. clear H. revert old W. induction l as [|a l IH]; intros old W; [exact W|].
    cbn [writeAll] in W. apply bind_ok in W as (h & -> & W). cbn [bind]. apply IH, W.
  Qed.
  Lemma onAll_ts name l (fs : fsys F) old : fs name = Some old ->
    exists fs', onFileAll (fun f b => Ok (writeTsOut r32 f b)) fs name l = (fs', Ok tt) /\ fs' name = Some (fold_left (writeTsOut r32) l old) /\
      forall m, m <> name -> fs' m = fs m.
  Proof.
    intros H. apply onAll_ok with old; [exact H|]. clear H. revert old. induction l as [|a l IH]; intros old; [reflexivity|]. cbn [bind fold_left]. apply IH.
  Qed.
  Lemma skipn_app_len {A} (l m : list A) : skipn (length l) (l ++ m) = m.
  Proof. induction l; [reflexivity|assumption]. Qed.
  Lemma skipn_self {A} (l : list A) : skipn (length l) l = [].
  Proof. induction l; [reflexivity|assumption]. Qed.

  Section Files.
    Variables (n1 n2 : string) (X : list F) (nriv : nat).
    Hypothesis N12 : n1 <> n2.
    (** Both files hold the first record and what the passes produced. *)
    Definition upTo (a : wargs F) (b : targs F) (fs : fsys F) (s : state F) : Prop :=
      length X = length (gT s) /\ nriv = length (gRiver s) /\ resAt X nriv fs n1 (a :: gOuts s) /\ tsAt fs n2 (b :: gTs s).

    Lemma saved_ok a b af o v fs s s' : upTo a b fs s -> step af o v s = Ok s' ->
      exists fs', saved r32 fs n1 n2 s s' = (fs', Ok tt) /\ upTo a b fs' s' /\ forall m, m <> n1 -> m <> n2 -> fs' m = fs m.
    Proof.
      intros (LX & LN & (f & G & A) & T) H. destruct (step_shaped _ _ _ _ _ H) as (_ & LT & LR & O & Q).
      assert (O' : exists l, gOuts s' = gOuts s ++ l /\ Forall (shaped (length (gT s)) (length (gRiver s))) l).
      { destruct O as [O|(w & O & S)]; [exists []; rewrite app_nil_r; auto|exists [w]; auto]. }
      assert (Q' : exists l, gTs s' = gTs s ++ l) by (destruct Q as [Q|(w & Q)]; [exists []; rewrite app_nil_r; auto|exists [w]; auto]).
      destruct O' as (l & EO & S). destruct Q' as (l' & EQ).
      destruct (all_frame r32 _ _ _ A) as (AX & AR & _). cbn [ncX ncRiv blank] in AX, AR.
      destruct (all_ok_shaped r32 l f) as (g & Hg).
      { rewrite AX, AR, map_length, LX, LN. exact S. }
      unfold saved. rewrite EO, EQ, !skipn_app_len.
      destruct (onAll_write n1 l fs f g G Hg) as (fs1 & E1 & G1 & O1). rewrite E1.
      assert (T1 : tsAt fs1 n2 (b :: gTs s)) by (unfold tsAt; rewrite O1 by congruence; exact T).
      destruct (onAll_ts n2 l' fs1 _ T1) as (fs2 & E2 & G2 & O2). exists fs2. split; [exact E2|]. split.
      - split; [lia|]. split; [lia|]. split.
        + exists g. rewrite O2 by exact N12. split; [exact G1|]. rewrite EO. change (a :: gOuts s ++ l) with ((a :: gOuts s) ++ l). rewrite writeAll_app, A. exact Hg.
        + unfold tsAt. rewrite EQ. change (b :: gTs s ++ l') with ((b :: gTs s) ++ l'). rewrite fold_left_app. exact G2.
      - intros m M1 M2. rewrite O2 by exact M2. apply O1, M1.
    Qed.

    (** After any number of passes. *)
    Lemma passes_files a b plotInt af o v : forall n k fs s p fs' out, upTo a b fs s ->
      passes r32 n1 n2 plotInt af n k o v fs s p = (fs', out) ->
      exists j s', (j <= n)%nat /\ steps af j k o v s = Ok s' /\ upTo a b fs' s' /\ (forall m, m <> n1 -> m <> n2 -> fs' m = fs m) /\
        match out with
        | Running t _ => t = s' /\ j = n /\ (gTime t <= tEnd (vTP v))%Z
        | Finished t _ => t = s' /\ (tEnd (vTP v) < gTime t)%Z
        | Raised e => ((j < n)%nat /\ step af (o (k + j)%nat) v s' = Exc e) \/ (0 < plotInt)%Z
        end.
    Proof.
      induction n as [|n IH]; intros k fs s p fs' out U H; cbn [passes] in H; destruct (gTime s <=? _)%Z eqn:L.
      - injection H as <- <-. exists 0%nat, s. split; [lia|]. split; [reflexivity|]. split; [exact U|]. split; [reflexivity|]. split; [reflexivity|]. split; [reflexivity|]. apply Z.leb_le, L.
      - injection H as <- <-. exists 0%nat, s. split; [lia|]. split; [reflexivity|]. split; [exact U|]. split; [reflexivity|]. split; [reflexivity|]. apply Z.leb_gt, L.
      - destruct (step af (o k) v s) as [s1|e] eqn:E.
        2:{ injection H as <- <-. exists 0%nat, s. split; [lia|]. split; [reflexivity|]. split; [exact U|]. split; [reflexivity|]. left. rewrite Nat.add_0_r. split; [lia|exact E]. }
        destruct (plotBed (o k) v plotInt p s s1) as [u|e] eqn:B.
        2:{ injection H as <- <-. exists 0%nat, s. split; [lia|]. split; [reflexivity|]. split; [exact U|]. split; [reflexivity|]. right.
            unfold plotBed, due in B. destruct (0 <? plotInt)%Z eqn:Q; [apply Z.ltb_lt, Q|discriminate]. }
        destruct (saved_ok a b _ _ _ _ _ _ U E) as (fs1 & Es & U1 & O1). rewrite Es in H.
        destruct (drawPass (o k) v plotInt p s s1) as [p1|e] eqn:D.
        2:{ injection H as <- <-. exists 1%nat, s1. split; [lia|]. split; [cbn [steps]; rewrite E; reflexivity|]. split; [exact U1|]. split; [exact O1|].
            right. unfold drawPass, due in D. destruct (0 <? plotInt)%Z eqn:Q; [apply Z.ltb_lt, Q|discriminate]. }
        destruct (IH _ _ _ _ _ _ U1 H) as (j & s' & J & St & U' & O' & R). exists (S j), s'. split; [lia|].
        split; [cbn [steps]; rewrite E; exact St|]. split; [exact U'|]. split; [intros m M1 M2; rewrite O', O1; auto|].
        destruct out; [destruct R as (-> & -> & R); auto|exact R|]. destruct R as [(R1 & R2)|R]; [|right; exact R].
        left. split; [lia|]. replace (k + S j)%nat with (S k + j)%nat by lia. exact R2.
      - injection H as <- <-. exists 0%nat, s. split; [lia|]. split; [reflexivity|]. split; [exact U|]. split; [reflexivity|]. split; [reflexivity|]. apply Z.leb_gt, L.
    Qed.
  End Files.

  (** What is known when the files are created. *)
  Lemma prepared (X : conv F) (W : world F) file y : prepare X W r32 file = Ok y ->
    loadModel X W r32 file = Ok (ryM y) /\ start X W r32 file = Ok (ryV y, ryS y) /\ ryV y = envOf (ryM y) /\
    wTime (ryA y) = tStart (mdTP (ryM y)) /\ wT (ryA y) = mdT (ryM y) /\ wRiv (ryA y) = mdRiver (ryM y) /\ wClosed (ryA y) = gClosed (ryS y) /\
    wE0 (ryA y) = mdE0 (ryM y) /\ wE1 (ryA y) = mdE1 (ryM y) /\ wW (ryA y) = mdW (ryM y) /\ wZend (ryA y) = mdZ (ryM y) /\
    wLWL (ryA y) = gLWL (ryS y) /\ wLVel (ryA y) = gLVel (ryS y) /\ wODep (ryA y) = gODep (ryS y) /\ wOVel (ryA y) = gOVel (ryS y) /\
    wRDep (ryA y) = gRDep (ryS y) /\ wRVel (ryA y) = gRVel (ryS y) /\ wEDep (ryA y) = gEDep (ryS y) /\ wEVel (ryA y) = gEVel (ryS y) /\
    gT (ryS y) = mdT (ryM y) /\ gRiver (ryS y) = mdRiver (ryM y) /\ gOuts (ryS y) = [] /\ gTs (ryS y) = [] /\
    sTime (ryB y) = tStart (mdTP (ryM y)) /\ sMorDt (ryB y) = tMorDtMin (mdTP (ryM y)) /\ sClosedT (ryB y) = gClosed (ryS y).
  Proof.
    unfold prepare, start. intros H. bok H m. cbv zeta in H. bok H flow. bok H sea. bok H dir. bok H hs. bok H cdv. destruct cdv as [[c dep] vel].
    bok H s. bok H d. bok H u. bok H w. apply Ok_inj in H. subst y.
    cbn [ryM ryV ryS ryA ryB]. cbn [bind]. rewrite Em; cbn [bind]; rewrite Es. cbn [bind].
    cbn [wTime wT wRiv wClosed wE0 wE1 wW wZend wLWL wLVel wODep wOVel wRDep wRVel wEDep wEVel sTime sMorDt sClosedT].
    assert (I : gT s = mdT m /\ gRiver s = mdRiver m /\ gOuts s = [] /\ gTs s = []).
    { unfold init in Es. cbv zeta in Es. bok Es x1. bok Es x2. bok Es x3. bok Es x4. destruct x4 as [[x5 x6] [[[[[x7 x8] x9] x10] x11] x12]].
      bok Es x13. bok Es x14. apply Ok_inj in Es. subst s. auto. }
    repeat (split; [reflexivity || apply I|]). reflexivity.
  Qed.

  (** The whole program. *)
  Lemma main_files (C : conv F) (W : world F) file ow ans1 ans2 af n o fs fs' out y fs1 :
    (f0 =? f0)%n = true -> (f1 =? f0)%n = false ->
    prepare C W r32 file = Ok y -> let m := ryM y in let X := map tX (mdT m) in
    mdOut m <> mdTsOut m ->
    mainFiles r32 fs (mdOut m) (mdTsOut m) X (length (mdRiver m)) ow ans1 ans2 (ryA y) (ryB y) = (fs1, Ok tt) ->
    main C W r32 file ow ans1 ans2 af n o fs = (fs', out) ->
    exists j s, (j <= n)%nat /\ steps af j 0 o (ryV y) (ryS y) = Ok s /\
      holdsResults r32 X fs' (mdOut m) (ryA y :: gOuts s) /\ holdsTs r32 fs' (mdTsOut m) (ryB y :: gTs s) /\
      (forall f, f <> mdOut m -> f <> mdTsOut m -> fs' f = fs f) /\
      match out with
      | Running t _ => t = s /\ j = n
      | Finished t _ => t = s /\ (tEnd (vTP (ryV y)) < gTime t)%Z
      | Raised e => ((j < n)%nat /\ step af (o j) (ryV y) s = Exc e) \/ (0 < mdPlotInt m)%Z
      end.
  Proof.
    intros Z0 Z1 Y. cbv zeta. intros N MF H. unfold main in H. rewrite Y, MF in H.
    destruct (prepared _ _ _ _ Y) as (_ & _ & _ & _ & _ & _ & _ & _ & _ & _ & _ & _ & _ & _ & _ & _ & _ & _ & _ & GT & GR & GO & GS & _).
    destruct (both_files _ _ _ _ _ _ _ _ _ _ _ _ N MF) as (_ & _ & O & f & g & Gf & Gg & Wf & Wg).
    assert (U : upTo (mdOut (ryM y)) (mdTsOut (ryM y)) (map tX (mdT (ryM y))) (length (mdRiver (ryM y))) (ryA y) (ryB y) fs1 (ryS y)).
    { split; [rewrite map_length, GT; reflexivity|]. split; [rewrite GR; reflexivity|]. rewrite GO, GS. split.
      - exists f. split; [exact Gf|]. cbn [writeAll]. unfold blank. rewrite Wf. reflexivity.
      - unfold tsAt. cbn [fold_left]. rewrite Gg, Wg. reflexivity. }
    destruct (firstFig y) as [p|e] eqn:FF.
    - destruct (passes_files _ _ _ _ N _ _ _ _ _ _ _ _ _ _ _ _ _ U H) as (j & s & J & S & (_ & _ & R & T) & O' & Q). exists j, s.
      split; [exact J|]. split; [exact S|]. split; [eapply resAt_holds; eassumption|]. split; [apply tsAt_holds, T|].
      split; [intros q Q1 Q2; rewrite O', O; auto|]. destruct out; [tauto|exact Q|exact Q].
    - injection H as <- <-. exists 0%nat, (ryS y). split; [lia|]. split; [reflexivity|]. destruct U as (_ & _ & R & T).
      split; [eapply resAt_holds; eassumption|]. split; [apply tsAt_holds, T|]. split; [exact O|].
      right. unfold firstFig in FF. destruct (0 <? _)%Z eqn:Q; [apply Z.ltb_lt, Q|discriminate].
  Qed.
End Gen.
