(** Proofs: what the live figures show. *)
From Coq Require Import String ZArith List Bool Lia.
From Verif Require Import Base Num MState MCoast MRiv MMor MOut MCore MLoad MVis MConf MMain SOut SRun SMain SVis SPlan POut PHot PCore PChan PPlan PMain PMain2 PMain4.
Import List ListNotations.
Local Open Scope list_scope.

Section Gen.
  Context {F : Type} {NF : Num F}.

  Lemma firstn_snoc {A} (l : list A) x k : k < length l -> firstn (S k) (l ++ [x]) = firstn (S k) l.
  Proof. intros H. rewrite firstn_app. replace (S k - length l) with 0 by lia. rewrite app_nil_r. reflexivity. Qed.

  (** One drawing adds one row and one figure. *)
  Lemma draw_adds (o : oracle F) v pi (p : live F) s s' p' : drawPass o v pi p s s' = Ok p' ->
    (due pi p s' = false /\ p' = p) \/
    (due pi p s' = true /\ exists r g, lvBdy p' = lvBdy p ++ [r] /\ lvFigs p' = lvFigs p ++ [g] /\ fgBdy g = lvBdy p' /\ bdT r = gTime s' /\ lvT p' = (lvT p + pi)%Z).
  Proof.
    unfold drawPass. destruct (due pi p s') eqn:D; intros H; [right|left; apply Ok_inj in H; auto]. split; [reflexivity|].
    bok H x. destruct x as [[[[[c flow] sea] dep] vel] bed]. bok H ls. bok H q. bok H d. bok H u. bok H w. bok H z. cbv zeta in H. bok H pv. apply Ok_inj in H. subst p'.
    cbn [lvBdy lvFigs lvT]. eexists _, _. repeat (split; [reflexivity|]). reflexivity.
  Qed.

  Lemma ill_later st i now now' (p : live F) : (now <= now')%Z -> illustrates st i now p -> illustrates st i now' p.
  Proof.
    intros L (r0 & rows & A & B & C & D & E & (S1 & S2 & S3)). exists r0, rows. repeat (split; [assumption|]).
    split; [|exact S3]. intros k w K. destruct (S2 _ _ K). lia.
  Qed.
  Lemma ill_draw (o : oracle F) v pi (p : live F) s s' p' st : (gTime s <= gTime s')%Z -> drawPass o v pi p s s' = Ok p' ->
    illustrates st pi (gTime s) p -> illustrates st pi (gTime s') p'.
  Proof.
    intros L H I. destruct (draw_adds _ _ _ _ _ _ _ H) as [(_ & ->)|(D & r & g & A1 & A2 & A3 & A4 & A5)]; [eapply ill_later; eassumption|].
    destruct I as (r0 & rows & B1 & B2 & B3 & B4 & B5 & (S1 & S2 & S3)).
    unfold due in D. apply andb_true_iff in D as [_ D]. apply Z.leb_le in D.
    exists r0, (rows ++ [r]). split; [rewrite A1, B1; reflexivity|]. split; [exact B2|]. split; [exact B3|].
    split; [rewrite A1, A2, !app_length, B4; reflexivity|]. split.
    - intros k f K. rewrite A2 in K. destruct (Nat.lt_ge_cases k (length (lvFigs p))) as [Q|Q].
      + rewrite nth_error_app1 in K by exact Q. rewrite (B5 _ _ K), A1, firstn_snoc; [reflexivity|lia].
      + rewrite nth_error_app2 in K by exact Q. destruct (k - length (lvFigs p)) as [|m] eqn:M; [|cbn in K; destruct m; discriminate].
        cbn in K. apply Some_inj in K. subst f. rewrite A3. symmetry. apply firstn_all2. rewrite A1, app_length. cbn [length]. lia.
    - split; [rewrite A5, app_length; cbn [length]; lia|]. split.
      + intros k w K. destruct (Nat.lt_ge_cases k (length rows)) as [Q|Q].
        * rewrite nth_error_app1 in K by exact Q. destruct (S2 _ _ K) as [U1 U2]. split; lia.
        * rewrite nth_error_app2 in K by exact Q. destruct (k - length rows) as [|m] eqn:M; [|cbn in K; destruct m; discriminate].
          cbn in K. apply Some_inj in K. subst w. rewrite A4. assert (k = length rows) by lia. subst k. lia.
      + intros i j w x IJ K1 K2. assert (J : j < length (rows ++ [r])) by (apply nth_error_Some; congruence). rewrite app_length in J. cbn [length] in J.
        rewrite nth_error_app1 in K1 by lia. destruct (Nat.lt_ge_cases j (length rows)) as [Q|Q].
        * rewrite nth_error_app1 in K2 by exact Q. exact (S3 _ _ _ _ IJ K1 K2).
        * rewrite nth_error_app2 in K2 by exact Q. replace (j - length rows) with 0 in K2 by lia. cbn in K2. apply Some_inj in K2. subst x.
          destruct (S2 _ _ K1). rewrite A4. lia.
  Qed.
  Lemma passes_ill r32 n1 n2 pi af o v st : forall n k fs s (p : live F) fs' out, clocked v s -> illustrates st pi (gTime s) p ->
    passes r32 n1 n2 pi af n k o v fs s p = (fs', out) ->
    match out with Running t q | Finished t q => illustrates st pi (gTime t) q | Raised _ => True end.
  Proof.
    induction n as [|n IH]; intros k fs s p fs' out C I H; cbn [passes] in H; destruct (gTime s <=? _)%Z.
    1,2,4: injection H as <- <-; exact I.
    destruct (step af (o k) v s) as [s1|e] eqn:E; [|injection H as <- <-; exact Logic.I].
    destruct (plotBed (o k) v pi p s s1); [|injection H as <- <-; exact Logic.I].
    destruct (saved r32 fs n1 n2 s s1) as [fs1 [u'|e]]; [|injection H as <- <-; exact Logic.I].
    destruct (drawPass (o k) v pi p s s1) as [p1|e] eqn:D; [|injection H as <- <-; exact Logic.I].
    destruct (step_clock _ _ _ _ _ C E) as [C1 L]. eapply IH; [exact C1| |exact H]. eapply ill_draw; eassumption.
  Qed.
  Lemma first_ill y (p : live F) : firstFig y = Ok p -> (0 < mdPlotInt (ryM y))%Z -> illustrates (tStart (mdTP (ryM y))) (mdPlotInt (ryM y)) (tStart (mdTP (ryM y))) p.
  Proof.
    unfold firstFig. intros H L. apply Z.ltb_lt in L. rewrite L in H. cbv zeta in H. bok H ls. bok H pv. apply Ok_inj in H. subst p.
    eexists _, []. cbn [lvBdy lvFigs lvT]. split; [reflexivity|]. split; [reflexivity|]. split; [reflexivity|]. split; [reflexivity|]. split.
    - intros [|k] g K; cbn in K; [apply Some_inj in K; subst g; reflexivity|destruct k; discriminate].
    - split; [cbn [length]; lia|]. split; [intros k w K; destruct k; discriminate|intros i j w x IJ K; destruct i; discriminate].
  Qed.
  Lemma none_drawn o v pi (p : live F) s s' p' : (pi <= 0)%Z -> drawPass o v pi p s s' = Ok p' -> p' = p.
  Proof. intros L H. destruct (draw_adds _ _ _ _ _ _ _ H) as [(_ & E)|(D & _)]; [exact E|]. unfold due in D. apply andb_true_iff in D as [D _]. lia. Qed.
  Lemma passes_none r32 n1 n2 pi af o v : (pi <= 0)%Z -> forall n k fs s (p : live F) fs' out,
    passes r32 n1 n2 pi af n k o v fs s p = (fs', out) -> match out with Running _ q | Finished _ q => q = p | Raised _ => True end.
  Proof.
    intros L. induction n as [|n IH]; intros k fs s p fs' out H; cbn [passes] in H; destruct (gTime s <=? _)%Z.
    1,2,4: injection H as <- <-; reflexivity.
    destruct (step af (o k) v s) as [s1|e] eqn:E; [|injection H as <- <-; exact Logic.I].
    destruct (plotBed (o k) v pi p s s1); [|injection H as <- <-; exact Logic.I].
    destruct (saved r32 fs n1 n2 s s1) as [fs1 [u'|e]]; [|injection H as <- <-; exact Logic.I].
    destruct (drawPass (o k) v pi p s s1) as [p1|e] eqn:D; [|injection H as <- <-; exact Logic.I].
    rewrite (none_drawn _ _ _ _ _ _ _ L D) in H. exact (IH _ _ _ _ _ _ H).
  Qed.
  Lemma main_figs r32 (X : conv F) (W : world F) file ow ans1 ans2 af n o fs fs' out y :
    prepare X W r32 file = Ok y -> let T := mdTP (ryM y) in (tStart T <= tEnd T)%Z -> (0 <= tMorDtMin T)%Z ->
    main X W r32 file ow ans1 ans2 af n o fs = (fs', out) ->
    match out with
    | Running t p | Finished t p =>
      if (0 <? mdPlotInt (ryM y))%Z then illustrates (tStart T) (mdPlotInt (ryM y)) (gTime t) p else lvFigs p = []
    | Raised _ => True
    end.
  Proof.
    intros Y. cbv zeta. intros H1 H2 H. unfold main in H. rewrite Y in H.
    destruct (mainFiles r32 fs _ _ _ _ ow ans1 ans2 _ _) as [fs1 [u|e]] eqn:MF; [|injection H as <- <-; exact I].
    destruct (firstFig y) as [p|e] eqn:FF; [|injection H as <- <-; exact I].
    destruct (prepared _ _ _ _ _ Y) as (_ & St & EV & _).
    assert (TT : vTP (ryV y) = mdTP (ryM y)) by (rewrite EV; reflexivity).
    unfold start in St. bok St m0. bok St s0. apply Ok_inj in St. injection St as Ev Ess. destruct (init_facts _ _ _ _ _ _ _ _ _ _ _ _ _ _ _ _ _ Es0) as (I1 & I2 & _).
    rewrite Ev, TT in I1, I2. rewrite Ess in I1, I2.
    destruct (0 <? mdPlotInt (ryM y))%Z eqn:Q.
    - apply Z.ltb_lt in Q. eapply passes_ill; [| |exact H].
      + split; rewrite ?TT; lia.
      + rewrite I1. apply first_ill; auto.
    - unfold firstFig in FF. rewrite Q in FF. apply Ok_inj in FF. apply Z.ltb_ge in Q. pose proof (passes_none _ _ _ _ _ _ _ Q _ _ _ _ _ _ _ H) as R.
      destruct out; [| |exact I]; rewrite R, <- FF; reflexivity.
  Qed.

  (** A drawing agrees with the records of its pass, and takes the closed flag from the start of the pass. *)
  Lemma draw_agrees af (o : oracle F) v pi (p : live F) s s' p' : step af o v s = Ok s' -> drawPass o v pi p s s' = Ok p' -> due pi p s' = true ->
    exists r g shut, lvBdy p' = lvBdy p ++ [r] /\ lvFigs p' = lvFigs p ++ [g] /\ bdT r = gTime s' /\
      (exists c, SRun.assembled v s = Ok c /\ chClosed c = shut) /\
      plCliff (fgPlan g) <> [] /\ (shut = true -> plShore (fgPlan g) = feature tY0 (gT s') /\ plLagoon (fgPlan g) = feature tY3 (gT s') /\ plOutlet (fgPlan g) = [lifted]) /\
      (forall w, gOuts s' = gOuts s ++ [w] -> wTime w = bdT r /\ wFlow w = bdIn r /\ wSea w = bdSea r /\ wClosed w = shut /\ wT w = gT s') /\
      (forall b, gTs s' = gTs s ++ [b] -> sTime b = bdT r /\ sFlow b = bdIn r /\ sOutflow b = bdOut r /\ sSea b = bdSea r /\ sClosedT b = shut).
  Proof.
    intros H D Du. unfold drawPass in D. rewrite Du in D. bok D x. destruct x as [[[[[c flow] sea] dep] vel] bed].
    unfold passFlow in Ex. bok Ex c'. cbv zeta in Ex. bok Ex flow'. bok Ex sea'. bok Ex dv. destruct dv as [dep' vel']. apply Ok_inj in Ex. injection Ex as <- <- <- <- <- <-.
    bok D ls. bok D q. bok D d. bok D u. bok D w. bok D z. cbv zeta in D. bok D pv. apply Ok_inj in D. subst p'.
    unfold step in H. cbv zeta in H. rewrite Ec' in H. cbn [bind] in H. rewrite Eflow', Esea' in H. cbn [bind] in H. rewrite Edv in H. cbn [bind] in H.
    bok H st. destruct st as [[[[[lwl lvel] odep] ovel] edep] evel].
    bok H u0. bok H dir. bok H pow. bok H per. bok H len. bok H hs. rewrite Ez in H. cbn [bind] in H. rewrite Eq in H. cbn [bind] in H.
    bok H co. destruct co as [cst ov]. bok H m. bok H rdep. bok H rvel. bok H oo. destruct oo as [outs outT]. bok H tt0. destruct tt0 as [ts tsT]. apply Ok_inj in H. subst s'.
    cbn [gTime gT gE0 gE1 gW gOuts gTs lvBdy lvFigs] in *.
    eexists _, _, (chClosed c'). split; [reflexivity|]. split; [reflexivity|]. split; [reflexivity|]. cbn [bdT bdIn bdOut bdSea fgPlan].
    split; [exists c'; split; [exact Ec'|reflexivity]|].
    split. { unfold planView in Epv. cbv zeta in Epv. bok Epv rl. bok Epv rr. bok Epv h. bok Epv a. bok Epv zz. destruct (chClosed c').
      - apply Ok_inj in Epv. subst pv. cbn [plCliff]. unfold cliffL. rewrite <- app_assoc. intros K. apply app_eq_nil in K as [_ K]. discriminate.
      - repeat match type of Epv with bind _ _ = _ => apply bind_ok in Epv as (? & _ & Epv) | (let (_, _) := ?x in _) = _ => destruct x | context [let (_, _) := ?x in _] => destruct x end.
        apply Ok_inj in Epv. subst pv. cbn [plCliff]. unfold cliffL. rewrite <- app_assoc. intros K. apply app_eq_nil in K as [_ K]. discriminate. }
    split. { intros Q. rewrite Q in Epv. destruct (closed_inv _ _ _ _ _ _ _ _ Epv) as (A & B & C & _). auto. }
    split.
    - intros w0 K. match type of Eoo with (if ?b then _ else _) = _ => destruct b end.
      + bok Eoo sb. destruct sb as [[lb ob] eb]. bok Eoo rb. apply Ok_inj in Eoo. injection Eoo as <- <-. apply app_inv_head in K. injection K as <-. repeat split.
      + apply Ok_inj in Eoo. injection Eoo as <- <-. exfalso. apply (f_equal (@List.length _)) in K. rewrite app_length in K. cbn [length] in K. lia.
    - intros b K. match type of Ett0 with (if ?b then _ else _) = _ => destruct b end.
      + rewrite Ed, Eu, Ew in Ett0. cbn [bind] in Ett0. bok Ett0 b0. apply Ok_inj in Ett0. injection Ett0 as <- <-. apply app_inv_head in K. injection K as <-. repeat split.
      + apply Ok_inj in Ett0. injection Ett0 as <- <-. exfalso. apply (f_equal (@List.length _)) in K. rewrite app_length in K. cbn [length] in K. lia.
  Qed.
  (** A pass in which the barrier is breached is drawn as closed. *)
  Lemma draw_stale af (o : oracle F) v pi (p : live F) s s' p' : step af o v s = Ok s' -> drawPass o v pi p s s' = Ok p' -> due pi p s' = true ->
    gClosed s = true -> exists g, lvFigs p' = lvFigs p ++ [g] /\ plOutlet (fgPlan g) = [lifted].
  Proof.
    intros H D Du C. destruct (draw_agrees _ _ _ _ _ _ _ _ H D Du) as (r & g & shut & _ & G & _ & (c & Ec & Sc) & _ & P & _).
    exists g. split; [exact G|]. apply P. subst shut. eapply asm_shut; eauto.
  Qed.

  (** The windows cannot be opened on a lagoon that starts closed. *)
  Lemma shut_first (X : conv F) (W : world F) r32 file y : prepare X W r32 file = Ok y -> mdClosed (ryM y) = true -> (0 < mdPlotInt (ryM y))%Z -> exists e, firstFig y = Exc e.
  Proof.
    intros Y C L. apply Z.ltb_lt in L.
    assert (O : chOutlet (ryC y) = []).
    { unfold prepare in Y. bok Y m. cbv zeta in Y. bok Y flow. bok Y sea. bok Y dir. bok Y hs. bok Y cdv. destruct cdv as [[c0 dep0] vel0].
      bok Y s. bok Y d. bok Y u. bok Y w. apply Ok_inj in Y. subst y. cbn [ryC ryM] in *. unfold firstChan in Ecdv. cbv zeta in Ecdv. bok Ecdv c.
      assert (c0 = c). { destruct (forallb _ _) in Ecdv; [bok Ecdv dv; destruct dv|]; apply Ok_inj in Ecdv; congruence. } subst c0.
      apply assemble_inv in Ec. destruct Ec. rewrite C in a_out. unfold outletPart in a_out. apply Ok_inj in a_out. congruence. }
    unfold firstFig. rewrite L. cbv zeta. destruct (longSection _ _ _ _ _ _) as [ls|e]; [|eexists; reflexivity]. cbn [bind].
    rewrite O. destruct (first_drawing (mdT (ryM y)) (pRiverWidth (mdP (ryM y))) (pSpitWidth (mdP (ryM y))) (mdE0 (ryM y)) (mdE1 (ryM y)) (mdW (ryM y)) None) as (e & ->).
    eexists; reflexivity.
  Qed.
  Lemma shut_plots r32 (X : conv F) (W : world F) file ow ans1 ans2 af n o fs y fs1 :
    prepare X W r32 file = Ok y -> let m := ryM y in mdClosed m = true -> (0 < mdPlotInt m)%Z ->
    mainFiles r32 fs (mdOut m) (mdTsOut m) (map tX (mdT m)) (length (mdRiver m)) ow ans1 ans2 (ryA y) (ryB y) = (fs1, Ok tt) ->
    exists e, main X W r32 file ow ans1 ans2 af n o fs = (fs1, Raised e).
  Proof.
    intros Y. cbv zeta. intros C L MF. destruct (shut_first _ _ _ _ _ Y C L) as (e & E). exists e. unfold main. rewrite Y, MF, E. reflexivity.
  Qed.
End Gen.
