(** Proofs about runs under different contents of uninitialised memory. *)
From Coq Require Import ZArith List Bool Lia String Reals Floats.
From Verif Require Import Base Num Xr MState MCoast MRiv MMor MOut MCore MLoad MVis MConf MMain Flt Sim SMor SPost SMem PCoast PGeom PLag PCore PFill PPost PTrunc PBreach PBreach2 PUpdate PUpdate2.
Import ListNotations.

(** ** Undefined values stick in exact and in double arithmetic *)
Lemma sticks_xr : @nanSticks xr _.
Proof. split; [reflexivity|]. intros [a| | |] [b| | |] [H|H]; try discriminate H; repeat split. Qed.
Lemma nan_prim x : PrimFloat.is_nan x = true <-> Prim2SF x = S754_nan.
Proof.
  unfold PrimFloat.is_nan. rewrite FloatAxioms.eqb_spec. destruct (Prim2SF x) as [s|s| |s m e]; cbn; split; intros H; try discriminate H; try reflexivity.
  - destruct s; discriminate H.
  - unfold SFeqb, SFcompare in H. destruct s; rewrite Z.compare_refl in H; cbn in H; rewrite Pos.compare_cont_refl in H; discriminate H.
Qed.
Lemma nan_both f g h x y : (forall a b, Prim2SF (f a b) = g (Prim2SF a) (Prim2SF b)) -> (forall a, g S754_nan a = S754_nan) -> (forall a, g a S754_nan = S754_nan) ->
  h = PrimFloat.is_nan (f x y) -> PrimFloat.is_nan x = true \/ PrimFloat.is_nan y = true -> h = true.
Proof. intros E L R -> H. apply nan_prim. rewrite E. destruct H as [H|H]; apply nan_prim in H; rewrite H; auto. Qed.
Lemma sticks_prim x y : PrimFloat.is_nan x = true \/ PrimFloat.is_nan y = true ->
  PrimFloat.is_nan (x + y)%float = true /\ PrimFloat.is_nan (x - y)%float = true /\ PrimFloat.is_nan (x * y)%float = true /\ PrimFloat.is_nan (x / y)%float = true /\
  (x <=? y)%float = false.
Proof.
  intros H. repeat split.
  - eapply (nan_both PrimFloat.add SF64add); eauto using FloatAxioms.add_spec; intros []; reflexivity.
  - eapply (nan_both PrimFloat.sub SF64sub); eauto using FloatAxioms.sub_spec; intros []; reflexivity.
  - eapply (nan_both PrimFloat.mul SF64mul); eauto using FloatAxioms.mul_spec; intros []; reflexivity.
  - eapply (nan_both PrimFloat.div SF64div); eauto using FloatAxioms.div_spec; intros []; reflexivity.
  - rewrite FloatAxioms.leb_spec. unfold SFleb. destruct H as [H|H]; apply nan_prim in H; rewrite H; [reflexivity|]. destruct (Prim2SF x) as [[]|[]| |[]]; reflexivity.
Qed.
Lemma sticks_float : @nanSticks float float_num.
Proof. split; [reflexivity|]. intros a b H. apply sticks_prim. exact H. Qed.
Lemma sticks_sim : @nanSticks float sim_num.
Proof. split; [reflexivity|]. intros a b H. apply sticks_prim. exact H. Qed.

(** ** One update *)
Section Gen.
Context {F : Type} {NF : Num F} (NS : @nanSticks F NF).
Local Ltac fl := cbn [tX tY0 tY1 tY2 tY3 tY4 tZ0 tZ1 tZ2 tZ3].
Section Memory.
  Variables (P : phys F) (T0 T : list (tsect F)) (pres : list bool) (x0 : nat) (e0 e1 W Zend : F) (outlet : list nat) (Closed : bool) (WL : list F).
  Hypothesis (L0 : length T0 = length T) (LP : length pres = length T).
  Lemma needs_true j1 j2 r : morBreach P j1 j2 T0 T pres x0 e0 e1 W Zend outlet Closed WL = Ok r ->
    forall i t, nth_error T i = Some t ->
      (fisnan (tY1 t) = true -> j1 i = true) /\
      (fisnan (tY1 t) = true \/ (tY3 t <? tY2 t)%n = false -> j2 i = true).
  Proof.
    destruct NS as (NN & NL). intros H i t Ht. destruct r as [[[[[T' eA] eB] W'] Z'] br].
    destruct (breach_inv _ _ _ _ _ _ _ _ _ _ _ _ _ _ _ _ _ _ _ _ H) as [g].
    destruct (rows g L0 LP i t Ht) as (t0 & p & f' & c & q & t' & _ & _ & _ & Ef & Ec & _ & _ & Hq & Et & Ht').
    pose proof (forallb_nth _ _ _ _ (s8 _ _ _ _ _ _ _ _ _ _ _ _ _ _ _ _ _ _ _ _ g) Ht') as R. unfold rowOk in R.
    apply andb_true_iff in R as [R R3]. apply andb_true_iff in R as [R1 R2]. rewrite negb_true_iff in R1, R2.
    set (d := if lagoonIntersect j1 i t then dissolve t else t) in *. set (f := if shoreIntersect j2 i d then fillT P d else d) in *.
    assert (K3 : fisnan (tY3 f) = true -> False).
    { intros E. assert (E1 : fisnan (tY3 f') = true).
      { rewrite Ef. unfold eroded. destruct (NL (tY0 f) (tY3 f) (or_intror E)) as (_ & _ & _ & _ & ->). exact E. }
      assert (E2 : fisnan (tY3 c) = true) by (rewrite Ec; match goal with |- fisnan (tY3 (if ?v then _ else _)) = _ => destruct v end; exact E1).
      assert (E3 : fisnan (tY3 q) = true). { destruct Hq as [->|[_ ->]]; [exact E2|]. unfold breachT. fl. match goal with |- fisnan (if ?a <=? tY3 c then _ else _)%n = _ => destruct (NL a (tY3 c) (or_intror E2)) as (_ & _ & _ & _ & ->) end. exact E2. }
      assert (E4 : fisnan (tY3 t') = true) by (rewrite Et; destruct (Nat.eqb i x0); [unfold keepLagoon; destruct (_ <? _)%n; exact E3|exact E3]).
      congruence. }
    assert (K0 : fisnan (tY0 f) = true -> False).
    { intros E. assert (E1 : fisnan (tY0 f') = true).
      { rewrite Ef. unfold eroded. destruct (NL (tY0 f) (tY3 f) (or_introl E)) as (_ & _ & _ & _ & ->). exact E. }
      assert (E2 : fisnan (tY0 c) = true) by (rewrite Ec; match goal with |- fisnan (tY0 (if ?v then _ else _)) = _ => destruct v end; exact E1).
      assert (E3 : fisnan (tY0 q) = true) by (destruct Hq as [->|[_ ->]]; exact E2).
      assert (E4 : fisnan (tY0 t') = true) by (rewrite Et; destruct (Nat.eqb i x0); [unfold keepLagoon; destruct (_ <? _)%n; exact E3|exact E3]).
      congruence. }
    assert (D3 : fisnan (tY3 d) = true -> False) by (intros E; apply K3; unfold f; destruct (shoreIntersect _ _ _); exact E).
    assert (D1 : fisnan (tY1 d) = true -> j2 i = true).
    { intros E. destruct (j2 i) eqn:J; [auto|exfalso]. apply K0. unfold f, shoreIntersect. rewrite E. cbn [negb].
      rewrite J. cbn [negb]. unfold fillT. fl.
      apply NL. right. apply NL. left. apply NL. left. apply NL. left. exact E. }
    assert (A : fisnan (tY1 t) = true -> j1 i = true).
    { intros E. destruct (j1 i) eqn:J; [auto|exfalso]. apply D3. unfold d, lagoonIntersect. rewrite E. cbn [negb].
      rewrite J. cbn [negb]. unfold dissolve. fl. apply NL. right. apply NL. left. exact E. }
    assert (A2 : fisnan (tY1 t) = true -> fisnan (tY1 d) = true) by (intros E; unfold d; destruct (lagoonIntersect j1 i t); [exact NN|exact E]).
    split; [exact A|]. intros [E|G]; apply D1; [exact (A2 E)|]. destruct (fisnan (tY1 t)) eqn:E.
    - apply A2. reflexivity.
    - unfold d, lagoonIntersect. rewrite E, G. exact NN.
  Qed.
  Lemma breach_best j1 j2 r : morBreach P j1 j2 T0 T pres x0 e0 e1 W Zend outlet Closed WL = Ok r ->
    morBreach P (fun _ => true) (fun _ => true) T0 T pres x0 e0 e1 W Zend outlet Closed WL = Ok r.
  Proof.
    intros H1. pose proof (needs_true _ _ _ H1) as M1.
    assert (ED : dissolveStep j1 T = dissolveStep (fun _ => true) T).
    { apply mapi_ext. intros i t Ht. replace (lagoonIntersect j1 i t) with (lagoonIntersect (fun _ => true) i t); [reflexivity|].
      unfold lagoonIntersect. destruct (fisnan (tY1 t)) eqn:E; [|reflexivity]. cbn [negb]. rewrite (proj1 (M1 i t Ht) E). reflexivity. }
    assert (EF : forall i d, nth_error (dissolveStep (fun _ => true) T) i = Some d -> shoreIntersect j2 i d = shoreIntersect (fun _ => true) i d).
    { intros i d Hd. unfold shoreIntersect. destruct (fisnan (tY1 d)) eqn:E; [|reflexivity]. cbn [negb].
      rewrite dissolve_nth in Hd. destruct (nth_error T i) as [t|] eqn:Ht; [|discriminate]. cbn in Hd. apply Some_inj in Hd.
      assert (Q : fisnan (tY1 t) = true \/ (tY3 t <? tY2 t)%n = false).
      { destruct (lagoonIntersect (fun _ => true) i t) eqn:K in Hd; [|left; congruence]. unfold lagoonIntersect in K. apply negb_true_iff in K.
        destruct (fisnan (tY1 t)) eqn:X; cbn [negb] in K; [left; reflexivity | right; exact K]. }
      rewrite (proj2 (M1 i t Ht) Q). reflexivity. }
    rewrite <- H1. unfold morBreach, shoreFill. cbv zeta. rewrite ED. rewrite (mapi_ext _ _ _ EF). reflexivity.
  Qed.
End Memory.

Lemma update_best fuel j1 j2 (P : phys F) N TP T e0 e1 W Zend RiverElev online outlet LagoonWL OutletDep CW CD fl closed LST q CST OW dt m :
  updateMorphology fuel j1 j2 P N TP T e0 e1 W Zend RiverElev online outlet LagoonWL OutletDep CW CD fl closed LST q CST OW dt = Ok m ->
  updateMorphology fuel (fun _ => true) (fun _ => true) P N TP T e0 e1 W Zend RiverElev online outlet LagoonWL OutletDep CW CD fl closed LST q CST OW dt = Ok m.
Proof.
  intros H. destruct (update_inv _ _ _ _ _ _ _ _ _ _ _ _ _ _ _ _ _ _ _ _ _ _ _ _ _ _ H) as (a & T1 & pres & eA & eB & o1 & EA & EC & EB & _ & _ & L1 & LP & _ & _).
  pose proof (breach_best P T T1 pres (aX0 a) eA eB (aW a) (aZ a) o1 closed (aWL a) (eq_sym L1) LP j1 j2 _ EB) as M.
  rewrite <- H. unfold updateMorphology. rewrite EA. cbn [bind]. rewrite EC. cbn [bind]. rewrite EB, M. reflexivity.
Qed.
Lemma update_unique fuel j1 j2 k1 k2 (P : phys F) N TP T e0 e1 W Zend RiverElev online outlet LagoonWL OutletDep CW CD fl closed LST q CST OW dt m m' :
  updateMorphology fuel j1 j2 P N TP T e0 e1 W Zend RiverElev online outlet LagoonWL OutletDep CW CD fl closed LST q CST OW dt = Ok m ->
  updateMorphology fuel k1 k2 P N TP T e0 e1 W Zend RiverElev online outlet LagoonWL OutletDep CW CD fl closed LST q CST OW dt = Ok m' -> m = m'.
Proof. intros H1 H2. apply update_best in H1, H2. congruence. Qed.

Lemma step_best af (o : oracle F) v s s' : step af o v s = Ok s' -> step af (calm o) v s = Ok s'.
Proof.
  unfold step. cbv zeta. change (hydraulics (calm o)) with (hydraulics o). cbn [oJunk1 oJunk2 calm].
  match goal with |- context [updateMorphology ?a ?b ?c] => set (U := updateMorphology a b c) in *; set (V := updateMorphology a (fun _ => true) (fun _ => true)) end.
  repeat (match goal with
  | |- bind ?r _ = Ok _ -> bind ?r _ = Ok _ => destruct r as [?x|]; cbn [bind]; [|intros X; discriminate X]
  | |- (let (_, _) := ?p in _) = Ok _ -> _ => destruct p
  end).
  match goal with |- bind (U ?P ?N ?TP ?T ?e0 ?e1 ?W ?Z ?R ?on ?ou ?L ?O ?CW ?CD ?fl ?c ?lst ?b ?cst ?ow ?dt) _ = Ok _ -> _ => destruct (U P N TP T e0 e1 W Z R on ou L O CW CD fl c lst b cst ow dt) as [m|] eqn:E end; cbn [bind]; [|intros X; discriminate X].
  unfold U in E. apply update_best in E. fold V in E. rewrite E. cbn [bind]. intros X; exact X.
Qed.
Lemma steps_best af n : forall k (o : nat -> oracle F) v s s', steps af n k o v s = Ok s' -> steps af n k (calmAll o) v s = Ok s'.
Proof.
  induction n as [|n IH]; intros k o v s s' H; cbn [steps] in *; [exact H|]. bok H s1. apply step_best in Es1. unfold calmAll at 1. rewrite Es1. cbn [bind]. apply IH. exact H.
Qed.
Lemma steps_unique af n k (o o' : nat -> oracle F) v s s1 s2 : (forall i, oSolve (o i) = oSolve (o' i)) ->
  steps af n k o v s = Ok s1 -> steps af n k o' v s = Ok s2 -> s1 = s2.
Proof.
  intros E. revert k s. induction n as [|n IH]; intros k s H1 H2; cbn [steps] in *; [congruence|]. bok H1 t. bok H2 u. apply step_best in Et, Eu.
  assert (C : calm (o k) = calm (o' k)) by (unfold calm; rewrite E; reflexivity). rewrite C in Et. assert (t = u) by congruence. subst u. eapply IH; eassumption.
Qed.

Section Prog.
  Variables (r32 : F -> F) (outName tsName : string) (plotInt : Z) (af : nat) (o : nat -> oracle F) (v : env F).
  Notation run := (passes r32 outName tsName plotInt af).
  Lemma passes_best n : forall k fs s p fs' r, run n k o v fs s p = (fs', r) -> alive r -> run n k (calmAll o) v fs s p = (fs', r).
  Proof.
    induction n as [|n IH]; intros k fs s p fs' r H A; cbn [passes] in *; destruct (gTime s <=? tEnd (vTP v))%Z; try exact H.
    unfold calmAll at 1. destruct (step af (o k) v s) as [s'|e] eqn:E; [|injection H as _ <-; destruct A]. rewrite (step_best _ _ _ _ _ E).
    change (plotBed (calmAll o k)) with (plotBed (o k)). change (drawPass (calmAll o k)) with (drawPass (o k)).
    destruct (plotBed (o k) v plotInt p s s'); [|exact H]. destruct (saved r32 fs outName tsName s s') as [fs1 [u|e]]; [|exact H].
    destruct (drawPass (o k) v plotInt p s s') as [p'|e]; [|exact H]. apply IH; assumption.
  Qed.
  Lemma passes_disk n : forall k fs s p, exists m, (m <= n)%nat /\ fst (run n k o v fs s p) = fst (run m k (calmAll o) v fs s p).
  Proof.
    induction n as [|n IH]; intros k fs s p.
    - exists 0%nat. split; [lia|]. cbn [passes]. destruct (gTime s <=? tEnd (vTP v))%Z; reflexivity.
    - destruct (gTime s <=? tEnd (vTP v))%Z eqn:T; [|exists 0%nat; split; [lia|]; cbn [passes]; rewrite T; reflexivity].
      destruct (step af (o k) v s) as [s'|e] eqn:E; [|exists 0%nat; split; [lia|]; cbn [passes]; rewrite T, E; reflexivity].
      pose proof (step_best _ _ _ _ _ E) as E'.
      assert (D : plotBed (calmAll o k) v plotInt p s s' = plotBed (o k) v plotInt p s s' /\ drawPass (calmAll o k) v plotInt p s s' = drawPass (o k) v plotInt p s s') by (split; reflexivity).
      destruct D as (D1 & D2).
      assert (S1 : forall j, run (S j) k (calmAll o) v fs s p = match plotBed (o k) v plotInt p s s' with Exc e => (fs, Raised e) | Ok _ =>
         let (fs, r) := saved r32 fs outName tsName s s' in match r with Exc e => (fs, Raised e) | Ok _ =>
           match drawPass (o k) v plotInt p s s' with Exc e => (fs, Raised e) | Ok p' => run j (S k) (calmAll o) v fs s' p' end end end).
      { intros j. cbn [passes]. rewrite T. change (step af (calmAll o k) v s) with (step af (calm (o k)) v s). rewrite E', D1. destruct (plotBed (o k) v plotInt p s s'); [|reflexivity].
        destruct (saved r32 fs outName tsName s s') as [fs1 [u|e]]; [|reflexivity]. rewrite D2. reflexivity. }
      cbn [passes]. rewrite T, E.
      destruct (plotBed (o k) v plotInt p s s') eqn:G1; [|exists 1%nat; split; [lia|]; rewrite S1; reflexivity].
      destruct (saved r32 fs outName tsName s s') as [fs1 [u|e]] eqn:G2; [|exists 1%nat; split; [lia|]; rewrite S1; reflexivity].
      destruct (drawPass (o k) v plotInt p s s') as [p'|e] eqn:G3; [|exists 1%nat; split; [lia|]; rewrite S1; reflexivity].
      destruct (IH (S k) fs1 s' p') as (m & Hm & EQ). exists (S m). split; [lia|]. rewrite S1. exact EQ.
  Qed.
End Prog.
Lemma main_best X W r32 file ow a1 a2 af n (o : nat -> oracle F) fs fs' r :
  main X W r32 file ow a1 a2 af n o fs = (fs', r) -> alive r -> main X W r32 file ow a1 a2 af n (calmAll o) fs = (fs', r).
Proof.
  unfold main. destruct (prepare X W r32 file) as [y|]; [|intros H _; exact H].
  destruct (mainFiles _ _ _ _ _ _ _ _ _ _ _) as [fs1 [u|e]]; [|intros H _; exact H].
  destruct (firstFig y) as [p|]; [|intros H _; exact H]. apply passes_best.
Qed.
Lemma main_disk X W r32 file ow a1 a2 af n (o : nat -> oracle F) fs : exists m, (m <= n)%nat /\
  fst (main X W r32 file ow a1 a2 af n o fs) = fst (main X W r32 file ow a1 a2 af m (calmAll o) fs).
Proof.
  unfold main. destruct (prepare X W r32 file) as [y|]; [|exists 0%nat; split; [lia|reflexivity]].
  destruct (mainFiles _ _ _ _ _ _ _ _ _ _ _) as [fs1 [u|e]]; [|exists 0%nat; split; [lia|reflexivity]].
  destruct (firstFig y) as [p|]; [|exists 0%nat; split; [lia|reflexivity]]. apply passes_disk.
Qed.
Lemma passes_ext r32 a b plotInt af n : forall k (o o' : nat -> oracle F) v fs s p, (forall i, o i = o' i) ->
  passes r32 a b plotInt af n k o v fs s p = passes r32 a b plotInt af n k o' v fs s p.
Proof.
  induction n as [|n IH]; intros k o o' v fs s p E; cbn [passes]; destruct (gTime s <=? tEnd (vTP v))%Z; try reflexivity.
  rewrite (E k). destruct (step af (o' k) v s); [|reflexivity]. destruct (plotBed (o' k) v plotInt p s a0); [|reflexivity].
  destruct (saved r32 fs a b s a0) as [fs1 [u|e]]; [|reflexivity]. destruct (drawPass (o' k) v plotInt p s a0); [|reflexivity]. apply IH. exact E.
Qed.
Lemma main_ext X W r32 file ow a1 a2 af n (o o' : nat -> oracle F) fs : (forall i, o i = o' i) ->
  main X W r32 file ow a1 a2 af n o fs = main X W r32 file ow a1 a2 af n o' fs.
Proof.
  intros E. unfold main. destruct (prepare X W r32 file) as [y|]; [|reflexivity]. cbv zeta.
  match goal with |- context [mainFiles ?a ?b ?c ?d ?e ?f ?g ?h ?i ?j ?k] => destruct (mainFiles a b c d e f g h i j k) as [fs1 [u|x]] end; [|reflexivity].
  destruct (firstFig y); [|reflexivity]. apply passes_ext. exact E.
Qed.
Lemma main_unique X W r32 file ow a1 a2 af n (o o' : nat -> oracle F) fs fs1 fs2 r1 r2 : (forall i, oSolve (o i) = oSolve (o' i)) ->
  main X W r32 file ow a1 a2 af n o fs = (fs1, r1) -> main X W r32 file ow a1 a2 af n o' fs = (fs2, r2) -> alive r1 -> alive r2 -> fs1 = fs2 /\ r1 = r2.
Proof.
  intros E H1 H2 A1 A2. apply main_best in H1; [|exact A1]. apply main_best in H2; [|exact A2].
  rewrite (main_ext _ _ _ _ _ _ _ _ _ (calmAll o) (calmAll o')) in H1 by (intros i; unfold calmAll, calm; rewrite E; reflexivity).
  rewrite H1 in H2. injection H2 as -> ->. auto.
Qed.
End Gen.
