(** Proofs about the command line and the log. *)
From Coq Require Import ZArith List Bool String Ascii Lia Permutation.
From Verif Require Import Base Num MState MOut MCore MConf MMain MCli SConf PConf3 SCli.
Import ListNotations.
Local Open Scope string_scope.

Lemma one_of2 a b w : oneOf [a; b] w = true <-> w = a \/ w = b.
Proof. unfold oneOf. cbn [existsb]. rewrite !orb_true_iff, !String.eqb_eq. intuition discriminate. Qed.
Lemma one_not2 a b w : oneOf [a; b] w = false <-> ~ (w = a \/ w = b).
Proof. rewrite <- one_of2. destruct (oneOf [a; b] w); intuition congruence. Qed.
Lemma dashed_is w : dashed w = true <-> isDashed w.
Proof.
  unfold isDashed. destruct w as [|c [|d r]]; cbn [dashed].
  - split; [discriminate|]. intros (c & r & H). discriminate H.
  - split; [discriminate|]. intros (d & r & H). discriminate H.
  - rewrite Ascii.eqb_eq. split; [intros ->; exists d, r; reflexivity | intros (d' & r' & H); injection H as -> _ _; reflexivity].
Qed.

(** The words read so far and the words to come. *)
Lemma parse_from l : forall file o v q c, parseFrom l file o v q = Some c <->
  (clOver c = true <-> o = true \/ Exists asksOverwrite l) /\
  (clVerb c = true <-> v = true \/ Exists asksVerbose l) /\
  (clQuiet c = true <-> q = true \/ Exists asksQuiet l) /\
  match file with
  | Some f => clFile c = f /\ Forall isFlag l
  | None => ~ isDashed (clFile c) /\ exists a b, l = (a ++ clFile c :: b)%list /\ Forall isFlag a /\ Forall isFlag b
  end.
Proof.
  assert (BB : forall b : bool, (b = true <-> b = true \/ False) <-> True) by (intros []; tauto).
  induction l as [|w l IH]; intros file o v q c.
  - cbn [parseFrom]. rewrite !Exists_nil. destruct file as [f|]; cbn [option_map].
    + split.
      * intros H. injection H as <-. cbn. destruct o, v, q; intuition (auto; discriminate).
      * destruct c as [f' o' v' q']; cbn. intros (A & B & C & -> & _). f_equal. f_equal.
        -- destruct o, o'; intuition congruence.
        -- destruct v, v'; intuition congruence.
        -- destruct q, q'; intuition congruence.
    + split; [discriminate|]. intros (_ & _ & _ & _ & a & b & H & _). destruct a; discriminate H.
  - assert (FL : forall (P : Prop), isFlag w -> (match file with Some f => clFile c = f /\ Forall isFlag l
        | None => ~ isDashed (clFile c) /\ exists a b, l = (a ++ clFile c :: b)%list /\ Forall isFlag a /\ Forall isFlag b end <->
        match file with Some f => clFile c = f /\ Forall isFlag (w :: l)
        | None => ~ isDashed (clFile c) /\ exists a b, w :: l = (a ++ clFile c :: b)%list /\ Forall isFlag a /\ Forall isFlag b end)).
    { intros _ Fw. destruct file as [f|].
      - split; [intros (A & B); split; [exact A | constructor; assumption] | intros (A & B); split; [exact A | inversion B; assumption]].
      - split.
        + intros (D & a & b & -> & A & B). split; [exact D|]. exists (w :: a), b. split; [reflexivity|]. split; [constructor; assumption | exact B].
        + intros (D & a & b & E & A & B). split; [exact D|]. destruct a as [|w' a]; cbn in E.
          * exfalso. injection E as E _. apply D. rewrite <- E.
            destruct Fw as [[->| ->]|[[->| ->]|[->| ->]]]; unfold isDashed; eexists _, _; reflexivity.
          * injection E as <- ->. exists a, b. split; [reflexivity|]. split; [inversion A; assumption | exact B]. }
    assert (EX : forall P : string -> Prop, Exists P (w :: l) <-> P w \/ Exists P l) by (intros P; apply Exists_cons).
    cbn [parseFrom]. rewrite !EX.
    destruct (oneOf ["-o"; "--Overwrite"] w) eqn:E1; [|destruct (oneOf ["-v"; "--verbose"] w) eqn:E2; [|destruct (oneOf ["-q"; "--quiet"] w) eqn:E3]].
    + apply one_of2 in E1. rewrite IH, (FL True) by (left; exact E1).
      assert (~ asksVerbose w /\ ~ asksQuiet w) by (split; intros [G|G]; destruct E1 as [E1|E1]; congruence).
      unfold asksOverwrite at 2. tauto.
    + apply one_of2 in E2. apply one_not2 in E1. rewrite IH, (FL True) by (right; left; exact E2).
      assert (~ asksOverwrite w /\ ~ asksQuiet w) by (split; intros [G|G]; destruct E2 as [E2|E2]; congruence).
      unfold asksVerbose at 2. tauto.
    + apply one_of2 in E3. rewrite IH, (FL True) by (right; right; exact E3).
      assert (~ asksOverwrite w /\ ~ asksVerbose w) by (split; intros [G|G]; destruct E3 as [E3|E3]; congruence).
      unfold asksQuiet at 2. tauto.
    + apply one_not2 in E1, E2, E3.
      assert (NF : ~ isFlag w) by (unfold isFlag, asksOverwrite, asksVerbose, asksQuiet; tauto).
      assert (NO : ~ asksOverwrite w) by (unfold asksOverwrite; tauto).
      assert (NV : ~ asksVerbose w) by (unfold asksVerbose; tauto).
      assert (NQ : ~ asksQuiet w) by (unfold asksQuiet; tauto).
      destruct (dashed w) eqn:D.
      * apply dashed_is in D. split; [discriminate|]. intros (_ & _ & _ & H). exfalso. destruct file as [f|].
        -- destruct H as (_ & H). inversion H; subst. contradiction.
        -- destruct H as (ND & a & b & E & A & _). destruct a as [|w' a]; cbn in E; injection E as E0 _; subst; [contradiction|].
           inversion A; subst. contradiction.
      * assert (ND : ~ isDashed w) by (intros H; apply dashed_is in H; congruence).
        destruct file as [f|].
        -- split; [discriminate|]. intros (_ & _ & _ & _ & H). inversion H; subst. contradiction.
        -- rewrite IH.
           assert (K : (clFile c = w /\ Forall isFlag l) <-> (~ isDashed (clFile c) /\ exists a b, w :: l = (a ++ clFile c :: b)%list /\ Forall isFlag a /\ Forall isFlag b)).
           { split.
             - intros (-> & B). split; [exact ND|]. exists [], l. split; [reflexivity|]. split; [constructor | exact B].
             - intros (_ & a & b & E & A & B). destruct a as [|w' a]; cbn in E; injection E as E1' E2'.
               + split; [symmetry; exact E1' | rewrite E2'; exact B].
               + subst w'. inversion A; subst. contradiction. }
           rewrite K. tauto.
Qed.
Lemma parse_says words c : parseArgs words = Some c <-> says words c.
Proof.
  unfold parseArgs, says. rewrite parse_from.
  assert (T : forall P : Prop, (false = true \/ P) <-> P) by (intros P; split; [intros [H|H]; [discriminate|exact H] | tauto]).
  rewrite !T. tauto.
Qed.
Lemma flag_not_dashed w : isFlag w -> isDashed w.
Proof. intros [[->| ->]|[[->| ->]|[->| ->]]]; unfold isDashed; eexists _, _; reflexivity. Qed.
Lemma says_order words words' c : Permutation words words' -> says words c -> says words' c.
Proof.
  intros P (D & (a & b & E & A & B) & O & V & Q).
  assert (X : forall R : string -> Prop, Exists R words <-> Exists R words').
  { intros R. rewrite !Exists_exists. split; intros (x & I & H); exists x; (split; [|exact H]).
    - eapply Permutation_in; [exact P | exact I].
    - eapply Permutation_in; [apply Permutation_sym; exact P | exact I]. }
  unfold says. rewrite <- !X. split; [exact D|]. split; [|tauto].
  assert (I : In (clFile c) words') by (eapply Permutation_in; [exact P|]; rewrite E; apply in_or_app; right; left; reflexivity).
  apply in_split in I as (a' & b' & ->). exists a', b'. split; [reflexivity|].
  assert (P' : Permutation (a ++ b) (a' ++ b')). { apply (Permutation_app_inv a b a' b' (clFile c)). rewrite <- E. exact P. }
  assert (G : Forall isFlag (a' ++ b')).
  { apply Forall_forall. intros x J. apply (Permutation_in _ (Permutation_sym P')) in J. apply in_app_or in J as [J|J].
    - exact (proj1 (Forall_forall _ _) A x J).
    - exact (proj1 (Forall_forall _ _) B x J). }
  apply Forall_app in G. exact G.
Qed.
Lemma parse_order words words' : Permutation words words' -> parseArgs words = parseArgs words'.
Proof.
  intros P. destruct (parseArgs words) as [c|] eqn:E.
  - apply parse_says in E. symmetry. apply parse_says. eapply says_order; eassumption.
  - destruct (parseArgs words') as [c|] eqn:E'; [|reflexivity]. apply parse_says in E'.
    apply (says_order _ _ c (Permutation_sym P)), parse_says in E'. congruence.
Qed.

(** ** Log *)
Lemma append_assoc_ (a b c : string) : (a ++ b) ++ c = a ++ b ++ c.
Proof. induction a as [|x a IH]; cbn; [reflexivity | rewrite IH; reflexivity]. Qed.
Lemma passes_at lim r : passes_ lim r = true <-> atLeast lim (fst r).
Proof. destruct r as (l, s). destruct lim, l; cbn; intuition discriminate. Qed.
Lemma filter_sieve {A} (p : A -> bool) (P : A -> Prop) l : (forall a, p a = true <-> P a) -> sieve P l (filter p l).
Proof.
  intros H. induction l as [|a l IH]; cbn [filter]; [constructor|].
  destruct (p a) eqn:E; constructor; try assumption; [apply H, E | intros G; apply H in G; congruence].
Qed.
Lemma logged_kept c rs logs con logs' : logged c rs logs = (con, logs') ->
  exists kept, sieve (fun r => atLeast (threshold c) (fst r)) rs kept /\ con = map snd kept /\
    (forall n, n <> logName c -> logs' n = logs n) /\
    exists lines, logs' (logName c) = (logs (logName c) ++ lines)%list /\
      Forall2 (fun r l => exists pad, l = levelName (fst r) ++ pad ++ ": " ++ snd r) kept lines.
Proof.
  unfold logged. intros H. injection H as <- <-. exists (filter (passes_ (handlerLevel c)) rs).
  split; [apply filter_sieve, passes_at|]. split; [reflexivity|]. split.
  - intros n N. destruct (String.eqb_spec n (logName c)); [contradiction | reflexivity].
  - rewrite String.eqb_refl. eexists. split; [reflexivity|].
    induction (filter _ rs) as [|r l IH]; cbn [map]; constructor; [|exact IH].
    exists (blanks (7 - String.length (levelName (fst r)))). unfold logLine, padTo. rewrite append_assoc_. reflexivity.
Qed.

Lemma log_named c dir base ext : fileIn dir base ext (clFile c) -> logName c = base ++ "_log.txt".
Proof. intros H. unfold logName. rewrite (proj2 (file_parts _ _ _ _ H)). reflexivity. Qed.

(** ** The program *)
Section Prog.
  Context {F : Type} {NF : Num F}.
  Lemma open_silent fs name (new : ncfile F) a b : openNew fs name new true a = openNew fs name new true b.
  Proof. unfold openNew. destruct (fs name); reflexivity. Qed.
  Lemma files_silent r32 fs n1 n2 (X : list F) nriv a1 a2 b1 b2 a b :
    mainFiles r32 fs n1 n2 X nriv true a1 a2 a b = mainFiles r32 fs n1 n2 X nriv true b1 b2 a b.
  Proof.
    unfold mainFiles, newOutFile, newTsOutFile. rewrite (open_silent fs n1 _ a1 b1).
    destruct (openNew fs n1 _ true b1) as (fs1, [u|e]); [|reflexivity].
    destruct (fs1 n1) as [f|]; [|reflexivity]. destruct (writeCurrent r32 f a) as [f'|e]; [|reflexivity].
    rewrite (open_silent _ n2 _ a2 b2). reflexivity.
  Qed.
  Lemma main_silent X (W : world F) r32 file a1 a2 b1 b2 af n o fs : main X W r32 file true a1 a2 af n o fs = main X W r32 file true b1 b2 af n o fs.
  Proof. unfold main. destruct (prepare X W r32 file) as [y|e]; [|reflexivity]. cbv zeta. rewrite (files_silent r32 fs _ _ _ _ a1 a2 b1 b2). reflexivity. Qed.
  Lemma program_silent words c X (W : world F) r32 a1 a2 b1 b2 af n o fs : says words c -> Exists asksOverwrite words ->
    program words X W r32 a1 a2 af n o fs = program words X W r32 b1 b2 af n o fs.
  Proof.
    intros S O. unfold program. pose proof S as (_ & _ & V & _). apply parse_says in S. rewrite S.
    rewrite (proj2 V O). rewrite (main_silent X W r32 (clFile c) a1 a2 b1 b2). reflexivity.
  Qed.
  Lemma program_runs words c X (W : world F) r32 a1 a2 af n o fs : says words c ->
    program words X W r32 a1 a2 af n o fs = Some (main X W r32 (clFile c) (clOver c) a1 a2 af n o fs).
  Proof. intros S. apply parse_says in S. unfold program. rewrite S. reflexivity. Qed.
  Lemma program_refuses words X (W : world F) r32 a1 a2 af n o fs : (forall c, ~ says words c) ->
    program words X W r32 a1 a2 af n o fs = None.
  Proof.
    intros H. unfold program. destruct (parseArgs words) as [c|] eqn:E; [|reflexivity]. apply parse_says in E. destruct (H c E).
  Qed.
End Prog.

(** ** Cases *)
Lemma cli_case : says ["-v"; "runs/Hurunui.cnf"; "--quiet"] (mkCli "runs/Hurunui.cnf" false true true) /\
  parseArgs ["a.cnf"; "b.cnf"] = None /\ parseArgs ["-o"] = None /\ parseArgs ["-x"; "a.cnf"] = None.
Proof. split; [apply parse_says; reflexivity | repeat split]. Qed.
Lemma log_case : logged (mkCli "runs/Hurunui.cnf" false false false) [(Debug, "a"); (Info, "b"); (Warning, "c")] (fun _ => ["old"]) =
  (["b"; "c"], fun n => if String.eqb n "Hurunui_log.txt" then ["old"; "INFO   : b"; "WARNING: c"] else ["old"]).
Proof.
  unfold logged. cbn. f_equal.
Qed.
Lemma log_shared : logName (mkCli "/home/run1/Base.cnf" false false false) = "Base_log.txt" /\ logName (mkCli "/home/run2/Base.cnf" true false false) = "Base_log.txt".
Proof. split; reflexivity. Qed.
