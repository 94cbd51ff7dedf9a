(** C111: __main__.py, the command line and the log. *)
From Coq Require Import ZArith List Bool String Permutation.
From Verif Require Import Base Num MState MOut MCore MConf MMain MCli SConf SCli PCli.
Import ListNotations.
Local Open Scope string_scope.

Theorem C111_words : forall words c, parseArgs words = Some c <-> says words c.
Proof. exact parse_says. Qed.
Print Assumptions C111_words.

Theorem C111_order : forall words words', Permutation words words' -> parseArgs words = parseArgs words'.
Proof. exact parse_order. Qed.
Print Assumptions C111_order.

Theorem C111_messages : forall c rs logs con logs', logged c rs logs = (con, logs') ->
  exists kept, sieve (fun r => atLeast (threshold c) (fst r)) rs kept /\ con = map snd kept /\
    (forall n, n <> logName c -> logs' n = logs n) /\
    exists lines, logs' (logName c) = (logs (logName c) ++ lines)%list /\
      Forall2 (fun r l => exists pad, l = nameOf (fst r) ++ pad ++ ": " ++ snd r) kept lines.
Proof. exact logged_kept. Qed.
Print Assumptions C111_messages.

Theorem C111_name : forall c dir base ext, fileIn dir base ext (clFile c) -> logName c = base ++ "_log.txt".
Proof. exact log_named. Qed.
Print Assumptions C111_name.

Theorem C111_runs : forall {F : Type} {NF : Num F} words c X (W : world F) r32 a1 a2 af n o fs, says words c ->
  program words X W r32 a1 a2 af n o fs = Some (main X W r32 (clFile c) (clOver c) a1 a2 af n o fs).
Proof. exact @program_runs. Qed.
Print Assumptions C111_runs.

Theorem C111_refuses : forall {F : Type} {NF : Num F} words X (W : world F) r32 a1 a2 af n o fs, (forall c, ~ says words c) ->
  program words X W r32 a1 a2 af n o fs = None.
Proof. exact @program_refuses. Qed.
Print Assumptions C111_refuses.

Theorem C111_silent : forall {F : Type} {NF : Num F} words c X (W : world F) r32 a1 a2 b1 b2 af n o fs, says words c -> Exists asksOverwrite words ->
  program words X W r32 a1 a2 af n o fs = program words X W r32 b1 b2 af n o fs.
Proof. exact @program_silent. Qed.
Print Assumptions C111_silent.

(** Two configurations in different directories, one log. *)
Theorem C111_logs_refuted : logName (mkCli "/home/run1/Base.cnf" false false false) = "Base_log.txt" /\ logName (mkCli "/home/run2/Base.cnf" true false false) = "Base_log.txt".
Proof. exact log_shared. Qed.
Print Assumptions C111_logs_refuted.

Theorem C111_words_example : says ["-v"; "runs/Hurunui.cnf"; "--quiet"] (mkCli "runs/Hurunui.cnf" false true true) /\
  parseArgs ["a.cnf"; "b.cnf"] = None /\ parseArgs ["-o"] = None /\ parseArgs ["-x"; "a.cnf"] = None.
Proof. exact cli_case. Qed.
Print Assumptions C111_words_example.

Theorem C111_messages_example : logged (mkCli "runs/Hurunui.cnf" false false false) [(Debug, "a"); (Info, "b"); (Warning, "c")] (fun _ => ["old"]) =
  (["b"; "c"], fun n => if String.eqb n "Hurunui_log.txt" then ["old"; "INFO   : b"; "WARNING: c"] else ["old"]).
Proof. exact log_case. Qed.
Print Assumptions C111_messages_example.
