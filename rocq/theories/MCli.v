(** Model of /repo/hapuamod/__main__.py: the command line and the log. *)
From Coq Require Import ZArith List Bool String Ascii.
From Verif Require Import Base Num MState MOut MCore MConf MMain.
Import ListNotations.
Local Open Scope string_scope.

(** ArgsIn (__main__.py:8-18). *)
Record cli := mkCli { clFile : string; clOver : bool; clVerb : bool; clQuiet : bool }.
Definition oneOf (l : list string) (a : string) : bool := existsb (String.eqb a) l.
(** An argument that argparse takes for an option: it begins with '-' and is longer than that. *)
Definition dashed (a : string) : bool :=
  match a with String c (String _ _) => Ascii.eqb c "-" | _ => false end.
(** Parser.parse_args() for the words behind the program name; None: argparse prints the usage and
    exits.  Simplifications: abbreviated (--over) and joined (-oq) options, -h, '--', and words with
    blanks or negative numbers (which argparse accepts as file names although they are dashed). *)
Fixpoint parseFrom (l : list string) (file : option string) (o v q : bool) : option cli :=
  match l with
  | [] => option_map (fun f => mkCli f o v q) file
  | a :: l =>
    if oneOf ["-o"; "--Overwrite"] a then parseFrom l file true v q
    else if oneOf ["-v"; "--verbose"] a then parseFrom l file o true q
    else if oneOf ["-q"; "--quiet"] a then parseFrom l file o v true
    else if dashed a then None
    else match file with None => parseFrom l (Some a) o v q | Some _ => None end
  end.
Definition parseArgs (l : list string) : option cli := parseFrom l None false false false.

(** logging: DEBUG, INFO, WARNING, ERROR, CRITICAL. *)
Inductive level := Debug | Info | Warning | Error | Critical.
Definition severity (l : level) : Z :=
  match l with Debug => 10 | Info => 20 | Warning => 30 | Error => 40 | Critical => 50 end.
Definition levelName (l : level) : string :=
  match l with Debug => "DEBUG" | Info => "INFO" | Warning => "WARNING" | Error => "ERROR" | Critical => "CRITICAL" end.
(** __main__.py:29-37, the same level for both handlers *)
Definition handlerLevel (c : cli) : level :=
  if clQuiet c then Warning else if clVerb c then Debug else Info.
(** __main__.py:24 *)
Definition logName (c : cli) : string := stem (baseName (clFile c)) ++ "_log.txt".
(** %(levelname)-7s *)
Fixpoint blanks (n : nat) : string := match n with O => "" | S n => String " " (blanks n) end.
Definition padTo (n : nat) (s : string) : string := s ++ blanks (n - String.length s).
(** __main__.py:39 *)
Definition logLine (r : level * string) : string := padTo 7 (levelName (fst r)) ++ ": " ++ snd r.
(** A record passes the root logger (DEBUG, __main__.py:22) and the handler. *)
Definition passes_ (lim : level) (r : level * string) : bool :=
  (severity Debug <=? severity (fst r))%Z && (severity lim <=? severity (fst r))%Z.
(** __main__.py:26-43: the lines on the console and the log files after the records [rs] of a run.
    logging.FileHandler opens the file for appending.  [logs]: the lines of every file. *)
Definition logged (c : cli) (rs : list (level * string)) (logs : string -> list string) : list string * (string -> list string) :=
  let kept := filter (passes_ (handlerLevel c)) rs in
  (map snd kept, fun n => if String.eqb n (logName c) then (logs n ++ map logLine kept)%list else logs n).

Section Cli.
  Context {F : Type} {NF : Num F}.
  (** __main__.py:45 *)
  Definition program (words : list string) (X : conv F) (W : world F) (r32 : F -> F) (ans1 ans2 : string)
             (af n : nat) (o : nat -> oracle F) (fs : fsys F) : option (fsys F * outcome F) :=
    match parseArgs words with
    | None => None
    | Some c => Some (main X W r32 (clFile c) (clOver c) ans1 ans2 af n o fs)
    end.
End Cli.
