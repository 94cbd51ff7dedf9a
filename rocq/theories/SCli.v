(** Specification vocabulary for the command line. *)
From Coq Require Import ZArith List Bool String Ascii.
From Verif Require Import Base Num MCli.
Import ListNotations.
Local Open Scope string_scope.

Definition asksOverwrite (w : string) : Prop := w = "-o" \/ w = "--Overwrite".
Definition asksVerbose (w : string) : Prop := w = "-v" \/ w = "--verbose".
Definition asksQuiet (w : string) : Prop := w = "-q" \/ w = "--quiet".
Definition isFlag (w : string) : Prop := asksOverwrite w \/ asksVerbose w \/ asksQuiet w.
(** A word with a dash in front of something. *)
Definition isDashed (w : string) : Prop := exists c r, w = String "-" (String c r).
(** [c] is what the words say: one word is the configuration file, the others are flags. *)
Definition says (words : list string) (c : cli) : Prop :=
  ~ isDashed (clFile c) /\
  (exists a b, words = (a ++ clFile c :: b)%list /\ Forall isFlag a /\ Forall isFlag b) /\
  (clOver c = true <-> Exists asksOverwrite words) /\
  (clVerb c = true <-> Exists asksVerbose words) /\
  (clQuiet c = true <-> Exists asksQuiet words).

(** Message [r] is at least as severe as [l]. *)
Definition atLeast (l : level) (r : level) : Prop :=
  match l, r with
  | Debug, _ => True
  | Info, Debug => False | Info, _ => True
  | Warning, (Debug | Info) => False | Warning, _ => True
  | Error, (Error | Critical) => True | Error, _ => False
  | Critical, Critical => True | Critical, _ => False
  end.
(** [l'] is [l] without the entries that [P] rejects. *)
Inductive sieve {A} (P : A -> Prop) : list A -> list A -> Prop :=
| sv_nil : sieve P [] []
| sv_keep a l l' : P a -> sieve P l l' -> sieve P (a :: l) (a :: l')
| sv_drop a l l' : ~ P a -> sieve P l l' -> sieve P (a :: l) l'.
(** The least severe messages shown. *)
Definition threshold (c : cli) : level := if clQuiet c then Warning else if clVerb c then Debug else Info.
Definition nameOf (l : level) : string :=
  match l with Debug => "DEBUG" | Info => "INFO" | Warning => "WARNING" | Error => "ERROR" | Critical => "CRITICAL" end.
