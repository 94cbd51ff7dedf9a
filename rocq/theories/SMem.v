(** Specification vocabulary: uninitialised memory that happens to hold the value true. *)
From Coq Require Import ZArith List Bool.
From Verif Require Import Base Num MState MOut MCore MMain.

(** Arithmetic in which undefined values stick: operations with one give one, and it compares as
    not less or equal. *)
Definition nanSticks {F} {NF : Num F} : Prop := fisnan fnan = true /\
  forall a b : F, fisnan a = true \/ fisnan b = true ->
    fisnan (a + b)%n = true /\ fisnan (a - b)%n = true /\ fisnan (a * b)%n = true /\ fisnan (a / b)%n = true /\ (a <=? b)%n = false.
(** The same environment, but with true everywhere in memory that has not been written. *)
Definition calm {F} (o : oracle F) : oracle F := mkOr (oSolve o) (fun _ => true) (fun _ => true).
Definition calmAll {F} (o : nat -> oracle F) (k : nat) : oracle F := calm (o k).
(** A program that has not raised anything (yet). *)
Definition alive {F} (r : outcome F) : Prop := match r with Raised _ => False | _ => True end.
