(** C116: core.py:107-228, what a run of passes keeps. *)
From Coq Require Import ZArith List Bool Reals Floats.
From Verif Require Import Base Num Xr Flt Sim SimEx MState MMor MOut MCore SRun SNext SKeep PCoreEx PKeep PKeepEx.
Import ListNotations.

Theorem C116_grid : forall {F : Type} {NF : Num F} af v o n k (s s' : state F), steps af n k o v s = Ok s' ->
  map tX (gT s') = map tX (gT s) /\ length (gRiver s') = length (gRiver s).
Proof. exact @steps_grid. Qed.
Print Assumptions C116_grid.

Theorem C116_mapped : forall {F : Type} {NF : Num F} af v o n k (s s' : state F), steps af (S n) k o v s = Ok s' -> mapped (gT s').
Proof. exact @steps_mapped. Qed.
Print Assumptions C116_mapped.

(** Every record the run adds to the results file is on the grid the run started with. *)
Theorem C116_records : forall {F : Type} {NF : Num F} af v o n k (s s' : state F), steps af n k o v s = Ok s' ->
  exists r, gOuts s' = gOuts s ++ r /\
    forall w, In w r -> map tX (wT w) = map tX (gT s) /\ length (wRiv w) = length (gRiver s) /\ mapped (wT w).
Proof. exact @steps_records. Qed.
Print Assumptions C116_records.

(** Before each of its passes the seaward barrier has a width everywhere. *)
Theorem C116_stood : forall {F : Type} {NF : Num F} af v o n k (s s' : state F) j, (j < n)%nat -> steps af n k o v s = Ok s' ->
  exists t, steps af j k o v s = Ok t /\ forallb stands (gT t) = true.
Proof. exact @steps_stood. Qed.
Print Assumptions C116_stood.

(** Once it has not, the program fails whatever river, sea, parameters and solver do. *)
Theorem C116_stuck : forall {F : Type} {NF : Num F} af v o (s : state F), forallb stands (gT s) = false -> exists e, step af o v s = Exc e.
Proof. exact @step_stuck. Qed.
Print Assumptions C116_stuck.

Theorem C116_lagoon : forall af o (v : env xr) n w, pMinOutletWidth (vP v) = Fin w -> forall k (s s' : state xr), steps af (S n) k o v s = Ok s' ->
  exists i t, nth_error (gT s') i = Some t /\ (tX t =? f0)%n = true /\ forall y3 y4, tY3 t = Fin y3 -> tY4 t = Fin y4 -> (w <= y3 - y4)%R.
Proof. exact @steps_lagoon. Qed.
Print Assumptions C116_lagoon.

(** Six passes of a run that opens its outlet. *)
Theorem C116_example : exists s s', simInit vFill 30 true = Ok s /\ @steps float sim_num 100 6 0 simOr vFill s = Ok s' /\
  map tX (gT s) = [-80; -60; -40; -20; 0; 20; 40; 60; 80]%float /\ map tX (gT s') = [-80; -60; -40; -20; 0; 20; 40; 60; 80]%float /\
  length (gRiver s) = 5%nat /\ length (gRiver s') = 5%nat /\ gOuts s = [] /\ map (fun w => length (wT w)) (gOuts s') = [9; 9; 9; 9; 9; 9]%nat /\ forallb (@stands float sim_num) (gT s') = true.
Proof. exact @kept_run. Qed.
Print Assumptions C116_example.
