Set Warnings "-inexact-float".
(** The program of PMainEx.v with other contents of uninitialised memory. *)
From Coq Require Import ZArith List Bool Floats String Ascii Lia.
From Verif Require Import Base Num Flt Sim SimEx MState MOut MCore MConf MMain SMain SMem SAdapt PConfEx PCoreEx PMainEx.
Import ListNotations.
Local Open Scope string_scope.

(** Memory that holds [b] in both uninitialised arrays *)
Definition memOr (b : nat -> bool) (_ : nat) : oracle float := mkOr simSolve b b.
Definition memMain (b : nat -> bool) (n : nat) : fsys float * outcome float :=
  @main float sim_num exX (exWorld (plotEntries "0")) idF exFile false "" "" 40 n (memOr b) noFiles.
(** Two passes: the same with false in memory at the one transect that has a channel; with false at
    another transect the first update fails. *)
Lemma mem_ten : shown (memMain (fun i => negb (Nat.eqb i 10)) 2) = ([0%Z; sec 960; sec 2880], [0%Z; sec 960; sec 2880], Ok (sec 2880, [], 0)).
Proof. vm_compute. reflexivity. Qed.
Lemma mem_all : shown (memMain (fun _ => true) 2) = ([0%Z; sec 960; sec 2880], [0%Z; sec 960; sec 2880], Ok (sec 2880, [], 0)).
Proof. vm_compute. reflexivity. Qed.
Lemma mem_zero : shown (memMain (fun i => negb (Nat.eqb i 0)) 2) = ([0%Z], [0%Z], Exc EAssert).
Proof. vm_compute. reflexivity. Qed.
Lemma shown_alive r a b c : shown r = (a, b, Ok c) -> alive (snd r).
Proof. unfold shown. destruct (snd r); [exact (fun _ => I)..|discriminate]. Qed.
Lemma mem_alive : alive (snd (memMain (fun i => negb (Nat.eqb i 10)) 2)) /\ alive (snd (memMain (fun _ => true) 2)) /\
  shown (memMain (fun i => negb (Nat.eqb i 10)) 2) = ([0%Z; sec 960; sec 2880], [0%Z; sec 960; sec 2880], Ok (sec 2880, [], 0)) /\
  shown (memMain (fun i => negb (Nat.eqb i 0)) 2) = ([0%Z], [0%Z], Exc EAssert).
Proof. exact (conj (shown_alive _ _ _ _ mem_ten) (conj (shown_alive _ _ _ _ mem_all) (conj mem_ten mem_zero))). Qed.
