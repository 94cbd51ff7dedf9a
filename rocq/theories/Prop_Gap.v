(** C96: core.py, boundary series with missing records. *)
From Coq Require Import ZArith List Bool Reals.
From Verif Require Import Base Num Xr MState MMor MCore SCore SGap PGap.
Import ListNotations.
Local Open Scope Z_scope.

Theorem C96_values : forall s new a b lo hi, inOrder s -> hd_error new = Some a -> hd_error (rev new) = Some b -> window s a b lo hi ->
  exists vs, interpolateAt (asData s) new = Ok vs /\ Forall2 (filled (known (during lo hi s))) new vs.
Proof. exact @gap_exact. Qed.
Print Assumptions C96_values.

Theorem C96_nan : forall s new a b lo hi vs k t, inOrder s -> hd_error new = Some a -> hd_error (rev new) = Some b -> window s a b lo hi ->
  interpolateAt (asData s) new = Ok vs -> nth_error new k = Some t -> t <= b ->
  (nth_error vs k = Some NaN <-> forall u w, In (u, Some w) s -> lo <= u -> t < u).
Proof. exact @gap_nan. Qed.
Print Assumptions C96_nan.

(** Refuted: a missing record is bridged by the valued records around it. *)
Theorem C96_bridged_refuted : interpolateAt (asData exGap) [12; 14] = Ok [NaN; NaN].
Proof. exact @gap_bridged. Qed.
Print Assumptions C96_bridged_refuted.

(** Refuted: the value at a time does not depend on the other times asked for. *)
Theorem C96_independent_refuted : interpolateAt (asData exGap) [5; 6] = Ok [Fin 1; Fin 1] /\
  interpolateAt (asData exGap) [5; 15] = Ok [Fin (3/2); Fin (5/2)].
Proof. exact @gap_depends. Qed.
Print Assumptions C96_independent_refuted.

Theorem C96_example : inOrder exGap /\ window exGap 12 14 10 20 /\ window exGap 5 6 0 10 /\ window exGap 5 15 0 20.
Proof. exact (conj exGap_order exGap_window). Qed.
