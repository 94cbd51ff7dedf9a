Set Warnings "-inexact-float".
(** C118: recording a run does not change it. *)
From Coq Require Import ZArith List Bool Floats.
From Verif Require Import Base Num Flt MState MCoast MRiv MMor MOut MCore SAdapt SWatch PWatch PWatchEx Sim SimEx PCoreEx.
Import ListNotations.

(** core.py:107-235, for any kind of numbers.  [n] passes with other output intervals, other due times and other records so far end in
    the same place or fail in the same way. *)
Theorem C118_passes : forall (F : Type) (NF : Num F) af o (v v' : env F), sameSetup v v' -> forall n k s s', samePlace s s' ->
  alike (steps af n k o v s) (steps af n k o v' s').
Proof. exact @steps_alike. Qed.
Print Assumptions C118_passes.

(** So does the whole loop; it takes the same number of passes. *)
Theorem C118_loop : forall (F : Type) (NF : Num F) af o (v v' : env F), sameSetup v v' -> forall n k s s', samePlace s s' ->
  alike (loop af n k o v s) (loop af n k o v' s').
Proof. exact @loop_alike. Qed.
Print Assumptions C118_loop.

(** There is one record of either kind per pass, [W] and [B], the same for all intervals; an interval decides only which of them are kept,
    and it does so from the times the passes end at and nothing else. *)
Theorem C118_records : forall (F : Type) (NF : Num F) af o n k (v : env F) (s s1 : state F), steps af n k o v s = Ok s1 ->
  exists W B, length W = n /\ map sTime B = map wTime W /\
    forall v' s', sameSetup v v' -> samePlace s s' -> exists s1', steps af n k o v' s' = Ok s1' /\ samePlace s1 s1' /\
      gOuts s1' = gOuts s' ++ picked (due (vOutInt v') (gOutT s') (map wTime W)) W /\
      gTs s1' = gTs s' ++ picked (due (vTsInt v') (gTsT s') (map wTime W)) B.
Proof. exact @steps_records. Qed.
Print Assumptions C118_records.

(** Six passes of a run that opens its outlet: six records or three, and one of the time series. *)
Theorem C118_example : exists s s1 s2, simInit vFill 30 true = Ok s /\ sameSetup vFill vRare /\ samePlace s s /\
  @steps float sim_num 100 6 0 simOr vFill s = Ok s1 /\ @steps float sim_num 100 6 0 simOr vRare s = Ok s2 /\ gClosed s2 = false /\
  map wTime (gOuts s1) = map sec [60; 120; 180; 240; 300; 360]%Z /\ map wTime (gOuts s2) = map sec [60; 240; 360]%Z /\ map sTime (gTs s2) = map sec [60]%Z.
Proof. exact watch_case. Qed.
Print Assumptions C118_example.
