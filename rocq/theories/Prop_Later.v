Set Warnings "-inexact-float".
(** C120: the date of a run does not matter. *)
From Coq Require Import ZArith List Bool Reals Floats.
From Verif Require Import Base Num Xr Flt MState MCoast MRiv MMor MOut MCore SAdapt SShift SLater PLater PLater2 Sim SimEx PCoreEx.
Import ListNotations.

(** core.py:107-258 in exact arithmetic: with start, end, clock, due times and all series later by [d], any number of passes gives the same
    with all times later by [d], and fails where and as it did. *)
Theorem C120_passes : forall d af o (v : env xr) n k s,
  steps af n k o (laterSetup d v) (laterRun d s) = thenDo (laterRun d) (steps af n k o v s).
Proof. exact steps_date. Qed.
Print Assumptions C120_passes.

(** The whole loop. *)
Theorem C120_loop : forall d af o (v : env xr) n k s,
  loop af n k o (laterSetup d v) (laterRun d s) = thenDo (laterRun d) (loop af n k o v s).
Proof. exact loop_date. Qed.
Print Assumptions C120_loop.

(** core.py:35-60: the first variables of a run. *)
Theorem C120_start : forall d (v : env xr) T e0 e1 W Z0 River RWL RV LWL LVel OD OV ED EV closed,
  init (laterSetup d v) T e0 e1 W Z0 River RWL RV LWL LVel OD OV ED EV closed =
  thenDo (laterRun d) (init v T e0 e1 W Z0 River RWL RV LWL LVel OD OV ED EV closed).
Proof. exact init_date. Qed.
Print Assumptions C120_start.

(** For any kind of numbers in which the difference of two converted instants does not depend on the date. *)
Theorem C120_anyNumbers : forall (F : Type) (NF : Num F) d, (forall a b : Z, (fofZ (a + d) - fofZ (b + d) = fofZ a - fofZ b)%n) ->
  forall af o (v : env F) n k s, steps af n k o (laterSetup d v) (laterRun d s) = thenDo (laterRun d) (steps af n k o v s).
Proof. exact @steps_later. Qed.
Print Assumptions C120_anyNumbers.

(** Refuted: that doubles are of that kind.  Instants are nanoseconds since 1970; 2^60 of them are 36 years, and doubles there are 256 apart. *)
Theorem C120_nanoseconds_refuted : @at1 float float_num [(0%Z, 0%float); (1000%Z, 1000%float)] 100 = Ok 100%float /\
  @at1 float float_num (laterSeries (2 ^ 60) [(0%Z, 0%float); (1000%Z, 1000%float)]) (100 + 2 ^ 60) = Ok 0%float.
Proof. exact nanoseconds_refuted. Qed.
Print Assumptions C120_nanoseconds_refuted.

(** A run with doubles that opens its outlet, one day later. *)
Theorem C120_example : thenDo (laterRun day) (after vFill true 6) = after (laterSetup day vFill) true 6 /\ clock (after (laterSetup day vFill) true 6) = Ok (sec 86760, sec 60, false, 6%nat, 6%nat).
Proof. exact tomorrow. Qed.
Print Assumptions C120_example.
