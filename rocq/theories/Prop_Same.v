Set Warnings "-inexact-float".
(** C122: which records of the driving conditions matter. *)
From Coq Require Import ZArith List Bool Reals Floats.
From Verif Require Import Base Num Xr Flt MState MCoast MRiv MMor MOut MCore SAdapt SCore SSame PSame PSameEx Sim SimEx PCoreEx.
Import ListNotations.
Local Open Scope Z_scope.

(** core.py:237-258, any kind of numbers: series with the same records around the asked times give the same answers, or fail alike. *)
Theorem C122_around : forall (F : Type) (NF : Num F) lo hi (s s' : series F), alike lo hi s s' -> answerAlike lo hi s s'.
Proof. exact @alike_answer. Qed.
Print Assumptions C122_around.

(** In exact arithmetic: so do series of which one has further records on the straight lines of the other. *)
Theorem C122_onLine : forall lo hi x x', refined lo hi x x' -> answerAlike lo hi x x'.
Proof. exact refined_answer. Qed.
Print Assumptions C122_onLine.

(** core.py:107-235: passes that ask within the time in which the series answer alike are the same, and fail alike. *)
Theorem C122_passes : forall (F : Type) (NF : Num F) lo hi (v v' : env F), drivenAlike (answerAlike lo hi) v v' -> 0 < tHydDt (vTP v) ->
  forall af o n k s, (forall m s1, (m < n)%nat -> steps af m k o v s = Ok s1 -> asksWithin lo hi s1) ->
  steps af n k o v' s = steps af n k o v s.
Proof. exact @steps_same. Qed.
Print Assumptions C122_passes.

(** The loop with its end. *)
Theorem C122_loop : forall (F : Type) (NF : Num F) lo hi (v v' : env F), drivenAlike (answerAlike lo hi) v v' -> 0 < tHydDt (vTP v) ->
  forall af o n k s, (forall m s1, (m < n)%nat -> steps af m k o v s = Ok s1 -> asksWithin lo hi s1) ->
  loop af n k o v' s = loop af n k o v s.
Proof. exact @loop_same. Qed.
Print Assumptions C122_loop.

(** core.py:35-235: a run from its start, with no condition on what it asks for but one on the dates: no pass is longer than the simulated time. *)
Theorem C122_run : forall (F : Type) (NF : Num F) lo hi (v v' : env F) af o, drivenAlike (answerAlike lo hi) v v' -> 0 < tHydDt (vTP v) ->
  lo <= tStart (vTP v) <= tEnd (vTP v) -> 0 <= tMorDtMin (vTP v) ->
  tEnd (vTP v) + (tEnd (vTP v) - tStart (vTP v)) <= hi -> tStart (vTP v) + tMorDtMin (vTP v) <= hi ->
  forall T e0 e1 W Z0 River RWL RV LWL LVel OD OV ED EV closed n,
  (let! s := init v' T e0 e1 W Z0 River RWL RV LWL LVel OD OV ED EV closed in steps af n 0 o v' s) =
  (let! s := init v T e0 e1 W Z0 River RWL RV LWL LVel OD OV ED EV closed in steps af n 0 o v s).
Proof. exact @run_same. Qed.
Print Assumptions C122_run.

(** Set-ups whose series are related in one of the two ways answer alike. *)
Theorem C122_setup : forall (F : Type) (NF : Num F) (r r' : series F -> series F -> Prop) v v', (forall s s', r s s' -> r' s s') -> drivenAlike r v v' -> drivenAlike r' v v'.
Proof. exact @driven_impl. Qed.
Print Assumptions C122_setup.

(** Refuted: that the record after the last asked time does not matter. *)
Theorem C122_edge_refuted : @at1 float float_num [(0, 1%float); (10, 1%float)] 5 = Ok 1%float /\ @at1 float float_num [(0, 1%float)] 5 = Exc EIndex.
Proof. exact edge_refuted. Qed.
Print Assumptions C122_edge_refuted.

(** Refuted: that with doubles a record may be added that has the value interpolated there. *)
Theorem C122_rounding_refuted : exists x, @at1 float float_num [(0, 0%float); (10, 1%float)] 3 = Ok x /\
  @at1 float float_num [(0, 0%float); (10, 1%float)] 1 <> @at1 float float_num [(0, 0%float); (3, x); (10, 1%float)] 1.
Proof. exact rounding_refuted. Qed.
Print Assumptions C122_rounding_refuted.

(** Wild weather before and after a run with doubles that opens its outlet. *)
Theorem C122_example : drivenAlike (alike 0 (sec 1000000)) vFill vStorms /\ 0 < tHydDt (vTP vFill) /\ 0 <= tStart (vTP vFill) <= tEnd (vTP vFill) /\
  0 <= tMorDtMin (vTP vFill) /\ tEnd (vTP vFill) + (tEnd (vTP vFill) - tStart (vTP vFill)) <= sec 1000000 /\ tStart (vTP vFill) + tMorDtMin (vTP vFill) <= sec 1000000.
Proof. exact storms_case. Qed.
Print Assumptions C122_example.
Theorem C122_run_example : clock (after vStorms true 6) = Ok (sec 360, sec 60, false, 6%nat, 6%nat).
Proof. exact storms_run. Qed.
Print Assumptions C122_run_example.

(** A record added on the line. *)
Theorem C122_line_example : refined 0 30 (data [(0, 1%R); (10, 3%R); (30, 2%R)]) (data [(0, 1%R); (5, 2%R); (10, 3%R); (30, 2%R)]).
Proof. exact gauge_refined. Qed.
Print Assumptions C122_line_example.
