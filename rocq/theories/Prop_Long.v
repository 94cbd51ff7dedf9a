Set Warnings "-inexact-float".
(** C123: a longer simulation begins like a shorter one. *)
From Coq Require Import ZArith List Bool Floats String.
From Verif Require Import Base Num Flt MState MCoast MRiv MMor MOut MCore MLoad MSynth MConf SConf SAdapt SCore SRun SSame SLong PLong PLong3 Sim SimEx PCoreEx PConf PConfEx PStartEx PLongEx.
From Verif Require Import SLoad.
Import ListNotations.
Local Open Scope Z_scope.

(** core.py:107-258: as long as the clock of the shorter run has not reached its end, the longer run does the same, records included. *)
Theorem C123_passes : forall (F : Type) (NF : Num F) lo hi (v v' : env F) af o n k s s1, longer (answerAlike lo hi) v v' -> 0 < tHydDt (vTP v) ->
  gTime s <= tEnd (vTP v) -> 0 <= gDt s ->
  (forall m s2, (m < n)%nat -> steps af m k o v s = Ok s2 -> asksWithin lo hi s2) ->
  steps af n k o v s = Ok s1 -> gTime s1 < tEnd (vTP v) -> steps af n k o v' s = Ok s1.
Proof. exact @longer_steps. Qed.
Print Assumptions C123_passes.

(** The pass that reaches the end moves the coast as the longer run does: only clock and records may differ. *)
Theorem C123_last : forall (F : Type) (NF : Num F) lo hi (v v' : env F) af o s a b, longer (answerAlike lo hi) v v' -> 0 < tHydDt (vTP v) -> asksWithin lo hi s ->
  step af o v s = Ok a -> step af o v' s = Ok b -> sameHapua a b /\ gTime a <= gTime b /\ (gTime a < tEnd (vTP v) -> a = b).
Proof. exact @longer_last. Qed.
Print Assumptions C123_last.

(** core.py:35-60: both start alike. *)
Theorem C123_start : forall (F : Type) (NF : Num F) lo hi (v v' : env F) T e0 e1 W Z0 River RWL RV LWL LVel OD OV ED EV closed,
  longer (answerAlike lo hi) v v' -> lo <= tStart (vTP v) <= hi ->
  init v' T e0 e1 W Z0 River RWL RV LWL LVel OD OV ED EV closed = init v T e0 e1 W Z0 River RWL RV LWL LVel OD OV ED EV closed.
Proof. exact @longer_init. Qed.
Print Assumptions C123_start.

(** loadmod.py: two configurations that differ in EndTime only load models that differ in the end and in records outside the shorter run only. *)
Theorem C123_loaded : forall (F : Type) (NF : Num F) (X : conv F) (W : world F) r r' r32 file c m m' n, validate X r = Ok c ->
  loadModel X (withConf W r) r32 file = Ok m -> loadModel X (withConf W r') r32 file = Ok m' -> onlyEnd r r' ->
  c "BoundaryConditions"%string "RiverFlow"%string = Some (CS n) -> ~ sameWord n "shotnoise" ->
  (forall f s, wdSeries W f = Ok s -> ordered_times s) -> (forall f s, wdWaves W f = Ok s -> ordered_times s) ->
  tStart (mdTP m) < tEnd (mdTP m) -> tEnd (mdTP m) <= tEnd (mdTP m') -> 0 <= tMorDtMax (mdTP m) ->
  onlyLater m m' /\ longer (alike (tStart (mdTP m)) (tEnd (mdTP m))) (envOf m) (envOf m').
Proof. exact @later_loaded. Qed.
Print Assumptions C123_loaded.

(** The whole program: as long as no pass of the shorter run asks for conditions after its end. *)
Theorem C123_program : forall (F : Type) (NF : Num F) (X : conv F) (W : world F) r r' r32 file c n v v' s s', validate X r = Ok c ->
  start X (withConf W r) r32 file = Ok (v, s) -> start X (withConf W r') r32 file = Ok (v', s') -> onlyEnd r r' ->
  c "BoundaryConditions"%string "RiverFlow"%string = Some (CS n) -> ~ sameWord n "shotnoise" ->
  (forall f l, wdSeries W f = Ok l -> ordered_times l) -> (forall f l, wdWaves W f = Ok l -> ordered_times l) ->
  tStart (vTP v) < tEnd (vTP v) -> tEnd (vTP v) <= tEnd (vTP v') -> 0 <= tMorDtMin (vTP v) -> 0 <= tMorDtMax (vTP v) -> 0 < tHydDt (vTP v) ->
  s' = s /\
  (forall af o k s1, (forall j s2, (j < k)%nat -> steps af j 0 o v s = Ok s2 -> gTime s2 + gDt s2 <= tEnd (vTP v)) ->
    steps af k 0 o v s = Ok s1 -> gTime s1 < tEnd (vTP v) -> steps af k 0 o v' s' = Ok s1).
Proof. exact @later_program. Qed.
Print Assumptions C123_program.

(** Refuted: that the coast a run ends with is the coast at EndTime.  core.py:179-180 shortens the step after the coast was moved by all of it: a run
    to 140 s ends with the coast the longer run has at 150 s, dated 140 s. *)
Theorem C123_final_refuted : timeOf' (after vCut false 5) = Some (sec 140) /\ timeOf' (after vFill false 5) = Some (sec 150) /\
  timeOf' (after vFill false 4) = Some (sec 120) /\
  hapuaOf (after vCut false 5) = hapuaOf (after vFill false 5) /\
  widthOf (after vCut false 5) = Some 30.033644057330623%float /\ widthOf (after vFill false 4) = Some 30.026825462505126%float.
Proof. exact cut_end. Qed.
Print Assumptions C123_final_refuted.

(** The set-up of that run is one of those above, and four passes of both are alike. *)
Theorem C123_example : longer (alike 0 (sec 1000000)) vCut vFill /\ 0 < tHydDt (vTP vCut).
Proof. exact cut_case. Qed.
Print Assumptions C123_example.
Theorem C123_example_run : clock (after vCut false 4) = clock (after vFill false 4) /\ isOk (after vCut false 4) = true.
Proof. exact cut_clocks. Qed.
Print Assumptions C123_example_run.

(** Two configuration files that differ in EndTime only, and two passes of both. *)
Theorem C123_program_example : onlyEnd (written exEntries) (written exLater).
Proof. exact later_only. Qed.
Print Assumptions C123_program_example.
Theorem C123_program_example_ends : endOf (exStart2 exEntries) = Some (0, sec 21600) /\ endOf (exStart2 exLater) = Some (0, sec 32400).
Proof. exact later_ends. Qed.
Print Assumptions C123_program_example_ends.
Theorem C123_program_example_run : runOf exEntries 2 = Ok (sec 2880, sec 1920) /\ runOf exLater 2 = Ok (sec 2880, sec 1920).
Proof. exact later_runs. Qed.
Print Assumptions C123_program_example_run.
Theorem C123_program_example_flow : flowName exEntries = Ok "LagoonInflow.csv"%string /\ isOk (@validate float sim_num exX2 (written exEntries)) = true.
Proof. exact later_flow. Qed.
Print Assumptions C123_program_example_flow.
Theorem C123_program_example_files : (forall f l, wdSeries (exWorld exEntries) f = Ok l -> ordered_times l) /\
  (forall f l, wdWaves (exWorld exEntries) f = Ok l -> ordered_times l).
Proof. exact later_files. Qed.
Print Assumptions C123_program_example_files.
