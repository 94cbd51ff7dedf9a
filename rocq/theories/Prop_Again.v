(** Carrying on from a record. *)
From Coq Require Import ZArith List Bool Reals Floats.
From Verif Require Import Base Num Xr Flt Sim MState MCoast MRiv MMor MOut MLoad MCore SAdapt SOut SRun SWatch SimEx PCoreEx SAgain PAgain PAgainEx PHotEx PAgainEx2 PAgain2.
Import ListNotations.
Local Open Scope num_scope.

(** ** C130: carrying on from a record *)
Theorem C130_restart (F : Type) (NF : Num F) (r32 : F -> F) : (f0 =? f0) = true -> (f1 =? f0) = false ->
  forall f l f' want start Dx k w x0 x1 s v v' c,
  ncTimes f = [] -> writeAll r32 f l = Ok f' -> nth_error (ncX f) 0 = Some x0 -> nth_error (ncX f) 1 = Some x1 -> (r32 (x1 - x0) =? Dx) = true ->
  nth_error l k = Some w -> closest (map wTime l) want k -> (forall j, closest (map wTime l) want j -> j = k) ->
  ncX f = map tX (gT s) -> shows w s -> keeps r32 w ->
  from (gTime s) v v' -> gDt s = tMorDtMin (vTP v) -> assembled v s = Ok c -> chClosed c = gClosed s ->
  length (gRVel s) = length (gRiver s) -> Forall (fun x => fisnan x = false) (gRDep s) -> Forall (fun x => fisnan x = false) (gRVel s) ->
  (exists x, In x (gLVel s) /\ (x =? f0) = false) ->
  (exists q, at1 (vFlow v) (gTime s) = Ok q) -> (exists z, at1 (vSea v) (gTime s) = Ok z) ->
  exists h s0, hotLoad r32 f' want start true Dx = Ok h /\ htStart h = gTime s /\ begins v' h = Ok s0 /\ samePlace s s0 /\
    forall af n j o, alike (steps af n j o v s) (steps af n j o v' s0) /\ alike (loop af n j o v s) (loop af n j o v' s0).
Proof. exact (restart r32). Qed.
Print Assumptions C130_restart.
(** The record a pass writes shows the state it ends in, unless the outlet was opened in that pass. *)
Theorem C130_shows (F : Type) (NF : Num F) af (o : oracle F) v s s' w : step af o v s = Ok s' -> gOuts s' = gOuts s ++ [w] ->
  (wClosed w = true -> gClosed s' = true) -> shows w s'.
Proof. exact (step_shows F NF af o v s s' w). Qed.
Print Assumptions C130_shows.
Theorem C130_example_shows : exists s s' w, simInit vFill 30%float true = Ok s /\ @step float sim_num 100 (simOr 0) vFill s = Ok s' /\ gOuts s' = gOuts s ++ [w] /\
  wClosed w = true /\ gClosed s' = true /\ shows w s'.
Proof. exact shows_case. Qed.
Print Assumptions C130_example_shows.
(** In real arithmetic all that is needed is that the numbers are there. *)
Theorem C130_real w : length (wRDep w) = length (wRiv w) -> length (wEDep w) = 2%nat -> length (wEVel w) = 2%nat -> allReal w ->
  keeps (fun x : xr => x) w.
Proof. exact (real_keeps w). Qed.
Print Assumptions C130_real.
Theorem C130_example_real : allReal (hW 60 90 true) /\ keeps (fun x : xr => x) (hW 60 90 true).
Proof. exact again_real. Qed.
Print Assumptions C130_example_real.
Theorem C130_example : exists f' h s0 s1 s2, shows agW agS /\ @keeps float sim_num keep agW /\ @writeAll float sim_num keep agFile [agW] = Ok f' /\
  @hotLoad float sim_num keep f' (sec 119) 0 true 20%float = Ok h /\ @begins float sim_num (agEnv 120 600) h = Ok s0 /\
  @steps float sim_num 100 2 0 simOr (agEnv 0 60) agS = Ok s1 /\ @steps float sim_num 100 2 0 simOr (agEnv 120 600) s0 = Ok s2 /\
  gTime s2 = sec 195 /\ gE1 s1 = gE1 s2 /\ PrimFloat.ltb (gE1 s2) 30%float = true.
Proof. exact again_case. Qed.
Print Assumptions C130_example.
(** The step length is not in the record: a restart takes the smallest. *)
Theorem C130_step (F : Type) (NF : Num F) (v : env F) h s0 : begins v h = Ok s0 -> gDt s0 = tMorDtMin (vTP v) /\ gTime s0 = tStart (vTP v).
Proof. exact (restart_dt v h s0). Qed.
Print Assumptions C130_step.
Theorem C130_always_refuted : exists f' h s0 s1 s2, shows agW (agAt 60) /\ @keeps float sim_num keep agW /\ @writeAll float sim_num keep agFile [agW] = Ok f' /\
  @hotLoad float sim_num keep f' (sec 119) 0 true 20%float = Ok h /\ @begins float sim_num (agEnv 120 600) h = Ok s0 /\
  @steps float sim_num 100 1 0 simOr (agEnv 0 60) (agAt 60) = Ok s1 /\ @steps float sim_num 100 1 0 simOr (agEnv 120 600) s0 = Ok s2 /\
  gTime s1 = sec 135 /\ gTime s2 = sec 180.
Proof. exact again_differs. Qed.
Print Assumptions C130_always_refuted.
