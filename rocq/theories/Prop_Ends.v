Set Warnings "-inexact-float".
(** C126: a simulation with plain time steps always ends, and with one of three exceptions. *)
From Coq Require Import ZArith List Bool Floats.
From Verif Require Import Base Num Flt MState MRiv MMor MCore SAdapt SEnds SRun PEnds PEndsEx Sim SimEx PCoreEx.
Import ListNotations.
Local Open Scope Z_scope.

(** core.py:107-235: a pass that fails raises IndexError, AssertionError or ValueError. *)
Theorem C126_pass : forall F (NF : Num F) af o (v : env F) s e, plainSteps (vTP v) -> gDt s < oneDay -> (47 <= af)%nat -> step af o v s = Exc e -> pyError e.
Proof. exact (fun F NF af o v s e P D A => @tstep F NF af o v s P D A e). Qed.
Print Assumptions C126_pass.

(** It has one outcome, however long one is prepared to wait for it. *)
Theorem C126_outcome : forall F (NF : Num F) af o (v : env F) s, plainSteps (vTP v) -> gDt s < oneDay -> (47 <= af)%nat -> step af o v s = step 47 o v s.
Proof. exact @step_more. Qed.
Print Assumptions C126_outcome.

(** core.py:36-235: so does a simulation. *)
Theorem C126_run : forall F (NF : Num F) o (v : env F) T e0 e1 W Z0 River RWL RV LWL LVel OD OV ED EV Cl s0, plainSteps (vTP v) -> tStart (vTP v) <= tEnd (vTP v) ->
  init v T e0 e1 W Z0 River RWL RV LWL LVel OD OV ED EV Cl = Ok s0 ->
  exists e, pyError e /\ forall af fuel, (47 <= af)%nat -> (tEnd (vTP v) - tStart (vTP v)) / tHydDt (vTP v) + 2 < Z.of_nat fuel -> loop af fuel 0 o v s0 = Exc e.
Proof. exact @run_ends. Qed.
Print Assumptions C126_run.

(** Refuted for morphological steps of up to 80000 s: this simulation never gets through its first pass. *)
Theorem C126_long_refuted : tMorDtMin (vTP vEver) = sec 15 /\ tMorDtMax (vTP vEver) = sec 80000 /\ exists s, simInit vEver 30 false = Ok s /\ forall af, @step float sim_num af (simOr 0) vEver s = Exc EFuel.
Proof. exact never. Qed.
Print Assumptions C126_long_refuted.

(** A simulation of an hour that meets the hypotheses. *)
Theorem C126_example : plainSteps (vTP vLong) /\ tStart (vTP vLong) <= tEnd (vTP vLong) /\ exists s, simInit vLong 30 false = Ok s /\ @loop float sim_num 47 800 0 simOr vLong s = Exc EIndex.
Proof. exact plain_long. Qed.
Print Assumptions C126_example.
