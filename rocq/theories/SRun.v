(** Specification vocabulary for whole runs (core.py:36-235). *)
From Coq Require Import ZArith List.
From Verif Require Import Base Num MState MRiv MMor MOut MCore.
Import ListNotations.
Local Open Scope Z_scope.

Section Run.
  Context {F : Type} {NF : Num F}.

  (** The state reached after [n] passes of the loop, from any initial condition. *)
  Definition run (af n : nat) (o : nat -> oracle F) (v : env F) (s : state F) : Prop :=
    exists T e0 e1 W Z0 River RWL RV LWL LVel OD OV ED EV Cl s0,
      init v T e0 e1 W Z0 River RWL RV LWL LVel OD OV ED EV Cl = Ok s0 /\ steps af n 0 o v s0 = Ok s.

  (** Channel assembly at the start of a pass. *)
  Definition assembled (v : env F) (s : state F) : res (chan F) :=
    assembleChannel (gT s) (gE0 s) (gE1 s) (gW s) (gZ s) (gClosed s) (gRiver s)
      (gRDep s) (gRVel s) (gLWL s) (gLVel s) (gODep s) (gOVel s) (gEDep s) (gEVel s) (nDx (vN v)) (vP v).

  (** [m] is what updateMorphology did in a pass that started in [s]. *)
  Definition morphology (af : nat) (o : oracle F) (v : env F) (s : state F) (m : morOut F) : Prop :=
    exists c lwl odep dep lst bed cst ow, assembled v s = Ok c /\
      updateMorphology af (oJunk1 o) (oJunk2 o) (vP v) (vN v) (vTP v) (gT s) (gE0 s) (gE1 s) (gW s) (gZ s) (gRiver s)
        (chOnline c) (chOutlet c) lwl odep (chWidth c) dep (chFlag c) (chClosed c) lst bed cst ow (gDt s) = Ok m.

  (** Record [k] (counted from 0) is due [k+1] intervals after the start; records are not early, not
      later than the clock and in order of time; [next] is the time from which the next one is due. *)
  Definition scheduled {A} (time : A -> Z) (start int : Z) (recs : list A) (next now : Z) : Prop :=
    next = start + (Z.of_nat (length recs) + 1) * int /\
    (forall k w, nth_error recs k = Some w -> start + (Z.of_nat k + 1) * int <= time w /\ time w <= now) /\
    (forall i j w x, (i < j)%nat -> nth_error recs i = Some w -> nth_error recs j = Some x -> time w <= time x).

  (** The same set-up with another end time. *)
  Definition withEnd (v : env F) (e : Z) : env F :=
    mkEnv (vP v) (vN v) (mkTime (tStart (vTP v)) e (tHydDt (vTP v)) (tMorDtMin (vTP v)) (tMorDtMax (vTP v)))
          (vFlow v) (vSea v) (vWaves v) (vOutInt v) (vTsInt v).
End Run.
