(** Specification vocabulary for the data flow of one pass of the main loop (core.py:107-235). *)
From Coq Require Import ZArith List.
From Verif Require Import Base Num MState MCoast MRiv MMor MOut MCore SRun.
Import ListNotations.
Local Open Scope Z_scope.

Section Step.
  Context {F : Type} {NF : Num F}.

  (** The value of a boundary series at a time. *)
  Definition valueAt (s : series F) (t : Z) (x : F) : Prop := exists l, interpolateAt s [t] = Ok l /\ nth_error l 0 = Some x.
  (** Its values over the hydraulic times of the pass, and the last of them. *)
  Definition over_pass (v : env F) (s : state F) (b : series F) (l : list F) (x : F) : Prop :=
    interpolateAt b (hydTimes (gTime s) (gDt s) (tHydDt (vTP v))) = Ok l /\ nth_error l (length l - 1) = Some x.

  (** Depths and velocities at the end of the pass ([solution] below): the unsteady solution, or, if that
      raised anything, the steady one for the boundary values at the end of the pass. *)
  Definition unsteady (o : oracle F) (v : env F) (c : chan F) (flow sea : list F) : res (list F * list F) :=
    solveFullPreissmann (oSolve o) (chElev c) (chWidth c) (chLagArea c) (chLagLen c) (chClosed c)
      (chDep c) (chVel c) (chDx c) (tHydDt (vTP v)) flow sea (vN v) (vP v).
  Definition steady (v : env F) (c : chan F) (q w : F) : res (list F * list F) :=
    solveSteady (chDx c) (chElev c) (chWidth c) (pRoughness (vP v)) q w (vN v).

  (** The part of a channel array that belongs to the river. *)
  Inductive riverPart : list nat -> list F -> list F -> Prop :=
  | rp_nil : riverPart [] [] []
  | rp_river l x r p : riverPart l x r -> riverPart (0%nat :: l) (p :: x) (p :: r)
  | rp_other f l x r p : f <> 0%nat -> riverPart l x r -> riverPart (f :: l) (p :: x) r.

  (** The forcing of the pass. *)
  Record forcing := mkForcing { fcSea : F; fcFlow : F; fcDir : F; fcPow : F; fcPer : F; fcLen : F; fcHs : F }.
  Record forcedBy (v : env F) (s : state F) (sea flow : list F) (f : forcing) : Prop := {
    fb_sea : over_pass v s (vSea v) sea (fcSea f);
    fb_flow : over_pass v s (vFlow v) flow (fcFlow f);
    fb_dir : valueAt (wvDir (vWaves v)) (gTime s) (fcDir f);
    fb_pow : valueAt (wvPow (vWaves v)) (gTime s) (fcPow f);
    fb_per : valueAt (wvPer (vWaves v)) (gTime s) (fcPer f);
    fb_len : valueAt (wvLen (vWaves v)) (gTime s) (fcLen f);
    fb_hs : valueAt (wvHs (vWaves v)) (gTime s) (fcHs f) }.

  Definition solution (o : oracle F) (v : env F) (c : chan F) (flow sea : list F) (f : forcing) (dep vel : list F) : Prop :=
    unsteady o v c flow sea = Ok (dep, vel) \/
    exists e, unsteady o v c flow sea = Exc e /\ steady v c (fcFlow f) (fcSea f) = Ok (dep, vel).

  (** Transport alongshore and over the barrier, from the shore at the start of the pass. *)
  Definition alongshore (v : env F) (s : state F) (f : forcing) : list F :=
    longShoreTransport (map tY0 (gT s)) (nDx (vN v)) (fcPow f) (fcPer f) (fcLen f) (fcDir f) (vP v).
  Definition overBarrier (v : env F) (s : state F) (f : forcing) : res (list F * list bool) :=
    overtopping (vP v) (runup (fcPer f) (fcHs f) (pBeachSlope (vP v))) (fcSea f) (gT s).
End Step.
Arguments forcing : clear implicits.
