(** C88-C89: the data flow of one pass of the main loop of core.py. *)
From Coq Require Import ZArith Reals List Floats.
From Verif Require Import Base Num Xr MState MCoast MRiv MMor MOut MCore SAdapt SRun SStep Sim SimEx PStep PStepEx.
Import ListNotations.
Local Open Scope Z_scope.

(** The hypotheses below describe any pass that ends. *)
Theorem C88_forced : forall F (NF : Num F) af o v s s', step af o v s = Ok s' ->
  exists c sea flow f dep vel, SRun.assembled v s = Ok c /\ forcedBy v s sea flow f /\ solution o v c flow sea f dep vel.
Proof. exact @step_forced. Qed.
Print Assumptions C88_forced.

Theorem C88_hydraulics : forall F (NF : Num F) af o v s s' c sea flow f dep vel,
  step af o v s = Ok s' -> SRun.assembled v s = Ok c -> forcedBy v s sea flow f -> solution o v c flow sea f dep vel ->
  riverPart (chFlag c) dep (gRDep s') /\ riverPart (chFlag c) vel (gRVel s') /\
  storeHydraulics dep vel (chOnline c) (chOutlet c) (chFlag c) (map tZ3 (gT s)) (chClosed c) =
    Ok (gLWL s', gLVel s', gODep s', gOVel s', gEDep s', gEVel s').
Proof. exact @step_hydraulics. Qed.
Print Assumptions C88_hydraulics.

(** After a failure every river section carries the river flow at the end of the pass. *)
Theorem C88_discharge : forall af o v (s s' : state xr) c sea flow f q bs,
  step af o v s = Ok s' -> SRun.assembled v s = Ok c -> forcedBy v s sea flow f ->
  (forall r, unsteady o v c flow sea <> Ok r) -> fcFlow f = Fin q -> riverPart (chFlag c) (chWidth c) bs ->
  forall i b h, nth_error bs i = Some (Fin b) -> nth_error (gRDep s') i = Some (Fin h) -> (b <> 0 -> h <> 0 ->
  exists u, nth_error (gRVel s') i = Some (Fin u) /\ b * h * u = q)%R.
Proof. exact step_discharge. Qed.
Print Assumptions C88_discharge.

Theorem C88_example : exists s s' c sea flow e,
  @run float sim_num 100 1 badOr vRise s /\ @step float sim_num 100 (badOr 1%nat) vRise s = Ok s' /\
  @SRun.assembled float sim_num vRise s = Ok c /\ @forcedBy float sim_num vRise s sea flow fRise /\
  @unsteady float sim_num (badOr 1%nat) vRise c flow sea = Exc e.
Proof. exact fallback_example. Qed.

Theorem C89_morphology : forall F (NF : Num F) af o v s s' c sea flow f dep vel,
  step af o v s = Ok s' -> SRun.assembled v s = Ok c -> forcedBy v s sea flow f ->
  solution o v c flow sea f dep vel ->
  exists cst ow m, overBarrier v s f = Ok (cst, ow) /\
    updateMorphology af (oJunk1 o) (oJunk2 o) (vP v) (vN v) (vTP v) (gT s) (gE0 s) (gE1 s) (gW s) (gZ s) (gRiver s)
      (chOnline c) (chOutlet c) (gLWL s') (gODep s') (chWidth c) dep (chFlag c) (chClosed c) (alongshore v s f)
      (calcBedload (chWidth c) dep vel (vP v) (nPsi (vN v))) cst ow (gDt s) = Ok m /\
    gT s' = oT m /\ gE0 s' = oE0 m /\ gE1 s' = oE1 m /\ gW s' = oW m /\ gZ s' = oZ m /\ gRiver s' = oRiver m /\ gClosed s' = (if oBreach m then false else chClosed c).
Proof. exact @step_morphology. Qed.
Print Assumptions C89_morphology.

Theorem C89_record : forall F (NF : Num F) af o v s s' c sea flow f w,
  step af o v s = Ok s' -> SRun.assembled v s = Ok c -> forcedBy v s sea flow f ->
  gOuts s' = gOuts s ++ [w] ->
  wTime w = gTime s' /\ wSea w = fcSea f /\ wFlow w = fcFlow f /\ wHs w = fcHs f /\ wDir w = fcDir f /\
  wLST w = alongshore v s f /\ (exists ow, overBarrier v s f = Ok (wCST w, ow) /\ wOW w = map fofb ow) /\ wClosed w = chClosed c.
Proof. exact @step_record. Qed.
Print Assumptions C89_record.

Theorem C89_bedload : forall F (NF : Num F) af o v s s' c sea flow f dep vel w,
  step af o v s = Ok s' -> SRun.assembled v s = Ok c -> forcedBy v s sea flow f ->
  solution o v c flow sea f dep vel -> gOuts s' = gOuts s ++ [w] ->
  riverPart (removelast (chFlag c)) (calcBedload (chWidth c) dep vel (vP v) (nPsi (vN v))) (wRBed w) /\
  storeBedload (calcBedload (chWidth c) dep vel (vP v) (nPsi (vN v))) (length (gT s)) (chOnline c) (chOutlet c) (chFlag c) (chClosed c) =
    Ok (wLBed w, wOBed w, wEBed w).
Proof. exact @step_bedload. Qed.
Print Assumptions C89_bedload.

Theorem C89_series : forall F (NF : Num F) af o v s s' c sea flow f dep vel w,
  step af o v s = Ok s' -> SRun.assembled v s = Ok c -> forcedBy v s sea flow f ->
  solution o v c flow sea f dep vel -> gTs s' = gTs s ++ [w] ->
  sTime w = gTime s' /\ sSea w = fcSea f /\ sFlow w = fcFlow f /\ sHs w = fcHs f /\ sDir w = fcDir f /\
  sLagWl w = nanmean (gLWL s') /\ sE0 w = gE0 s' /\ sE1 w = gE1 s' /\ sClosedT w = chClosed c /\ sMorDt w = gDt s' /\
  (exists d u b, last_ dep = Ok d /\ last_ vel = Ok u /\ last_ (chWidth c) = Ok b /\ sOutflow w = (d * u * b)%n) /\
  nth_error (calcBedload (chWidth c) dep vel (vP v) (nPsi (vN v))) 0 = Some (sSedIn w).
Proof. exact @step_series. Qed.
Print Assumptions C89_series.

Theorem C89_example : exists s s' c sea flow f w x,
  @run float sim_num 100 0 simOr vRise s /\ @step float sim_num 100 (simOr 0%nat) vRise s = Ok s' /\
  @SRun.assembled float sim_num vRise s = Ok c /\ @forcedBy float sim_num vRise s sea flow f /\
  gOuts s' = gOuts s ++ [w] /\ gTs s' = gTs s ++ [x] /\ wTime w = sec 32 /\ wSea w = 0.625%float /\ wFlow w = 58%float.
Proof. exact records_example. Qed.

(** The boundary values in a record are not those at the time of the record. *)
Theorem C89_stamp_refuted : ~ (forall F (NF : Num F) af n o v s s' w, @run F NF af n o v s -> @step F NF af (o n) v s = Ok s' ->
  gOuts s' = gOuts s ++ [w] -> @valueAt F NF (vSea v) (wTime w) (wSea w)).
Proof. exact stamp_refuted. Qed.
Print Assumptions C89_stamp_refuted.
