(** C29-C36: core.py, boundary conditions and the main loop. *)
From Coq Require Import ZArith List Bool Reals Floats.
From Verif Require Import Base Num Xr MState MRiv MMor MOut MCore SAdapt SChan SCore SRun Sim SimEx PInterp PCore PCoreEx.
Import ListNotations.
Local Open Scope Z_scope.

Theorem C29_interpolates : forall s new a b, ordered s -> spanned new a b ->
  (exists p, In p s /\ fst p <= a) -> (exists q, In q s /\ b <= fst q) ->
  exists vs, interpolateAt (data s) new = Ok (map Fin vs) /\ Forall2 (curve s) new vs.
Proof. exact interp_exact. Qed.
Print Assumptions C29_interpolates.

Theorem C29_between : forall s t v, curve s t v ->
  exists p q, In p s /\ In q s /\ fst p <= t <= fst q /\ (Rmin (snd p) (snd q) <= v <= Rmax (snd p) (snd q))%R.
Proof. exact curve_range. Qed.
Print Assumptions C29_between.

Theorem C29_unique : forall s t v w, ordered s -> curve s t v -> curve s t w -> v = w.
Proof. exact curve_unique. Qed.
Print Assumptions C29_unique.

Theorem C29_example : ordered exSer /\ spanned [5; 10; 25] 5 25 /\
  (exists p, In p exSer /\ fst p <= 5) /\ (exists q, In q exSer /\ 25 <= fst q).
Proof. exact exSer_ok. Qed.

Theorem C30_raises : forall F (NF : Num F) (s : series F) new,
  (exists e, interpolateAt s new = Exc e) <->
  new = [] \/ (exists a, hd_error new = Some a /\ Forall (fun p => a < fst p) s)
  \/ (exists b, hd_error (rev new) = Some b /\ Forall (fun p => fst p < b) s).
Proof. exact @interp_raises. Qed.
Print Assumptions C30_raises.

Theorem C30_index : forall F (NF : Num F) (s : series F) new e, interpolateAt s new = Exc e -> e = EIndex.
Proof. exact @interp_exc. Qed.
Print Assumptions C30_index.

Theorem C31_clock : forall F (NF : Num F) af n m o (v : env F) s s',
  tStart (vTP v) <= tEnd (vTP v) -> 0 <= tMorDtMin (vTP v) -> run af n o v s -> steps af m n o v s = Ok s' ->
  tStart (vTP v) <= gTime s /\ gTime s <= gTime s' /\ gTime s' <= tEnd (vTP v).
Proof. exact @clock_range. Qed.
Print Assumptions C31_clock.

Theorem C31_example : tStart (vTP vLong) <= tEnd (vTP vLong) /\ 0 <= tMorDtMin (vTP vLong) /\
  exists s s', @run float sim_num 100 1 simOr vLong s /\ @steps float sim_num 100 1 1 simOr vLong s = Ok s' /\
    gTime s = sec 3600 /\ gTime s' = sec 3600.
Proof. exact clock_example. Qed.

Theorem C32_never_ends : forall F (NF : Num F) af fuel o (v : env F) T e0 e1 W Z0 River RWL RV LWL LVel OD OV ED EV Cl s0 s,
  tStart (vTP v) <= tEnd (vTP v) -> 0 <= tMorDtMin (vTP v) ->
  init v T e0 e1 W Z0 River RWL RV LWL LVel OD OV ED EV Cl = Ok s0 -> loop af fuel 0 o v s0 <> Ok s.
Proof. exact @never_ends. Qed.
Print Assumptions C32_never_ends.

Theorem C32_example : exists s, @run float sim_num 100 2 simOr vLong s /\ gTime s = tEnd (vTP vLong) /\ gDt s = 0.
Proof. exact never_example. Qed.

Theorem C33_at_end : forall F (NF : Num F) af o (v : env F) s s',
  gTime s = tEnd (vTP v) -> 0 <= gDt s -> step af o v s = Ok s' -> gTime s' = tEnd (vTP v) /\ gDt s' = 0.
Proof. exact @step_at_end. Qed.
Print Assumptions C33_at_end.

Theorem C33_short : forall F (NF : Num F) af o (v : env F) s c,
  0 < tHydDt (vTP v) -> gDt s < tHydDt (vTP v) -> assembled v s = Ok c -> step af o v s = Exc EIndex.
Proof. exact @step_short. Qed.
Print Assumptions C33_short.

Theorem C33_two_at_end : forall F (NF : Num F) af k o (v : env F) s s',
  0 < tHydDt (vTP v) -> gTime s = tEnd (vTP v) -> 0 <= gDt s -> steps af 2 k o v s <> Ok s'.
Proof. exact @two_at_end. Qed.
Print Assumptions C33_two_at_end.

Theorem C33_bound : forall F (NF : Num F) af n o (v : env F) s,
  0 < tHydDt (vTP v) -> tStart (vTP v) <= tEnd (vTP v) -> 0 <= tMorDtMin (vTP v) -> run af n o v s ->
  Z.of_nat n <= (tEnd (vTP v) - tStart (vTP v)) / tHydDt (vTP v) + 2.
Proof. exact @run_bound. Qed.
Print Assumptions C33_bound.

Theorem C33_stops : forall F (NF : Num F) af fuel o (v : env F) T e0 e1 W Z0 River RWL RV LWL LVel OD OV ED EV Cl s0,
  0 < tHydDt (vTP v) -> tStart (vTP v) <= tEnd (vTP v) -> 0 <= tMorDtMin (vTP v) ->
  init v T e0 e1 W Z0 River RWL RV LWL LVel OD OV ED EV Cl = Ok s0 ->
  (tEnd (vTP v) - tStart (vTP v)) / tHydDt (vTP v) + 2 < Z.of_nat fuel ->
  exists n sn e, (n < fuel)%nat /\ steps af n 0 o v s0 = Ok sn /\ step af (o n) v sn = Exc e /\ loop af fuel 0 o v s0 = Exc e.
Proof. exact @run_stops. Qed.
Print Assumptions C33_stops.

Theorem C33_example : clock (after vLong false 1) = Ok (sec 3600, sec 3600, false, 1%nat, 1%nat) /\
  clock (after vLong false 2) = Ok (sec 3600, 0, false, 2%nat, 2%nat) /\ clock (after vLong false 3) = Exc EIndex.
Proof. exact (conj long1 (conj long2 long3)). Qed.

Theorem C34_records : forall F (NF : Num F) af n o (v : env F) s,
  tStart (vTP v) <= tEnd (vTP v) -> 0 <= tMorDtMin (vTP v) -> run af n o v s ->
  (scheduled wTime (tStart (vTP v)) (vOutInt v) (gOuts s) (gOutT s) (gTime s) /\ (length (gOuts s) <= n)%nat) /\
  (scheduled sTime (tStart (vTP v)) (vTsInt v) (gTs s) (gTsT s) (gTime s) /\ (length (gTs s) <= n)%nat).
Proof. exact @records. Qed.
Print Assumptions C34_records.

Theorem C34_complete_refuted : ~ (forall F (NF : Num F) af n o v s,
  tStart (vTP v) <= tEnd (vTP v) -> 0 < tMorDtMin (vTP v) -> 0 < vOutInt v -> @run F NF af n o v s ->
  (gTime s - tStart (vTP v)) / vOutInt v <= Z.of_nat (length (gOuts s))).
Proof. exact complete_refuted. Qed.
Print Assumptions C34_complete_refuted.

Theorem C34_example : exists s, @run float sim_num 100 1 simOr vLong s /\
  length (gOuts s) = 1%nat /\ (gTime s - tStart (vTP vLong)) / vOutInt vLong = 60.
Proof. exact behind. Qed.

Theorem C35_opens : forall F (NF : Num F) af o (v : env F) s s',
  step af o v s = Ok s' -> gClosed s = true -> gClosed s' = false ->
  exists m, morphology af o v s m /\ oBreach m = true /\ gT s' = oT m /\ gE0 s' = oE0 m /\ gE1 s' = oE1 m.
Proof. exact @opens. Qed.
Print Assumptions C35_opens.

Theorem C35_shuts : forall F (NF : Num F) af o (v : env F) s s',
  step af o v s = Ok s' -> gClosed s = false -> gClosed s' = true ->
  exists m c, morphology af o v s m /\ oBreach m = false /\ assembled v s = Ok c /\ chClosed c = true.
Proof. exact @shuts. Qed.
Print Assumptions C35_shuts.

Theorem C35_shuts_criterion : forall af o (v : env xr) s s' e0 e1 d,
  grid (gT s) -> gE0 s = Fin e0 -> gE1 s = Fin e1 -> nDx (vN v) = Fin d ->
  step af o v s = Ok s' -> gClosed s = false -> gClosed s' = true ->
  narrowOutlet (gT s) e0 e1 (pMinOutletWidth (vP v)) \/ (gW s <=? pMinOutletWidth (vP v))%n = true \/
  narrowLagoon (gT s) e0 (pMinOutletWidth (vP v)).
Proof. exact shuts_exact. Qed.
Print Assumptions C35_shuts_criterion.

Theorem C35_opens_example : exists s s', @run float sim_num 100 5 simOr vFill s /\
  @step float sim_num 100 (simOr 5) vFill s = Ok s' /\ gClosed s = true /\ gClosed s' = false.
Proof. exact opens_example. Qed.

Theorem C35_shuts_example : exists s s', @step float sim_num 100 (simOr 0) vLong s = Ok s' /\ gClosed s = false /\ gClosed s' = true.
Proof. exact shuts_example. Qed.

Theorem C36_times : forall F (NF : Num F) af o (v : env F) s s', 0 < tHydDt (vTP v) -> step af o v s = Ok s' ->
  gTime s' = gTime s + gDt s' /\
  (gOuts s' = gOuts s \/
   exists w fs ss, gOuts s' = gOuts s ++ [w] /\ wTime w = gTime s' /\
     interpolateAt (vFlow v) (hydTimes (gTime s) (gDt s) (tHydDt (vTP v))) = Ok fs /\ last_ fs = Ok (wFlow w) /\
     interpolateAt (vSea v) (hydTimes (gTime s) (gDt s) (tHydDt (vTP v))) = Ok ss /\ last_ ss = Ok (wSea w) /\
     last_ (hydTimes (gTime s) (gDt s) (tHydDt (vTP v))) = Ok (gTime s + gDt s / tHydDt (vTP v) * tHydDt (vTP v))).
Proof. exact @step_record. Qed.
Print Assumptions C36_times.

Theorem C36_hydraulic_times : forall start dur freq k t, 0 < freq -> 0 <= dur ->
  nth_error (hydTimes start dur freq) k = Some t <-> t = start + (Z.of_nat k + 1) * freq /\ t <= start + dur.
Proof. exact hydTimes_spec. Qed.
Print Assumptions C36_hydraulic_times.

Theorem C36_end_ignored : forall F (NF : Num F) af o (v : env F) e s s1 s2,
  step af o v s = Ok s1 -> step af o (withEnd v e) s = Ok s2 ->
  gT s1 = gT s2 /\ gE0 s1 = gE0 s2 /\ gE1 s1 = gE1 s2 /\ gW s1 = gW s2 /\ gZ s1 = gZ s2 /\ gRiver s1 = gRiver s2.
Proof. exact @end_ignored. Qed.
Print Assumptions C36_end_ignored.

Theorem C36_example : exists s s', @step float sim_num 100 (simOr 0) vLong s = Ok s' /\ gDt s = sec 15 /\ gTime s' = gTime s + sec 3600 /\
  exists w, gOuts s' = gOuts s ++ [w] /\ wTime w = gTime s + sec 3600.
Proof. exact mismatch. Qed.

Theorem C36_end_example : exists s s1 s2, @step float sim_num 100 (simOr 0) vLong s = Ok s1 /\
  @step float sim_num 100 (simOr 0) (withEnd vLong (sec 60)) s = Ok s2 /\ gTime s1 = gTime s + sec 3600 /\ gTime s2 = gTime s + sec 60.
Proof. exact clamped. Qed.
