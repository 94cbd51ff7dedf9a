(** C102-C105: core.py main as a whole: result files, live figures, the end of a run. *)
From Coq Require Import Reals ZArith List Bool String Ascii Floats.
From Verif Require Import Base Num Xr Flt MState MGeom MOut MCoast MRiv MMor MCore MLoad MSynth MVis MConf MMain Sim SimEx SConf SLoad SRun SAdapt SOut SVis SPlan SMain
  PMain2 PMain3 PMain4 PMain5 PMain6 PConfEx PCoreEx PMainEx.
Import ListNotations.
Local Open Scope string_scope.

(** ** C102: what a program leaves on disk *)
Theorem C102_files : forall (F : Type) (NF : Num F) (r32 : F -> F) (C : conv F) (W : world F) file ow ans1 ans2 af n o fs fs' out y fs1,
    (f0 =? f0)%n = true -> (f1 =? f0)%n = false ->
    prepare C W r32 file = Ok y -> let m := ryM y in let X := map tX (mdT m) in
    mdOut m <> mdTsOut m ->
    mainFiles r32 fs (mdOut m) (mdTsOut m) X (List.length (mdRiver m)) ow ans1 ans2 (ryA y) (ryB y) = (fs1, Ok tt) ->
    main C W r32 file ow ans1 ans2 af n o fs = (fs', out) ->
    exists j s, (j <= n)%nat /\ steps af j 0 o (ryV y) (ryS y) = Ok s /\
      holdsResults r32 X fs' (mdOut m) (ryA y :: gOuts s) /\ holdsTs r32 fs' (mdTsOut m) (ryB y :: gTs s) /\
      (forall f, f <> mdOut m -> f <> mdTsOut m -> fs' f = fs f) /\
      match out with
      | Running t _ => t = s /\ j = n
      | Finished t _ => t = s /\ (tEnd (vTP (ryV y)) < gTime t)%Z
      | Raised e => ((j < n)%nat /\ step af (o j) (ryV y) s = Exc e) \/ (0 < mdPlotInt m)%Z
      end.
Proof. exact @main_files. Qed.
Print Assumptions C102_files.

Theorem C102_unloadable : forall (F : Type) (NF : Num F) (X : conv F) (W : world F) r32 file ow ans1 ans2 af n o fs e, prepare X W r32 file = Exc e -> main X W r32 file ow ans1 ans2 af n o fs = (fs, Raised e).
Proof. exact @main_early. Qed.
Print Assumptions C102_unloadable.

Theorem C102_refused : forall (F : Type) (NF : Num F) (X : conv F) (W : world F) r32 file ow ans1 ans2 af n o fs y fs1 e, prepare X W r32 file = Ok y ->
    mainFiles r32 fs (mdOut (ryM y)) (mdTsOut (ryM y)) (map tX (mdT (ryM y))) (length (mdRiver (ryM y))) ow ans1 ans2 (ryA y) (ryB y) = (fs1, Exc e) ->
    main X W r32 file ow ans1 ans2 af n o fs = (fs1, Raised e).
Proof. exact @main_refused. Qed.
Print Assumptions C102_refused.

Theorem C102_cold : forall (F : Type) (NF : Num F) (X : conv F) (W : world F) r32 file c ow ans1 ans2 fs y, (f0 =? f0)%n = true ->
    validate X (wdConf W file) = Ok c -> c "HotStart" "InitialConditionsNetCDF" = Some CNone ->
    prepare X W r32 file = Ok y -> let m := ryM y in mdOut m <> mdTsOut m ->
    (fs (mdOut m) = None \/ ow = true \/ consent ans1) -> (fs (mdTsOut m) = None \/ ow = true \/ consent ans2) ->
    exists fs1, mainFiles r32 fs (mdOut m) (mdTsOut m) (map tX (mdT m)) (length (mdRiver m)) ow ans1 ans2 (ryA y) (ryB y) = (fs1, Ok tt).
Proof. exact @cold_files. Qed.
Print Assumptions C102_cold.

Theorem C102_schedule : forall (F : Type) (NF : Num F) r32 (X : conv F) (W : world F) file ow ans1 ans2 af n o fs fs' out y fs1, (f0 =? f0)%n = true -> (f1 =? f0)%n = false ->
    prepare X W r32 file = Ok y -> let m := ryM y in let T := mdTP m in mdOut m <> mdTsOut m ->
    mainFiles r32 fs (mdOut m) (mdTsOut m) (map tX (mdT m)) (length (mdRiver m)) ow ans1 ans2 (ryA y) (ryB y) = (fs1, Ok tt) ->
    (tStart T <= tEnd T)%Z -> (0 <= tMorDtMin T)%Z ->
    main X W r32 file ow ans1 ans2 af n o fs = (fs', out) ->
    exists now f g l l', fs' (mdOut m) = Some f /\ fs' (mdTsOut m) = Some g /\ ncTimes f = tStart T :: l /\ ncTimes g = tStart T :: l' /\
      (tStart T <= now <= tEnd T)%Z /\ (exists next, scheduled (fun t => t) (tStart T) (mdOutInt m) l next now) /\
      (exists next, scheduled (fun t => t) (tStart T) (mdTsInt m) l' next now).
Proof. exact @main_schedule. Qed.
Print Assumptions C102_schedule.

Theorem C102_ends : forall (F : Type) (NF : Num F) r32 (X : conv F) (W : world F) file ow ans1 ans2 af n o fs fs' out y, (f0 =? f0)%n = true -> (f1 =? f0)%n = false ->
    prepare X W r32 file = Ok y -> let v := ryV y in mdOut (ryM y) <> mdTsOut (ryM y) ->
    (0 < tHydDt (vTP v))%Z -> (tStart (vTP v) <= tEnd (vTP v))%Z -> (0 <= tMorDtMin (vTP v))%Z ->
    ((tEnd (vTP v) - tStart (vTP v)) / tHydDt (vTP v) + 2 < Z.of_nat n)%Z ->
    main X W r32 file ow ans1 ans2 af n o fs = (fs', out) -> exists e, out = Raised e.
Proof. exact @main_ends. Qed.
Print Assumptions C102_ends.

Theorem C102_one_name : forall (F : Type) (NF : Num F) r32 (X : conv F) (W : world F) file ow ans1 ans2 af n o fs fs' out y, prepare X W r32 file = Ok y -> let nm := mdOut (ryM y) in mdTsOut (ryM y) = nm ->
    main X W r32 file ow ans1 ans2 af n o fs = (fs', out) ->
    match out with
    | Running t _ | Finished t _ => gOuts t = [] /\ holdsTs r32 fs' nm (ryB y :: gTs t) /\ (forall m, m <> nm -> fs' m = fs m)
    | Raised _ => True
    end.
Proof. exact @main_same. Qed.
Print Assumptions C102_one_name.

Theorem C102_example : ((@f0 float sim_num) =? f0)%n = true /\ ((@f1 float sim_num) =? f0)%n = false /\ readyEx (plotEntries "0") 2.
Proof. exact @two_example. Qed.

Theorem C102_example_end : exists y, exPrep (plotEntries "0") = Ok y /\
  (0 < tHydDt (vTP (ryV y)))%Z /\ (tStart (vTP (ryV y)) <= tEnd (vTP (ryV y)))%Z /\ (0 <= tMorDtMin (vTP (ryV y)))%Z /\
  ((tEnd (vTP (ryV y)) - tStart (vTP (ryV y))) / tHydDt (vTP (ryV y)) + 2 < Z.of_nat 5000)%Z /\
  shown (exMain (plotEntries "0") 5000) = (longTimes, longTimes, Exc EIndex).
Proof. exact @long_example. Qed.

Theorem C102_example_one_name : onlyA (sameMain 2) = ([0%Z; sec 960; sec 2880], Ok (sec 2880, 0)) /\ exists e, snd (sameMain 5) = Raised e.
Proof. exact @same_shown. Qed.


(** ** C103: live plotting does not change the results *)
Theorem C103_files : forall (F : Type) (NF : Num F) (X : conv F) (W : world F) r r' r32 file ow ans1 ans2 af n o fs fs' out y y', (forall s k, ~ (s = "OutputOptions" /\ k = "PlotInt") -> r s k = r' s k) ->
    prepare X (withConf W r) r32 file = Ok y -> prepare X (withConf W r') r32 file = Ok y' -> (mdPlotInt (ryM y') <= 0)%Z ->
    main X (withConf W r) r32 file ow ans1 ans2 af n o fs = (fs', out) ->
    exists j, (j <= n)%nat /\ exists out0, main X (withConf W r') r32 file ow ans1 ans2 af j o fs = (fs', out0) /\
      match out with
      | Running t _ => j = n /\ exists p, out0 = Running t p
      | Finished t _ => exists p, out0 = Finished t p
      | Raised e => out0 = Raised e \/ exists t p, out0 = Running t p \/ out0 = Finished t p
      end.
Proof. exact @main_plots. Qed.
Print Assumptions C103_files.

Theorem C103_schedule : forall (F : Type) (NF : Num F) r32 (X : conv F) (W : world F) file ow ans1 ans2 af n o fs fs' out y, prepare X W r32 file = Ok y -> let T := mdTP (ryM y) in (tStart T <= tEnd T)%Z -> (0 <= tMorDtMin T)%Z ->
    main X W r32 file ow ans1 ans2 af n o fs = (fs', out) ->
    match out with
    | Running t p | Finished t p =>
      if (0 <? mdPlotInt (ryM y))%Z then illustrates (tStart T) (mdPlotInt (ryM y)) (gTime t) p else lvFigs p = []
    | Raised _ => True
    end.
Proof. exact @main_figs. Qed.
Print Assumptions C103_schedule.

Theorem C103_example : (forall s k, ~ (s = "OutputOptions" /\ k = "PlotInt") -> written (plotEntries "1200") s k = written (plotEntries "0") s k) /\
  (exists y, exPrep (plotEntries "1200") = Ok y /\ mdPlotInt (ryM y) = sec 1200) /\ (exists y', exPrep (plotEntries "0") = Ok y' /\ mdPlotInt (ryM y') = 0%Z) /\
  shown (exMain (plotEntries "1200") 2) = ([0%Z; sec 960; sec 2880], [0%Z; sec 960; sec 2880], Ok (sec 2880, [0%Z; sec 2880], 2)) /\
  shown (exMain (plotEntries "0") 2) = ([0%Z; sec 960; sec 2880], [0%Z; sec 960; sec 2880], Ok (sec 2880, [], 0)).
Proof. exact @plot_example. Qed.


Local Open Scope list_scope.
(** ** C104: what the live figures show *)
Theorem C104_records : forall (F : Type) (NF : Num F) af (o : oracle F) v pi (p : live F) s s' p', step af o v s = Ok s' -> drawPass o v pi p s s' = Ok p' -> due pi p s' = true ->
    exists r g shut, lvBdy p' = lvBdy p ++ [r] /\ lvFigs p' = lvFigs p ++ [g] /\ bdT r = gTime s' /\
      (exists c, SRun.assembled v s = Ok c /\ chClosed c = shut) /\
      plCliff (fgPlan g) <> [] /\ (shut = true -> plShore (fgPlan g) = feature tY0 (gT s') /\ plLagoon (fgPlan g) = feature tY3 (gT s') /\ plOutlet (fgPlan g) = [lifted]) /\
      (forall w, gOuts s' = gOuts s ++ [w] -> wTime w = bdT r /\ wFlow w = bdIn r /\ wSea w = bdSea r /\ wClosed w = shut /\ wT w = gT s') /\
      (forall b, gTs s' = gTs s ++ [b] -> sTime b = bdT r /\ sFlow b = bdIn r /\ sOutflow b = bdOut r /\ sSea b = bdSea r /\ sClosedT b = shut).
Proof. exact @draw_agrees. Qed.
Print Assumptions C104_records.

Theorem C104_closed : forall (F : Type) (NF : Num F) af (o : oracle F) v pi (p : live F) s s' p', step af o v s = Ok s' -> drawPass o v pi p s s' = Ok p' -> due pi p s' = true ->
    gClosed s = true -> exists g, lvFigs p' = lvFigs p ++ [g] /\ plOutlet (fgPlan g) = [lifted].
Proof. exact @draw_stale. Qed.
Print Assumptions C104_closed.

Theorem C104_first : forall (F : Type) (NF : Num F) r32 (X : conv F) (W : world F) file ow ans1 ans2 af n o fs y fs1, prepare X W r32 file = Ok y -> let m := ryM y in mdClosed m = true -> (0 < mdPlotInt m)%Z ->
    mainFiles r32 fs (mdOut m) (mdTsOut m) (map tX (mdT m)) (length (mdRiver m)) ow ans1 ans2 (ryA y) (ryB y) = (fs1, Ok tt) ->
    exists e, main X W r32 file ow ans1 ans2 af n o fs = (fs1, Raised e).
Proof. exact @shut_plots. Qed.
Print Assumptions C104_first.

(** Refuted: a figure shows the outlet as the run goes on with it. *)
Theorem C104_current_refuted : exists s s' p, @run float sim_num 100 5 simOr vFill s /\ @step float sim_num 100 (simOr 5) vFill s = Ok s' /\
  due (sec 60) before s' = true /\ fillDraw s s' = Ok p /\
  gClosed s' = false /\ exists g, lvFigs p = [g] /\ plOutlet (fgPlan g) = [@lifted float sim_num].
Proof. exact @stale_refuted. Qed.
Print Assumptions C104_current_refuted.

(** Refuted: a run that works without live plotting works with it. *)
Theorem C104_plottable_refuted : exists y fs1, shutPrep "900" = Ok y /\ mdClosed (ryM y) = true /\ (0 < mdPlotInt (ryM y))%Z /\ exFirst y = (fs1, Ok tt) /\
  shown (shutMain "900" 1) = ([sec 960], [sec 960], Exc EIndex) /\ exists fs' t p, shutMain "0" 1 = (fs', Running t p).
Proof. exact @shut_example. Qed.
Print Assumptions C104_plottable_refuted.


Local Open Scope Z_scope.
(** ** C105: how far the boundary conditions must reach *)
Theorem C105_covered : forall (F : Type) (NF : Num F) af o (v : env F) s s', step af o v s = Ok s' -> 0 < tHydDt (vTP v) ->
    let reach := gTime s + gDt s / tHydDt (vTP v) * tHydDt (vTP v) in
    (exists p, In p (vFlow v) /\ reach <= fst p) /\ (exists p, In p (vSea v) /\ reach <= fst p).
Proof. exact @pass_covered. Qed.
Print Assumptions C105_covered.

Theorem C105_tide : forall (F : Type) (NF : Num F) (X : conv F) (W : world F) r32 file v s0 c n t0 af o s s', start X W r32 file = Ok (v, s0) -> validate X (wdConf W file) = Ok c ->
    c "BoundaryConditions" "SeaLevel" = Some (CS n) -> sameWord n "harmonic" ->
    (exists t, c "Time" "StartTime" = Some (CS t) /\ txTime X t = Ok t0) -> 0 < tHydDt (vTP v) ->
    step af o v s = Ok s' -> gTime s + gDt s / tHydDt (vTP v) * tHydDt (vTP v) <= tEnd (vTP v).
Proof. exact @tide_pass. Qed.
Print Assumptions C105_tide.

Theorem C105_stops : forall (F : Type) (NF : Num F) (X : conv F) (W : world F) r32 file v s0 c n t0 af o s, start X W r32 file = Ok (v, s0) -> validate X (wdConf W file) = Ok c ->
    c "BoundaryConditions" "SeaLevel" = Some (CS n) -> sameWord n "harmonic" ->
    (exists t, c "Time" "StartTime" = Some (CS t) /\ txTime X t = Ok t0) -> 0 < tHydDt (vTP v) ->
    tEnd (vTP v) - gTime s + tHydDt (vTP v) <= gDt s -> forall s', step af o v s <> Ok s'.
Proof. exact @tide_stops. Qed.
Print Assumptions C105_stops.

(** Refuted: a model whose data reach from its start to its end can be run to its end. *)
Theorem C105_reaches_end_refuted : exists v s0 s c, exStart exEntries = Ok (v, s0) /\ @validate float sim_num exX (written exEntries) = Ok c /\
  c "BoundaryConditions" "SeaLevel" = Some (CS "Harmonic") /\ sameWord "Harmonic" "harmonic" /\
  (c "Time" "StartTime" = Some (CS "1 Sep 2000") /\ txTime exX "1 Sep 2000" = Ok 0%Z) /\
  @steps float sim_num 40 6 0 simOr v s0 = Ok s /\ (gTime s < tEnd (vTP v))%Z /\
  forall af o s', @step float sim_num af o v s <> Ok s'.
Proof. exact @tide_refuted. Qed.
Print Assumptions C105_reaches_end_refuted.
