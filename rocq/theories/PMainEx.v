Set Warnings "-inexact-float".
(** Examples of whole programs: the configuration of PConfEx.v, and the filling lagoon of PCoreEx.v. *)
From Coq Require Import ZArith List Bool Floats String Ascii Lia.
From Verif Require Import Base Num Flt Sim SimEx MState MGeom MOut MCoast MRiv MMor MCore MLoad MSynth MVis MConf MMain SConf SRun SAdapt SOut SVis SPlan SMain
  PHot PCore PConf PConf2 PConf3 PConf4 PConfEx PCoreEx PMain2 PMain3 PMain4 PMain5 PMain6.
Import ListNotations.
Local Open Scope string_scope.

Definition idF (x : float) : float := x.
Definition noFiles : fsys float := fun _ => None.
(** Records every 15 minutes, live figures every [k] seconds. *)
Definition plotEntries (k : string) : entries := (sOO, "OutInt", "900") :: (sOO, "PlotInt", k) :: exEntries.
Definition exPrep (l : entries) : res (ready float) := @prepare float sim_num exX (exWorld l) idF exFile.
Definition exMain (l : entries) (n : nat) : fsys float * outcome float :=
  @main float sim_num exX (exWorld l) idF exFile false "" "" 40 n simOr noFiles.
Definition exFirst (y : ready float) : fsys float * res unit :=
  let m := ryM y in @mainFiles float sim_num idF noFiles (mdOut m) (mdTsOut m) (map tX (mdT m)) (List.length (mdRiver m)) false "" "" (ryA y) (ryB y).

(** What can be compared of a prepared run, and of the state of a program *)
Definition readied (r : res (ready float)) : res (string * string * bool * Z * bool) :=
  match r with
  | Ok y => Ok (mdOut (ryM y), mdTsOut (ryM y), mdClosed (ryM y), mdPlotInt (ryM y), isOk (snd (exFirst y)))
  | Exc e => Exc e
  end.
Definition datesIn (fs : fsys float) (n : string) : list Z := match fs n with Some f => ncTimes f | None => [] end.
Definition shown (r : fsys float * outcome float) : list Z * list Z * res (Z * list Z * nat) :=
  (datesIn (fst r) "Synthetic.v2_outputs.nc", datesIn (fst r) "Synthetic.v2_TSoutputs.nc",
   match snd r with Running s p | Finished s p => Ok (gTime s, map bdT (lvBdy p), List.length (lvFigs p)) | Raised e => Exc e end).
Lemma ready_inv r a b c d : readied r = Ok (a, b, c, d, true) ->
  exists y fs1, r = Ok y /\ mdOut (ryM y) = a /\ mdTsOut (ryM y) = b /\ mdClosed (ryM y) = c /\ mdPlotInt (ryM y) = d /\ exFirst y = (fs1, Ok tt).
Proof.
  destruct r as [y|]; [|discriminate]. cbn [readied]. intros H. apply Ok_inj in H. injection H as A B C D E.
  destruct (exFirst y) as [fs1 [[]|]] eqn:Q; [|discriminate]. exists y, fs1. auto 10.
Qed.

(** ** Two passes *)
Lemma two_ready : readied (exPrep (plotEntries "0")) = Ok ("Synthetic.v2_outputs.nc", "Synthetic.v2_TSoutputs.nc", false, 0%Z, true).
Proof. vm_compute. reflexivity. Qed.
Lemma two_shown : shown (exMain (plotEntries "0") 2) = ([0%Z; sec 960; sec 2880], [0%Z; sec 960; sec 2880], Ok (sec 2880, [], 0)).
Proof. vm_compute. reflexivity. Qed.
Definition readyEx (l : entries) (n : nat) : Prop := exists y fs1, exPrep l = Ok y /\ mdOut (ryM y) <> mdTsOut (ryM y) /\
  exFirst y = (fs1, Ok tt) /\ exists fs' out, exMain l n = (fs', out) /\ shown (fs', out) = ([0%Z; sec 960; sec 2880], [0%Z; sec 960; sec 2880], Ok (sec 2880, [], 0)).
Lemma two_example : ((@f0 float sim_num) =? f0)%n = true /\ ((@f1 float sim_num) =? f0)%n = false /\ readyEx (plotEntries "0") 2.
Proof.
  split; [vm_compute; reflexivity|]. split; [vm_compute; reflexivity|]. destruct (ready_inv _ _ _ _ _ two_ready) as (y & fs1 & Y & A & B & _ & _ & Q).
  exists y, fs1. split; [exact Y|]. split; [rewrite A, B; discriminate|]. split; [exact Q|]. pose proof two_shown as S.
  destruct (exMain (plotEntries "0") 2) as [fs' out]. exists fs', out. split; [reflexivity|exact S].
Qed.

(** ** The same with live figures every 20 minutes *)
Lemma plot_shown : shown (exMain (plotEntries "1200") 2) = ([0%Z; sec 960; sec 2880], [0%Z; sec 960; sec 2880], Ok (sec 2880, [0%Z; sec 2880], 2)).
Proof. vm_compute. reflexivity. Qed.
Lemma plot_ready : readied (exPrep (plotEntries "1200")) = Ok ("Synthetic.v2_outputs.nc", "Synthetic.v2_TSoutputs.nc", false, sec 1200, true).
Proof. vm_compute. reflexivity. Qed.
Lemma written_cons e l s k : written (e :: l) s k = if String.eqb (fst (fst e)) s && String.eqb (snd (fst e)) k then Some (RStr (snd e)) else written l s k.
Proof. unfold written. cbn [find]. destruct (_ && _); reflexivity. Qed.
Lemma other_key a b l s k : ~ (s = "OutputOptions" /\ k = "PlotInt") ->
  written ((sOO, "OutInt", "900") :: (sOO, "PlotInt", a) :: l) s k = written ((sOO, "OutInt", "900") :: (sOO, "PlotInt", b) :: l) s k.
Proof.
  intros N. rewrite !written_cons. cbn [fst snd]. destruct (String.eqb sOO s && String.eqb "OutInt" k); [reflexivity|].
  destruct (String.eqb_spec sOO s) as [S|S]; [|reflexivity]. destruct (String.eqb_spec "PlotInt" k) as [K|K]; [|reflexivity].
  destruct N. split; [exact (eq_sym S)|exact (eq_sym K)].
Qed.
Lemma plot_example : (forall s k, ~ (s = "OutputOptions" /\ k = "PlotInt") -> written (plotEntries "1200") s k = written (plotEntries "0") s k) /\
  (exists y, exPrep (plotEntries "1200") = Ok y /\ mdPlotInt (ryM y) = sec 1200) /\ (exists y', exPrep (plotEntries "0") = Ok y' /\ mdPlotInt (ryM y') = 0%Z) /\
  shown (exMain (plotEntries "1200") 2) = ([0%Z; sec 960; sec 2880], [0%Z; sec 960; sec 2880], Ok (sec 2880, [0%Z; sec 2880], 2)) /\
  shown (exMain (plotEntries "0") 2) = ([0%Z; sec 960; sec 2880], [0%Z; sec 960; sec 2880], Ok (sec 2880, [], 0)).
Proof.
  split.
  - intros s k N. apply other_key, N.
  - split; [destruct (ready_inv _ _ _ _ _ plot_ready) as (y & ? & Y & _ & _ & _ & P & _); exists y; auto|].
    split; [destruct (ready_inv _ _ _ _ _ two_ready) as (y & ? & Y & _ & _ & _ & P & _); exists y; auto|]. split; [exact plot_shown|exact two_shown].
Qed.

(** ** To the end: stopped before EndTime, because the synthetic tide ends there *)
Definition longTimes : list Z := [0%Z; sec 960; sec 2880; sec 6720; sec 10560; sec 14400; sec 18240].
Lemma long_shown : shown (exMain (plotEntries "0") 5000) = (longTimes, longTimes, Exc EIndex).
Proof. vm_compute. reflexivity. Qed.
Definition lens (r : res (ready float)) : res (Z * Z * Z * Z) :=
  match r with Ok y => let T := vTP (ryV y) in Ok (tStart T, tEnd T, tHydDt T, tMorDtMin T) | Exc e => Exc e end.
Lemma lens_inv r a b c d : lens r = Ok (a, b, c, d) -> exists y, r = Ok y /\ tStart (vTP (ryV y)) = a /\ tEnd (vTP (ryV y)) = b /\ tHydDt (vTP (ryV y)) = c /\ tMorDtMin (vTP (ryV y)) = d.
Proof. destruct r as [y|]; [|discriminate]. cbn [lens]. cbv zeta. intros H. apply Ok_inj in H. injection H as A B C D. exists y. auto. Qed.
Lemma long_lens : lens (exPrep (plotEntries "0")) = Ok (0%Z, sec 21600, sec 5, sec 15).
Proof. vm_compute. reflexivity. Qed.
Lemma long_example : exists y, exPrep (plotEntries "0") = Ok y /\
  (0 < tHydDt (vTP (ryV y)))%Z /\ (tStart (vTP (ryV y)) <= tEnd (vTP (ryV y)))%Z /\ (0 <= tMorDtMin (vTP (ryV y)))%Z /\
  ((tEnd (vTP (ryV y)) - tStart (vTP (ryV y))) / tHydDt (vTP (ryV y)) + 2 < Z.of_nat 5000)%Z /\
  shown (exMain (plotEntries "0") 5000) = (longTimes, longTimes, Exc EIndex).
Proof.
  destruct (lens_inv _ _ _ _ _ long_lens) as (y & Y & A & B & C & D). exists y. split; [exact Y|]. rewrite A, B, C, D.
  split; [reflexivity|]. split; [discriminate|]. split; [discriminate|]. split; [vm_compute; reflexivity|exact long_shown].
Qed.
Definition tideAtEnd (r : res (env float * state float)) : res (Z * Z * Z * Z) :=
  match r with Ok (v, s) => match @steps float sim_num 40 6 0 simOr v s with Ok s => Ok (gTime s, gDt s, tEnd (vTP v), tHydDt (vTP v)) | Exc e => Exc e end | Exc e => Exc e end.
Lemma tide_shown : tideAtEnd (exStart exEntries) = Ok (sec 18240, sec 3840, sec 21600, sec 5).
Proof. vm_compute. reflexivity. Qed.
Lemma tide_inv r a b c d : tideAtEnd r = Ok (a, b, c, d) -> exists v s0 s, r = Ok (v, s0) /\ @steps float sim_num 40 6 0 simOr v s0 = Ok s /\
  gTime s = a /\ gDt s = b /\ tEnd (vTP v) = c /\ tHydDt (vTP v) = d.
Proof.
  destruct r as [[v s0]|]; [|discriminate]. cbn [tideAtEnd]. destruct (@steps float sim_num 40 6 0 simOr v s0) as [s|] eqn:E; [|discriminate].
  intros H. apply Ok_inj in H. injection H as A B C D. exists v, s0, s. auto 10.
Qed.
(** A run which loads, with input that reaches from its start to its end, does not get to its end. *)
Lemma tide_refuted : exists v s0 s c, exStart exEntries = Ok (v, s0) /\ @validate float sim_num exX (written exEntries) = Ok c /\
  c "BoundaryConditions" "SeaLevel" = Some (CS "Harmonic") /\ sameWord "Harmonic" "harmonic" /\
  (c "Time" "StartTime" = Some (CS "1 Sep 2000") /\ txTime exX "1 Sep 2000" = Ok 0%Z) /\
  @steps float sim_num 40 6 0 simOr v s0 = Ok s /\ (gTime s < tEnd (vTP v))%Z /\
  forall af o s', @step float sim_num af o v s <> Ok s'.
Proof.
  destruct (tide_inv _ _ _ _ _ tide_shown) as (v & s0 & s & St & R & A & B & C & D). destruct ex_valid as (c & V).
  assert (E : c "BoundaryConditions" "SeaLevel" = Some (CS "Harmonic")).
  { etransitivity; [exact (conf_entry (NF := sim_num) exX _ c (mkC sBC "SeaLevel" TStr DReq) V ltac:(unfold cspec; repeat (first [left; reflexivity|right])))|]. vm_compute. reflexivity. }
  assert (T : c "Time" "StartTime" = Some (CS "1 Sep 2000")).
  { etransitivity; [exact (conf_entry (NF := sim_num) exX _ c (mkC sTi "StartTime" TStr DReq) V ltac:(unfold cspec; repeat (first [left; reflexivity|right])))|]. vm_compute. reflexivity. }
  assert (Wd : sameWord "Harmonic" "harmonic") by (repeat constructor).
  assert (TT : txTime exX "1 Sep 2000" = Ok 0%Z) by (vm_compute; reflexivity).
  exists v, s0, s, c. split; [exact St|]. split; [exact V|]. split; [exact E|]. split; [exact Wd|]. split; [split; [exact T|exact TT]|]. split; [exact R|].
  split; [rewrite A, C; reflexivity|]. intros af o. eapply (tide_stops (NF := sim_num)); [exact St|exact V|exact E|exact Wd|exists "1 Sep 2000"; split; [exact T|exact TT]| |].
  - rewrite D. reflexivity.
  - rewrite A, B, C, D. vm_compute. discriminate.
Qed.

(** ** One name for both files *)
Definition sameEntries : entries := (sOO, "OutFile", "a.nc") :: (sOO, "TsOutFile", "a.nc") :: exEntries.
Definition onlyA (r : fsys float * outcome float) : list Z * res (Z * nat) :=
  (datesIn (fst r) "a.nc", match snd r with Running s _ | Finished s _ => Ok (gTime s, List.length (gOuts s)) | Raised e => Exc e end).
Definition sameMain (n : nat) : fsys float * outcome float :=
  @main float sim_num exX (exWorld sameEntries) idF exFile true "" "" 40 n simOr noFiles.
Lemma same_shown : onlyA (sameMain 2) = ([0%Z; sec 960; sec 2880], Ok (sec 2880, 0)) /\ exists e, snd (sameMain 5) = Raised e.
Proof.
  split; [vm_compute; reflexivity|]. assert (R : match snd (sameMain 5) with Raised _ => true | _ => false end = true) by (vm_compute; reflexivity).
  destruct (snd (sameMain 5)); [discriminate|discriminate|eauto].
Qed.

(** ** A lagoon that starts closed: results of an open run with the closed flag set *)
Definition shutRec (a : wargs float) : wargs float :=
  mkW (wTime a) (wSea a) (wFlow a) (wHs a) (wDir a) (wT a) (wLWL a) (wLVel a) (wLBed a) (wODep a) (wOVel a) (wOBed a) (wLST a) (wCST a) (wOW a)
      (wRiv a) (wRDep a) (wRVel a) (wRBed a) (wE0 a) (wE1 a) (wZend a) (wW a) (wEDep a) (wEVel a) (wEBed a) true.
Definition shutSaved : res (ncfile float) :=
  let! s := exDo (("OutputOptions", "OutInt", "900") :: exEntries) 2 in
  @writeAll float sim_num idF (mkNc (map tX (gT s)) (List.length (gRiver s)) [] (fun _ _ => None)) (map shutRec (gOuts s)).
Definition shutNc (n : string) : option (ncfile float * (float * float) * float) :=
  if String.eqb n "/home/hapua/First_outputs.nc" then placed shutSaved else None.
Definition shutEntries (k : string) : entries := (sOO, "PlotInt", k) :: exHotEntries "1 Sep 2000" "yes".
Definition shutPrep (k : string) : res (ready float) := @prepare float sim_num exX (exWorldNc shutNc (shutEntries k)) idF exFile.
Definition shutMain (k : string) (n : nat) : fsys float * outcome float :=
  @main float sim_num exX (exWorldNc shutNc (shutEntries k)) idF exFile false "" "" 40 n simOr noFiles.
Lemma shut_ready : readied (shutPrep "900") = Ok ("Synthetic.v2_outputs.nc", "Synthetic.v2_TSoutputs.nc", true, sec 900, true).
Proof. vm_compute. reflexivity. Qed.
Lemma shut_shown : shown (shutMain "900" 1) = ([sec 960], [sec 960], Exc EIndex).
Proof. vm_compute. reflexivity. Qed.
Lemma shut_runs : match shown (shutMain "0" 1) with (_, _, Ok _) => true | _ => false end = true.
Proof. vm_compute. reflexivity. Qed.
Lemma shut_example : exists y fs1, shutPrep "900" = Ok y /\ mdClosed (ryM y) = true /\ (0 < mdPlotInt (ryM y))%Z /\ exFirst y = (fs1, Ok tt) /\
  shown (shutMain "900" 1) = ([sec 960], [sec 960], Exc EIndex) /\ exists fs' t p, shutMain "0" 1 = (fs', Running t p).
Proof.
  destruct (ready_inv _ _ _ _ _ shut_ready) as (y & fs1 & Y & _ & _ & C & P & Q). exists y, fs1. split; [exact Y|]. split; [exact C|]. split; [rewrite P; reflexivity|].
  split; [exact Q|]. split; [exact shut_shown|].
  assert (R : match snd (shutMain "0" 1) with Running _ _ => true | _ => false end = true) by (vm_compute; reflexivity).
  destruct (shutMain "0" 1) as [fs' [t p|t p|e]]; [eauto|discriminate|discriminate].
Qed.

(** ** The pass of the breach *)
Definition before : live float := mkLive (sec 360) [] [].
Definition drawn (rs rs' : res (state float)) (D : state float -> state float -> res (live float)) (du : state float -> bool) : res (bool * bool * bool) :=
  let! s := rs in let! s' := rs' in let! p := D s s' in Ok (gClosed s, gClosed s', du s').
Definition fillDraw (s s' : state float) : res (live float) := @drawPass float sim_num (simOr 5) vFill (sec 60) before s s'.
Lemma fill_shown : drawn (after vFill true 5) (after vFill true 6) fillDraw (due (sec 60) before) = Ok (true, false, true).
Proof. vm_compute. reflexivity. Qed.
Lemma draw_inv rs rs' D du a b c : drawn rs rs' D du = Ok (a, b, c) ->
  exists s s' p, rs = Ok s /\ rs' = Ok s' /\ D s s' = Ok p /\ gClosed s = a /\ gClosed s' = b /\ du s' = c.
Proof.
  intros H. unfold drawn in H. apply bind_ok in H as (s & E1 & H). apply bind_ok in H as (s' & E2 & H). apply bind_ok in H as (p & E3 & H). apply Ok_inj in H. injection H as A B C.
  exists s, s', p. auto 10.
Qed.
(** The figure of the pass of a breach shows the outlet as closed, although the run goes on with an open one. *)
Lemma stale_refuted : exists s s' p, @run float sim_num 100 5 simOr vFill s /\ @step float sim_num 100 (simOr 5) vFill s = Ok s' /\
  due (sec 60) before s' = true /\ fillDraw s s' = Ok p /\
  gClosed s' = false /\ exists g, lvFigs p = [g] /\ plOutlet (fgPlan g) = [@lifted float sim_num].
Proof.
  destruct (draw_inv _ _ _ _ _ _ _ fill_shown) as (s & s' & p & A & B & D & C1 & C2 & Du).
  exists s, s', p. pose proof (after_next _ _ 5 _ _ A B) as St. split; [exact (after_run _ _ _ _ A)|]. split; [exact St|]. split; [exact Du|]. split; [exact D|]. split; [exact C2|].
  destruct (draw_stale (NF := sim_num) _ _ _ _ _ _ _ _ St D Du C1) as (g & G & O). exists g. split; [exact G|exact O].
Qed.
