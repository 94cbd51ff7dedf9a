Set Warnings "-inexact-float".
(** A later end: examples. *)
From Coq Require Import ZArith List Bool Floats String Lia.
From Verif Require Import Base Num Flt MState SSame MGeom MCoast MRiv MMor MOut MCore MLoad MSynth MConf SConf SAdapt SCore SLong PSame PLong Sim SimEx PCoreEx PConf PConfEx PStartEx.
From Verif Require Import SLoad.
Import ListNotations.
Local Open Scope Z_scope.

(** The run of [vFill] with an end between two passes. *)
Definition vCut : env float := simEnv (simTP 0 140 5 15 60) 200 0.5 1 60 30.
Lemma flat_self c : alike 0 (sec 1000000) (flat c) (flat c).
Proof.
  exists [], [], (flat c), [], []. split; [rewrite app_nil_r; reflexivity|]. split; [rewrite app_nil_r; reflexivity|]. unfold sec, flat.
  split; [constructor|]. split; [constructor|].
  split; [apply Exists_cons_hd; cbn [fst]; unfold sec; lia|apply Exists_cons_tl, Exists_cons_hd; cbn [fst]; unfold sec; lia].
Qed.
Lemma cut_case : longer (alike 0 (sec 1000000)) vCut vFill /\ 0 < tHydDt (vTP vCut).
Proof.
  split; [|reflexivity]. split; [reflexivity|]. split; [reflexivity|]. split; [reflexivity|]. split; [reflexivity|]. split; [reflexivity|].
  split; [cbv; discriminate|]. split; [reflexivity|]. split; [reflexivity|]. split; [reflexivity|]. do 6 (split; [apply flat_self|]). apply flat_self.
Qed.
Lemma cut_clocks : clock (after vCut false 4) = clock (after vFill false 4) /\ isOk (after vCut false 4) = true.
Proof. vm_compute. split; reflexivity. Qed.
Definition timeOf' (r : res (state float)) : option Z := match r with Ok s => Some (gTime s) | Exc _ => None end.
Definition hapuaOf (r : res (state float)) :=
  match r with Ok s => Some (gT s, gE0 s, gE1 s, gW s, gZ s, gRiver s, (gRDep s, gRVel s, gLWL s, gLVel s), (gODep s, gOVel s, gEDep s, gEVel s, gClosed s)) | Exc _ => None end.
Definition widthOf (r : res (state float)) : option float := match r with Ok s => Some (gW s) | Exc _ => None end.
Lemma cut_end : timeOf' (after vCut false 5) = Some (sec 140) /\ timeOf' (after vFill false 5) = Some (sec 150) /\ timeOf' (after vFill false 4) = Some (sec 120) /\
  hapuaOf (after vCut false 5) = hapuaOf (after vFill false 5) /\
  widthOf (after vCut false 5) = Some 30.033644057330623%float /\ widthOf (after vFill false 4) = Some 30.026825462505126%float.
Proof. vm_compute. repeat split. Qed.

(** A configuration file with another end. *)
Local Open Scope string_scope.
Definition exTime2 (s : string) : res Z := if String.eqb s "1 Sep 2000 09:00" then Ok (sec 32400) else exTime s.
Definition exX2 : conv float := @mkConv float exF exI exTime2 (exDur 1) (exDur 60) (exDur 86400).
Definition exLater : entries := (sTi, "EndTime", "1 Sep 2000 09:00") :: exEntries.
Definition exStart2 (l : entries) : res (env float * state float) := @start float sim_num exX2 (@withConf float sim_num (exWorld exEntries) (written l)) (fun x => x) exFile.
Lemma written_more l x : onlyEnd (written l) (written ((sTi, "EndTime", x) :: l)).
Proof.
  intros s k N. unfold written. cbn [find fst snd].
  assert (E : (String.eqb sTi s && String.eqb "EndTime" k)%bool = false).
  { apply not_true_is_false. intros E. apply andb_prop in E. destruct E as [E1 E2]. apply String.eqb_eq in E1, E2. subst. apply N. reflexivity. }
  rewrite E. reflexivity.
Qed.
Lemma later_only : onlyEnd (written exEntries) (written exLater).
Proof. exact (written_more exEntries "1 Sep 2000 09:00"). Qed.
Definition endOf (r : res (env float * state float)) : option (Z * Z) := match r with Ok (v, _) => Some (tStart (vTP v), tEnd (vTP v)) | Exc _ => None end.
Definition runOf (l : entries) (n : nat) : res (Z * Z) :=
  match exStart2 l with Ok (v, s) => match @steps float sim_num 40 n 0 simOr v s with Ok s' => Ok (gTime s', gDt s') | Exc e => Exc e end | Exc e => Exc e end.
Lemma later_ends : endOf (exStart2 exEntries) = Some (0, sec 21600) /\ endOf (exStart2 exLater) = Some (0, sec 32400).
Proof. vm_compute. split; reflexivity. Qed.
Lemma later_runs : runOf exEntries 2 = Ok (sec 2880, sec 1920) /\ runOf exLater 2 = Ok (sec 2880, sec 1920).
Proof. vm_compute. split; reflexivity. Qed.
Definition flowName (l : entries) : res string := let! c := @validate float sim_num exX2 (written l) in @getS float c sBC "RiverFlow".
Lemma later_flow : flowName exEntries = Ok "LagoonInflow.csv" /\ isOk (@validate float sim_num exX2 (written exEntries)) = true.
Proof. vm_compute. split; reflexivity. Qed.
Lemma two_ordered {A} a b (x y : A) : a < b -> ordered_times [(a, x); (b, y)].
Proof. intros L i p q H1 H2. destruct i as [|[|i]]; cbn in H1, H2; [|discriminate|destruct i; discriminate]. apply Some_inj in H1, H2. subst. exact L. Qed.
Lemma later_files : (forall f l, wdSeries (exWorld exEntries) f = Ok l -> ordered_times l) /\ (forall f l, wdWaves (exWorld exEntries) f = Ok l -> ordered_times l).
Proof.
  split; intros f l H; cbn [exWorld exWorldNc wdSeries wdWaves] in H; unfold exSeries, exWaves in H; destruct (String.eqb f _); try discriminate;
    apply Ok_inj in H; subst l; apply two_ordered; unfold sec; lia.
Qed.
