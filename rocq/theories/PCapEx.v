(** The cap on the small coast of PRateEx.v, and the supply that escapes it. *)
From Coq Require Import ZArith List Bool Lia Reals Lra.
From Verif Require Import Base Num Xr MState MCoast MRiv MMor SMor SAdapt PCoast PLag PCore PAdapt PRate PBudget PShore PRateEx PCap.
Import ListNotations.
Local Open Scope R_scope.

Definition capNum : nump xr := mkNum (Fin 20) (Fin 1) (Fin 1) (Fin 1) (Fin 1) 10 (Fin 1) (Fin 0.25).
Definition capTP : timep := mkTime 0 (sec 3600) (sec 5) (sec 15) (sec 15).
Definition capWL : list xr := repeat (Fin 1) 7.

Lemma cap_wl : exists wl, waterLevel exT capWL capWL [3%nat] false = Ok wl.
Proof.
  unfold waterLevel. change (negb (Nat.eqb (length capWL) (length exT))) with false. cbv iota.
  change (gather capWL [3%nat]) with (@Ok (list xr) [Fin 1]). change (gather exT [3%nat]) with (Ok [exOut 0]). cbn [bind].
  unfold exT, capWL. cbn [repeat map2].
  destruct (lagoonPresent (exBare (-60))), (lagoonPresent (exBare (-40))), (lagoonPresent (exLag (-20))), (lagoonPresent (exOut 0)),
    (lagoonPresent (exBare 20)), (lagoonPresent (exBare 40)), (lagoonPresent (exBare 60)); eexists; reflexivity.
Qed.
Lemma cap_crest : forallb (fun t => (f0 <? crestWidth t)%n) exT = true.
Proof.
  apply forallb_forall. intros t Ht. unfold exT in Ht. cbn [In] in Ht.
  repeat destruct Ht as [<-|Ht]; try (change (Rltb 0 (0 - -50) = true); apply Rltb_true; lra); [change (Rltb 0 (0 - -20) = true); apply Rltb_true; lra|contradiction].
Qed.
Lemma cap_x0 : x0Ix exT = Ok 3%nat.
Proof.
  unfold x0Ix. replace (first_where _ exT) with (Some 3%nat); [reflexivity|]. symmetry. apply first_where_Some. split.
  - exists (exOut 0). split; [reflexivity|]. change (Reqb 0 0 = true). apply Reqb_true. lra.
  - intros j t Hj Ht. destruct j as [|[|[|j]]]; [| | |lia]; injection Ht as <-.
    + change (Reqb (-60) 0 = false). apply Reqb_false. lra.
    + change (Reqb (-40) 0 = false). apply Reqb_false. lra.
    + change (Reqb (-20) 0 = false). apply Reqb_false. lra.
Qed.

Lemma maxl_exists (l : list xr) : l <> [] -> exists m, fmaxl l = Ok m.
Proof. destruct l; [contradiction|eexists; reflexivity]. Qed.

Lemma cap_runs s (l : list R) : s <> 0 -> length l = 6%nat -> exists a,
  morApply 10 (exP s) capNum capTP exT (Fin 0) (Fin 10) (Fin 10) (Fin 0) (map Fin [5; 4]) [2; 3]%nat [3]%nat capWL capWL exCW exCD exFl false
    (map Fin l) (map Fin exQ) (map Fin exCst) exOw (sec 15) = Ok a.
Proof.
  intros Hs Hl. destruct (exRates s l exQ exCst Hl) as (RR & HR); try reflexivity. unfold morApply. rewrite cap_x0. cbn [bind].
  pose proof HR as HR2.
  unfold ratesFor in HR. rewrite (proj1 (firstRight_Rb _ _ _) exRight) in *. cbn [bind prevIx] in *. unfold ix in *. rewrite nth_error_map in *.
  destruct (nth_error l 3) as [v|] eqn:Ev; [|apply nth_error_None in Ev; lia]. cbn [option_map of_opt bind] in *.
  destruct cap_wl as (wl & ->). cbn [bind]. rewrite cap_crest. cbn [assert_ bind]. change (nDx capNum) with (Fin 20). rewrite HR. cbn [bind].
  pose proof (exSound s false Hs) as SI. change 6%nat with (length exQ) in SI.
  pose proof (rates_finite _ _ _ _ _ _ _ _ _ _ _ _ _ _ _ _ _ _ SI HR2) as FR.
  pose proof (real _ _ _ _ _ _ _ _ _ _ _ _ _ _ _ _ _ _ SI HR2) as G.
  pose proof (rf_len _ _ _ _ _ _ _ _ _ _ _ _ _ _ _ _ _ _ G) as LT.
  pose proof (rf_riv _ _ _ _ _ _ _ _ _ _ _ _ _ _ _ _ _ _ G) as RV. change (flagged false exFl 0) with [1%nat] in RV. cbn [map] in RV.
  assert (exists m, maxRate RR = Ok m) as (m & Hm).
  { unfold maxRate. rewrite RV. cbn [map fmaxl bind]. destruct (rT RR) as [|r rs]; [discriminate|]. cbn [map concat rowMax rowMaxZ app fmaxl bind]. eexists. reflexivity. }
  rewrite Hm. cbn [bind]. destruct (max_bound _ _ FR Hm) as (M & -> & HB).
  assert (EA : adaptStep 10 capNum capTP (Fin M) (sec 15) = Ok (sec 15)).
  { unfold adaptStep, adaptDown, adaptUp. change (seconds (tMorDtMin capTP) <? seconds (sec 15))%Z with false. cbn [andb bind]. change (seconds (sec 15) <? seconds (tMorDtMax capTP))%Z with false. reflexivity. }
  rewrite EA. cbn [bind].
  assert (exists R', limitRates capNum capTP (Fin M) (sec 15) RR = Ok R' /\ length (rRiv R') = 1%nat) as (R' & -> & L1).
  { unfold limitRates. destruct (_ <? _)%n; [|eexists; split; [reflexivity|rewrite RV; reflexivity]].
    change (seconds (sec 15) <=? seconds (tMorDtMin capTP))%Z with true. cbn [assert_ bind]. change (seconds (sec 15) =? 0)%Z with false. cbv iota.
    eexists; split; [reflexivity|]. cbn [clipRates rRiv]. rewrite map_length, RV. reflexivity. }
  cbn [bind]. unfold applyRiver. cbn [map]. rewrite L1. cbn [length Nat.eqb bind]. eexists. reflexivity.
Qed.

(** A step above the minimum, with a cap large enough. *)
Definition slowNum (cap : R) : nump xr := mkNum (Fin 20) (Fin 1) (Fin 1) (Fin 1) (Fin 1) 10 (Fin 1) (Fin cap).
Definition slowTP : timep := mkTime 0 (sec 3600) (sec 5) (sec 5) (sec 15).
Lemma cap_slow s (l : list R) : s <> 0 -> length l = 6%nat -> exists cap a, 0 <= cap /\ (seconds (tMorDtMin slowTP) < seconds (aDt a))%Z /\
  morApply 10 (exP s) (slowNum cap) slowTP exT (Fin 0) (Fin 10) (Fin 10) (Fin 0) (map Fin [5; 4]) [2; 3]%nat [3]%nat capWL capWL exCW exCD exFl false
    (map Fin l) (map Fin exQ) (map Fin exCst) exOw (sec 15) = Ok a.
Proof.
  intros Hs Hl. destruct (exRates s l exQ exCst Hl) as (RR & HR); try reflexivity. 
  pose proof (exSound s false Hs) as SI. change 6%nat with (length exQ) in SI.
  pose proof (rates_finite _ _ _ _ _ _ _ _ _ _ _ _ _ _ _ _ _ _ SI HR) as FR.
  pose proof (real _ _ _ _ _ _ _ _ _ _ _ _ _ _ _ _ _ _ SI HR) as G.
  pose proof (rf_len _ _ _ _ _ _ _ _ _ _ _ _ _ _ _ _ _ _ G) as LT.
  pose proof (rf_riv _ _ _ _ _ _ _ _ _ _ _ _ _ _ _ _ _ _ G) as RV. change (flagged false exFl 0) with [1%nat] in RV. cbn [map] in RV.
  assert (exists m, maxRate RR = Ok m) as (m & Hm).
  { unfold maxRate. rewrite RV. cbn [map fmaxl bind]. destruct (rT RR) as [|r rs]; [discriminate|]. cbn [map concat rowMax rowMaxZ app fmaxl bind]. eexists. reflexivity. }
  destruct (max_bound _ _ FR Hm) as (M & -> & HB). set (cap := Rmax (M * 15) 0). exists cap.
  assert (HC : Rltb cap (M * 15) = false) by (apply Rltb_false; apply Rmax_l).
  unfold morApply. rewrite cap_x0. cbn [bind].
  unfold ratesFor in HR. rewrite (proj1 (firstRight_Rb _ _ _) exRight) in *. cbn [bind prevIx] in *. unfold ix in *. rewrite nth_error_map in *.
  destruct (nth_error l 3) as [v|] eqn:Ev; [|apply nth_error_None in Ev; lia]. cbn [option_map of_opt bind] in *.
  destruct cap_wl as (wl & ->). cbn [bind]. rewrite cap_crest. cbn [assert_ bind]. change (nDx (slowNum cap)) with (Fin 20). rewrite HR. cbn [bind].
  rewrite Hm. cbn [bind].
  assert (EA : adaptStep 10 (slowNum cap) slowTP (Fin M) (sec 15) = Ok (sec 15)).
  { unfold adaptStep. cbn [adaptDown]. change (nMaxMorChange (slowNum cap) <? Fin M * fofZ (seconds (sec 15)))%n with (Rltb cap (M * 15)). rewrite HC, andb_false_r. cbn [bind].
    unfold adaptUp. change (seconds (sec 15) <? seconds (tMorDtMax slowTP))%Z with false. reflexivity. }
  rewrite EA. cbn [bind]. unfold limitRates. change (nMaxMorChange (slowNum cap) <? Fin M * fofZ (seconds (sec 15)))%n with (Rltb cap (M * 15)). rewrite HC. cbn [bind].
  unfold applyRiver. cbn [map]. rewrite RV. cbn [length Nat.eqb bind]. eexists. split; [apply Rmax_r|]. split; [|reflexivity]. reflexivity.
Qed.

Lemma cap_example : nDx capNum = Fin 20 /\ nMaxMorChange capNum = Fin 0.25 /\ 0 <= 0.25 /\
  soundInputs (exP 40) 20 exT (Fin 10) (Fin 10) (Fin 0) [2; 3]%nat [3]%nat exCW exCD exFl false (length exQ) /\
  firstRight exT (Fin 10) 4 /\ nth_error exLst 3 = Some 4 /\
  exists a, morApply 10 (exP 40) capNum capTP exT (Fin 0) (Fin 10) (Fin 10) (Fin 0) (map Fin [5; 4]) [2; 3]%nat [3]%nat capWL capWL exCW exCD exFl false
    (map Fin exLst) (map Fin exQ) (map Fin exCst) exOw (sec 15) = Ok a.
Proof.
  split; [reflexivity|]. split; [reflexivity|]. split; [lra|]. split; [apply (exSound 40 false); lra|]. split; [apply exRight|].
  split; [reflexivity|]. apply cap_runs; [lra|reflexivity].
Qed.

(** Longshore transport to the left of 28000 at the outlet: the transect left of it
    moves 100 m in a step, 400 times the cap. *)
Definition jumpLst : list R := [0; 0; 0; -28000; 0; 0].
Lemma jump_refuted : ~ (forall fuel P N TP T e0 e1 W Zend RiverElev online outlet LagoonWL OutletDep CW CD fl closed (LST q CST : list R) OW dt0 (a : applied xr) d cap,
  nDx N = Fin d -> nMaxMorChange N = Fin cap -> 0 <= cap ->
  soundInputs P d T e1 W Zend online outlet CW CD fl closed (length q) ->
  morApply fuel P N TP T e0 e1 W Zend RiverElev online outlet LagoonWL OutletDep CW CD fl closed
    (map Fin LST) (map Fin q) (map Fin CST) OW dt0 = Ok a ->
  forall i t t', nth_error T i = Some t -> nth_error (aT a) i = Some t' -> moved (100 * cap) (tY0 t) (tY0 t')).
Proof.
  intros H. destruct (cap_runs 40 jumpLst) as (a & Ha); [lra|reflexivity|].
  pose proof (exSound 40 false ltac:(lra)) as SI. change 6%nat with (length exQ) in SI.
  assert (C := cap_transects _ _ capNum _ _ _ _ _ _ _ _ _ _ _ _ _ _ _ _ _ _ _ _ _ 20 0.25 eq_refl eq_refl ltac:(lra) SI Ha 3 (-28000)).
  destruct C as (L & C); [intros _; split; [apply exRight|reflexivity]|].
  destruct (nth_error (aT a) 3) as [t'|] eqn:E; [|apply nth_error_None in E; rewrite L in E; cbn in E; lia].
  destruct (C 3%nat (exOut 0) t' eq_refl E) as (_ & (e & He & Ye) & _).
  destruct (H _ _ capNum _ _ _ _ _ _ _ _ _ _ _ _ _ _ _ _ _ _ _ _ _ 20 0.25 eq_refl eq_refl ltac:(lra) SI Ha 3%nat (exOut 0) t' eq_refl E) as (e' & He' & Ye').
  unfold supplied in Ye. cbn [negb andb Nat.eqb] in Ye. rewrite (proj2 (Rleb_true (-28000) 0)) in Ye by lra.
  cbn [exOut exP tY0 tZ0 pClosureDepth rv] in Ye, Ye'. rewrite Ye in Ye'. rewrite !xadd in Ye'. injection Ye' as Y.
  replace (-28000 / ((10 + 4) * 20)) with (-100) in Y by field.
  pose proof (Rle_abs e). pose proof (Rle_abs (- e)). rewrite Rabs_Ropp in *. pose proof (Rle_abs (- e')). rewrite Rabs_Ropp in *. lra.
Qed.
