(** The push of PQuietEx with water over the barrier: a breach takes sediment out of the domain. *)
From Coq Require Import ZArith List Bool Lia Reals Lra.
From Verif Require Import Base Num Xr XEval MState MCoast MRiv MMor SMor SPost SVol SAdapt STouch SLedger PCoast PGeom PLag PCore PFill PRate PBudget PShore PRateEx PCap PPost PTrunc PBreach PBreach2 PUpdate PUpdate2 PCapEx PPostEx PVol PQuiet PQuietEx PLedger PLedger2 PLedger3.
Import ListNotations.
Local Open Scope R_scope.

Definition cutCoast : list (tsect xr) :=
  [bare (-1) 0; mkT (Fin 0) (Fin 0.15) NaN NaN (Fin (-30)) (Fin (-50)) (Fin 3) NaN NaN (Fin (-1 + 0.00375));
   mkT (Fin 1) (Fin 0) (Fin ((0 + -30) / 2 + 5 / 2)) (Fin ((0 + -30) / 2 + 5 / 2 - 5)) (Fin (-30)) (Fin (-50)) (Fin 3) (Fin (1 / 2 * 0 + 1 / 2 * -1)) (Fin 3) (Fin (-1)); bare 2 0].
Lemma cut_apply : morApply 10 restP pushNum slowTP (exCoast 0) NaN (Fin 1) (Fin 5) (Fin 0) [Fin 1; Fin 1] [1]%nat [] [Fin 2; Fin 2; Fin 4; Fin 2] [] [Fin 5; Fin 5; Fin 5] [Fin 1; Fin 1; Fin 1] [0;0;1]%nat true
   (map Fin [0.8; 0; 0]) (map Fin [0.2; 0.1]) (map Fin [0; 0; 0; 0]) [false;false;false;false] (sec 15) =
   Ok (mkApp pushCoast (Fin 1) (Fin 5) (Fin 0) [Fin 1; Fin 1.075] (sec 15) [Fin 2; Fin 2; Fin 4; Fin 2] 1).
Proof.
  pose proof push_apply as H. unfold morApply in *. destruct (x0Ix (exCoast 0)) as [x0|]; [|discriminate]. cbn [bind] in *.
  match type of H with context [waterLevel ?a ?b ?c ?d ?e] => assert (E1 : waterLevel a b c d e = Ok [Fin 2; Fin 2; Fin 2; Fin 2]) by (xrun) end.
  match goal with |- context [waterLevel ?a ?b ?c ?d ?e] => assert (E2 : waterLevel a b c d e = Ok [Fin 2; Fin 2; Fin 4; Fin 2]) by (xrun) end.
  rewrite E1 in H. rewrite E2. cbn [bind] in *.
  repeat match type of H with (bind ?r _) = _ => destruct r; [cbn [bind] in *|discriminate H] end.
  apply Ok_inj in H. pose proof (f_equal (@aT _) H) as H1. pose proof (f_equal (@aRiver _) H) as H2. pose proof (f_equal (@aDt _) H) as H3. pose proof (f_equal (@aX0 _) H) as H4.
  cbn [aT aRiver aDt aX0] in H1, H2, H3, H4. f_equal. rewrite H1, H2, H3, H4. reflexivity.
Qed.
Lemma cut_breach : exists e0' e1' W' Z' br, morBreach restP yes yes (exCoast 0) pushCoast [false; false; false; false] 1 NaN (Fin 1) (Fin 5) (Fin 0) [] true [Fin 2; Fin 2; Fin 4; Fin 2] = Ok (cutCoast, e0', e1', W', Z', br).
Proof. do 5 eexists. unfold morBreach; cbv zeta; xrun. Qed.
Lemma cut_update : exists o, updateMorphology 10 yes yes restP pushNum slowTP (exCoast 0) NaN (Fin 1) (Fin 5) (Fin 0) [Fin 1; Fin 1] [1]%nat [] [Fin 2; Fin 2; Fin 4; Fin 2] [] [Fin 5; Fin 5; Fin 5] [Fin 1; Fin 1; Fin 1] [0;0;1]%nat true
   (map Fin [0.8; 0; 0]) (map Fin [0.2; 0.1]) (map Fin [0; 0; 0; 0]) [false;false;false;false] (sec 15) = Ok o /\ oT o = cutCoast.
Proof.
  destruct cut_breach as (e & e' & w & z & br & EB). eexists. split.
  - unfold updateMorphology. rewrite cut_apply. cbn [bind aT aE1 aW aZ aX0 aWL aRiver aDt]. rewrite push_correct. cbn [bind]. rewrite EB. reflexivity.
  - reflexivity.
Qed.
Lemma rest_numbered : numberedPars restP.
Proof. repeat split; eexists; reflexivity. Qed.
Lemma cut_volume : volume restP 20 cutCoast = volume restP 20 pushCoast - 350.
Proof. unfold volume, total, cutCoast, pushCoast, mapi. cbn [mapi_from]. unfold section, rsum. cbn. lra. Qed.
Lemma cut_story : story restP (Fin 5) (Fin 0) (bare 1 0) 0 (bare 1 0) [(Breach, bare 1 0)] (nth 2 cutCoast (bare 0 0)).
Proof.
  eapply tell; [cbn; lia| |constructor].
  eassert (R : reworked restP (Fin 5) (Fin 0) (bare 1 0) Breach (bare 1 0) _) by (eapply (rwBreach restP (Fin 5) (Fin 0) (bare 1 0) (bare 1 0)); reflexivity).
  match type of R with reworked _ _ _ _ _ _ ?u => assert (E : u = nth 2 cutCoast (bare 0 0)) by (cbn [nth cutCoast]; xev; reflexivity) end. rewrite E in R. exact R.
Qed.
Lemma cut_worth : made restP 5 0 (bare 1 0) [(Breach, bare 1 0)] = -17.5 /\ properAll restP (bare 1 0) [(Breach, bare 1 0)].
Proof.
  split; [|constructor; [exact I|constructor]].
  unfold made, rsum. cbn [map fold_right fst snd worth]. unfold missing, breachSea, breachWide, cutTo. change (hasChannel (bare 1 0)) with false. cbn.
  rewrite (Rmax_left 5) by lra. rewrite (Rmin_right (0 - 1)) by lra. rewrite Rmin_left by lra. destruct (Rle_dec _ (-30)); [lra|]. destruct (Rle_dec _ (-50)); lra.
Qed.
Lemma cut_case :
  nDx pushNum = Fin 20 /\ numberedPars restP /\
  soundInputs restP 20 (exCoast 0) (Fin 1) (Fin 5) (Fin 0) [1]%nat [] [Fin 5; Fin 5; Fin 5] [Fin 1; Fin 1; Fin 1] [0;0;1]%nat true (length [0.2; 0.1]) /\
  (is_fin (nMaxMorChange pushNum) /\ 0 <= rv (nMaxMorChange pushNum)) /\ Forall is_fin [Fin 1; Fin 1] /\
  exists o a,
  updateMorphology 10 yes yes restP pushNum slowTP (exCoast 0) NaN (Fin 1) (Fin 5) (Fin 0) [Fin 1; Fin 1] [1]%nat [] [Fin 2; Fin 2; Fin 4; Fin 2] [] [Fin 5; Fin 5; Fin 5] [Fin 1; Fin 1; Fin 1] [0;0;1]%nat true
    (map Fin [0.8; 0; 0]) (map Fin [0.2; 0.1]) (map Fin [0; 0; 0; 0]) [false;false;false;false] (sec 15) = Ok o /\
  morApply 10 restP pushNum slowTP (exCoast 0) NaN (Fin 1) (Fin 5) (Fin 0) [Fin 1; Fin 1] [1]%nat [] [Fin 2; Fin 2; Fin 4; Fin 2] [] [Fin 5; Fin 5; Fin 5] [Fin 1; Fin 1; Fin 1] [0;0;1]%nat true
    (map Fin [0.8; 0; 0]) (map Fin [0.2; 0.1]) (map Fin [0; 0; 0; 0]) [false;false;false;false] (sec 15) = Ok a /\
  (seconds (tMorDtMin slowTP) < seconds (aDt a))%Z /\
  (exists t', nth_error (oT o) 2 = Some t' /\ story restP (aW a) (aZ a) (bare 1 0) 0 (bare 1 0) [(Breach, bare 1 0)] t') /\
  made restP (rv (aW a)) (rv (aZ a)) (bare 1 0) [(Breach, bare 1 0)] = -17.5 /\ properAll restP (bare 1 0) [(Breach, bare 1 0)] /\
  volume restP 20 (oT o) = volume restP 20 (aT a) - 350.
Proof.
  split; [reflexivity|]. split; [exact rest_numbered|]. split; [exact push_sound|]. split; [split; [eexists; reflexivity|cbn; lra]|]. split; [repeat (apply Forall_cons; [eexists; reflexivity|]); apply Forall_nil|].
  destruct cut_update as (o & E1 & E2). exists o. eexists. split; [exact E1|]. split; [exact cut_apply|]. cbn [aT aE1 aDt aW aZ rv]. split; [vm_compute; reflexivity|]. split.
  - rewrite E2. eexists. split; [reflexivity|]. exact cut_story.
  - split; [apply cut_worth|]. split; [apply cut_worth|]. rewrite E2. exact cut_volume.
Qed.
(** Refuted: what follows the movement only moves sediment about. *)
Lemma rework_refuted : ~ (forall fuel j1 j2 (P : phys xr) N TP T e0 e1 W Zend RiverElev online outlet LagoonWL OutletDep CW CD fl closed (l q c : list R) OW dt0 o a d,
  nDx N = Fin d -> numberedPars P -> soundInputs P d T e1 W Zend online outlet CW CD fl closed (length q) ->
  updateMorphology fuel j1 j2 P N TP T e0 e1 W Zend RiverElev online outlet LagoonWL OutletDep CW CD fl closed (map Fin l) (map Fin q) (map Fin c) OW dt0 = Ok o ->
  morApply fuel P N TP T e0 e1 W Zend RiverElev online outlet LagoonWL OutletDep CW CD fl closed (map Fin l) (map Fin q) (map Fin c) OW dt0 = Ok a ->
  volume P d (oT o) = volume P d (aT a)).
Proof.
  intros H. destruct cut_case as (A & B & C & _ & _ & o & a & D & E & _ & _ & _ & _ & V).
  pose proof (H _ _ _ _ _ _ _ _ _ _ _ _ _ _ _ _ _ _ _ _ _ _ _ _ _ _ _ _ A B C D E) as X. lra.
Qed.
(** Where nothing is made: the channel moved back from the sea, and a plain cliff collision. *)
Lemma plain_cliff P w z t0 t : hasChannel t = false -> rv (tZ0 t) = rv (tZ0 t0) -> rv (tY3 t) = rv (tY4 t) -> worth P w z t0 Cliff t = 0.
Proof. intros E1 E2 E3. unfold worth, innerTop. rewrite E1, E2, E3. ring. Qed.
Lemma plain_seaward P w z t0 t : worth P w z t0 Seaward t = 0. Proof. reflexivity. Qed.
Lemma plain_squeeze P w z t0 t : rv (barBack t0) = rv (tZ0 t) - rv (tZ1 t) -> rv (tZ2 t) < rv (tZ0 t) -> worth P w z t0 Squeeze t = 0.
Proof. intros E1 E2. unfold worth. rewrite E1. destruct (Rle_dec _ _); [lra|]. ring. Qed.
