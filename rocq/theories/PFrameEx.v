(** Cases for the directions of cliff and crest. *)
From Coq Require Import ZArith List Bool Lia Reals Lra.
From Verif Require Import Base Num Xr XEval MState MCoast MRiv MMor SMor SVol SAdapt STouch SLedger SFrame PCoast PLag PCore PRate PBudget PShore PRateEx PCap PCapEx PPostEx PVol PQuiet PQuietEx PLedger PLedger2 PLedger3 PLedgerEx PFrame.
Import ListNotations.
Local Open Scope R_scope.

(** A narrow lagoon at the river. *)
Definition narrow (t : tsect xr) (y : R) : tsect xr := setY3 (Fin y) t.
Lemma keep_case : exists t', reworked restP (Fin 5) (Fin 0) (narrow (bare 0 0) (-49.5)) Keep (narrow (bare 0 0) (-49.5)) t' /\
  numbers (narrow (bare 0 0) (-49.5)) /\ proper restP (narrow (bare 0 0) (-49.5)) Keep (narrow (bare 0 0) (-49.5)) /\ coastal restP (narrow (bare 0 0) (-49.5)) Keep (narrow (bare 0 0) (-49.5)) /\
  rv (tY4 t') < rv (tY4 (narrow (bare 0 0) (-49.5))).
Proof.
  eexists. split; [apply rwKeep; cbn; rdecide; lra|]. split.
  - repeat split; try (eexists; reflexivity); discriminate.
  - split; [exact I|]. split; [exact I|]. cbn. lra.
Qed.
Lemma breach_case :
  nDx pushNum = Fin 20 /\ 0 < 20 /\ numberedPars restP /\
  soundInputs restP 20 (exCoast 0) (Fin 1) (Fin 5) (Fin 0) [1]%nat [] [Fin 5; Fin 5; Fin 5] [Fin 1; Fin 1; Fin 1] [0;0;1]%nat true (length [0.2; 0.1]) /\
  (is_fin (nMaxMorChange pushNum) /\ 0 <= rv (nMaxMorChange pushNum)) /\
  (forall i t0, nth_error (exCoast 0) i = Some t0 -> In i [1]%nat -> rv (tZ3 t0) < rv (pBackshoreElev restP)) /\ (forall i, 0 <= nth i [0; 0; 0; 0] 0) /\
  exists o,
  updateMorphology 10 yes yes restP pushNum slowTP (exCoast 0) NaN (Fin 1) (Fin 5) (Fin 0) [Fin 1; Fin 1] [1]%nat [] [Fin 2; Fin 2; Fin 4; Fin 2] [] [Fin 5; Fin 5; Fin 5] [Fin 1; Fin 1; Fin 1] [0;0;1]%nat true
    (map Fin [0.8; 0; 0]) (map Fin [0.2; 0.1]) (map Fin [0; 0; 0; 0]) [false;false;false;false] (sec 15) = Ok o /\
  (exists t', nth_error (oT o) 2 = Some t' /\ story restP (Fin 5) (Fin 0) (bare 1 0) 0 (bare 1 0) [(Breach, bare 1 0)] t') /\
  properAll restP (bare 1 0) [(Breach, bare 1 0)] /\ coastalAll restP (bare 1 0) [(Breach, bare 1 0)] /\ crestKept [(Breach, bare 1 0)].
Proof.
  destruct cut_case as (A & B & C & D & _). split; [exact A|]. split; [lra|]. split; [exact B|]. split; [exact C|]. split; [exact D|].
  split. { intros i t0 H [<-|[]]. cbn in H. apply Some_inj in H. subst t0. cbn. lra. }
  split. { intros [|[|[|[|[|i]]]]]; cbn; lra. }
  destruct cut_update as (o & E1 & E2). exists o. split; [exact E1|]. split; [rewrite E2; eexists; split; [reflexivity | exact cut_story]|].
  split; [apply cut_worth|]. split; [apply Forall_cons; [exact I | apply Forall_nil]|]. apply Forall_cons; [cbn; split; discriminate | apply Forall_nil].
Qed.

(** A channel bed above the inner crest: the crowded cliff advances. *)
Definition silted : tsect xr := mkT (Fin 0) (Fin 0) (Fin (-10)) (Fin (-55)) (Fin (-52)) (Fin (-50)) (Fin 3) (Fin 2) (Fin 1) (Fin (-1)).
Lemma cliff_refuted : ~ (forall P w z t0 k t t', numberedPars P -> numbers t0 -> reworked P (Fin w) (Fin z) t0 k t t' -> numbers t -> proper P t0 k t ->
  rv (tY4 t') <= rv (tY4 t)).
Proof.
  intros H. assert (N : numbers silted) by (repeat split; try (eexists; reflexivity)).
  assert (D : (Fin (1 + (rv (pBackshoreElev restP) - 1) / (1 - 2))) = (f1 + ((pBackshoreElev restP - tZ2 silted) / (tZ2 silted - tZ1 silted)))%n).
  { cbn [tZ2 tZ1 silted restP pBackshoreElev rv]. rewrite x1, !PRate.xsub, PRate.xdivf by lra. rewrite PRate.xadd. reflexivity. }
  eassert (R : reworked restP (Fin 5) (Fin 0) silted Crowd silted _).
  { eapply (rwCrowdCliff restP (Fin 5) (Fin 0) silted silted); [| reflexivity | | reflexivity | reflexivity].
    - cbn. rdecide; lra.
    - cbn. rdecide; lra. }
  pose proof (H restP 5 0 silted Crowd silted _ rest_numbered N R N) as K. cbn [tY4] in K.
  rewrite <- D in K. cbn [tY2 tY4 silted restP pBackshoreElev rv] in K. rewrite xq in K.
  assert (proper restP silted Crowd silted) as Q by (split; [reflexivity|]; cbn; lra). specialize (K Q).
  rewrite !PRate.xsub, PRate.xdivf, PRate.xsub in K by lra. cbn [rv] in K. lra.
Qed.
(** A channel with a low inner crest, met by the sea: the crest falls. *)
Definition met : tsect xr := mkT (Fin 0) (Fin (-12)) (Fin (-10)) (Fin (-20)) (Fin (-30)) (Fin (-50)) (Fin 3) (Fin 0) (Fin 2) (Fin (-1)).
Lemma crest_refuted : ~ (forall P w z t0 k t t', numberedPars P -> numbers t0 -> reworked P (Fin w) (Fin z) t0 k t t' -> numbers t -> proper P t0 k t -> coastal P t0 k t ->
  rv (tZ0 t) <= rv (tZ0 t')).
Proof.
  intros H. assert (N : numbers met) by (repeat split; try (eexists; reflexivity)).
  pose proof (H restP 5 0 met Fill met _ rest_numbered N (rwFill _ _ _ _ met) N) as K. cbn [tZ0 met tZ2 rv] in K.
  assert (Q : proper restP met Fill met) by (split; [reflexivity|]; cbn; lra). specialize (K Q I). lra.
Qed.
