(** C113: mor.py:217-692, what an update can change, and in which direction cliff and crest go. *)
From Coq Require Import ZArith List Bool Reals.
From Verif Require Import Base Num Xr MState MMor SMor SAdapt SVol STouch SLedger SFrame PRateEx PCapEx PPostEx PQuietEx PLedgerEx PFrame PFrameEx.
Import ListNotations.
Local Open Scope R_scope.

(** The columns a reworking does not list stay what they are, bit by bit. *)
Theorem C113_columns : forall {F : Type} {NF : Num F} (P : phys F) W Z t0 k t t' c,
  reworked P W Z t0 k t t' -> ~ In c (changes k) -> colOf c t' = colOf c t.
Proof. exact @rework_frame. Qed.
Print Assumptions C113_columns.

Theorem C113_untouched : forall {F : Type} {NF : Num F} (P : phys F) W Z t0 n t l u c,
  story P W Z t0 n t l u -> Forall (fun p => ~ In c (changes (fst p))) l -> colOf c u = colOf c t.
Proof. exact @story_frame. Qed.
Print Assumptions C113_untouched.

Theorem C113_place : forall {F : Type} {NF : Num F} (P : phys F) W Z t0 n t l u, story P W Z t0 n t l u -> tX u = tX t.
Proof. exact @story_place. Qed.
Print Assumptions C113_place.

Theorem C113_step : forall P w z t0, numberedPars P -> numbers t0 -> forall k t t',
  reworked P (Fin w) (Fin z) t0 k t t' -> numbers t -> proper P t0 k t -> coastal P t0 k t ->
  rv (tY4 t') <= rv (tY4 t) /\ (k <> Fill -> k <> Elongate -> rv (tZ0 t) <= rv (tZ0 t')).
Proof. exact @rework_mono. Qed.
Print Assumptions C113_step.

Theorem C113_update : forall fuel j1 j2 (P : phys xr) N TP T e0 e1 W Zend RiverElev online outlet LagoonWL OutletDep CW CD fl closed (l q c : list R) OW dt0 o d,
  nDx N = Fin d -> 0 < d -> numberedPars P -> soundInputs P d T e1 W Zend online outlet CW CD fl closed (length q) ->
  is_fin (nMaxMorChange N) /\ 0 <= rv (nMaxMorChange N) ->
  updateMorphology fuel j1 j2 P N TP T e0 e1 W Zend RiverElev online outlet LagoonWL OutletDep CW CD fl closed (map Fin l) (map Fin q) (map Fin c) OW dt0 = Ok o ->
  exists w z, forall i t0 t', nth_error T i = Some t0 -> nth_error (oT o) i = Some t' ->
    (In i online -> rv (tZ3 t0) < rv (pBackshoreElev P)) -> 0 <= nth i c 0 ->
    exists t s, story P (Fin w) (Fin z) t0 0 t s t' /\
      (properAll P t0 s -> coastalAll P t0 s ->
       rv (tY4 t') <= rv (tY4 t0) /\ (crestKept s -> rv (tZ0 t0) <= rv (tZ0 t'))).
Proof. exact @update_mono. Qed.
Print Assumptions C113_update.

(** Refuted: the cliff never advances; the crest is never lowered. *)
Theorem C113_cliff_refuted : ~ (forall P w z t0 k t t', numberedPars P -> numbers t0 -> reworked P (Fin w) (Fin z) t0 k t t' -> numbers t -> proper P t0 k t ->
  rv (tY4 t') <= rv (tY4 t)).
Proof. exact @cliff_refuted. Qed.
Print Assumptions C113_cliff_refuted.
Theorem C113_crest_refuted : ~ (forall P w z t0 k t t', numberedPars P -> numbers t0 -> reworked P (Fin w) (Fin z) t0 k t t' -> numbers t -> proper P t0 k t -> coastal P t0 k t ->
  rv (tZ0 t) <= rv (tZ0 t')).
Proof. exact @crest_refuted. Qed.
Print Assumptions C113_crest_refuted.

(** A narrow lagoon at the river: the cliff is cut back. *)
Theorem C113_example_keep : exists t', reworked restP (Fin 5) (Fin 0) (narrow (bare 0 0) (-49.5)) Keep (narrow (bare 0 0) (-49.5)) t' /\
  numbers (narrow (bare 0 0) (-49.5)) /\ proper restP (narrow (bare 0 0) (-49.5)) Keep (narrow (bare 0 0) (-49.5)) /\ coastal restP (narrow (bare 0 0) (-49.5)) Keep (narrow (bare 0 0) (-49.5)) /\
  rv (tY4 t') < rv (tY4 (narrow (bare 0 0) (-49.5))).
Proof. exact @keep_case. Qed.
Print Assumptions C113_example_keep.
(** The breached barrier of C109 meets the hypotheses of C113_update. *)
Theorem C113_example : nDx pushNum = Fin 20 /\ 0 < 20 /\ numberedPars restP /\
  soundInputs restP 20 (exCoast 0) (Fin 1) (Fin 5) (Fin 0) [1]%nat [] [Fin 5; Fin 5; Fin 5] [Fin 1; Fin 1; Fin 1] [0;0;1]%nat true (length [0.2; 0.1]) /\
  (is_fin (nMaxMorChange pushNum) /\ 0 <= rv (nMaxMorChange pushNum)) /\
  (forall i t0, nth_error (exCoast 0) i = Some t0 -> In i [1]%nat -> rv (tZ3 t0) < rv (pBackshoreElev restP)) /\ (forall i, 0 <= nth i [0; 0; 0; 0] 0) /\
  exists o,
  updateMorphology 10 yes yes restP pushNum slowTP (exCoast 0) NaN (Fin 1) (Fin 5) (Fin 0) [Fin 1; Fin 1] [1]%nat [] [Fin 2; Fin 2; Fin 4; Fin 2] [] [Fin 5; Fin 5; Fin 5] [Fin 1; Fin 1; Fin 1] [0;0;1]%nat true
    (map Fin [0.8; 0; 0]) (map Fin [0.2; 0.1]) (map Fin [0; 0; 0; 0]) [false;false;false;false] (sec 15) = Ok o /\
  (exists t', nth_error (oT o) 2 = Some t' /\ story restP (Fin 5) (Fin 0) (bare 1 0) 0 (bare 1 0) [(Breach, bare 1 0)] t') /\
  properAll restP (bare 1 0) [(Breach, bare 1 0)] /\ coastalAll restP (bare 1 0) [(Breach, bare 1 0)] /\ crestKept [(Breach, bare 1 0)].
Proof. exact @breach_case. Qed.
Print Assumptions C113_example.
