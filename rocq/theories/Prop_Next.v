(** C115: mor.py:60-62, 217-692, whether the next update can start from the coast an update leaves. *)
From Coq Require Import ZArith List Bool Reals Floats.
From Verif Require Import Base Num Xr Flt Sim MState MMor SMor SAdapt SVol STouch SLedger SNext PRateEx PCapEx PPostEx PQuietEx PLedgerEx PNext PNextEx PNextEx2.
Import ListNotations.
Local Open Scope R_scope.

(** An update that gets through started from a coast whose seaward barrier has a width everywhere. *)
Theorem C115_start : forall {F : Type} {NF : Num F} fuel j1 j2 P N TP (T : list (tsect F)) e0 e1 W Zend RiverElev online outlet LagoonWL OutletDep CW CD fl closed LST q CST OW dt o,
  updateMorphology fuel j1 j2 P N TP T e0 e1 W Zend RiverElev online outlet LagoonWL OutletDep CW CD fl closed LST q CST OW dt = Ok o ->
  forallb stands T = true.
Proof. exact @update_stood. Qed.
Print Assumptions C115_start.

Theorem C115_stuck : forall {F : Type} {NF : Num F} fuel j1 j2 P N TP (T : list (tsect F)) e0 e1 W Zend RiverElev online outlet LagoonWL OutletDep CW CD fl closed LST q CST OW dt,
  forallb stands T = false ->
  exists e, updateMorphology fuel j1 j2 P N TP T e0 e1 W Zend RiverElev online outlet LagoonWL OutletDep CW CD fl closed LST q CST OW dt = Exc e.
Proof. exact @stuck. Qed.
Print Assumptions C115_stuck.

(** What is left at a transect has a width again, unless a breach at one of the first two transects was
    taken for one on an existing channel. *)
Theorem C115_update : forall fuel j1 j2 (P : phys xr) N TP T e0 e1 W Zend RiverElev online outlet LagoonWL OutletDep CW CD fl closed l q c OW dt0 o d,
  nDx N = Fin d -> numberedPars P -> 0 < rv (pSpitWidth P) -> soundInputs P d T e1 W Zend online outlet CW CD fl closed (length q) ->
  is_fin (nMaxMorChange N) /\ 0 <= rv (nMaxMorChange N) ->
  updateMorphology fuel j1 j2 P N TP T e0 e1 W Zend RiverElev online outlet LagoonWL OutletDep CW CD fl closed (map Fin l) (map Fin q) (map Fin c) OW dt0 = Ok o ->
  exists w z, forall i t0 t', nth_error T i = Some t0 -> nth_error (oT o) i = Some t' ->
    exists t s, story P (Fin w) (Fin z) t0 0 t s t' /\
      (properAll P t0 s -> firmAll P t0 s -> 0 < rv (barWidth t') \/ ((i <= 1)%nat /\ oBreach o = true /\ oE1 o = tX t')).
Proof. exact @update_stands. Qed.
Print Assumptions C115_update.

(** Refuted in double precision: a breach by the sea at the second transect while a relic channel elsewhere is
    joined to the lagoon.  The update gets through; no update whatever gets through on the coast it leaves. *)
Theorem C115_breach_refuted : exists o, fiveUpdate thin relic 20 0.5625 = Ok o /\ oBreach o = true /\ map (@stands float sim_num) (oT o) = [true; false; true; true; true] /\
  forall fuel j1 j2 P N TP e0 e1 W Zend RiverElev online outlet LagoonWL OutletDep CW CD fl closed LST q CST OW dt,
  exists e, @updateMorphology float sim_num fuel j1 j2 P N TP (oT o) e0 e1 W Zend RiverElev online outlet LagoonWL OutletDep CW CD fl closed LST q CST OW dt = Exc e.
Proof. exact @thin_refuted. Qed.
Print Assumptions C115_breach_refuted.

(** Refuted: a channel filled from the shoreface close to the cliff. *)
Theorem C115_fill_refuted : exists o, fiveUpdate tight (beach 20) PrimFloat.nan 0.5625 = Ok o /\ oBreach o = false /\ map (@stands float sim_num) (oT o) = [true; false; true; true; true] /\
  forall fuel j1 j2 P N TP e0 e1 W Zend RiverElev online outlet LagoonWL OutletDep CW CD fl closed LST q CST OW dt,
  exists e, @updateMorphology float sim_num fuel j1 j2 P N TP (oT o) e0 e1 W Zend RiverElev online outlet LagoonWL OutletDep CW CD fl closed LST q CST OW dt = Exc e.
Proof. exact @tight_refuted. Qed.
Print Assumptions C115_fill_refuted.

(** The same two coasts with the sea at rest. *)
Theorem C115_example_calm : (exists o, fiveUpdate thin relic 20 0 = Ok o /\ oBreach o = false /\ map (@stands float sim_num) (oT o) = [true; true; true; true; true]) /\
  exists o, fiveUpdate tight (beach 20) PrimFloat.nan 0 = Ok o /\ oBreach o = false /\ map (@stands float sim_num) (oT o) = [true; true; true; true; true].
Proof. exact @calm_case. Qed.
Print Assumptions C115_example_calm.

(** The breached barrier of C109 meets the hypotheses of C115_update. *)
Theorem C115_example : nDx pushNum = Fin 20 /\ numberedPars restP /\ 0 < rv (pSpitWidth restP) /\
  soundInputs restP 20 (exCoast 0) (Fin 1) (Fin 5) (Fin 0) [1]%nat [] [Fin 5; Fin 5; Fin 5] [Fin 1; Fin 1; Fin 1] [0;0;1]%nat true (length [0.2; 0.1]) /\
  (is_fin (nMaxMorChange pushNum) /\ 0 <= rv (nMaxMorChange pushNum)) /\
  exists o,
  updateMorphology 10 yes yes restP pushNum slowTP (exCoast 0) NaN (Fin 1) (Fin 5) (Fin 0) [Fin 1; Fin 1] [1]%nat [] [Fin 2; Fin 2; Fin 4; Fin 2] [] [Fin 5; Fin 5; Fin 5] [Fin 1; Fin 1; Fin 1] [0;0;1]%nat true
    (map Fin [0.8; 0; 0]) (map Fin [0.2; 0.1]) (map Fin [0; 0; 0; 0]) [false;false;false;false] (sec 15) = Ok o /\
  (exists t', nth_error (oT o) 2 = Some t' /\ story restP (Fin 5) (Fin 0) (bare 1 0) 0 (bare 1 0) [(Breach, bare 1 0)] t') /\
  properAll restP (bare 1 0) [(Breach, bare 1 0)] /\ firmAll restP (bare 1 0) [(Breach, bare 1 0)].
Proof. exact @next_case. Qed.
Print Assumptions C115_example.
