(** C109: mor.py:217-692, the sediment made or destroyed by everything that follows the movement. *)
From Coq Require Import ZArith List Bool Reals.
From Verif Require Import Base Num Xr MState MMor SMor SAdapt SVol STouch SLedger PRateEx PCapEx PPostEx PQuietEx PLedger PLedger2 PLedger3 PLedgerEx.
Import ListNotations.
Local Open Scope R_scope.

Theorem C109_story : forall {F : Type} {NF : Num F} fuel junk1 junk2 (P : phys F) N TP T e0 e1 W Zend RiverElev online outlet LagoonWL OutletDep CW CD fl closed LST q CST OW dt0 m a,
  updateMorphology fuel junk1 junk2 P N TP T e0 e1 W Zend RiverElev online outlet LagoonWL OutletDep CW CD fl closed LST q CST OW dt0 = Ok m ->
  morApply fuel P N TP T e0 e1 W Zend RiverElev online outlet LagoonWL OutletDep CW CD fl closed LST q CST OW dt0 = Ok a ->
  length (aT a) = length T /\ length (oT m) = length T /\
  forall i t0 t, nth_error T i = Some t0 -> nth_error (aT a) i = Some t ->
  exists t' l, nth_error (oT m) i = Some t' /\ story P (aW a) (aZ a) t0 0 t l t'.
Proof. exact @update_story. Qed.
Print Assumptions C109_story.

Theorem C109_step : forall P w z t0, numberedPars P -> numbers t0 -> forall k t t',
  reworked P (Fin w) (Fin z) t0 k t t' -> numbers t -> proper P t0 k t ->
  numbers t' /\ section P t' = section P t + worth P w z t0 k t.
Proof. exact @worth_section. Qed.
Print Assumptions C109_step.

Theorem C109_ledger : forall fuel j1 j2 (P : phys xr) N TP T e0 e1 W Zend RiverElev online outlet LagoonWL OutletDep CW CD fl closed (l q c : list R) OW dt0 o a d,
  nDx N = Fin d -> numberedPars P -> soundInputs P d T e1 W Zend online outlet CW CD fl closed (length q) ->
  updateMorphology fuel j1 j2 P N TP T e0 e1 W Zend RiverElev online outlet LagoonWL OutletDep CW CD fl closed (map Fin l) (map Fin q) (map Fin c) OW dt0 = Ok o ->
  morApply fuel P N TP T e0 e1 W Zend RiverElev online outlet LagoonWL OutletDep CW CD fl closed (map Fin l) (map Fin q) (map Fin c) OW dt0 = Ok a ->
  is_fin (nMaxMorChange N) /\ 0 <= rv (nMaxMorChange N) ->
  exists L : list (list (kind * tsect xr)), length L = length T /\
    (forall i t0 t t', nth_error T i = Some t0 -> nth_error (aT a) i = Some t -> nth_error (oT o) i = Some t' ->
       exists l, nth_error L i = Some l /\ story P (aW a) (aZ a) t0 0 t l t' /\
         (properAll P t0 l -> section P t' = section P t + made P (rv (aW a)) (rv (aZ a)) t0 l)) /\
    ((forall i t0 l, nth_error T i = Some t0 -> nth_error L i = Some l -> properAll P t0 l) ->
     volume P d (oT o) = volume P d (aT a) + d * rsum (map2 (fun t0 l => made P (rv (aW a)) (rv (aZ a)) t0 l) T L)).
Proof. exact @update_ledger. Qed.
Print Assumptions C109_ledger.

Theorem C109_movement : forall fuel P N TP T e0 e1 W Zend RiverElev online outlet LagoonWL OutletDep CW CD fl (closed : bool) (l q c : list R) OW dt0 a d,
  nDx N = Fin d -> soundInputs P d T e1 W Zend online outlet CW CD fl closed (length q) -> Forall is_fin RiverElev ->
  morApply fuel P N TP T e0 e1 W Zend RiverElev online outlet LagoonWL OutletDep CW CD fl closed (map Fin l) (map Fin q) (map Fin c) OW dt0 = Ok a ->
  is_fin (nMaxMorChange N) /\ 0 <= rv (nMaxMorChange N) -> (seconds (tMorDtMin TP) < seconds (aDt a))%Z ->
  (forall j, In j (seq 1 (length fl - (if closed then 1 else 2))) -> (nth j fl 9 <= (if closed then 1 else 3))%nat) ->
  forall k tk gk, (closed = false -> firstRight T e1 (S k) /\ nth_error T k = Some tk /\ nth_error (aT a) k = Some gk) -> exists RR,
    ratesFor P (Fin d) T e0 e1 W Zend online outlet CW CD fl closed (map Fin l) (map Fin q) (map Fin c) OW = Ok RR /\
    let s := IZR (seconds (aDt a)) in
    volume P d (aT a) - volume P d T + (riverVolume P d (aRiver a) - riverVolume P d RiverElev)
    + (if closed then 0 else (rv (aZ a) - rv Zend) * (rv W * d) - (rv (aW a) - rv W) * ((rv (pBeachTopElev P) - rv Zend) * rv (pSpitWidth P))) =
    s * (nth 0 q 0 - (if closed then 0 else nth (length q - 1) q 0) + (nth 0 l 0 - nth (length l - 1) l 0) + endsGain P d c T
         + (if closed then 0 else landed P d (nth (length q - 1) q 0) e1 T + Rabs (nth k l 0) - (if (S (S k) <? length T)%nat then Rmax (nth k l 0) 0 else 0)))
    + s * s * crossed d T (rT RR)
    + (if closed then 0 else Rmin (nth k l 0) 0 * height P gk / height P tk).
Proof. exact @applied_balance. Qed.
Print Assumptions C109_movement.

(** Moving the channel back from the sea makes nothing; nor does a cliff collision without
    channel or lagoon at an unchanged crest, nor a pinched channel whose sediment goes to the
    inner barrier at unchanged heights. *)
Theorem C109_seaward : forall P w z t0 t, worth P w z t0 Seaward t = 0.
Proof. exact @plain_seaward. Qed.
Print Assumptions C109_seaward.
Theorem C109_cliff : forall P w z t0 t, hasChannel t = false -> rv (tZ0 t) = rv (tZ0 t0) -> rv (tY3 t) = rv (tY4 t) -> worth P w z t0 Cliff t = 0.
Proof. exact @plain_cliff. Qed.
Print Assumptions C109_cliff.
Theorem C109_squeeze : forall P w z t0 t, rv (barBack t0) = rv (tZ0 t) - rv (tZ1 t) -> rv (tZ2 t) < rv (tZ0 t) -> worth P w z t0 Squeeze t = 0.
Proof. exact @plain_squeeze. Qed.
Print Assumptions C109_squeeze.

(** Refuted: what follows the movement only moves sediment about. *)
Theorem C109_conserved_refuted : ~ (forall fuel j1 j2 (P : phys xr) N TP T e0 e1 W Zend RiverElev online outlet LagoonWL OutletDep CW CD fl closed (l q c : list R) OW dt0 o a d,
  nDx N = Fin d -> numberedPars P -> soundInputs P d T e1 W Zend online outlet CW CD fl closed (length q) ->
  updateMorphology fuel j1 j2 P N TP T e0 e1 W Zend RiverElev online outlet LagoonWL OutletDep CW CD fl closed (map Fin l) (map Fin q) (map Fin c) OW dt0 = Ok o ->
  morApply fuel P N TP T e0 e1 W Zend RiverElev online outlet LagoonWL OutletDep CW CD fl closed (map Fin l) (map Fin q) (map Fin c) OW dt0 = Ok a ->
  volume P d (oT o) = volume P d (aT a)).
Proof. exact @rework_refuted. Qed.
Print Assumptions C109_conserved_refuted.

(** Water over a closed barrier: the breach takes 350 cubic metres out of the domain. *)
Theorem C109_example : nDx pushNum = Fin 20 /\ numberedPars restP /\
  soundInputs restP 20 (exCoast 0) (Fin 1) (Fin 5) (Fin 0) [1]%nat [] [Fin 5; Fin 5; Fin 5] [Fin 1; Fin 1; Fin 1] [0;0;1]%nat true (length [0.2; 0.1]) /\
  (is_fin (nMaxMorChange pushNum) /\ 0 <= rv (nMaxMorChange pushNum)) /\ Forall is_fin [Fin 1; Fin 1] /\
  exists o a,
  updateMorphology 10 yes yes restP pushNum slowTP (exCoast 0) NaN (Fin 1) (Fin 5) (Fin 0) [Fin 1; Fin 1] [1]%nat [] [Fin 2; Fin 2; Fin 4; Fin 2] [] [Fin 5; Fin 5; Fin 5] [Fin 1; Fin 1; Fin 1] [0;0;1]%nat true
    (map Fin [0.8; 0; 0]) (map Fin [0.2; 0.1]) (map Fin [0; 0; 0; 0]) [false;false;false;false] (sec 15) = Ok o /\
  morApply 10 restP pushNum slowTP (exCoast 0) NaN (Fin 1) (Fin 5) (Fin 0) [Fin 1; Fin 1] [1]%nat [] [Fin 2; Fin 2; Fin 4; Fin 2] [] [Fin 5; Fin 5; Fin 5] [Fin 1; Fin 1; Fin 1] [0;0;1]%nat true
    (map Fin [0.8; 0; 0]) (map Fin [0.2; 0.1]) (map Fin [0; 0; 0; 0]) [false;false;false;false] (sec 15) = Ok a /\
  (seconds (tMorDtMin slowTP) < seconds (aDt a))%Z /\
  (exists t', nth_error (oT o) 2 = Some t' /\ story restP (aW a) (aZ a) (bare 1 0) 0 (bare 1 0) [(Breach, bare 1 0)] t') /\
  made restP (rv (aW a)) (rv (aZ a)) (bare 1 0) [(Breach, bare 1 0)] = -17.5 /\ properAll restP (bare 1 0) [(Breach, bare 1 0)] /\
  volume restP 20 (oT o) = volume restP 20 (aT a) - 350.
Proof. exact @cut_case. Qed.
