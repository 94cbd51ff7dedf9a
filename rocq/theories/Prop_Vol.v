(** C106, C107: mor.py, the sediment in the whole domain over an update. *)
From Coq Require Import ZArith List Bool Reals.
From Verif Require Import Base Num Xr MState MMor SMor SAdapt SVol PRateEx PCapEx PPostEx PVol PQuiet PQuietEx.
Import ListNotations.
Local Open Scope R_scope.

Theorem C106_transect : forall P d T e0 e1 W Zend online outlet CW CD fl (closed : bool) (l q c : list R) OW RR,
  soundInputs P d T e1 W Zend online outlet CW CD fl closed (length q) ->
  ratesFor P (Fin d) T e0 e1 W Zend online outlet CW CD fl closed (map Fin l) (map Fin q) (map Fin c) OW = Ok RR ->
  forall s k i t r, (closed = false -> firstRight T e1 (S k)) ->
    nth_error T i = Some t -> nth_error (rT RR) i = Some r ->
    d * (section P (shifted s t r) - section P t) = s * received P d (length T) e1 online outlet fl closed l q c k i t + s * s * (d * mixed t r).
Proof. exact @moved_transect. Qed.
Print Assumptions C106_transect.

Theorem C106_total : forall P d T e0 e1 W Zend online outlet CW CD fl (closed : bool) (l q c : list R) OW RR,
  soundInputs P d T e1 W Zend online outlet CW CD fl closed (length q) ->
  ratesFor P (Fin d) T e0 e1 W Zend online outlet CW CD fl closed (map Fin l) (map Fin q) (map Fin c) OW = Ok RR ->
  forall s k, (closed = false -> firstRight T e1 (S k)) ->
    (forall j, In j (seq 1 (length fl - (if closed then 1 else 2))) -> (nth j fl 9 <= (if closed then 1 else 3))%nat) ->
    volume P d (map2 (shifted s) T (rT RR)) - volume P d T + s * (riverGain P d RR + (if closed then 0 else endGain P d W Zend RR)) =
    s * (nth 0 q 0 - (if closed then 0 else nth (length q - 1) q 0) + (nth 0 l 0 - nth (length l - 1) l 0) + endsGain P d c T
         + (if closed then 0 else landed P d (nth (length q - 1) q 0) e1 T + Rabs (nth k l 0) - (if (S (S k) <? length T)%nat then Rmax (nth k l 0) 0 else 0)))
    + s * s * crossed d T (rT RR).
Proof. exact @balance. Qed.
Print Assumptions C106_total.

(** Refuted: what the movement adds is what the fluxes bring. *)
Theorem C106_conserved_refuted : ~ (forall P d T e0 e1 W Zend online outlet CW CD fl (closed : bool) (l q c : list R) OW RR s k,
      soundInputs P d T e1 W Zend online outlet CW CD fl closed (length q) ->
      ratesFor P (Fin d) T e0 e1 W Zend online outlet CW CD fl closed (map Fin l) (map Fin q) (map Fin c) OW = Ok RR ->
      (closed = false -> firstRight T e1 (S k)) ->
      (forall j, In j (seq 1 (length fl - (if closed then 1 else 2))) -> (nth j fl 9 <= (if closed then 1 else 3))%nat) -> 0 < s ->
      volume P d (map2 (shifted s) T (rT RR)) - volume P d T + s * (riverGain P d RR + (if closed then 0 else endGain P d W Zend RR)) =
      s * (nth 0 q 0 - (if closed then 0 else nth (length q - 1) q 0) + (nth 0 l 0 - nth (length l - 1) l 0) + endsGain P d c T
           + (if closed then 0 else landed P d (nth (length q - 1) q 0) e1 T))).
Proof. exact @made_refuted. Qed.
Print Assumptions C106_conserved_refuted.

(** An open outlet with every forcing acting. *)
Theorem C106_example : soundInputs (exP 40) 20 exT (Fin 10) (Fin 10) (Fin 0) [2; 3]%nat [3]%nat exCW exCD exFl false (length exQ) /\
  firstRight exT (Fin 10) 4 /\ (forall j, In j (seq 1 (length exFl - 2)) -> (nth j exFl 9 <= 3)%nat) /\
  exists RR, budgetCase 40 (map Fin exLst) (map Fin exQ) (map Fin exCst) RR.
Proof. exact (conj (proj1 budget_example) (conj (proj1 (proj2 budget_example)) (conj (proj1 (proj2 (proj2 budget_example))) (proj1 (proj2 (proj2 (proj2 budget_example))))))). Qed.

Theorem C107_quiet : forall fuel j1 j2 (P : phys xr) N TP T e0 e1 W Zend RiverElev online outlet LagoonWL OutletDep CW CD fl closed LST q CST OW dt0 o a, updateMorphology fuel j1 j2 P N TP T e0 e1 W Zend RiverElev online outlet LagoonWL OutletDep CW CD fl closed LST q CST OW dt0 = Ok o ->
  morApply fuel P N TP T e0 e1 W Zend RiverElev online outlet LagoonWL OutletDep CW CD fl closed LST q CST OW dt0 = Ok a ->
  calm P j1 j2 T (aT a) e0 (aE1 a) outlet closed LagoonWL OutletDep ->
  oT o = map levelled (aT a) /\ oE1 o = aE1 a /\ oW o = aW a /\ oZ o = aZ a /\ oRiver o = aRiver a /\ oDt o = aDt a /\
  oBreach o = false /\ (oE0 o = e0 \/ (closed = true /\ oE0 o = NaN)).
Proof. exact @update_quiet. Qed.
Print Assumptions C107_quiet.

Theorem C107_balance : forall fuel j1 j2 P N TP T e0 e1 W Zend RiverElev online outlet LagoonWL OutletDep CW CD fl (closed : bool) (l q c : list R) OW dt0 o a d,
  nDx N = Fin d -> soundInputs P d T e1 W Zend online outlet CW CD fl closed (length q) -> Forall is_fin RiverElev ->
  updateMorphology fuel j1 j2 P N TP T e0 e1 W Zend RiverElev online outlet LagoonWL OutletDep CW CD fl closed (map Fin l) (map Fin q) (map Fin c) OW dt0 = Ok o ->
  morApply fuel P N TP T e0 e1 W Zend RiverElev online outlet LagoonWL OutletDep CW CD fl closed (map Fin l) (map Fin q) (map Fin c) OW dt0 = Ok a ->
  calm P j1 j2 T (aT a) e0 (aE1 a) outlet closed LagoonWL OutletDep ->
  is_fin (nMaxMorChange N) /\ 0 <= rv (nMaxMorChange N) -> (seconds (tMorDtMin TP) < seconds (aDt a))%Z ->
  (forall j, In j (seq 1 (length fl - (if closed then 1 else 2))) -> (nth j fl 9 <= (if closed then 1 else 3))%nat) ->
  forall k tk gk, (closed = false -> firstRight T e1 (S k) /\ nth_error T k = Some tk /\ nth_error (aT a) k = Some gk) -> exists RR,
    ratesFor P (Fin d) T e0 e1 W Zend online outlet CW CD fl closed (map Fin l) (map Fin q) (map Fin c) OW = Ok RR /\
    let s := IZR (seconds (oDt o)) in
    volume P d (oT o) - volume P d T + (riverVolume P d (oRiver o) - riverVolume P d RiverElev)
    + (if closed then 0 else (rv (oZ o) - rv Zend) * (rv W * d) - (rv (oW o) - rv W) * ((rv (pBeachTopElev P) - rv Zend) * rv (pSpitWidth P))) =
    s * (nth 0 q 0 - (if closed then 0 else nth (length q - 1) q 0) + (nth 0 l 0 - nth (length l - 1) l 0) + endsGain P d c T
         + (if closed then 0 else landed P d (nth (length q - 1) q 0) e1 T + Rabs (nth k l 0) - (if (S (S k) <? length T)%nat then Rmax (nth k l 0) 0 else 0)))
    + s * s * crossed d T (rT RR) + raised d (aT a)
    + (if closed then 0 else Rmin (nth k l 0) 0 * height P gk / height P tk).
Proof. exact @quiet_balance. Qed.
Print Assumptions C107_balance.

(** Longshore drift pushes transect 1 seaward; river and lagoon beds rise. *)
Theorem C107_example : nDx pushNum = Fin 20 /\ is_fin (nMaxMorChange pushNum) /\ 0 <= rv (nMaxMorChange pushNum) /\
  soundInputs restP 20 (exCoast 0) (Fin 1) (Fin 5) (Fin 0) [1]%nat [] [Fin 5; Fin 5; Fin 5] [Fin 1; Fin 1; Fin 1] [0;0;1]%nat true (length [0.2; 0.1]) /\
  exists o a,
  updateMorphology 10 yes yes restP pushNum slowTP (exCoast 0) NaN (Fin 1) (Fin 5) (Fin 0) [Fin 1; Fin 1] [1]%nat [] [Fin 2; Fin 2; Fin 2; Fin 2] [] [Fin 5; Fin 5; Fin 5] [Fin 1; Fin 1; Fin 1] [0;0;1]%nat true
    (map Fin [0.8; 0; 0]) (map Fin [0.2; 0.1]) (map Fin [0; 0; 0; 0]) [false;false;false;false] (sec 15) = Ok o /\
  morApply 10 restP pushNum slowTP (exCoast 0) NaN (Fin 1) (Fin 5) (Fin 0) [Fin 1; Fin 1] [1]%nat [] [Fin 2; Fin 2; Fin 2; Fin 2] [] [Fin 5; Fin 5; Fin 5] [Fin 1; Fin 1; Fin 1] [0;0;1]%nat true
    (map Fin [0.8; 0; 0]) (map Fin [0.2; 0.1]) (map Fin [0; 0; 0; 0]) [false;false;false;false] (sec 15) = Ok a /\
  calm restP yes yes (exCoast 0) (aT a) NaN (aE1 a) [] true [Fin 2; Fin 2; Fin 2; Fin 2] [] /\
  (seconds (tMorDtMin slowTP) < seconds (aDt a))%Z /\ oT o <> exCoast 0 /\
  (forall j, In j (seq 1 (length [0;0;1]%nat - 1)) -> (nth j [0;0;1]%nat 9 <= 1)%nat).
Proof. exact @push_case. Qed.
