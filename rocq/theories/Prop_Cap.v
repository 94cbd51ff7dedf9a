(** C40, C41: mor.py, the change applied in one step. *)
From Coq Require Import ZArith List Bool Reals.
From Verif Require Import Base Num Xr MState MMor SMor SAdapt PRateEx PCap PCapEx.
Import ListNotations.
Local Open Scope R_scope.

Theorem C40_transects : forall fuel P N TP T e0 e1 W Zend RiverElev online outlet LagoonWL OutletDep CW CD fl closed (LST q CST : list R) OW dt0 (a : applied xr) d cap,
  nDx N = Fin d -> nMaxMorChange N = Fin cap -> 0 <= cap ->
  soundInputs P d T e1 W Zend online outlet CW CD fl closed (length q) ->
  morApply fuel P N TP T e0 e1 W Zend RiverElev online outlet LagoonWL OutletDep CW CD fl closed
    (map Fin LST) (map Fin q) (map Fin CST) OW dt0 = Ok a ->
  forall k v, (closed = false -> firstRight T e1 (S k) /\ nth_error LST k = Some v) ->
  length (aT a) = length T /\
  forall i t t', nth_error T i = Some t -> nth_error (aT a) i = Some t' -> movedT cap (supplied P d closed k v i t) t t'.
Proof. exact cap_transects. Qed.
Print Assumptions C40_transects.

Theorem C40_river : forall fuel P N TP T e0 e1 W Zend RiverElev online outlet LagoonWL OutletDep CW CD fl closed (LST q CST : list R) OW dt0 (a : applied xr) d cap,
  nDx N = Fin d -> nMaxMorChange N = Fin cap -> 0 <= cap ->
  soundInputs P d T e1 W Zend online outlet CW CD fl closed (length q) ->
  morApply fuel P N TP T e0 e1 W Zend RiverElev online outlet LagoonWL OutletDep CW CD fl closed
    (map Fin LST) (map Fin q) (map Fin CST) OW dt0 = Ok a ->
  match RiverElev with
  | [] => aRiver a = []
  | z :: zs => exists zs', aRiver a = z :: zs' /\ Forall2 (moved cap) zs zs'
  end.
Proof. exact cap_river. Qed.
Print Assumptions C40_river.

Theorem C40_end : forall fuel P N TP T e0 e1 W Zend RiverElev online outlet LagoonWL OutletDep CW CD fl closed (LST q CST : list R) OW dt0 (a : applied xr) d cap,
  nDx N = Fin d -> nMaxMorChange N = Fin cap -> 0 <= cap ->
  soundInputs P d T e1 W Zend online outlet CW CD fl closed (length q) ->
  morApply fuel P N TP T e0 e1 W Zend RiverElev online outlet LagoonWL OutletDep CW CD fl closed
    (map Fin LST) (map Fin q) (map Fin CST) OW dt0 = Ok a ->
  if closed then aE1 a = e1 /\ aW a = W /\ aZ a = Zend
  else moved cap e1 (aE1 a) /\ moved cap W (aW a) /\ moved cap Zend (aZ a).
Proof. exact cap_end. Qed.
Print Assumptions C40_end.

Theorem C40_exact : forall fuel P N TP T e0 e1 W Zend RiverElev online outlet LagoonWL OutletDep CW CD fl closed (LST q CST : list R) OW dt0 (a : applied xr) d cap,
  nDx N = Fin d -> nMaxMorChange N = Fin cap -> 0 <= cap ->
  soundInputs P d T e1 W Zend online outlet CW CD fl closed (length q) ->
  morApply fuel P N TP T e0 e1 W Zend RiverElev online outlet LagoonWL OutletDep CW CD fl closed
    (map Fin LST) (map Fin q) (map Fin CST) OW dt0 = Ok a ->
  forall k v, (closed = false -> firstRight T e1 (S k) /\ nth_error LST k = Some v) ->
  (seconds (tMorDtMin TP) < seconds (aDt a))%Z -> exists RR,
  ratesFor P (Fin d) T e0 e1 W Zend online outlet CW CD fl closed (map Fin LST) (map Fin q) (map Fin CST) OW = Ok RR /\
  forall i t t' r, nth_error T i = Some t -> nth_error (aT a) i = Some t' -> nth_error (rT RR) i = Some r -> (closed = false -> i <> k) ->
  let s := Fin (IZR (seconds (aDt a))) in
  t' = mkT (tX t) (tY0 t + rY0 r * s)%n (tY1 t + rY1 r * s)%n (tY2 t + rY2 r * s)%n (tY3 t + rY3 r * s)%n (tY4 t + rY4 r * s)%n
           (tZ0 t + rZ0 r * s)%n (tZ1 t + rZ1 r * s)%n (tZ2 t + rZ2 r * s)%n (tZ3 t + rZ3 r * s)%n.
Proof. exact uncapped. Qed.
Print Assumptions C40_exact.

Theorem C41_supply : forall fuel P N TP T e0 e1 W Zend RiverElev online outlet LagoonWL OutletDep CW CD fl closed (LST q CST : list R) OW dt0 (a : applied xr) d cap,
  nDx N = Fin d -> nMaxMorChange N = Fin cap -> 0 <= cap ->
  soundInputs P d T e1 W Zend online outlet CW CD fl closed (length q) ->
  morApply fuel P N TP T e0 e1 W Zend RiverElev online outlet LagoonWL OutletDep CW CD fl closed
    (map Fin LST) (map Fin q) (map Fin CST) OW dt0 = Ok a ->
  forall k v t t', closed = false -> firstRight T e1 (S k) -> nth_error LST k = Some v -> v <= 0 ->
  nth_error T k = Some t -> nth_error (aT a) k = Some t' ->
  moved cap (tY0 t + Fin (v / ((rv (pClosureDepth P) + rv (tZ0 t)) * d)))%n (tY0 t').
Proof. exact supply_moves. Qed.
Print Assumptions C41_supply.

Theorem C41_cap_refuted : ~ (forall fuel P N TP T e0 e1 W Zend RiverElev online outlet LagoonWL OutletDep CW CD fl closed (LST q CST : list R) OW dt0 (a : applied xr) d cap,
  nDx N = Fin d -> nMaxMorChange N = Fin cap -> 0 <= cap ->
  soundInputs P d T e1 W Zend online outlet CW CD fl closed (length q) ->
  morApply fuel P N TP T e0 e1 W Zend RiverElev online outlet LagoonWL OutletDep CW CD fl closed
    (map Fin LST) (map Fin q) (map Fin CST) OW dt0 = Ok a ->
  forall i t t', nth_error T i = Some t -> nth_error (aT a) i = Some t' -> moved (100 * cap) (tY0 t) (tY0 t')).
Proof. exact jump_refuted. Qed.
Print Assumptions C41_cap_refuted.

Theorem C40_example : nDx capNum = Fin 20 /\ nMaxMorChange capNum = Fin 0.25 /\ 0 <= 0.25 /\
  soundInputs (exP 40) 20 exT (Fin 10) (Fin 10) (Fin 0) [2; 3]%nat [3]%nat exCW exCD exFl false (length exQ) /\
  firstRight exT (Fin 10) 4 /\ nth_error exLst 3 = Some 4 /\
  exists a, morApply 10 (exP 40) capNum capTP exT (Fin 0) (Fin 10) (Fin 10) (Fin 0) (map Fin [5; 4]) [2; 3]%nat [3]%nat capWL capWL exCW exCD exFl false
    (map Fin exLst) (map Fin exQ) (map Fin exCst) exOw (sec 15) = Ok a.
Proof. exact cap_example. Qed.

Theorem C40_example_exact : forall s (l : list R), s <> 0 -> length l = 6%nat -> exists cap a, 0 <= cap /\ (seconds (tMorDtMin slowTP) < seconds (aDt a))%Z /\
  morApply 10 (exP s) (slowNum cap) slowTP exT (Fin 0) (Fin 10) (Fin 10) (Fin 0) (map Fin [5; 4]) [2; 3]%nat [3]%nat capWL capWL exCW exCD exFl false
    (map Fin l) (map Fin exQ) (map Fin exCst) exOw (sec 15) = Ok a.
Proof. exact cap_slow. Qed.

Theorem C41_example : forall s (l : list R), s <> 0 -> length l = 6%nat -> exists a,
  morApply 10 (exP s) capNum capTP exT (Fin 0) (Fin 10) (Fin 10) (Fin 0) (map Fin [5; 4]) [2; 3]%nat [3]%nat capWL capWL exCW exCD exFl false
    (map Fin l) (map Fin exQ) (map Fin exCst) exOw (sec 15) = Ok a.
Proof. exact cap_runs. Qed.
