Set Warnings "-inexact-float".
(** C117: updates with a closed outlet and without channels get through. *)
From Coq Require Import ZArith List Bool Reals Floats.
From Verif Require Import Base Num Xr Flt MState MMor SMor SAdapt STouch SLedger SThrough Sim SimEx PCapEx PPostEx PQuietEx PNextEx PThrough PThroughEx PThroughEx2.
Import ListNotations.
Local Open Scope R_scope.

(** mor.py:12-695 in exact arithmetic.  Durations: the minimum is [a] whole seconds, maximum and current step are
    the minimum doubled [k] and [j] times.  [j1], [j2]: the content of uninitialised memory. *)
Theorem C117_through : forall fuel j1 j2 (P : phys xr) N TP T e0 e1 W Zend RiverElev online LagoonWL OutletDep CW CD fl l q c OW d cap a k j,
  nDx N = Fin d -> nMaxMorChange N = Fin cap -> 0 <= cap -> numberedPars P -> 0 < rv (pSpitWidth P) -> cap < rv (pBackshoreElev P) + rv (pClosureDepth P) ->
  soundInputs P d T e1 W Zend online [] CW CD fl true (length q) -> fits T RiverElev online LagoonWL fl l c OW -> Forall (sturdy P cap) T ->
  (1 <= a)%Z -> (a * 2 ^ Z.of_nat k <= 43200)%Z -> tMorDtMin TP = sec a -> tMorDtMax TP = sec (a * 2 ^ Z.of_nat k) -> (j <= k)%nat -> (k <= fuel)%nat ->
  (forall i, j1 i = true) -> (forall i, j2 i = true) ->
  exists o, updateMorphology fuel j1 j2 P N TP T e0 e1 W Zend RiverElev online [] LagoonWL OutletDep CW CD fl true (map Fin l) (map Fin q) (map Fin c) OW (sec (a * 2 ^ Z.of_nat j)) = Ok o /\
    length (oT o) = length T /\
    forall i t, nth_error T i = Some t -> exists t', nth_error (oT o) i = Some t' /\ numbers t' /\ (0 < rv (barWidth t') \/ i = 0%nat /\ oBreach o = true) /\
      (oBreach o = false -> hasChannel t' = false) /\ tX t' = tX t /\ moved cap (tZ0 t) (tZ0 t') /\ moved cap (tZ3 t) (tZ3 t').
Proof. exact update_through. Qed.
Print Assumptions C117_through.

(** Refuted: that the steps may be any durations.  With a minimum of 1.5 s, a transport of 4 m3/s stops the program
    although both 2 and 6 m3/s, and 4 m3/s with a minimum of 1 s, pass; so does a step of 15 s with a minimum of 10 s. *)
Theorem C117_seconds_refuted : milliUpdate 1500 16000 1500 4%float = Exc EAssert /\ milliUpdate 10000 40000 15000 0.78125%float = Exc EAssert /\
  (exists o, milliUpdate 1500 16000 1500 6%float = Ok o /\ oDt o = milli 1500 /\ oBreach o = false) /\
  (exists o, milliUpdate 1500 16000 1500 2%float = Ok o /\ oDt o = milli 3000 /\ oBreach o = false) /\
  (exists o, milliUpdate 1000 16000 1000 4%float = Ok o /\ oDt o = milli 2000 /\ oBreach o = false).
Proof. exact fraction_refuted. Qed.
Print Assumptions C117_seconds_refuted.

(** The exception is met: the lagoon breaks through the barrier of the first transect, where no channel is cut, and no barrier is left. *)
Theorem C117_first_refuted : exists o, firstUpdate = Ok o /\ oBreach o = true /\ map (@SNext.stands float sim_num) (oT o) = [false; true; true; true; true].
Proof. exact first_case. Qed.
Print Assumptions C117_first_refuted.

(** A coast for which the hypotheses hold whatever river, waves and overtopping do; the water stands above the barrier at transect 2. *)
Theorem C117_example : forall l q c : list R, length l = 3%nat -> length q = 2%nat -> length c = 4%nat ->
  nDx pushNum = Fin 20 /\ nMaxMorChange pushNum = Fin 0.25 /\ numberedPars restP /\ 0 < rv (pSpitWidth restP) /\ 0.25 < rv (pBackshoreElev restP) + rv (pClosureDepth restP) /\
  soundInputs restP 20 (exCoast 0) (Fin 1) (Fin 5) (Fin 0) [1]%nat [] [Fin 5; Fin 5; Fin 5] [Fin 1; Fin 1; Fin 1] [0;0;1]%nat true (length q) /\
  fits (exCoast 0) [Fin 1; Fin 1] [1]%nat [Fin 2; Fin 2; Fin 4; Fin 2] [0;0;1]%nat l c [false;false;true;false] /\ Forall (sturdy restP 0.25) (exCoast 0) /\
  tMorDtMin thruTP = sec 5 /\ tMorDtMax thruTP = sec (5 * 2 ^ Z.of_nat 2).
Proof. exact through_case. Qed.
Print Assumptions C117_example.
