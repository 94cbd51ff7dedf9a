(** C83: mor.py, for how long the bed is moved in one update. *)
From Coq Require Import ZArith List Bool Reals.
From Verif Require Import Base Num Xr MState MMor SMor SAdapt PCoast PRateEx PCapEx PSec.
Import ListNotations.
Local Open Scope R_scope.

(** The time step of the update is [day] days, [n] seconds and [f] nanoseconds; river bed,
    outlet end and (outlet closed) transects move at their rates for [n] seconds. *)
Theorem C83_moved : forall (F : Type) (NF : Num F) fuel (P : phys F) N TP T e0 e1 W Zend RiverElev online outlet LagoonWL OutletDep CW CD fl (closed : bool) LST q CST OW dt0 a, morApply fuel P N TP T e0 e1 W Zend RiverElev online outlet LagoonWL OutletDep CW CD fl closed LST q CST OW dt0 = Ok a ->
  exists day n f RR, (aDt a = (day * 86400 + n) * 1000000000 + f /\ 0 <= n < 86400 /\ 0 <= f < 1000000000)%Z /\
    ratesFor P (nDx N) T e0 e1 W Zend online outlet CW CD fl closed LST q CST OW = Ok RR /\
    forall m, tMorDtMin TP = sec m -> (0 <= m < 86400)%Z -> (m < n)%Z ->
    (forall z zs, RiverElev = z :: zs -> length (rRiv RR) = length zs /\ aRiver a = z :: map2 (fun z r => z + r * fofZ n)%n zs (rRiv RR)) /\
    (closed = false -> aE1 a = (e1 + rMove RR * fofZ n)%n /\ aW a = (W + rWiden RR * fofZ n)%n /\ aZ a = (Zend + rAgg RR * fofZ n)%n) /\
    (closed = true -> forall i t r, nth_error T i = Some t -> nth_error (rT RR) i = Some r ->
       let s := fofZ n in nth_error (aT a) i =
       Some (mkT (tX t) (tY0 t + rY0 r * s) (tY1 t + rY1 r * s) (tY2 t + rY2 r * s) (tY3 t + rY3 r * s) (tY4 t + rY4 r * s)
                 (tZ0 t + rZ0 r * s) (tZ1 t + rZ1 r * s) (tZ2 t + rZ2 r * s) (tZ3 t + rZ3 r * s))%n).
Proof. exact @whole_seconds. Qed.
Print Assumptions C83_moved.

(** Refuted: the river bed moves for as long as the step lasts, for steps of less than a day. *)
Theorem C83_elapsed_refuted : ~ (forall fuel (P : phys xr) N TP T e0 e1 W Zend z zs online outlet LagoonWL OutletDep CW CD fl (closed : bool) LST q CST OW dt0 a m RR,
  morApply fuel P N TP T e0 e1 W Zend (z :: zs) online outlet LagoonWL OutletDep CW CD fl closed LST q CST OW dt0 = Ok a ->
  tMorDtMin TP = sec m -> (0 <= m)%Z -> (sec m < aDt a < oneDay)%Z ->
  ratesFor P (nDx N) T e0 e1 W Zend online outlet CW CD fl closed LST q CST OW = Ok RR ->
  aRiver a = z :: map2 (fun z r => z + r * Fin (IZR (aDt a) / 1000000000))%n zs (rRiv RR)).
Proof. exact @elapsed_refuted. Qed.
Print Assumptions C83_elapsed_refuted.

Theorem C83_example : exists cap a, aDt a = 7500000000%Z /\
  morApply 10 (exP 40) (slowNum cap) slowTP exT (Fin 0) (Fin 10) (Fin 10) (Fin 0) (map Fin [5; 4]) [2; 3]%nat [3]%nat capWL capWL exCW exCD exFl false
    (map Fin exLst) (map Fin exQ) (map Fin exCst) exOw (sec 15) = Ok a /\ tMorDtMin slowTP = sec 5.
Proof. exact @halved_example. Qed.
