(** C112: visualise.py mapView, the map in world coordinates. *)
From Coq Require Import ZArith Reals List.
From Verif Require Import Base Num Xr MState MMap SGeom SMap PMap.
Import ListNotations.
Local Open Scope R_scope.

Theorem C112_drawn : forall ox oy d T l M, cliffLine T l -> mapView T (Fin ox, Fin oy) (Fin d) = Ok M -> shows ox oy d T l M.
Proof. exact map_drawn. Qed.
Print Assumptions C112_drawn.

Theorem C112_when : forall ox oy d T l, cliffLine T l ->
  ((exists M, mapView T (Fin ox, Fin oy) (Fin d) = Ok M) <->
   (exists p q i, nth_error l i = Some p /\ nth_error l (S i) = Some q /\ crosses p q 0) /\ (exists t, In t T /\ tY3 t <> NaN)).
Proof. exact map_iff. Qed.
Print Assumptions C112_when.

Theorem C112_fails : forall ox oy d T l, cliffLine T l ->
  (T = [] -> mapView T (Fin ox, Fin oy) (Fin d) = Exc EValue) /\
  (T <> [] -> crossings 0 l [] \/ (forall t, In t T -> tY3 t = NaN) -> mapView T (Fin ox, Fin oy) (Fin d) = Exc EIndex).
Proof. exact map_fails. Qed.
Print Assumptions C112_fails.

(** The river is drawn seaward of a cliff that lies seaward of the origin. *)
Theorem C112_river_refuted : exists T l M, cliffLine T l /\ mapView T (Fin 0, Fin 0) (Fin 0) = Ok M /\
  (forall p, In p l -> snd p = 10) /\ mvRiver M = [(Fin 0, Fin 30); (Fin 0, Fin 10)].
Proof. exact river_at_sea. Qed.
Print Assumptions C112_river_refuted.

(** Three transects with the cliff 500 m inland, seaward is north. *)
Theorem C112_example : exists M, mapView (coast (-500)) (Fin 1000, Fin 2000) (Fin 0) = Ok M /\
  mvRiver M = [(Fin 1000, Fin 500); (Fin 1000, Fin 1500)] /\ mvArrowX M = ((Fin 1000, Fin 2000), (Fin 10, Fin 0)).
Proof. exact coast_case. Qed.
Print Assumptions C112_example.
