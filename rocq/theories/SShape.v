(** Specification vocabulary: a transect read off the input lines. *)
From Coq Require Import List Reals.
From Verif Require Import Base Num Xr MState SGeom SLine.
Import ListNotations.
Local Open Scope R_scope.

(** [t] at [x]: shoreline on the input shoreline; cliff and lagoon edge at the seaward-most
    crossing of their lines, the lagoon edge being the cliff outside the lagoon [l0, l1]; a
    channel of width [w] about the only crossing of the outlet line [o0, o1] if it fits strictly
    between lagoon edge and shoreline, and none otherwise. *)
Definition read_off (shore lagoon cliff outlet : list (R * R)) (l0 l1 o0 o1 w x : R) (t : tsect xr) : Prop :=
  exists y0 y3 y4 c4, tX t = Fin x /\ tY0 t = Fin y0 /\ on_line shore x y0 /\
    tY4 t = Fin y4 /\ crossings x cliff c4 /\ In y4 c4 /\ (forall y, In y c4 -> y <= y4) /\
    tY3 t = Fin y3 /\
    (l0 < x < l1 -> exists c3, crossings x lagoon c3 /\ In y3 c3 /\ forall y, In y c3 -> y <= y3) /\
    (x <= l0 \/ l1 <= x -> y3 = y4) /\
    (o0 < x < o1 -> exists y, crossings x outlet [y] /\
       (y3 < y - w / 2 -> y + w / 2 < y0 -> tY1 t = Fin (y + w / 2) /\ tY2 t = Fin (y - w / 2)) /\
       (y - w / 2 <= y3 \/ y0 <= y + w / 2 -> tY1 t = NaN /\ tY2 t = NaN)) /\
    (x <= o0 \/ o1 <= x -> tY1 t = NaN /\ tY2 t = NaN).
