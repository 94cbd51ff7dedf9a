(** Specification vocabulary: whether the next update can start from what an update leaves. *)
From Coq Require Import ZArith List Bool Reals.
From Verif Require Import Base Num Xr MState SMor STouch SLedger.
Import ListNotations.

(** The barrier facing the sea (up to the channel if there is one, else up to the lagoon) has a width. *)
Definition stands {F} {NF : Num F} (t : tsect F) : bool := (f0 <? barWidth t)%n.

Local Open Scope R_scope.
(** Where a channel is filled from the shoreface, the shoreline stays in front of the cliff; where the
    last transect of a channel is pushed landward the channel bed lies below inner crest and cliff top;
    where a barrier is restored it stands above the lagoon bed. *)
Definition firm (P : phys xr) (t0 : tsect xr) (k : kind) (t : tsect xr) : Prop :=
  match k with
  | Fill => rv (tY4 t) < rv (tY0 t) - (rv (tY1 t) - rv (tY2 t)) * (rv (tZ2 t) - rv (tZ1 t)) / (rv (tZ2 t) + rv (pClosureDepth P))
  | Crowd => rv (tZ1 t) < rv (tZ2 t) /\ rv (tZ1 t) < rv (pBackshoreElev P)
  | Restore => rv (tZ3 t) < rv (tZ0 t) /\ 0 < rv (pClosureDepth P) + rv (tZ0 t0)
  | _ => True
  end.
Definition firmAll (P : phys xr) (t0 : tsect xr) (l : list (kind * tsect xr)) : Prop := Forall (fun p => firm P t0 (fst p) (snd p)) l.
