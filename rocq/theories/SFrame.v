(** Specification vocabulary: which columns of a transect a reworking can change, and in which
    direction cliff and crest can go. *)
From Coq Require Import ZArith List Bool Reals.
From Verif Require Import Base Num Xr MState SMor STouch SLedger.
Import ListNotations.

(** Positions (shoreline, channel banks, lagoon edge, cliff) and levels (crest, channel bed, inner
    crest, lagoon bed). *)
Inductive column := Shoreline | SeaBank | LandBank | LagoonEdge | CliffFoot | Crest | ChannelBed | InnerCrest | LagoonBed.
Definition colOf {F} (c : column) (t : tsect F) : F :=
  match c with Shoreline => tY0 t | SeaBank => tY1 t | LandBank => tY2 t | LagoonEdge => tY3 t | CliffFoot => tY4 t
             | Crest => tZ0 t | ChannelBed => tZ1 t | InnerCrest => tZ2 t | LagoonBed => tZ3 t end.
(** What each kind of reworking may change. *)
Definition changes (k : kind) : list column :=
  match k with
  | Cliff => [Shoreline; LagoonEdge; CliffFoot]
  | Squeeze | Elongate => [SeaBank; LandBank; Crest; ChannelBed; InnerCrest]
  | Seaward => [SeaBank; LandBank]
  | Swallow => [SeaBank; LandBank; LagoonEdge; ChannelBed; InnerCrest; LagoonBed]
  | Crowd => [LandBank; LagoonEdge; CliffFoot]
  | Merge => [SeaBank; LandBank; LagoonEdge; ChannelBed; LagoonBed]
  | Fill => [Shoreline; SeaBank; LandBank; Crest; ChannelBed; InnerCrest]
  | Restore => [Shoreline; LagoonEdge]
  | Raise => [Crest]
  | Breach => [SeaBank; LandBank; LagoonEdge; CliffFoot; ChannelBed; InnerCrest]
  | Keep => [CliffFoot]
  end.

Local Open Scope R_scope.
(** Heights as they are on a coast: the cliff top and the shoreface above the closure depth are high
    enough, channel beds lie below what is beside them, a barrier stands above the water body behind it
    and has a width. *)
Definition coastal (P : phys xr) (t0 : tsect xr) (k : kind) (t : tsect xr) : Prop :=
  match k with
  | Cliff => 0 < rv (pClosureDepth P) + rv (tZ0 t0) /\ rv (tZ0 t) < rv (pClosureDepth P) + rv (tZ0 t0) + rv (pBackshoreElev P)
  | Crowd => rv (tZ1 t) < rv (tZ2 t) /\ rv (tZ1 t) < rv (pBackshoreElev P)
  | Squeeze => 0 <= rv (barBack t0) /\ rv (tY3 t) < rv (tY0 t)
  | _ => True
  end.
Definition coastalAll (P : phys xr) (t0 : tsect xr) (l : list (kind * tsect xr)) : Prop := Forall (fun p => coastal P t0 (fst p) (snd p)) l.
(** Neither filled from the shoreface nor made part of a longer channel. *)
Definition crestKept (l : list (kind * tsect xr)) : Prop := Forall (fun p => fst p <> Fill /\ fst p <> Elongate) l.
