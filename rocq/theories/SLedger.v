(** Specification vocabulary: everything that may be done to a transect after the
    movement of an update, in the order in which it is done, and the sediment each
    kind of reworking makes (or, negative, destroys). *)
From Coq Require Import ZArith List Bool Reals.
From Verif Require Import Base Num Xr MState SMor SVol STouch.
Import ListNotations.

Inductive kind := Cliff | Squeeze | Elongate | Seaward | Swallow | Crowd | Merge | Fill | Restore | Raise | Breach | Keep.
(** Position in the order. *)
Definition rank (k : kind) : nat :=
  match k with Cliff => 0 | Squeeze => 1 | Elongate => 2 | Seaward => 3 | Swallow => 4 | Crowd => 5
             | Merge => 6 | Fill => 7 | Restore => 8 | Raise => 9 | Breach => 10 | Keep => 11 end.

Section Rework.
  Context {F : Type} {NF : Num F}.
  Local Open Scope num_scope.
  Variables (P : phys F) (W Z : F) (t0 : tsect F).
  (** One reworking of a transect [t]; [t0]: the transect before the update, [W], [Z]: width
      and level of the outlet end after the movement. *)
  Inductive reworked : kind -> tsect F -> tsect F -> Prop :=
  (* the shoreline is at the cliff or behind it: both are moved, 1 mm apart, without lagoon *)
  | rwCliff t over ret : (tY0 t <=? tY4 t) = true -> over = (tY4 t - tY0 t) + fofQ 1 1000 ->
      ret = over / (f1 + ((pBackshoreElev P - tZ0 t) / (pClosureDepth P + tZ0 t0))) ->
      reworked Cliff t (mkT (tX t) (tY0 t + (over - ret)) (tY1 t) (tY2 t) (tY4 t - ret) (tY4 t - ret) (tZ0 t) (tZ1 t) (tZ2 t) (tZ3 t))
  (* the banks have passed each other: the overlap goes onto the lower crest *)
  | rwFront t v : (tY1 t <? tY2 t) = true -> (f0 <=? tZ2 t - tZ0 t) = true -> v = (tY2 t - tY1 t) * barBack t0 ->
      ((tZ2 t - tZ0 t) * barWidth t0 <? v) = false ->
      reworked Squeeze t (mkT (tX t) (tY0 t) (tY1 t + (tY2 t - tY1 t)) (tY2 t) (tY3 t) (tY4 t) (tZ0 t + v / barWidth t0) (tZ1 t) (tZ2 t) (tZ3 t))
  | rwRear t v : (tY1 t <? tY2 t) = true -> (tZ2 t - tZ0 t <? f0) = true -> v = (tY2 t - tY1 t) * barBack t0 ->
      ((tZ2 t - tZ0 t) * (- (tY2 t - tY3 t)) <? v) = false ->
      reworked Squeeze t (mkT (tX t) (tY0 t) (tY1 t + (tY2 t - tY1 t)) (tY2 t) (tY3 t) (tY4 t) (tZ0 t) (tZ1 t) (tZ2 t + v / (tY2 t - tY3 t)) (tZ3 t))
  (* or, when it is more than that takes, the channel is gone and the barrier level *)
  | rwFlat t v l : (tY1 t <? tY2 t) = true -> v = (tY2 t - tY1 t) * barBack t0 -> (l <? v) = true ->
      ((f0 <=? tZ2 t - tZ0 t) = true /\ l = (tZ2 t - tZ0 t) * barWidth t0 \/
       (tZ2 t - tZ0 t <? f0) = true /\ l = (tZ2 t - tZ0 t) * (- (tY2 t - tY3 t))) ->
      reworked Squeeze t (mkT (tX t) (tY0 t) fnan fnan (tY3 t) (tY4 t) (fmaximum (tZ0 t) (tZ2 t) + (v - l) / (tY0 t - tY3 t)) fnan fnan (tZ3 t))
  (* the outlet end has passed: a new piece of channel *)
  | rwElongate t : reworked Elongate t
      (mkT (tX t) (tY0 t) (tY0 t - pSpitWidth P) (tY0 t - pSpitWidth P - W) (tY3 t) (tY4 t) (pBeachTopElev P) Z (tZ0 t) (tZ3 t))
  (* the first transect of the channel has met the sea: the channel is moved back *)
  | rwSeaward t s : (tY0 t <=? tY1 t) = true -> s = fofQ 1 1000 + (tY1 t - tY0 t) ->
      reworked Seaward t (mkT (tX t) (tY0 t) (tY1 t - s) (tY2 t - s * (tZ0 t - tZ1 t) / (tZ2 t - tZ1 t)) (tY3 t) (tY4 t) (tZ0 t) (tZ1 t) (tZ2 t) (tZ3 t))
  (* the channel has reached the cliff: it becomes the lagoon *)
  | rwSwallow t : reworked Swallow t (mkT (tX t) (tY0 t) fnan fnan (tY1 t) (tY4 t) (tZ0 t) fnan fnan (tZ1 t))
  (* the last transect of the channel has met the lagoon: lagoon (and cliff) give way *)
  | rwCrowd t y3 : (tY2 t <=? tY3 t) = true -> y3 = tY2 t - fofQ 1 10000 -> (y3 <? tY4 t) = false ->
      reworked Crowd t (mkT (tX t) (tY0 t) (tY1 t) (tY2 t) y3 (tY4 t) (tZ0 t) (tZ1 t) (tZ2 t) (tZ3 t))
  | rwCrowdCliff t y3 over ret : (tY2 t <=? tY3 t) = true -> y3 = tY2 t - fofQ 1 10000 -> (y3 <? tY4 t) = true -> over = tY4 t - y3 ->
      ret = over / (f1 + ((pBackshoreElev P - tZ2 t) / (tZ2 t - tZ1 t))) ->
      reworked Crowd t (mkT (tX t) (tY0 t) (tY1 t) (tY2 t + (over - ret)) (y3 + (over - ret)) (tY4 t - ret) (tZ0 t) (tZ1 t) (tZ2 t) (tZ3 t))
  (* the channel is merged into the lagoon *)
  | rwMerge t : reworked Merge t
      (mkT (tX t) (tY0 t) fnan fnan (tY3 t + (tY1 t - tY2 t)) (tY4 t) (tZ0 t) fnan (tZ2 t)
           (((tY1 t - tY2 t) * tZ1 t + (tY3 t - tY4 t) * tZ3 t) / (tY1 t - tY4 t)))
  (* the sea has met a channel, which is filled from the shoreface *)
  | rwFill t : reworked Fill t
      (mkT (tX t) (tY0 t - (tY1 t - tY2 t) * (tZ2 t - tZ1 t) / (tZ2 t + pClosureDepth P)) fnan fnan (tY3 t) (tY4 t) (tZ2 t) fnan fnan (tZ3 t))
  (* the barrier is gone and is restored *)
  | rwRestore t over s : (tY0 t <=? tY3 t) = true -> over = fofQ 1 1000 + (tY3 t - tY0 t) ->
      s = over / (f1 + ((pClosureDepth P + tZ0 t0) / (tZ0 t - tZ3 t))) ->
      reworked Restore t (mkT (tX t) (tY0 t + s) (tY1 t) (tY2 t) (tY3 t - (over - s)) (tY4 t) (tZ0 t) (tZ1 t) (tZ2 t) (tZ3 t))
  (* the crest is raised to the inner crest *)
  | rwRaise t : reworked Raise t (mkT (tX t) (tY0 t) (tY1 t) (tY2 t) (tY3 t) (tY4 t) (fmaximum (tZ0 t) (tZ2 t)) (tZ1 t) (tZ2 t) (tZ3 t))
  (* a breach is cut *)
  | rwBreach t w z y1 y2 y3 y4 : w = pymax W (f2 * pMinOutletWidth P) -> z = pymin Z (pMaxOutletElev P) ->
      y1 = pymin (tY0 t - pSpitWidth P) ((tY0 t + tY3 t) / f2 + w / f2) -> y2 = y1 - w ->
      y3 = (if y2 <=? tY3 t then y2 - fofQ 1 1000 else tY3 t) -> y4 = (if y2 <=? tY4 t then y2 - fofQ 1 1000 else tY4 t) ->
      reworked Breach t (mkT (tX t) (tY0 t) y1 y2 y3 y4 (tZ0 t) (fofQ 1 2 * z + fofQ 1 2 * tZ3 t) (tZ0 t) (tZ3 t))
  (* the lagoon at the river is kept open *)
  | rwKeep t : (tY3 t - tY4 t <? pMinOutletWidth P) = true ->
      reworked Keep t (mkT (tX t) (tY0 t) (tY1 t) (tY2 t) (tY3 t) (tY3 t - pMinOutletWidth P - fofQ 1 1000) (tZ0 t) (tZ1 t) (tZ2 t) (tZ3 t)).

  (** Reworkings one after the other, in order and at most one of each kind; the list has
      each with the transect it was applied to. *)
  Inductive story : nat -> tsect F -> list (kind * tsect F) -> tsect F -> Prop :=
  | told n t : story n t [] t
  | tell n k t t' l u : (n <= rank k)%nat -> reworked k t t' -> story (S (rank k)) t' l u -> story n t ((k, t) :: l) u.
End Rework.

Local Open Scope R_scope.
(** The columns that matter are numbers. *)
Definition numbers (t : tsect xr) : Prop :=
  is_fin (tY0 t) /\ is_fin (tY3 t) /\ is_fin (tY4 t) /\ is_fin (tZ0 t) /\ is_fin (tZ3 t) /\
  (hasChannel t = true -> is_fin (tY1 t) /\ is_fin (tY2 t) /\ is_fin (tZ1 t) /\ is_fin (tZ2 t)).
(** The parameters that matter are numbers. *)
Definition numberedPars (P : phys xr) : Prop :=
  is_fin (pClosureDepth P) /\ is_fin (pBackshoreElev P) /\ is_fin (pBeachTopElev P) /\ is_fin (pSpitWidth P) /\
  is_fin (pMinOutletWidth P) /\ is_fin (pMaxOutletElev P).
(** Top of the barrier behind the channel, if any. *)
Definition innerTop (t : tsect xr) : R := if hasChannel t then rv (tZ2 t) else rv (tZ0 t).
(** Sediment a channel leaves out of a barrier of the height of its (outer) crest. *)
Definition missing (t : tsect xr) : R :=
  if hasChannel t then (rv (tZ0 t) - rv (tZ1 t)) * (rv (tY1 t) - rv (tY2 t)) + (rv (tZ0 t) - rv (tZ2 t)) * (rv (tY2 t) - rv (tY3 t)) else 0.

Section Worth.
  Variables (P : phys xr) (W Z : R) (t0 : tsect xr).
  Let c := rv (pClosureDepth P).
  Let B := rv (pBackshoreElev P).
  (** Distances by which things move. *)
  Definition cliffRetreat (t : tsect xr) : R :=
    (rv (tY4 t) - rv (tY0 t) + 1 / 1000) * (c + rv (tZ0 t0)) / (c + rv (tZ0 t0) + (B - rv (tZ0 t))).
  Definition restored (t : tsect xr) : R :=
    (1 / 1000 + (rv (tY3 t) - rv (tY0 t))) * (rv (tZ0 t) - rv (tZ3 t)) / (rv (tZ0 t) - rv (tZ3 t) + (c + rv (tZ0 t0))).
  Definition breachWide : R := Rmax W (2 * rv (pMinOutletWidth P)).
  Definition breachSea (t : tsect xr) : R := Rmin (rv (tY0 t) - rv (pSpitWidth P)) ((rv (tY0 t) + rv (tY3 t)) / 2 + breachWide / 2).
  Definition cutTo (y e : R) : R := if Rle_dec y e then y - 1 / 1000 else e.
  (** What each reworking makes. *)
  Definition worth (k : kind) (t : tsect xr) : R :=
    let y0 := rv (tY0 t) in let y1 := rv (tY1 t) in let y2 := rv (tY2 t) in let y3 := rv (tY3 t) in let y4 := rv (tY4 t) in
    let z0 := rv (tZ0 t) in let z1 := rv (tZ1 t) in let z2 := rv (tZ2 t) in let z3 := rv (tZ3 t) in
    match k with
    | Cliff => (z0 - rv (tZ0 t0)) * (y4 - y0 + 1 / 1000 - cliffRetreat t) + (innerTop t - z0) * cliffRetreat t + (innerTop t - z3) * (y3 - y4)
    | Squeeze =>
        let w := y2 - y1 in
        w * (rv (barBack t0) - (z0 - z1))
        + (if Rle_dec z0 z2 then (y0 - y2 - rv (barWidth t0)) * Rmin (w * rv (barBack t0) / rv (barWidth t0)) (z2 - z0) else 0)
    | Elongate => (rv (pBeachTopElev P) - z0) * rv (pSpitWidth P) - (z0 - Z) * W + missing t
    | Seaward => 0
    | Swallow => (z1 - z2) * (y2 - y3) + (z1 - z3) * (y3 - y4)
    | Crowd => (z2 - z3) * (y3 - Rmax (y2 - 1 / 10000) y4)
    | Merge => (y3 - y2) * (z2 - z0 + ((y1 - y2) * z1 + (y3 - y4) * z3) / (y1 - y4))
    | Fill => (z0 - z2) * (y1 - y0)
    | Restore => (c + z0) * restored t + (innerTop t - z3) * (1 / 1000 + (y3 - y0) - restored t)
    | Raise => Rmax (z2 - z0) 0 * (y0 - (if hasChannel t then y1 else y3))
    | Breach =>
        let b := breachSea t - breachWide in
        missing t - (z0 - (Rmin Z (rv (pMaxOutletElev P)) + z3) / 2) * breachWide + (z0 - z3) * (y3 - cutTo b y3) - (B - z3) * (y4 - cutTo b y4)
    | Keep => - (B - z3) * (y4 - y3 + rv (pMinOutletWidth P) + 1 / 1000)
    end.
  (** Nothing is divided by zero, and what is taken for a channel is one. *)
  Definition proper (k : kind) (t : tsect xr) : Prop :=
    match k with
    | Cliff => c + rv (tZ0 t0) <> 0 /\ c + rv (tZ0 t0) + (B - rv (tZ0 t)) <> 0
    | Squeeze => rv (barWidth t0) > 0 /\ rv (tY2 t) <> rv (tY3 t) /\ rv (tY0 t) <> rv (tY3 t)
    | Seaward => rv (tZ2 t) <> rv (tZ1 t)
    | Crowd => hasChannel t = true /\ rv (tZ2 t) <> rv (tZ1 t) /\ B <> rv (tZ1 t)
    | Merge => hasChannel t = true /\ rv (tY1 t) <> rv (tY4 t)
    | Fill => hasChannel t = true /\ rv (tZ2 t) + c <> 0
    | Restore => rv (tZ0 t) <> rv (tZ3 t) /\ rv (tZ0 t) - rv (tZ3 t) + (c + rv (tZ0 t0)) <> 0
    | Swallow => hasChannel t = true
    | Raise => is_fin (tZ2 t)
    | Elongate | Breach | Keep => True
    end.
  (** What a whole story makes. *)
  Definition made (l : list (kind * tsect xr)) : R := rsum (map (fun p => worth (fst p) (snd p)) l).
  Definition properAll (l : list (kind * tsect xr)) : Prop := Forall (fun p => proper (fst p) (snd p)) l.
End Worth.
