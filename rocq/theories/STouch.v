(** Specification vocabulary: what touches what at a transect, written out column by
    column so that the claims about corrections and breaches do not lean on the tests
    made by the model. *)
From Coq Require Import ZArith List Bool Reals.
From Verif Require Import Base Num Xr MState MMor SPost.
Import ListNotations.

Section Touch.
  Context {F : Type} {NF : Num F}.
  Local Open Scope num_scope.
  (** There is an outlet channel: its seaward bank is a number. *)
  Definition hasChannel (t : tsect F) : bool := negb (fisnan (tY1 t)).
  (** There is a lagoon: its seaward edge lies seaward of the cliff. *)
  Definition hasLagoon (t : tsect F) : bool := tY4 t <? tY3 t.
  (** The lagoon is wider than the minimum width of an outlet. *)
  Definition wideLagoon (P : phys F) (t : tsect F) : bool := pMinOutletWidth P <? (tY3 t - tY4 t).
  (** Height of the shoreface, from the closure depth to the crest. *)
  Definition shoreHeight (P : phys F) (t : tsect F) : F := pClosureDepth P + tZ0 t.
  (** Width of the (outer) barrier, and its height above the water body behind it. *)
  Definition barWidth (t : tsect F) : F := if hasChannel t then tY0 t - tY1 t else tY0 t - tY3 t.
  Definition barBack (t : tsect F) : F := if hasChannel t then tZ0 t - tZ1 t else tZ0 t - tZ3 t.
  (** The channel is not separated from the lagoon, or the sea; where there is no channel
      the answer is the opposite of what uninitialised memory, [mem], holds. *)
  Definition meetsLagoon (mem : nat -> bool) (i : nat) (t : tsect F) : bool := negb (if hasChannel t then tY3 t <? tY2 t else mem i).
  Definition meetsSea (mem : nat -> bool) (i : nat) (t : tsect F) : bool := negb (if hasChannel t then tY1 t <? tY0 t else mem i).
  (** The barrier in front of a lagoon is gone. *)
  Definition washedAway (t : tsect F) : bool := (tY0 t <=? tY3 t) && (tY4 t <? tY3 t).
  (** Water above the crest. *)
  Definition spilling (T : list (tsect F)) (WL : list F) (i : nat) : Prop :=
    exists t w, nth_error T i = Some t /\ nth_error WL i = Some w /\ (tZ0 t <? w) = true.
  (** ... where the water body is joined to the river. *)
  Definition spillingAtRiver (P : phys F) (T : list (tsect F)) (x0 : nat) (cc : option (Z * Z)) (WL : list F) (i : nat) : Prop :=
    spilling T WL i /\ (joined cc i \/ openTo (map (wideLagoon P) T) x0 i).
  (** The sea has reached the channel of a transect of the channel joined to the lagoon. *)
  Definition seaInChannel (mem : nat -> bool) (T : list (tsect F)) (cc : option (Z * Z)) (i : nat) : Prop :=
    (exists t, nth_error T i = Some t /\ meetsSea mem i t = true) /\ joined cc i.
  (** The [j]-th transect of the channel, not the last one, is [k]; its channel has met the lagoon. *)
  Definition lagoonInChannel (T : list (tsect F)) (outlet : list nat) (j k : nat) : Prop :=
    nth_error outlet j = Some k /\ (S j < length outlet)%nat /\ exists t, nth_error T k = Some t /\ (tY2 t <=? tY3 t) = true.
  (** [t] lies past [x] and not past the new end [e1], in the direction from [e0] to [e1]. *)
  Definition newlyPassed (e0 e1 x : F) (t : tsect F) : bool :=
    if e0 <? e1 then (x <? tX t) && (tX t <=? e1) else (tX t <? x) && (e1 <=? tX t).
  (** The transects between the two ends, in the order of the flow. *)
  Definition flowOrder (T : list (tsect F)) (e0 e1 : F) (l : list nat) : Prop :=
    lists T (fun t => (if e0 <? e1 then (e0 <=? tX t) && (tX t <=? e1) else (e1 <=? tX t) && (tX t <=? e0)) = true) (e0 <? e1) l.
  (** A transect after merging into the lagoon, and after filling from the shoreface too. *)
  Definition afterMerge (mem : nat -> bool) (i : nat) (t : tsect F) : tsect F := if meetsLagoon mem i t then dissolve t else t.
  Definition afterFill (P : phys F) (mem mem' : nat -> bool) (i : nat) (t : tsect F) : tsect F :=
    if meetsSea mem' i (afterMerge mem i t) then fillT P (afterMerge mem i t) else afterMerge mem i t.
End Touch.

Local Open Scope R_scope.
(** Positions that are numbers; a transect between two positions; a channel open to the sea. *)
Definition numberedX (T : list (tsect xr)) : Prop := forall i t, nth_error T i = Some t -> is_fin (tX t).
Definition between (a b : R) (t : tsect xr) : Prop := a <= rv (tX t) <= b.
Definition openToSea (T : list (tsect xr)) (k : nat) : Prop := exists t, nth_error T k = Some t /\ (tY0 t <=? tY1 t)%n = true.
(** Sediment needed to bring the lower of two crests to the level of the other. *)
Definition levelling (crest y2 y3 z0 z2 : R) : R := if Rleb z0 z2 then (z2 - z0) * crest else (z0 - z2) * (y2 - y3).
(** The same positions. *)
Definition samePlaces {F} (T T' : list (tsect F)) : Prop := map tX T' = map tX T.
