(** Specification vocabulary for the map view. *)
From Coq Require Import Reals List.
From Verif Require Import Base Num Xr MState MMap SGeom.
Import ListNotations.
Local Open Scope R_scope.

(** The point [x] along the shore and [y] seaward of an origin, where seaward is the compass bearing [d]. *)
Definition worldOf (ox oy d x y : R) : pt2 := (ox + x * cos d + y * sin d, oy - x * sin d + y * cos d).
Definition plus2 (p q : pt2) : pt2 := (fst p + fst q, snd p + snd q).
(** [line] is drawn through the points at offset [y] of the transects; a missing offset leaves a gap. *)
Definition drawn (ox oy d : R) (T : list (tsect xr)) (y : tsect xr -> xr) (line : list (xr * xr)) : Prop :=
  length line = length T /\
  forall i t x, nth_error T i = Some t -> tX t = Fin x ->
    (forall r, y t = Fin r -> nth_error line i = Some (fp (worldOf ox oy d x r))) /\
    (y t = NaN -> nth_error line i = Some (NaN, NaN)).
(** The smallest of some numbers. *)
Definition lowest (m : R) (l : list R) : Prop := In m l /\ forall r, In r l -> m <= r.
(** [t] is the first transect of [T] with lagoon; the last one. *)
Definition firstLagoon (T : list (tsect xr)) (t : tsect xr) : Prop :=
  exists i, nth_error T i = Some t /\ tY3 t <> NaN /\ forall j u, (j < i)%nat -> nth_error T j = Some u -> tY3 u = NaN.
Definition lastLagoon (T : list (tsect xr)) (t : tsect xr) : Prop :=
  exists i, nth_error T i = Some t /\ tY3 t <> NaN /\ forall j u, (i < j)%nat -> nth_error T j = Some u -> tY3 u = NaN.
(** Transect positions and cliff positions as numbers. *)
Definition cliffLine (T : list (tsect xr)) (l : list pt2) : Prop := map (fun t => (tX t, tY4 t)) T = map fp l.
(** The segment between the offsets [y3] and [y4] of the transect [t]. *)
Definition closing (ox oy d : R) (t : tsect xr) (line : list (xr * xr)) : Prop :=
  forall x a b, tX t = Fin x -> tY3 t = Fin a -> tY4 t = Fin b ->
    line = [fp (worldOf ox oy d x a); fp (worldOf ox oy d x b)].
(** An arrow from the origin whose tip is the point [p]; and a label at 2.4 times its length. *)
Definition arrowTo (ox oy : R) (p : pt2) (arrow : (xr * xr) * (xr * xr)) (label : xr * xr) : Prop :=
  exists v, arrow = (fp (ox, oy), fp v) /\ plus2 (ox, oy) v = p /\
            label = fp (plus2 (ox, oy) (24 / 10 * fst v, 24 / 10 * snd v)).
(** What a map of the transects [T] with cliff line [l] shows. *)
Definition shows (ox oy d : R) (T : list (tsect xr)) (l : list pt2) (M : mapfig xr) : Prop :=
  drawn ox oy d T tY0 (mvShore M) /\ drawn ox oy d T tY2 (mvOutlet M) /\ drawn ox oy d T tY3 (mvLagoon M) /\ drawn ox oy d T tY4 (mvCliff M) /\
  (exists mn c cs, lowest mn (map snd l) /\ crossings 0 l (c :: cs) /\
     mvRiver M = [fp (worldOf ox oy d 0 (3 * mn)); fp (worldOf ox oy d 0 c)]) /\
  (exists s t, firstLagoon T s /\ lastLagoon T t /\ closing ox oy d s (mvEnd1 M) /\ closing ox oy d t (mvEnd2 M)) /\
  mvOrigin M = fp (ox, oy) /\
  (exists p q, nth_error l 0 = Some p /\ nth_error l (length l - 1) = Some q /\
     arrowTo ox oy (worldOf ox oy d ((fst q - fst p) / 20) 0) (mvArrowX M) (mvLabelX M) /\
     arrowTo ox oy (worldOf ox oy d 0 ((fst q - fst p) / 20)) (mvArrowY M) (mvLabelY M)).
