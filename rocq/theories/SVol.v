(** Specification vocabulary for the sediment in the whole domain: what a transect
    holds, what moves it, and updates in which nothing collides, opens or closes. *)
From Coq Require Import ZArith List Bool Reals.
From Verif Require Import Base Num Xr MState MCoast MMor SMor.
Import ListNotations.
Local Open Scope R_scope.

(** Sediment in the vertical cross-section along a transect, in square metres: the
    shoreface down to the closure depth, the barrier, the beds of channel and lagoon,
    the backshore.  Levels count from the datum and distances from Y = 0. *)
Definition section (P : phys xr) (t : tsect xr) : R :=
  rv (pClosureDepth P) * rv (tY0 t)
  + (if outletPresent t
     then rv (tZ0 t) * (rv (tY0 t) - rv (tY1 t)) + rv (tZ1 t) * (rv (tY1 t) - rv (tY2 t)) + rv (tZ2 t) * (rv (tY2 t) - rv (tY3 t))
     else rv (tZ0 t) * (rv (tY0 t) - rv (tY3 t)))
  + rv (tZ3 t) * (rv (tY3 t) - rv (tY4 t)) + rv (pBackshoreElev P) * rv (tY4 t).

(** A transect moved for [s] seconds at given rates. *)
Definition shifted (s : R) (t : tsect xr) (r : trate xr) : tsect xr :=
  mkT (tX t) (tY0 t + rY0 r * Fin s)%n (tY1 t + rY1 r * Fin s)%n (tY2 t + rY2 r * Fin s)%n (tY3 t + rY3 r * Fin s)%n
      (tY4 t + rY4 r * Fin s)%n (tZ0 t + rZ0 r * Fin s)%n (tZ1 t + rZ1 r * Fin s)%n (tZ2 t + rZ2 r * Fin s)%n (tZ3 t + rZ3 r * Fin s)%n.
(** Where an edge and a level move at the same time. *)
Definition mixed (t : tsect xr) (r : trate xr) : R :=
  (if outletPresent t
   then rv (rZ0 r) * (rv (rY0 r) - rv (rY1 r)) + rv (rZ1 r) * (rv (rY1 r) - rv (rY2 r)) + rv (rZ2 r) * (rv (rY2 r) - rv (rY3 r))
   else rv (rZ0 r) * (rv (rY0 r) - rv (rY3 r)))
  + rv (rZ3 r) * (rv (rY3 r) - rv (rY4 r)).

(** What the channel section above transect [i], if any, gains: [idx] the transects,
    [js] the channel sections above them. *)
Definition gainAt (q : list R) (idx js : list nat) (i : nat) : R :=
  rsum (map2 (fun i' j => if Nat.eqb i' i then gain q j else 0) idx js).
(** River sediment landing on the shore of a transect. *)
Definition landing (P : phys xr) (d qe : R) (e1 : xr) (t : tsect xr) : R :=
  let w := rv (pOutletSedSpreadDist P) in d * qe / w * Rmax (1 - Rabs (rv (tX t) - rv e1) / w) 0.
Definition height (P : phys xr) (t : tsect xr) : R := rv (pClosureDepth P) + rv (tZ0 t).
(** Prescribed retreat of the two end transects, in metres per second. *)
Definition retreat (P : phys xr) : R := rv (pShorelineErosionRate P) / (365.25 * 86400).

(** Sediment a transect receives per second, from the fluxes alone; [k]: the last
    transect left of an open outlet end. *)
Definition received (P : phys xr) (d : R) (n : nat) (e1 : xr) (online outlet : list nat) (fl : list nat) (closed : bool)
           (l q c : list R) (k i : nat) (t : tsect xr) : R :=
  gainAt q online (flagged closed fl 1) i + (if closed then 0 else gainAt q outlet (flagged closed fl 2) i)
  + (if Nat.eqb i 0 || Nat.eqb (S i) n then nth i c 0 * d - retreat P * height P t * d
     else nth (i - 1) l 0 - nth i l 0
          + (if closed then 0 else landing P d (nth (length q - 1) q 0) e1 t - (if Nat.eqb i (S k) then Rmax (nth k l 0) 0 else 0))).

(** Sums over transects. *)
Definition total (f : nat -> tsect xr -> R) (T : list (tsect xr)) : R := rsum (mapi f T).
Definition volume (P : phys xr) (d : R) (T : list (tsect xr)) : R := total (fun _ t => d * section P t) T.
Definition crossed (d : R) (T : list (tsect xr)) (rs : list (trate xr)) : R := rsum (map2 (fun t r => d * mixed t r) T rs).
(** Sediment per second entering the bed of the river reach, and the bed and banks
    of the outlet end, at given rates. *)
Definition riverGain (P : phys xr) (d : R) (RR : rates xr) : R := rsum (map (fun v => rv v * (rv (pRiverWidth P) * d)) (rRiv RR)).
Definition endGain (P : phys xr) (d : R) (W Zend : xr) (RR : rates xr) : R :=
  rv (rAgg RR) * (rv W * d) - rv (rWiden RR) * ((rv (pBeachTopElev P) - rv Zend) * rv (pSpitWidth P)).
Definition isEnd (n i : nat) : bool := Nat.eqb i 0 || Nat.eqb (S i) n.
(** What the two end transects receive from nowhere. *)
Definition endsGain (P : phys xr) (d : R) (c : list R) (T : list (tsect xr)) : R :=
  total (fun i t => if isEnd (length T) i then nth i c 0 * d - retreat P * height P t * d else 0) T.
(** River sediment landing on the transects between them. *)
Definition landed (P : phys xr) (d qe : R) (e1 : xr) (T : list (tsect xr)) : R :=
  total (fun i t => if isEnd (length T) i then 0 else landing P d qe e1 t) T.

(** ** Updates in which nothing happens but movement *)

(** Nothing touches: [g] is a transect after the movement. *)
Definition clear (g : tsect xr) : Prop :=
  is_fin (tY0 g) /\ is_fin (tY3 g) /\ is_fin (tY4 g) /\ is_fin (tZ0 g) /\
  rv (tY4 g) < rv (tY0 g) /\ (rv (tY3 g) <= rv (tY4 g) \/ rv (tY3 g) < rv (tY0 g)) /\
  if outletPresent g
  then is_fin (tY1 g) /\ is_fin (tY2 g) /\ is_fin (tZ2 g) /\ rv (tY3 g) < rv (tY2 g) <= rv (tY1 g) /\ rv (tY1 g) < rv (tY0 g)
  else tY2 g = NaN.
(** The outlet end stays two transects away from the ends of the domain. *)
Definition inside (G : list (tsect xr)) (e1 : xr) : Prop :=
  (forall t, nth_error G 1 = Some t -> exists x e, tX t = Fin x /\ e1 = Fin e /\ x <= e) /\
  (forall t, nth_error G (length G - 2) = Some t -> exists x e, tX t = Fin x /\ e1 = Fin e /\ e <= x).
(** The outlet end has not passed the transect next to the last one of the channel. *)
Definition unreached (G : list (tsect xr)) (e0 e1 : xr) (outlet : list nat) : Prop :=
  forall il, nth_error outlet (length outlet - 1) = Some il ->
  if (e0 <? e1)%n
  then forall t, nth_error G (S il) = Some t -> (tX t <=? e1)%n = false
  else (0 < il)%nat /\ forall t, nth_error G (il - 1) = Some t -> (e1 <=? tX t)%n = false.
(** A level above all the water and below all the crests. *)
Definition dryAt (h : R) (T : list (tsect xr)) (LagoonWL OutletDep : list xr) (outlet : list nat) (closed : bool) (G : list (tsect xr)) : Prop :=
  -9999.9 <= h /\
  (forall i t w, nth_error T i = Some t -> nth_error LagoonWL i = Some w -> (tY4 t <? tY3 t)%n = true -> exists r, w = Fin r /\ r <= h) /\
  (closed = false -> forall i t w, In i outlet -> nth_error T i = Some t -> nth_error OutletDep i = Some w ->
     exists r, (w + tZ1 t)%n = Fin r /\ r <= h) /\
  (forall g, In g G -> h <= rv (tZ0 g)).
(** Crest of a transect with a channel raised to the inner crest. *)
Definition levelled (g : tsect xr) : tsect xr :=
  if outletPresent g then setZ0 (Fin (Rmax (rv (tZ0 g)) (rv (tZ2 g)))) g else g.
(** The sediment this takes, which comes from nowhere. *)
Definition raised (d : R) (G : list (tsect xr)) : R :=
  total (fun _ g => if outletPresent g then d * (Rmax (rv (tZ2 g) - rv (tZ0 g)) 0 * (rv (tY0 g) - rv (tY1 g))) else 0) G.
(** Sediment in the bed of the river reach. *)
Definition riverVolume (P : phys xr) (d : R) (zs : list xr) : R := rsum (map (fun z => rv z * (rv (pRiverWidth P) * d)) zs).
(** All of this; [T]: the transects before the movement, [G]: after it, [e1]: where the
    outlet end is then, [j1], [j2]: what uninitialised memory holds. *)
Definition calm (P : phys xr) (j1 j2 : nat -> bool) (T G : list (tsect xr)) (e0 e1 : xr) (outlet : list nat) (closed : bool)
           (LagoonWL OutletDep : list xr) : Prop :=
  Forall clear G /\ map outletPresent G = map outletPresent T /\ inside G e1 /\ (closed = false -> unreached G e0 e1 outlet) /\
  (exists h, dryAt h T LagoonWL OutletDep outlet closed G) /\
  (forall i g, nth_error G i = Some g -> outletPresent g = false -> j1 i = true /\ j2 i = true) /\
  (forall g, In g G -> tX g = Fin 0 -> is_fin (pMinOutletWidth P) /\ rv (pMinOutletWidth P) <= rv (tY3 g) - rv (tY4 g)).
