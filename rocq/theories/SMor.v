(** Specification vocabulary for the rates of change (mor.py:26-172): the inputs a
    rate needs, and what each forcing contributes to it. *)
From Coq Require Import ZArith List Bool Reals.
From Verif Require Import Base Num Xr MState MCoast MMor.
Import ListNotations.
Local Open Scope R_scope.

(** mor.py:26-172: rates as a function of the inputs of updateMorphology. *)
Definition ratesFor {F} {NF : Num F} (P : phys F) (Dx : F) (T : list (tsect F)) (e0 e1 W Zend : F)
           (online outlet : list nat) (ChanWidth ChanDep : list F) (ChanFlag : list nat) (Closed : bool)
           (LST Bedload CST : list F) (OW : list bool) : res (rates F) :=
  let! rbq := (if Closed then Ok None
               else let! rb := outletRb T e1 in
                    let! q := ix LST (prevIx (length LST) rb) in Ok (Some (rb, q))) in
  changeRates P Dx T e0 e1 W Zend online outlet ChanWidth ChanDep ChanFlag rbq LST Bedload CST OW.

(** Parameters are numbers and the divisors among them are not zero. *)
Definition soundPars (P : phys xr) : Prop :=
  is_fin (pClosureDepth P) /\ is_fin (pBackshoreElev P) /\ is_fin (pBeachTopElev P) /\
  is_fin (pOutletBankEroFac P) /\ is_fin (pShorelineErosionRate P) /\
  (exists r, pRiverWidth P = Fin r /\ r <> 0) /\ (exists r, pSpitWidth P = Fin r /\ r <> 0) /\
  (exists r, pOutletSedSpreadDist P = Fin r /\ r <> 0).
Definition bankTop (t : tsect xr) : xr := if outletPresent t then tZ2 t else tZ0 t.
Definition crest (t : tsect xr) : xr := (tY0 t - (if outletPresent t then tY1 t else tY3 t))%n.
Definition rear (t : tsect xr) : xr := (tZ0 t - (if outletPresent t then tZ1 t else tZ3 t))%n.
(** A transect with numbers in it (those of the channel only if there is one). *)
Definition soundT (P : phys xr) (t : tsect xr) : Prop :=
  is_fin (tX t) /\ is_fin (tY0 t) /\ is_fin (tY3 t) /\ is_fin (tY4 t) /\ is_fin (tZ0 t) /\ is_fin (tZ3 t) /\
  (outletPresent t = true -> is_fin (tY1 t) /\ is_fin (tY2 t) /\ is_fin (tZ1 t) /\ is_fin (tZ2 t)) /\
  rv (pClosureDepth P) + rv (tZ0 t) <> 0 /\ rv (crest t) <> 0 /\ rv (rear t) <> 0.
(** A lagoon section with width and banks. *)
Definition soundLagoon (P : phys xr) (t : tsect xr) : Prop :=
  rv (tY3 t) <> rv (tY4 t) /\ rv (bankTop t) <> rv (tZ3 t) /\ rv (pBackshoreElev P) <> rv (tZ3 t).
(** An outlet channel section with width and banks. *)
Definition soundOutlet (t : tsect xr) : Prop :=
  outletPresent t = true /\ rv (tY1 t) <> rv (tY2 t) /\ rv (tZ0 t) <> rv (tZ1 t) /\ rv (tZ2 t) <> rv (tZ1 t).
Definition soundEnd (P : phys xr) (W Zend : xr) : Prop :=
  (exists w, W = Fin w /\ w <> 0) /\ (exists z, Zend = Fin z /\ rv (pBeachTopElev P) <> z).

(** Sediment gained by cross-section [j] of the channel (the flow [k] leaves
    section [k]; past the last one nothing leaves). *)
Definition gain (q : list R) (j : nat) : R := nth (j - 1) q 0 - nth j q 0.
(** Cross-sections of one kind: 0 river, 1 lagoon, 2 outlet, 3 outlet end.  The
    first section, and the one in the sea, are boundaries. *)
Definition flagged (closed : bool) (fl : list nat) (k : nat) : list nat :=
  filter (fun j => Nat.eqb (nth j fl 9%nat) k) (seq 1 (length fl - (if closed then 1 else 2))).

(** The inputs other than the forcings under study. *)
Definition soundInputs (P : phys xr) (d : R) (T : list (tsect xr)) (e1 W Zend : xr) (online outlet : list nat)
           (CW CD : list xr) (fl : list nat) (closed : bool) (m : nat) : Prop :=
  soundPars P /\ d <> 0 /\ Forall (soundT P) T /\ is_fin e1 /\ soundEnd P W Zend /\
  NoDup online /\ NoDup outlet /\
  (forall i t, In i online -> nth_error T i = Some t -> soundLagoon P t) /\
  (closed = false -> forall i t, In i outlet -> nth_error T i = Some t -> soundOutlet t) /\
  length CW = S m /\ length CD = S m /\ length fl = S m.

(** Volume rates (per second) of what differs between two sets of rates [r] and [r0]. *)
Definition lagoonVol (P : phys xr) (d : R) (t : tsect xr) (r r0 : trate xr) : xr :=
  ((rZ3 r - rZ3 r0) * ((tY3 t - tY4 t) * Fin d)
   - (rY3 r - rY3 r0) * ((bankTop t - tZ3 t) * Fin d)
   + (rY4 r - rY4 r0) * ((pBackshoreElev P - tZ3 t) * Fin d))%n.
Definition outletVol (d : R) (t : tsect xr) (r r0 : trate xr) : xr :=
  ((rZ1 r - rZ1 r0) * ((tY1 t - tY2 t) * Fin d)
   - (rY1 r - rY1 r0) * ((tZ0 t - tZ1 t) * Fin d)
   + (rY2 r - rY2 r0) * ((tZ2 t - tZ1 t) * Fin d))%n.
Definition riverVol (P : phys xr) (d : R) (v v0 : xr) : xr := ((v - v0) * (pRiverWidth P * Fin d))%n.
Definition bankArea (P : phys xr) (Zend : xr) : xr := ((pBeachTopElev P - Zend) * pSpitWidth P)%n.
Definition endVol (P : phys xr) (d : R) (W Zend : xr) (R R0 : rates xr) : xr :=
  ((rAgg R - rAgg R0) * (W * Fin d) - (rWiden R - rWiden R0) * bankArea P Zend)%n.
Definition shoreVol (P : phys xr) (d : R) (t : tsect xr) (r r0 : trate xr) : xr :=
  ((rY0 r - rY0 r0) * ((pClosureDepth P + tZ0 t) * Fin d))%n.
Definition rsum (l : list R) : R := fold_right Rplus 0 l.
Definition at3 {A B C} (f : A -> B -> C -> xr) (l : list A) (m : list B) (n : list C) (i : nat) : R :=
  match nth_error l i, nth_error m i, nth_error n i with Some a, Some b, Some c => rv (f a b c) | _, _, _ => 0 end.
Definition channelVol (P : phys xr) (d : R) (T : list (tsect xr)) (W Zend : xr) (online outlet : list nat) (closed : bool)
           (R R0 : rates xr) : Reals.Rdefinitions.R :=
  rsum (map2 (fun v v0 => rv (riverVol P d v v0)) (rRiv R) (rRiv R0))
  + rsum (map (at3 (lagoonVol P d) T (rT R) (rT R0)) online)
  + (if closed then 0 else rsum (map (at3 (outletVol d) T (rT R) (rT R0)) outlet) + rv (endVol P d W Zend R R0)).
(** Volume rate given to the shoreline of the interior transects. *)
Definition shorelineVol (P : phys xr) (d : R) (T : list (tsect xr)) (R R0 : rates xr) : Reals.Rdefinitions.R :=
  rsum (map (at3 (shoreVol P d) T (rT R) (rT R0)) (seq 1 (length T - 2))).
(** The first transect beyond the outlet end. *)
Definition firstRight (T : list (tsect xr)) (e1 : xr) (rb : nat) : Prop :=
  (exists t, nth_error T rb = Some t /\ (e1 <? tX t)%n = true) /\
  forall j t, (j < rb)%nat -> nth_error T j = Some t -> (e1 <? tX t)%n = false.
(** Cross-section [j] is wider than the limiting width/depth ratio. *)
Definition tooWide (P : phys xr) (CW CD : list xr) (j : nat) : bool :=
  (pWidthDepthRatio P <? nth j CW NaN / nth j CD NaN)%n.
(** Transects at a regular spacing. *)
Definition regular (d : R) (T : list (tsect xr)) : Prop :=
  0 < d /\ forall i t t', nth_error T i = Some t -> nth_error T (S i) = Some t' -> rv (tX t') = rv (tX t) + d.
Definition firstX (T : list (tsect xr)) : R := match T with t :: _ => rv (tX t) | [] => 0 end.
Definition lastX (T : list (tsect xr)) : R := match rev T with t :: _ => rv (tX t) | [] => 0 end.
(** [y] is [x] moved by at most [cap] (an absent value stays absent). *)
Definition moved (cap : R) (x y : xr) : Prop := exists e, Rabs e <= cap /\ y = (x + Fin e)%n.
Definition movedT (cap : R) (y0 : xr) (t t' : tsect xr) : Prop :=
  tX t' = tX t /\ moved cap y0 (tY0 t') /\ moved cap (tY1 t) (tY1 t') /\ moved cap (tY2 t) (tY2 t') /\
  moved cap (tY3 t) (tY3 t') /\ moved cap (tY4 t) (tY4 t') /\ moved cap (tZ0 t) (tZ0 t') /\
  moved cap (tZ1 t) (tZ1 t') /\ moved cap (tZ2 t) (tZ2 t') /\ moved cap (tZ3 t) (tZ3 t').
(** Shoreline of transect [i] after the direct supply (mor.py:152) to the transect
    [k] just left of an open outlet end with longshore transport [q]. *)
Definition supplied (P : phys xr) (d : R) (closed : bool) (k : nat) (q : R) (i : nat) (t : tsect xr) : xr :=
  if negb closed && Nat.eqb i k && Rleb q 0 then (tY0 t + Fin (q / ((rv (pClosureDepth P) + rv (tZ0 t)) * d)))%n else tY0 t.
