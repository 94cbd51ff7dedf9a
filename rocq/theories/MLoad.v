(** Model of /repo/hapuamod/loadmod.py: the computations of loadModel.

    Not here: validation of the configuration and the function as a whole (MConf.v).
    Not modelled: reading of shapefiles and csv files (their contents are arguments
    here), np.polyfit (its result [B] is an argument). *)
From Coq Require Import ZArith List Bool.
From Verif Require Import Base Num MState MGeom MOut.

Section Load.
  Context {F : Type} {NF : Num F}.
  Local Open Scope num_scope.

  (** np.arange(start, stop, step): ceil((stop-start)/step) values.  numpy computes the
      first two as start and start+step and the others as start + i*d, d their difference. *)
  Definition fceil (x : F) : Z := (- ffloor (- x)%n)%Z.
  Definition farange (start stop step : F) : list F :=
    map (fun i => match i with
                  | O => start
                  | S O => start + step
                  | _ => start + fofZ (Z.of_nat i) * (start + step - start)
                  end)
        (seq 0 (Z.to_nat (fceil ((stop - start) / step)))).

  (** loadmod.py:271-282: the derived entries of PhysicalPars.  Simplification: a zero
      divisor gives inf or NaN here; Python raises ZeroDivisionError. *)
  Definition k2coef (Kcoef RhoSed RhoSea g void : F) : F := Kcoef / ((RhoSed - RhoSea) * g * (f1 - void)).
  Definition breakerCoef (RhoSea g gamma : F) : F :=
    fofZ 8 / (RhoSea * fpow g (fofQ 15 10) * fpow gamma (fofZ 2)).
  Definition barRatSlope (th top tw spit : F) : F := (th - top) / (tw - spit).
  Definition barRatInt (th top tw spit : F) : F := top - barRatSlope th top tw spit * spit.
  Definition derive (P : phys F) : phys F :=
    mkPhys (pRhoSed P) (pRhoSea P) (pRhoRiv P) (pGravity P) (pKcoef P) (pVoidRatio P)
      (pGammaRatio P) (pWaveDataDepth P) (pClosureDepth P) (pBeachSlope P)
      (pRiverSlope P) (pGrainSize P) (pCritShields P) (pMPM_coef P) (pMPM_exp P)
      (pUpstreamLength P) (pRiverWidth P) (pRoughness P) (pGrainRoughness P)
      (pWidthDepthRatio P) (pBackshoreElev P) (pMaxOutletElev P) (pOT_coef P) (pOT_exp P)
      (pBeachTopElev P) (pSpitWidth P) (pTargetBarHeight P) (pTargetBarWidth P)
      (pMinOutletWidth P) (pOutletSedSpreadDist P) (pOutletBankEroFac P)
      (pBarrierPermeability P) (pShorelineErosionRate P)
      (k2coef (pKcoef P) (pRhoSed P) (pRhoSea P) (pGravity P) (pVoidRatio P))
      (breakerCoef (pRhoSea P) (pGravity P) (pGammaRatio P))
      (barRatSlope (pTargetBarHeight P) (pBeachTopElev P) (pTargetBarWidth P) (pSpitWidth P))
      (barRatInt (pTargetBarHeight P) (pBeachTopElev P) (pTargetBarWidth P) (pSpitWidth P)).

  (** Config section [InitialConditions] *)
  Record inicond := mkIni { iLagoonBed : F; iOutletBed : F; iOutletWidth : F; iBarrierElev : F }.

  (** loadmod.py:294-298 *)
  Definition iniRiver (P : phys F) (Dx : F) (I : inicond) : list F :=
    rev (farange (iLagoonBed I) (iLagoonBed I + pRiverSlope P * pUpstreamLength P) (pRiverSlope P * Dx)).

  (** loadmod.py:327-367: straight shoreline.  Result: transects, outlet end X
      (upstream, downstream), width and bed level of the outlet end. *)
  Definition straightX (Dx left right : F) : list F :=
    farange (fofZ (ffloor ((- left) / Dx)) * Dx) (right + Dx) Dx.
  Definition straightRow (P : phys F) (I : inicond) (beach x : F) : tsect F :=
    let y1 := - pSpitWidth P in
    let y2 := y1 - iOutletWidth I in
    if x =? f0
    then mkT x f0 y1 y2 (y2 - fofQ 1 1000) (y2 - pRiverWidth P)
             (iBarrierElev I) ((iOutletBed I + iLagoonBed I) / f2) (iBarrierElev I) (iLagoonBed I)
    else mkT x f0 fnan fnan (- beach) (- beach) (iBarrierElev I) fnan fnan (iLagoonBed I).
  Definition straightShore (P : phys F) (I : inicond) (Dx left right beach : F) : list (tsect F) * F * F * F * F :=
    (map (straightRow P I beach) (straightX Dx left right), f0, f0, iOutletWidth I, iOutletBed I).

  (** loadmod.py:436-446.  [B]: slope and intercept from np.polyfit; [inflow]: river
      location.  Result: Origin and ShoreNormDir. *)
  Definition originOf (B inflow : F * F) : F * F :=
    let x := (snd inflow + fst inflow / fst B - snd B) / (fst B + f1 / fst B) in
    (x, x * fst B + snd B).
  Definition shoreNormDir (B inflow : F * F) : F :=
    if f0 <? fst inflow * fst B + snd B then fatan2 (fst B) (- f1) else fatan2 (- fst B) f1.

  (** loadmod.py:451-456: to model coordinates, left to right *)
  Definition toModel (O : F * F) (dir : F) (l : list (F * F)) : list (F * F) :=
    map (fun p => real2mod (fst p) (snd p) O dir) l.
  Definition shoreCoords (O : F * F) (dir : F) (l : list (F * F)) : res (list (F * F)) :=
    let c := toModel O dir l in
    let! a := ix c 0 in
    let! z := last_ c in
    let c := if fst z <? fst a then rev c else c in
    let! _ := assert_ (forallb (fun b => b) (map2 (fun p q => f0 <? fst q - fst p) (removelast c) (tl c))) in
    Ok c.

  (** np.interp at one point on nodes with increasing X *)
  Fixpoint interpSeg (x : F) (l : list (F * F)) : F :=
    match l with
    | [] => fnan
    | [p] => snd p
    | p :: ((q :: _) as r) =>
      if x <? fst q then (snd q - snd p) / (fst q - fst p) * (x - fst p) + snd p
      else interpSeg x r
    end.
  Definition interpX (l : list (F * F)) (x : F) : F :=
    match l with [] => fnan | p :: _ => if x <? fst p then snd p else interpSeg x l end.

  (** loadmod.py:459-460 *)
  Definition shapeX (Dx : F) (c : list (F * F)) : res (list F) :=
    let! a := ix c 0 in
    let! z := last_ c in
    Ok (farange (fofZ (fceil (fst a / Dx)) * Dx) (fst z) Dx).

  (** loadmod.py:478-484: smallest and largest X of a polyline *)
  Definition xMin (l : list (F * F)) : res F :=
    match l with [] => Exc EValue | p :: r => Ok (fold_left fminimum (map fst r) (fst p)) end.
  Definition xMax (l : list (F * F)) : res F := fmaxl (map fst l).

  (** loadmod.py:491-511: one transect.  ShoreY[ii,3] is never NaN here, so the
      isnan test of line 507 is dropped. *)
  Definition shapeRow (I : inicond) (shore lagoon cliff outlet : list (F * F))
             (lmin lmax omin omax x : F) : res (tsect F) :=
    let y0 := interpX shore x in
    let! cl := intersectPolyline cliff x in
    let! y4 := fmaxl cl in
    let! y3 := (if (lmin <? x) && (x <? lmax)
                then let! ys := intersectPolyline lagoon x in fmaxl ys
                else Ok y4) in
    let! (y1, y2) :=
      (if (omin <? x) && (x <? omax) then
         let! ys := intersectPolyline outlet x in
         match ys with
         | [y] =>
           let hw := iOutletWidth I / f2 in
           if (y3 <? y - hw) && (y + hw <? y0) then Ok (y + hw, y - hw) else Ok (fnan, fnan)
         | _ => Exc EAssert
         end
       else Ok (fnan, fnan)) in
    Ok (mkT x y0 y1 y2 y3 y4 (iBarrierElev I) fnan fnan (iLagoonBed I)).

  (** loadmod.py:514-544: outlet end X and, for an outlet that meets no transect, the
      channel inserted at the transect derived from the polyline.  [mean]: np.mean. *)
  Definition fmean (l : list F) : F := fsum l / fofZ (Z.of_nat (length l)).
  Definition straightEnd (Dx : F) (toR : bool) (outlet : list (F * F)) : F * F :=
    let k := fofZ (ffloor (fmean (map snd outlet) / Dx)) in
    if toR then (Dx * k, Dx * k + Dx / f2) else (Dx * (k + f1), Dx * (k + f1) - Dx / f2).
  Definition hasOutlet (t : tsect F) : bool := negb (fisnan (tY1 t)).
  Definition insertStraight (P : phys F) (I : inicond) (t : tsect F) : tsect F :=
    let y1 := pymin (tY0 t - pSpitWidth P) ((tY0 t + tY3 t) / f2 + iOutletWidth I / f2) in
    let y2 := y1 - iOutletWidth I in
    setY3 (pymin (y2 + fofQ 1 1000) (tY3 t)) (setY2 y2 (setY1 y1 t)).
  Definition outletSetup (P : phys F) (I : inicond) (Dx : F) (toR : bool) (outlet : list (F * F))
             (T : list (tsect F)) : res (list (tsect F) * F * F) :=
    let xs := map tX (filter hasOutlet T) in
    match xs with
    | [] =>
      let (e0, e1) := straightEnd Dx toR outlet in
      let! _ := assert_ (Nat.eqb (length (filter (fun t => tX t =? e0) T)) 1) in
      Ok (map (fun t => if tX t =? e0 then insertStraight P I t else t) T, e0, e1)
    | x :: r =>
      let lo := fold_left fminimum r x in
      let hi := fold_left fmaximum r x in
      if toR then Ok (T, lo, hi + Dx / f2) else Ok (T, hi, lo - Dx / f2)
    end.

  (** loadmod.py:550-561: bed of the channel transects and inner crest.  np.linspace(a, b, n+1)
      is a + k*((b-a)/n). *)
  Definition bedLevel (I : inicond) (n : nat) (k : nat) : F :=
    iLagoonBed I + fofZ (Z.of_nat k) * ((iOutletBed I - iLagoonBed I) / fofZ (Z.of_nat n)).
  Fixpoint setBeds (bed : nat -> F) (crest : F) (k : nat) (T : list (tsect F)) : list (tsect F) :=
    match T with
    | [] => []
    | t :: r => if hasOutlet t then setZ2 crest (setZ1 (bed k) t) :: setBeds bed crest (S k) r
                else t :: setBeds bed crest k r
    end.
  Definition outletBeds (I : inicond) (toR : bool) (T : list (tsect F)) : list (tsect F) :=
    let n := length (filter hasOutlet T) in
    setBeds (fun k => bedLevel I n (if toR then k else (n - 1 - k)%nat)) (iBarrierElev I) 0 T.

  (** loadmod.py:433-561 from the coordinates of the shapefiles.  Result: transects,
      outlet end X (2), width and bed level of the outlet end, Origin, ShoreNormDir. *)
  Definition shapeShore (P : phys F) (I : inicond) (Dx : F) (B inflow : F * F)
             (shore lagoon cliff outlet : list (F * F))
    : res (list (tsect F) * F * F * F * F * (F * F) * F) :=
    let O := originOf B inflow in
    let dir := shoreNormDir B inflow in
    let! c := shoreCoords O dir shore in
    let! xs := shapeX Dx c in
    let lag := toModel O dir lagoon in
    let clf := toModel O dir cliff in
    let outl := toModel O dir outlet in
    let! lmin := xMin lag in
    let! lmax := xMax lag in
    let! xf := ix xs 0 in
    let! xl := last_ xs in
    let! _ := assert_ ((lmax <? xl) && (xf <? lmin)) in
    let! omin := xMin outl in
    let! omax := xMax outl in
    let! o0 := ix outl 0 in
    let! oz := last_ outl in
    let flip := snd oz <? snd o0 in
    let outl' := if flip then rev outl else outl in
    let toR := if flip then fst oz <? fst o0 else fst o0 <? fst oz in
    let! T := all_ok (map (shapeRow I c lag clf outl' lmin lmax omin omax) xs) in
    let! (T, e0, e1) := outletSetup P I Dx toR outl' T in
    Ok (outletBeds I toR T, e0, e1, iOutletWidth I, iOutletBed I, O, dir).

  (** loadmod.py:565-569: depths from stored water levels of a hotstart file *)
  Definition hotDep (wl : list F) (T : list (tsect F)) : list F := map2 (fun w t => w - tZ1 t) wl T.

  (** out.py:447 ff. called with the index array of closestTimeIx: rows of shape
      (number of indices, transects) fit only if there is one index (ValueError). *)
  Definition hotRead (f : ncfile F) (idx : list nat) : res (rstep F) :=
    match idx with [k] => readTimestep f k | _ => Exc EValue end.
  (** loadmod.py:324; the positions are float32, and so is their difference *)
  Definition hotCheckDx (r32 : F -> F) (Dx : F) (T : list (tsect F)) : res unit :=
    let! b := ix T 1 in
    let! a := ix T 0 in
    assert_ (r32 (tX b - tX a) =? Dx).
  (** What a hot started model begins with (loadmod.py:701-706). *)
  Record hot := mkHot {
    htT : list (tsect F); htE0 : F; htE1 : F; htW : F; htZ : F; htRiver : list F; htRWL : list F; htRVel : list F;
    htLWL : list F; htLVel : list F; htODep : list F; htOVel : list F; htEDep : list F; htEVel : list F;
    htClosed : bool; htStart : Z
  }.
  (** loadmod.py:301-324, 564-569, 641-646: state taken from the record closest to
      [want]; ContinueSimulation: the start time becomes the time of that record. *)
  Definition hotLoad (r32 : F -> F) (f : ncfile F) (want start : Z) (continue : bool) (Dx : F) : res hot :=
    let! (idx, t) := closestTimeIx (ncTimes f) want in
    let! r := hotRead f idx in
    let! _ := hotCheckDx r32 Dx (rdT r) in
    Ok (mkHot (rdT r) (rdE0 r) (rdE1 r) (rdW r) (rdZend r) (rdRiv r) (rdRWL r) (rdRVel r)
              (rdLWL r) (rdLVel r) (hotDep (rdOWL r) (rdT r)) (rdOVel r)
              [rdEWL r - rdZend r; rdDDep r] [rdEVel r; rdDVel r] (rdClosed r)
              (if continue then t else start)).

  (** loadmod.py:618-621 *)
  Definition deg2rad (d : F) : F := d * (fpi / fofZ 180).
  Definition waveDir (shoreNorm deg : F) : F :=
    fmod (deg2rad deg - shoreNorm + fpi) (f2 * fpi) - fpi.

  (** loadmod.py:649-674: trimming of one boundary series, a list of records with a
      time.  KeepTimes[1:] is assigned after KeepTimes[:-1], so entry 0 uses the start
      criterion and all others use the end criterion. *)
  Definition keepMask (start stop dtMax : Z) (times : list Z) : list bool :=
    mapi (fun i _ =>
      match i with
      | O => match nth_error times 1 with Some t => (start <? t)%Z | None => false end
      | S j => match nth_error times j with Some t => (t <? stop + dtMax)%Z | None => false end
      end) times.
  Definition trimSeries {A} (start stop dtMax : Z) (s : list (Z * A)) : res (list (Z * A)) :=
    let! a := ix s 0 in
    let! z := last_ s in
    let! _ := assert_ ((fst a <=? start)%Z && (stop <=? fst z)%Z) in
    Ok (filter2 (keepMask start stop dtMax (map fst s)) s).
End Load.
Arguments inicond : clear implicits. Arguments hot : clear implicits.
