(** Model of /repo/hapuamod/mor.py (updateMorphology).

    The 680-line function is split into one definition per commented block of
    the source; [updateMorphology] at the end composes them in source order.
    One-element numpy arrays (OutletEndWidth, OutletEndElev, the end rates) are
    scalars here.  Logging is not modelled. *)
From Coq Require Import ZArith List Bool.
From Verif Require Import Base Num MState MCoast MRiv.
Section Mor.
  Context {F : Type} {NF : Num F}.
  Local Open Scope num_scope.

  (** * Quantities taken before anything changes (mor.py:26-68) *)

  (** mor.py:36 *)
  Definition shorefaceHeight (P : phys F) (t : tsect F) : F := pClosureDepth P + tZ0 t.
  (** mor.py:47 *)
  Definition lagoonPresent (t : tsect F) : bool := tY4 t <? tY3 t.
  (** mor.py:50, 612 *)
  Definition lagoonOpen (P : phys F) (t : tsect F) : bool := pMinOutletWidth P <? lagoonWidth t.
  (** mor.py:61-62 *)
  Definition crestWidth (t : tsect F) : F :=
    if outletPresent t then tY0 t - tY1 t else tY0 t - tY3 t.
  (** mor.py:66-67 *)
  Definition backBarHeight (t : tsect F) : F :=
    if outletPresent t then tZ0 t - tZ1 t else tZ0 t - tZ3 t.

  (** mor.py:54-58; [OutletDep] and [LagoonWL] have one entry per transect. *)
  Definition waterLevel (T : list (tsect F)) (LagoonWL OutletDep : list F) (outlet : list nat)
             (Closed : bool) : res (list F) :=
    if negb (Nat.eqb (length LagoonWL) (length T)) then Exc EIndex else
    let wl := map2 (fun t w => if lagoonPresent t then w else fofQ (-99999) 10) T LagoonWL in
    let! wl :=
      (if Closed then Ok wl
       else
         let! d := gather OutletDep outlet in
         let! ts := gather T outlet in
         let v := map2 (fun a t => a + tZ1 t) d ts in
         Ok (mapi (fun i w => match scat outlet v i with Some x => x | None => w end) wl)) in
    let! _ := assert_ (negb (existsb fisnan wl)) in
    Ok wl.

  (** * Rates of change (mor.py:70-172) *)

  (** mor.py:92-95 for one cross-section: deposition, bed erosion, bank erosion
      and total erosion (volume rates). *)
  Record xsrate := mkXs { xDep : F; xBed : F; xBank : F; xEro : F }.
  Definition xsRate (P : phys F) (dvol width dep : F) : xsrate :=
    let tooWide := pWidthDepthRatio P <? width / dep in
    let ero := - fminimum dvol f0 in
    mkXs (fmaximum dvol f0) (ero * fofb tooWide) (ero * fofb (negb tooWide)) ero.

  (** mor.py:76-89: volume change rate of every cross-section except the upstream
      one (and, when open, the dummy one in the sea). *)
  Definition dVolRate (Closed : bool) (Bedload : list F) : list F :=
    if Closed then map2 fsub Bedload (tl Bedload ++ [f0])
    else map2 fsub (removelast Bedload) (tl Bedload).
  Definition midOf {A} (Closed : bool) (l : list A) : list A :=
    if Closed then tl l else removelast (tl l).

  Fixpoint zipXs (P : phys F) (dv w d : list F) (fl : list nat) : list (nat * xsrate) :=
    match dv, w, d, fl with
    | a :: dv', b :: w', c :: d', k :: fl' => (k, xsRate P a b c) :: zipXs P dv' w' d' fl'
    | _, _, _, _ => []
    end.
  (** mor.py:76-95.  Simplification: the four arrays have matching lengths
      (core.py:156 asserts it); the model truncates to the shortest. *)
  Definition channelXs (P : phys F) (Closed : bool) (Bedload ChanWidth ChanDep : list F)
             (ChanFlag : list nat) : list (nat * xsrate) :=
    zipXs P (dVolRate Closed Bedload) (midOf Closed ChanWidth) (midOf Closed ChanDep) (midOf Closed ChanFlag).
  (** rate[flag == k] *)
  Definition xsSel (k : nat) (l : list (nat * xsrate)) : list xsrate :=
    map snd (filter (fun p => Nat.eqb (fst p) k) l).

  (** Rates of one transect: row of ShoreYChangeRate and ShoreZChangeRate. *)
  Record trate := mkR { rY0 : F; rY1 : F; rY2 : F; rY3 : F; rY4 : F; rZ0 : F; rZ1 : F; rZ2 : F; rZ3 : F }.

  (** mor.py:97-98 *)
  Definition lagoonBankElev (t : tsect F) : F := if outletPresent t then tZ2 t else tZ0 t.

  (** mor.py:131-132: river sediment arriving at a transect *)
  Definition bedloadToShore (P : phys F) (Dx qEnd e1 : F) (t : tsect F) : F :=
    (Dx * qEnd / pOutletSedSpreadDist P) *
    fmaximum (f1 - fabs (tX t - e1) / pOutletSedSpreadDist P) f0.

  (** mor.py:70-74, 131-137, 142-145, 169-172: rate of the shoreline (column 0).
      [lst]: Some (LST[i-1], LST[i]) at an interior transect; [withhold]: Some q at
      the transect right of the outlet when LST there is positive; [spread]: Some
      bedload when open. *)
  Definition rateY0 (P : phys F) (Dx e1 : F) (spread : option F) (lst : option (F * F))
             (withhold : option F) (cst : F) (t : tsect F) : F :=
    match lst with
    | None => (- pShorelineErosionRate P) / (fofQ 36525 100 * fofZ 86400)
    | Some (qa, qb) =>
      let r := f0 in
      let r := match spread with
               | Some q => r + bedloadToShore P Dx q e1 t / (shorefaceHeight P t * Dx)
               | None => r
               end in
      let r := r + (qa - qb) / (shorefaceHeight P t * Dx) in
      let r := match withhold with
               | Some q => r - q / (shorefaceHeight P t * Dx)
               | None => r
               end in
      r - cst / shorefaceHeight P t
    end.

  (** mor.py:103-119 and 161-166: the other columns of one transect.  [lag], [out]:
      the budget of the lagoon/outlet cross-section at this transect, if it is online. *)
  Definition rateOf (P : phys F) (Dx : F) (lag out : option xsrate) (y0 cst : F) (ow : bool)
             (t : tsect F) : trate :=
    let y1 := match out with
              | Some x => f0 + (xBank x / f2) / ((tZ0 t - tZ1 t) * Dx) | None => f0 end in
    let y2 := match out with
              | Some x => f0 - (xBank x / f2) / ((tZ2 t - tZ1 t) * Dx) | None => f0 end in
    let y3 := match lag with
              | Some x => f0 + (xBank x / f2) / ((lagoonBankElev t - tZ3 t) * Dx) | None => f0 end in
    let y4 := match lag with
              | Some x => f0 - (xBank x / f2) / ((pBackshoreElev P - tZ3 t) * Dx) | None => f0 end in
    let z1 := match out with
              | Some x => f0 + (xDep x - xBed x) / ((tY1 t - tY2 t) * Dx) | None => f0 end in
    let z3 := match lag with
              | Some x => f0 + (xDep x - xBed x) / (lagoonWidth t * Dx) | None => f0 end in
    let z0 := f0 + (f1 - fofb ow) * cst / crestWidth t in
    let over := fofb ow * cst / backBarHeight t in
    let y3 := if outletPresent t then y3 else y3 - over in
    let y1 := if outletPresent t then y1 - over else y1 in
    mkR y0 y1 y2 y3 y4 z0 z1 f0 z3.

  Record rates := mkRates { rRiv : list F; rT : list trate; rWiden : F; rAgg : F; rMove : F }.

  (** Position of Rb-1 in an array of [n] entries (mor.py:142-154): index -1 wraps. *)
  Definition prevIx (n rb : nat) : nat := match rb with O => n - 1 | S k => k end.

  (** mor.py:33: first transect to the right of the outlet end *)
  Definition outletRb (T : list (tsect F)) (e1 : F) : res nat :=
    of_opt EIndex (first_where (fun t => e1 <? tX t) T).

  (** mor.py:108, 122-128, 146-157: rates of the outlet end (open outlet).
      [q]: LST[OutletRbShoreIx-1]. *)
  Definition endRates (P : phys F) (Dx e0 e1 W Zend q : F) (x : xsrate) : F * F * F :=
    let agg := (xDep x - xBed x) / (W * Dx) in
    let area := (pBeachTopElev P - Zend) * pSpitWidth P in
    let widen := f0 + xBank x / area in
    let move := if e0 <? e1 then f0 + (widen / f2) * pOutletBankEroFac P
                else if e1 <? e0 then f0 - (widen / f2) * pOutletBankEroFac P
                else f0 in
    if f0 <? q then
      let red := q / area in (widen - red, agg, move + red / f2)
    else
      let red := (- q) / area in (widen - red, agg, move - red / f2).

  (** mor.py:70-172 together; [rbq]: None when closed, Some (Rb, LST[Rb-1]) when open. *)
  Definition changeRates (P : phys F) (Dx : F) (T : list (tsect F)) (e0 e1 W Zend : F)
             (online outlet : list nat) (ChanWidth ChanDep : list F) (ChanFlag : list nat)
             (rbq : option (nat * F)) (LST Bedload CST : list F) (OW : list bool) : res rates :=
    let n := length T in
    let closed := match rbq with None => true | _ => false end in
    let xs := channelXs P closed Bedload ChanWidth ChanDep ChanFlag in
    let riv := map (fun x => (xDep x - xEro x) / (pRiverWidth P * Dx)) (xsSel 0 xs) in
    let lag := xsSel 1 xs in
    let out := if closed then [] else xsSel 2 xs in
    let outIx := if closed then [] else outlet in
    if negb (Nat.eqb (length lag) (length online) && Nat.eqb (length out) (length outIx)
             && Nat.eqb (S (length LST)) n && Nat.eqb (length CST) n && Nat.eqb (length OW) n)
    then Exc EValue
    else
    let! _ := gather T online in
    let! _ := gather T outIx in
    let! spread := (if closed then Ok None else let! q := last_ Bedload in Ok (Some q)) in
    let! (widen, agg, move) :=
      (match rbq with
       | None => Ok (f0, f0, f0)
       | Some (rb, q) =>
         match xsSel 3 xs with
         | [x] => Ok (endRates P Dx e0 e1 W Zend q x)
         | _ => Exc EValue
         end
       end) in
    let row i t :=
      let lst := match i with
                 | O => None
                 | S k => match nth_error LST k, nth_error LST i with
                          | Some a, Some b => Some (a, b)
                          | _, _ => None
                          end
                 end in
      let withhold := match rbq with
                      | Some (rb, q) => if Nat.eqb i rb && (f0 <? q) then Some q else None
                      | None => None
                      end in
      let cst := nth i CST f0 in
      rateOf P Dx (scat online lag i) (scat outIx out i)
             (rateY0 P Dx e1 spread lst withhold cst t) cst (nth i OW false) t in
    Ok (mkRates riv (mapi row T) widen agg move).

  (** * Adaptive time step (mor.py:174-204) *)

  Definition rowMax (r : trate) : list F :=
    map fabs [rY0 r; rY1 r; rY2 r; rY3 r; rY4 r].
  Definition rowMaxZ (r : trate) : list F :=
    map fabs [rZ0 r; rZ1 r; rZ2 r; rZ3 r].

  (** mor.py:176-181.  np.max propagates NaN, Python's max does not. *)
  Definition maxRate (R : rates) : res F :=
    let! a := fmaxl (map fabs (rRiv R)) in
    let! b := fmaxl (concat (map rowMax (rT R))) in
    let! c := fmaxl (concat (map rowMaxZ (rT R))) in
    Ok (fold_left pymax [b; c; fabs (rWiden R); fabs (rAgg R); fabs (rMove R)] a).

  (** mor.py:183-185.  Durations are integer nanoseconds; [/= 2] truncates. *)
  Fixpoint adaptDown (fuel : nat) (N : nump F) (dtMin : Z) (rate : F) (dt : Z) : res Z :=
    if (seconds dtMin <? seconds dt)%Z && (nMaxMorChange N <? rate * fofZ (seconds dt)) then
      match fuel with
      | O => Exc EFuel
      | S f => adaptDown f N dtMin rate (dt / 2)%Z
      end
    else Ok dt.
  (** mor.py:187-189 *)
  Fixpoint adaptUp (fuel : nat) (N : nump F) (dtMax : Z) (rate : F) (dt : Z) : res Z :=
    if (seconds dt <? seconds dtMax)%Z && (rate * fofZ (seconds dt) <? nMaxMorChange N / f2) then
      match fuel with
      | O => Exc EFuel
      | S f => adaptUp f N dtMax rate (dt * 2)%Z
      end
    else Ok dt.
  Definition adaptStep (fuel : nat) (N : nump F) (TP : timep) (rate : F) (dt : Z) : res Z :=
    let! dt := adaptDown fuel N (tMorDtMin TP) rate dt in
    adaptUp fuel N (tMorDtMax TP) rate dt.

  (** mor.py:199-204 *)
  Definition clipF (lim x : F) : F := fminimum (fmaximum x (- lim)) lim.
  Definition clipPy (lim x : F) : F := pymin (pymax x (- lim)) lim.
  Definition clipRow (lim : F) (r : trate) : trate :=
    mkR (clipF lim (rY0 r)) (clipF lim (rY1 r)) (clipF lim (rY2 r)) (clipF lim (rY3 r)) (clipF lim (rY4 r))
        (clipF lim (rZ0 r)) (clipF lim (rZ1 r)) (clipF lim (rZ2 r)) (clipF lim (rZ3 r)).
  Definition clipRates (lim : F) (R : rates) : rates :=
    mkRates (map (clipF lim) (rRiv R)) (map (clipRow lim) (rT R)) (clipF lim (rWiden R))
            (clipPy lim (rAgg R)) (clipPy lim (rMove R)).
  (** mor.py:194-204; MaxMorChange is a Python float, so a zero divisor raises. *)
  Definition limitRates (N : nump F) (TP : timep) (rate : F) (dt : Z) (R : rates) : res rates :=
    if nMaxMorChange N <? rate * fofZ (seconds dt) then
      let! _ := assert_ (seconds dt <=? seconds (tMorDtMin TP))%Z in
      if (seconds dt =? 0)%Z then Exc EZeroDiv
      else Ok (clipRates (nMaxMorChange N / fofZ (seconds dt)) R)
    else Ok R.

  (** * Applying the rates (mor.py:209-215) *)
  Definition applyRow (s : F) (t : tsect F) (r : trate) : tsect F :=
    mkT (tX t) (tY0 t + rY0 r * s) (tY1 t + rY1 r * s) (tY2 t + rY2 r * s) (tY3 t + rY3 r * s)
        (tY4 t + rY4 r * s) (tZ0 t + rZ0 r * s) (tZ1 t + rZ1 r * s) (tZ2 t + rZ2 r * s) (tZ3 t + rZ3 r * s).
  Definition applyRiver (s : F) (RiverElev riv : list F) : res (list F) :=
    match RiverElev with
    | [] => if Nat.eqb (length riv) 0 then Ok [] else Exc EValue
    | z :: zs => if Nat.eqb (length riv) (length zs)
                 then Ok (z :: map2 (fun a r => a + r * s) zs riv) else Exc EValue
    end.

  (** * Corrections after the update *)

  (** 1. mor.py:218-223.  Past the right limit the code assigns ShoreX[1]. *)
  Definition domainCheck (T : list (tsect F)) (e1 : F) : res F :=
    let! t1 := ix T 1 in
    let e1 := if e1 <? tX t1 then tX t1 else e1 in
    let! tn := pynth T (-2) in
    Ok (if tX tn <? e1 then tX t1 else e1).

  (** 2. mor.py:226-235; [h]: ShorefaceHeight from before the update. *)
  Definition cliffCollision (P : phys F) (h : F) (t : tsect F) : tsect F :=
    if tY0 t <=? tY4 t then
      let over := (tY4 t - tY0 t) + fofQ 1 1000 in
      let ret := over / (f1 + ((pBackshoreElev P - tZ0 t) / h)) in
      let y4 := tY4 t - ret in
      setY0 (tY0 t + (over - ret)) (setY3 y4 (setY4 y4 t))
    else t.

  (** 3. mor.py:238-281 for one transect: [present] is OutletPresent, [back] and
      [crest] are BackBarHeight and CrestWidth from before the update.  The
      boolean tells whether the section was levelled. *)
  Definition negWidth (present : bool) (back crest : F) (t : tsect F) : res (tsect F * bool) :=
    if present && (tY1 t <? tY2 t) then
      let w := tY2 t - tY1 t in
      let vol := w * back in
      let! _ := assert_ (f0 <? vol) in
      let d := tZ2 t - tZ0 t in
      let front := f0 <=? d in
      let rear := d <? f0 in
      let lvl := if front then d * crest else if rear then d * (- (tY2 t - tY3 t)) else d in
      let! _ := assert_ (f0 <=? lvl) in
      let y1 := tY1 t + w in
      if lvl <? vol then
        Ok (mkT (tX t) (tY0 t) fnan fnan (tY3 t) (tY4 t)
                (fmaximum (tZ0 t) (tZ2 t) + (vol - lvl) / (tY0 t - tY3 t)) fnan fnan (tZ3 t), true)
      else if front then Ok (setZ0 (tZ0 t + vol / crest) (setY1 y1 t), false)
      else if rear then Ok (setZ2 (tZ2 t + vol / (tY2 t - tY3 t)) (setY1 y1 t), false)
      else Ok (setY1 y1 t, false)
    else Ok (t, false).

  Fixpoint negWidths (pres : list bool) (T0 T : list (tsect F)) : res (list (tsect F * bool)) :=
    match pres, T0, T with
    | p :: ps, t0 :: T0', t :: T' =>
      let! r := negWidth p (backBarHeight t0) (crestWidth t0) t in
      let! rs := negWidths ps T0' T' in
      Ok (r :: rs)
    | _, _, _ => Ok []
    end.

  (** [T0]: the transects before the update.  Result: transects and OutletPresent. *)
  Definition negWidthStep (pres : list bool) (T0 T : list (tsect F)) : res (list (tsect F) * list bool) :=
    let! r := negWidths pres T0 T in
    let T := map fst r in
    Ok (T, if existsb snd r then map outletPresent T else pres).

  (** 4. mor.py:284-323 *)
  Definition extendT (P : phys F) (W Zend : F) (t : tsect F) : tsect F :=
    let y1 := tY0 t - pSpitWidth P in
    mkT (tX t) (tY0 t) y1 (y1 - W) (tY3 t) (tY4 t) (pBeachTopElev P) Zend (tZ0 t) (tZ3 t).
  Definition extendStep (P : phys F) (T : list (tsect F)) (e0 e1 W Zend : F) (outlet : list nat)
    : res (list (tsect F) * list nat) :=
    let! il := last_ outlet in
    let! tl_ := ix T il in
    let apply (mask : tsect F -> bool) :=
      if existsb mask T
      then let T' := map (fun t => if mask t then extendT P W Zend t else t) T in
           Ok (T', outletIx T' e0 e1)
      else Exc EIndex in
    if e0 <? e1 then
      let! nx := ix T (S il) in
      if tX nx <=? e1 then apply (fun t => (tX tl_ <? tX t) && (tX t <=? e1)) else Ok (T, outlet)
    else
      let! nx := pynth T (Z.of_nat il - 1) in
      if e1 <=? tX nx then apply (fun t => (tX t <? tX tl_) && (e1 <=? tX t)) else Ok (T, outlet).

  (** 5. mor.py:333-341 *)
  Definition seawardFirst (t : tsect F) : tsect F :=
    if tY0 t <=? tY1 t then
      let shift := fofQ 1 1000 + (tY1 t - tY0 t) in
      setY2 (tY2 t - shift * (tZ0 t - tZ1 t) / (tZ2 t - tZ1 t)) (setY1 (tY1 t - shift) t)
    else t.
  Definition seawardFirstStep (T : list (tsect F)) (outlet : list nat) : res (list (tsect F)) :=
    let! i := ix outlet 0 in
    let! t := ix T i in
    Ok (upd T i (seawardFirst t)).

  (** 6. mor.py:349-403.  Result: transects, OutletPresent, OutletEndX[0], OutletChanIx. *)
  Definition convertT (t : tsect F) : tsect F :=
    mkT (tX t) (tY0 t) fnan fnan (tY1 t) (tY4 t) (tZ0 t) fnan fnan (tZ1 t).
  Definition merged (t : tsect F) : bool := tY2 t <=? tY3 t.
  Definition lagoonTrunc (T : list (tsect F)) (pres : list bool) (e0 e1 : F) (outlet : list nat)
    : res (list (tsect F) * list bool * F * list nat) :=
    if Nat.ltb 1 (length outlet) then
      let! ts := gather T (removelast outlet) in
      match filter2 (map merged ts) (removelast outlet) with
      | [] => Ok (T, pres, e0, outlet)
      | k :: _ =>
        let! nx := (if e0 <? e1 then ix T (S k) else pynth T (Z.of_nat k - 1)) in
        let e0 := tX nx in
        let outlet := outletIx T e0 e1 in
        let! _ := assert_ (negb (Nat.eqb (length outlet) 0)) in
        let! tk := ix T k in
        if tY2 tk <=? tY4 tk then
          let! ext := (if f0 <? tX tk
                       then let! c := of_opt EIndex (last_where lagoonPresent T) in Ok (arange (S c) (S k))
                       else let! c := of_opt EIndex (first_where lagoonPresent T) in Ok (arange k c)) in
          Ok (mapi (fun i t => if memb i ext then convertT t else t) T,
              mapi (fun i b => if memb i ext then false else b) pres, e0, outlet)
        else Ok (T, pres, e0, outlet)
      end
    else Ok (T, pres, e0, outlet).

  (** 7. mor.py:406-420.  Result: OutletEndX[1], OutletChanIx. *)
  Definition atSea (t : tsect F) : bool := tY0 t <=? tY1 t.
  Definition seaTrunc (Dx : F) (T : list (tsect F)) (e0 e1 : F) (outlet : list nat)
    : res (F * list nat) :=
    if Nat.ltb 1 (length outlet) then
      let! ts := gather T outlet in
      if existsb atSea (tl ts) then
        let tr := filter2 (map atSea ts) outlet in
        if e0 <? e1 then
          let! k := ix tr 0 in
          let! t := ix T k in
          let e1 := tX t - Dx / f2 in
          Ok (e1, ixLR T e0 e1)
        else
          let! k := last_ tr in
          let! t := ix T k in
          let e1 := tX t + Dx / f2 in
          Ok (e1, ixRL T e0 e1)
      else Ok (e1, outlet)
    else Ok (e1, outlet).

  (** 8. mor.py:425-441 *)
  Definition lagoonLast (P : phys F) (t : tsect F) : tsect F :=
    if tY2 t <=? tY3 t then
      let t := setY3 (tY2 t - fofQ 1 10000) t in
      if tY3 t <? tY4 t then
        let over := tY4 t - tY3 t in
        let ret := over / (f1 + ((pBackshoreElev P - tZ2 t) / (tZ2 t - tZ1 t))) in
        setY3 (tY3 t + (over - ret)) (setY2 (tY2 t + (over - ret)) (setY4 (tY4 t - ret) t))
      else t
    else t.
  Definition lagoonLastStep (P : phys F) (T : list (tsect F)) (outlet : list nat) : res (list (tsect F)) :=
    let! i := last_ outlet in
    let! t := ix T i in
    Ok (upd T i (lagoonLast P t)).

  (** mor.py:449-461.  [junk i]: what the uninitialised output array of np.greater
      holds at transect [i] (read only where there is no channel). *)
  Definition lagoonIntersect (junk : nat -> bool) (i : nat) (t : tsect F) : bool :=
    negb (if negb (fisnan (tY1 t)) then tY3 t <? tY2 t else junk i).
  Definition dissolve (t : tsect F) : tsect F :=
    mkT (tX t) (tY0 t) fnan fnan (tY3 t + (tY1 t - tY2 t)) (tY4 t) (tZ0 t) fnan (tZ2 t)
        (((tY1 t - tY2 t) * tZ1 t + (tY3 t - tY4 t) * tZ3 t) / (tY1 t - tY4 t)).
  Definition dissolveStep (junk : nat -> bool) (T : list (tsect F)) : list (tsect F) :=
    mapi (fun i t => if lagoonIntersect junk i t then dissolve t else t) T.

  (** mor.py:467-505: connected channel *)

  (** np.argmin / np.argmax: first NaN if any, else first extremum. *)
  Fixpoint argBest (better : F -> F -> bool) (k : nat) (best : nat) (v : F) (l : list F) : nat :=
    match l with
    | [] => best
    | x :: r => if fisnan v then best
                else if fisnan x || better x v then argBest better (S k) k x r
                else argBest better (S k) best v r
    end.
  Definition argmin (l : list F) : res nat :=
    match l with [] => Exc EValue | x :: r => Ok (argBest (fun a b => a <? b) 1 0 x r) end.
  Definition argmax (l : list F) : res nat :=
    match l with [] => Exc EValue | x :: r => Ok (argBest (fun a b => b <? a) 1 0 x r) end.

  (** mor.py:467-468 *)
  Definition wideEnough (P : phys F) (present : bool) (t : tsect F) : bool :=
    present && (pMinOutletWidth P <=? tY1 t - tY2 t).

  (** mor.py:494-496.  Python indices: below 0 they count from the end. *)
  Fixpoint searchLeft (fuel : nat) (wide : list bool) (WL : list F) (lo : Z) : res (Z * list F) :=
    let! w := pynth wide (lo - 1) in
    if (w : bool) then
      match fuel with
      | O => Exc EFuel
      | S f =>
        let! v := pynth WL lo in
        let! i := of_opt EIndex (pyix (length WL) (lo - 1)) in
        searchLeft f wide (upd WL i v) (lo - 1)
      end
    else Ok (lo, WL).
  (** mor.py:499-501 *)
  Fixpoint searchRight (fuel : nat) (wide : list bool) (WL : list F) (hi : Z) : res (Z * list F) :=
    let! w := pynth wide (hi + 1) in
    if (w : bool) then
      match fuel with
      | O => Exc EFuel
      | S f =>
        let! v := pynth WL hi in
        let! i := of_opt EIndex (pyix (length WL) (hi + 1)) in
        searchRight f wide (upd WL i v) (hi + 1)
      end
    else Ok (hi, WL).

  Definition slice {A} (l : list A) (a b : nat) : list A := firstn (b - a) (skipn a l).

  (** mor.py:467-505.  [lagOpen]: LagoonOpen from before the update.
      Result: ConnectedChan bounds (None: NaN), WaterLevel, OutletEndX[0]. *)
  Definition connect (P : phys F) (T : list (tsect F)) (pres : list bool) (lagOpen : list bool) (x0 : nat)
             (e0 : F) (Closed : bool) (outlet : list nat) (WL : list F)
    : res (option (Z * Z) * list F * F) :=
    let wide := map2 (wideEnough P) pres T in
    let! us := argmin (map (fun t => fabs (tX t - e0)) T) in
    let! (cc, e0) :=
      (if negb Closed then
         match outlet with
         | [] => Exc EValue
         | o :: os => Ok (Some (Z.of_nat (fold_left Nat.min os o), Z.of_nat (fold_left Nat.max os o)), e0)
         end
       else if negb (fisnan e0) then
         let! w := ix wide us in
         if negb (w : bool) then Ok (None, fnan)
         else if negb (forallb (fun b => b) (slice lagOpen (Nat.min us x0) (S (Nat.max us x0)))) then Ok (None, fnan)
         else Ok (Some (Z.of_nat us, Z.of_nat us), e0)
       else Ok (None, e0)) in
    match cc with
    | None =>
      let! _ := assert_ (negb (existsb fisnan WL)) in
      Ok (None, WL, e0)
    | Some (lo, hi) =>
      let n := length T in
      let! (lo, WL) := searchLeft (2 * n) wide WL lo in
      let! (hi, WL) := searchRight (2 * n) wide WL hi in
      let! _ := assert_ (negb (existsb fisnan WL)) in
      Ok (Some (lo, hi), WL, e0)
    end.
  (** mor.py:503-504 *)
  Definition connected (cc : option (Z * Z)) (i : nat) : bool :=
    match cc with
    | Some (lo, hi) => (lo <=? Z.of_nat i)%Z && (Z.of_nat i <=? hi)%Z
    | None => false
    end.

  (** mor.py:516-545: erosion from the sea into a relic channel *)
  Definition shoreIntersect (junk : nat -> bool) (i : nat) (t : tsect F) : bool :=
    negb (if negb (fisnan (tY1 t)) then tY1 t <? tY0 t else junk i).
  Definition fillT (P : phys F) (t : tsect F) : tsect F :=
    mkT (tX t)
        (tY0 t - (tY1 t - tY2 t) * (tZ2 t - tZ1 t) / (tZ2 t + pClosureDepth P))
        fnan fnan (tY3 t) (tY4 t) (tZ2 t) fnan fnan (tZ3 t).
  Definition b2z (b : bool) : Z := if b then 1%Z else 0%Z.
  (** Result: transects, OutletPresent, BreachIx (None: no breach, NaN). *)
  Definition shoreFill (P : phys F) (junk : nat -> bool) (T : list (tsect F)) (pres : list bool)
             (e0 : F) (Closed : bool) (cc : option (Z * Z))
    : res (list (tsect F) * list bool * option nat) :=
    let mask := mapi (shoreIntersect junk) T in
    if existsb (fun b => b) mask then
      let poss := where_ (fun b => b) (mapi (fun i b => b && connected cc i) mask) in
      let! (mask, b) :=
        (if Closed && negb (Nat.eqb (length poss) 0) then
           let! ts := gather T poss in
           let! k := argmin (map (fun t => fabs (tX t - e0)) ts) in
           let! bi := ix poss k in
           Ok (filter (fun m => negb (b2z m =? Z.of_nat bi)%Z) mask, Some bi)
         else Ok (mask, None)) in
      if negb (Nat.eqb (length mask) (length T)) then Exc EIndex
      else Ok (map2 (fun (m : bool) t => if m then fillT P t else t) mask T,
               map2 (fun (m : bool) p => if m then false else p) mask pres, b)
    else Ok (T, pres, None).

  (** mor.py:549-563: transects whose barrier is gone, and those of them connected
      to the river through open lagoon. *)
  Definition eroded (t : tsect F) : bool := (tY0 t <=? tY3 t) && (tY4 t <? tY3 t).
  Definition reachable (lagOpen : list bool) (x0 i : nat) : bool :=
    if Nat.ltb x0 i then forallb (fun b => b) (slice lagOpen (S x0) (S i))
    else if Nat.ltb i x0 then forallb (fun b => b) (slice lagOpen i x0)
    else true.

  (** mor.py:591-596; [h]: ShorefaceHeight from before the update. *)
  Definition restoreT (h : F) (t : tsect F) : tsect F :=
    let over := fofQ 1 1000 + (tY3 t - tY0 t) in
    let shift := over / (f1 + (h / (tZ0 t - tZ3 t))) in
    setY3 (tY3 t - (over - shift)) (setY0 (tY0 t + shift) t).

  (** mor.py:549-596.  [breach]: BreachIx so far.  Result: transects, BreachIx. *)
  Definition erosionBreach (P : phys F) (T0 T : list (tsect F)) (lagOpen : list bool) (x0 : nat)
             (e0 : F) (Closed : bool) (breach : option nat) : res (list (tsect F) * option nat) :=
    let ero := where_ eroded T in
    let poss := filter (reachable lagOpen x0) ero in
    let! breach' :=
      (match breach, poss with
       | Some b, _ => Ok (Some b)
       | None, [] => Ok None
       | None, _ =>
         let! ts := gather T poss in
         let d := map (fun t => fabs (tX t)) ts in
         let! k := argmin d in
         let! bi := ix poss k in
         if Closed then Ok (Some bi)
         else
           let! m := (match d with [] => Exc EValue | x :: r => Ok (fold_left fminimum r x) end) in
           if m <? fabs e0 then Ok (Some bi) else Ok None
       end) in
    let notBreach := match breach, breach' with
                     | None, Some b => filter (fun i => negb (Nat.eqb i b)) ero
                     | _, _ => ero
                     end in
    Ok (mapi (fun i p => if memb i notBreach then restoreT (shorefaceHeight P (fst p)) (snd p) else snd p)
             (combine T0 T), breach').

  (** mor.py:601-604: CrestHeight is a view of ShoreZ[:,0], so the assignment of
      line 602 raises the stored crest.  Line 603 assigns the view to itself. *)
  Definition raiseCrest (present : bool) (t : tsect F) : tsect F :=
    if present then setZ0 (fmaximum (tZ0 t) (tZ2 t)) t else t.
  Definition raiseCrests (pres : list bool) (T : list (tsect F)) : res (list (tsect F)) :=
    let T := map2 raiseCrest pres T in
    let! _ := assert_ (negb (existsb (fun t => fisnan (tZ0 t)) T)) in
    Ok T.

  (** mor.py:606-649 *)
  Definition spillBreach (P : phys F) (T : list (tsect F)) (x0 : nat) (Closed : bool)
             (cc : option (Z * Z)) (WL : list F) (breach : option nat) : res (option nat) :=
    match breach with
    | Some b => Ok (Some b)
    | None =>
      let spill := where_ (fun b => b) (map2 (fun t w => tZ0 t <? w) T WL) in
      match spill with
      | [] => Ok None
      | _ =>
        let lagOpen := map (lagoonOpen P) T in
        let poss := concat (map (fun i => (if connected cc i then [i] else []) ++
                                          (if reachable lagOpen x0 i then [i] else [])) spill) in
        match poss with
        | [] => if Closed then Ok None else Exc EIndex   (* 635: indexing with an empty float array *)
        | _ =>
          let! ts := gather T poss in
          let! ws := gather WL poss in
          let! k := argmax (map2 (fun w t => w - tZ0 t) ws ts) in
          let! bi := ix poss k in
          Ok (Some bi)
        end
      end
    end.

  (** mor.py:654: [BreachIx in ConnectedChan] compares the index with booleans. *)
  Definition inConnected (n : nat) (cc : option (Z * Z)) (bi : nat) : bool :=
    existsb (fun i => (b2z (connected cc i) =? Z.of_nat bi)%Z) (seq 0 n).

  (** mor.py:663-682: a new channel at transect [t] *)
  Definition breachWidth (P : phys F) (W : F) : F := pymax W (f2 * pMinOutletWidth P).
  Definition breachElev (P : phys F) (Zend : F) : F := pymin Zend (pMaxOutletElev P).
  Definition breachT (P : phys F) (W Zend : F) (t : tsect F) : tsect F :=
    let y1 := pymin (tY0 t - pSpitWidth P) ((tY0 t + tY3 t) / f2 + W / f2) in
    let y2 := y1 - W in
    let y3 := if y2 <=? tY3 t then y2 - fofQ 1 1000 else tY3 t in
    let y4 := if y2 <=? tY4 t then y2 - fofQ 1 1000 else tY4 t in
    mkT (tX t) (tY0 t) y1 y2 y3 y4 (tZ0 t) (fofQ 1 2 * Zend + fofQ 1 2 * tZ3 t) (tZ0 t) (tZ3 t).

  (** mor.py:653-682.  Result: transects, both outlet ends, end width, end level. *)
  Definition createBreach (P : phys F) (T : list (tsect F)) (e0 e1 W Zend : F) (cc : option (Z * Z))
             (breach : option nat) : res (list (tsect F) * F * F * F * F) :=
    match breach with
    | None => Ok (T, e0, e1, W, Zend)
    | Some bi =>
      let! t := ix T bi in
      if inConnected (length T) cc bi then Ok (T, e0, tX t, W, Zend)
      else
        let W := breachWidth P W in
        let Zend := breachElev P Zend in
        Ok (upd T bi (breachT P W Zend t), tX t, tX t, W, Zend)
    end.

  (** mor.py:686-688 *)
  Definition keepLagoon (P : phys F) (t : tsect F) : tsect F :=
    if (tY3 t - tY4 t) <? pMinOutletWidth P
    then setY4 (tY3 t - pMinOutletWidth P - fofQ 1 1000) t else t.

  (** mor.py:690-692 *)
  Definition rowOk (t : tsect F) : bool :=
    negb (fisnan (tY0 t)) && negb (fisnan (tY3 t)) && negb (fisnan (tY4 t)).

  (** Everything updateMorphology changes in place or returns. *)
  Record morOut := mkMor {
    oT : list (tsect F); oE0 : F; oE1 : F; oW : F; oZ : F; oRiver : list F;
    oDt : Z; oBreach : bool
  }.

  (** Everything up to and including mor.py:215. *)
  Record applied := mkApp {
    aT : list (tsect F); aE1 : F; aW : F; aZ : F; aRiver : list F; aDt : Z; aWL : list F; aX0 : nat
  }.
  Definition morApply (fuel : nat) (P : phys F) (N : nump F) (TP : timep)
             (T : list (tsect F)) (e0 e1 W Zend : F) (RiverElev : list F) (online outlet : list nat)
             (LagoonWL OutletDep ChanWidth ChanDep : list F) (ChanFlag : list nat) (Closed : bool)
             (LST Bedload CST : list F) (OW : list bool) (MorDt : Z) : res applied :=
    let Dx := nDx N in
    let! x0 := x0Ix T in
    let! rbq := (if Closed then Ok None
                 else let! rb := outletRb T e1 in
                      let! q := ix LST (prevIx (length LST) rb) in Ok (Some (rb, q))) in
    let! WL := waterLevel T LagoonWL OutletDep outlet Closed in
    let! _ := assert_ (forallb (fun t => f0 <? crestWidth t) T) in
    let! R := changeRates P Dx T e0 e1 W Zend online outlet ChanWidth ChanDep ChanFlag rbq LST Bedload CST OW in
    (* 152: the rate is added to the position, before anything else moves *)
    let T1 := match rbq with
              | Some (rb, q) =>
                if f0 <? q then T
                else upd_with T (prevIx (length T) rb)
                              (fun t => setY0 (tY0 t + q / (shorefaceHeight P t * Dx)) t)
              | None => T
              end in
    let! rate := maxRate R in
    let! dt := adaptStep fuel N TP rate MorDt in
    let! R := limitRates N TP rate dt R in
    let s := fofZ (seconds dt) in
    let! river := applyRiver s RiverElev (rRiv R) in
    let T2 := map2 (applyRow s) T1 (rT R) in
    if Closed then Ok (mkApp T2 e1 W Zend river dt WL x0)
    else Ok (mkApp T2 (e1 + rMove R * s) (W + rWiden R * s) (Zend + rAgg R * s) river dt WL x0).

  (** Lines 217-441: corrections 1-8.  [T0]: transects at entry. *)
  Definition morCorrect (P : phys F) (Dx : F) (T0 T : list (tsect F)) (e0 e1 W Zend : F)
             (outlet : list nat) (Closed : bool)
    : res (list (tsect F) * list bool * F * F * list nat) :=
    let! e1 := domainCheck T e1 in
    let T := map2 (fun t0 t => cliffCollision P (shorefaceHeight P t0) t) T0 T in
    let! (T, pres) := negWidthStep (map outletPresent T0) T0 T in
    let! (T, outlet) := (if Closed then Ok (T, outlet) else extendStep P T e0 e1 W Zend outlet) in
    let! T := (if Closed then Ok T else seawardFirstStep T outlet) in
    let! (T, pres, e0, outlet) := lagoonTrunc T pres e0 e1 outlet in
    let! (e1, outlet) := seaTrunc Dx T e0 e1 outlet in
    let! T := (if Closed then Ok T else lagoonLastStep P T outlet) in
    Ok (T, pres, e0, e1, outlet).

  (** Lines 443-692: relic channels, breaches, final checks. *)
  Definition morBreach (P : phys F) (junk1 junk2 : nat -> bool) (T0 T : list (tsect F)) (pres : list bool)
             (x0 : nat) (e0 e1 W Zend : F) (outlet : list nat) (Closed : bool) (WL : list F)
    : res (list (tsect F) * F * F * F * F * bool) :=
    let lagOpen := map (lagoonOpen P) T0 in
    let T := dissolveStep junk1 T in
    let! (cc, WL, e0) := connect P T pres lagOpen x0 e0 Closed outlet WL in
    let! (T, pres, b) := shoreFill P junk2 T pres e0 Closed cc in
    let! (T, b) := erosionBreach P T0 T lagOpen x0 e0 Closed b in
    let! T := raiseCrests pres T in
    let! b := spillBreach P T x0 Closed cc WL b in
    let! (T, e0, e1, W, Zend) := createBreach P T e0 e1 W Zend cc b in
    let T := upd_with T x0 (keepLagoon P) in
    let! _ := assert_ (forallb rowOk T) in
    Ok (T, e0, e1, W, Zend, match b with Some _ => true | None => false end).

  (** mor.py:12-695 *)
  Definition updateMorphology (fuel : nat) (junk1 junk2 : nat -> bool) (P : phys F) (N : nump F) (TP : timep)
             (T : list (tsect F)) (e0 e1 W Zend : F) (RiverElev : list F) (online outlet : list nat)
             (LagoonWL OutletDep ChanWidth ChanDep : list F) (ChanFlag : list nat) (Closed : bool)
             (LST Bedload CST : list F) (OW : list bool) (MorDt : Z) : res morOut :=
    let! a := morApply fuel P N TP T e0 e1 W Zend RiverElev online outlet LagoonWL OutletDep
                       ChanWidth ChanDep ChanFlag Closed LST Bedload CST OW MorDt in
    let! (T1, pres, e0, e1, outlet) :=
      morCorrect P (nDx N) T (aT a) e0 (aE1 a) (aW a) (aZ a) outlet Closed in
    let! (T2, e0, e1, W, Zend, br) :=
      morBreach P junk1 junk2 T T1 pres (aX0 a) e0 e1 (aW a) (aZ a) outlet Closed (aWL a) in
    Ok (mkMor T2 e0 e1 W Zend (aRiver a) (aDt a) br).
End Mor.
Arguments xsrate : clear implicits. Arguments trate : clear implicits. Arguments rates : clear implicits.
Arguments morOut : clear implicits. Arguments applied : clear implicits.
