(** Model of /repo/hapuamod/visualise.py and animate.py: the data that is drawn.

    What matplotlib does with the data (figures, axes, colours, arrows, text) is
    not modelled; a line or polygon is the list of its points.  Points with a NaN
    coordinate break a line, as in matplotlib. *)
From Coq Require Import ZArith List Bool.
From Verif Require Import Base Num MState MRiv MMor MOut MLoad.

Section Vis.
  Context {F : Type} {NF : Num F}.
  Local Open Scope num_scope.

  (** numpy arithmetic between two one-dimensional arrays: elementwise for equal
      lengths, a single entry is repeated, anything else is a ValueError. *)
  Definition op2 (f : F -> F -> F) (a b : list F) : res (list F) :=
    if Nat.eqb (length a) (length b) then Ok (map2 f a b)
    else match a, b with
         | [x], _ => Ok (map (f x) b)
         | _, [y] => Ok (map (fun x => f x y) a)
         | _, _ => Exc EValue
         end.

  (** [(a[:-1] + a[1:]) / 2] *)
  Definition mids (a : list F) : list F := map2 (fun x y => (x + y) / f2) (removelast a) (tl a).

  (** np.cumsum, continued from [acc] *)
  Fixpoint cumsum (acc : F) (l : list F) : list F :=
    match l with [] => [] | x :: r => let s := acc + x in s :: cumsum s r end.

  (** Line2D.set_data followed by a draw: the two arrays must have the same length
      (a single entry would be repeated; simplification: it is refused). *)
  Definition line (x y : list F) : res (list (F * F)) :=
    if Nat.eqb (length x) (length y) then Ok (combine x y) else Exc EValue.

  (** np.nanmin / np.nanmax: ValueError on an empty array, NaN if all are NaN. *)
  Definition nanBest (best : F -> F -> F) (l : list F) : res F :=
    match l with
    | [] => Exc EValue
    | _ => match filter (fun x => negb (fisnan x)) l with
           | [] => Ok fnan
           | x :: r => Ok (fold_left best r x)
           end
    end.
  Definition nanmin (l : list F) : res F := nanBest fminimum l.
  Definition nanmax (l : list F) : res F := nanBest fmaximum l.

  (** Axes.set_ylim: ValueError for limits that are NaN or infinite. *)
  Definition notFinite (x : F) : bool := fisnan (x - x).
  Definition ylim (lo hi : F) : res (F * F) :=
    if notFinite lo || notFinite hi then Exc EValue else Ok (lo, hi).

  (** ** Long section *)
  Record lsec := mkLs {
    lsBed : list (F * F); lsWater : list (F * F); lsEnergy : list (F * F); lsWidth : list (F * F);
    lsFlow : list (F * F); lsVel : list (F * F); lsFr : list (F * F); lsQs : option (list (F * F));
    lsFlowLim : F * F; lsQsLim : option (F * F)
  }.

  (** visualise.py:502-510 and 589-622: longSection draws the same lines (529-564)
      and then calls updateLongSection (580), so the data is that of the update.
      [np.insert(np.cumsum(ChanDx),0,0)]: the distance starts at 0. *)
  Definition longSection (dx elev width dep vel : list F) (bedload : option (list F)) : res lsec :=
    let g := fofQ 981 100 in
    let dist := f0 :: cumsum f0 dx in
    let d2 := mids dist in
    let! wl := op2 fadd elev dep in
    let wl2 := mids wl in
    let vel2 := mids vel in
    let! energy := op2 (fun w v => w + fsq v / (f2 * g)) wl2 vel2 in
    let! fr := op2 (fun v h => fabs v / fsqrt (g * h)) vel dep in
    let! vh := op2 fmul vel dep in
    let! q := op2 fmul vh width in
    let! lBed := line dist elev in
    let! lWater := line dist wl in
    let! lEnergy := line d2 energy in
    let! lWidth := line dist width in
    let! lFlow := line dist q in
    let! lVel := line dist vel in
    let! lFr := line dist fr in
    let! lQs := (match bedload with
                 | Some b => let! l := line d2 (map (fun x => x * fofZ 3600) b) in Ok (Some l)
                 | None => Ok None
                 end) in
    (* 615-617 *)
    let! qm := nanmin q in
    let qmin := pymin f0 qm in
    let! qmax := nanmax q in
    let! fl := ylim qmin (qmax + fofQ 1 10 * (qmax - qmin)) in
    (* 620-622 *)
    let! ql := (match bedload with
                | Some b => let! m := nanmax (map (fun x => x * fofZ 3600) b) in
                            let! l := ylim f0 (pymax m (fofZ 50) * fofQ 11 10) in Ok (Some l)
                | None => Ok None
                end) in
    Ok (mkLs lBed lWater lEnergy lWidth lFlow lVel lFr lQs fl ql).

  (** ** One transect *)

  (** visualise.py:642-643: the transect nearest to TransectX *)
  Definition transectIx (T : list (tsect F)) (x : F) : res nat :=
    let! a := ix T 0 in
    let! z := last_ T in
    let! _ := assert_ ((tX a <=? x) && (x <=? tX z)) in
    argmin (map (fun t => fabs (tX t - x)) T).

  (** visualise.py:647-653: what the title says: distance, and the side
      ([Some true]: left, [Some false]: right, [None]: in line with the river) *)
  Definition transectTitle (T : list (tsect F)) (x : F) (i : nat) : res (option (bool * F)) :=
    let! t := ix T i in
    Ok (if x <? f0 then Some (true, fabs (tX t))
        else if x =? f0 then None
        else Some (false, fabs (tX t))).

  Record tfig := mkTf {
    tfGround : list (F * F); tfGroundFill : list (F * F);
    tfWater : list (F * F); tfWaterFill : list (F * F)
  }.

  (** visualise.py:739-744: [l + [(l[-1].x, -100), (l[0].x, -100), l[0]]] *)
  Definition fillDown (l : list (F * F)) : res (list (F * F)) :=
    let! a := ix l 0 in
    let! z := last_ l in
    Ok (l ++ [(fst z, - fofZ 100); (fst a, - fofZ 100); a]).

  (** visualise.py:703-736: ground and water surface from the sea to the cliff *)
  Definition groundLine (beachTop closure slope backshore : F) (t : tsect F) : list (F * F) :=
    [(fofZ 1000, - closure); (tY0 t + (beachTop + closure) / slope, - closure);
     (tY0 t, beachTop); (tY0 t, tZ0 t)]
    ++ (if fisnan (tY2 t) then [(tY3 t, tZ0 t)]
        else [(tY1 t, tZ0 t); (tY1 t, tZ1 t); (tY2 t, tZ1 t); (tY2 t, tZ2 t); (tY3 t, tZ2 t)])
    ++ (if negb (tY3 t =? tY4 t) then [(tY3 t, tZ3 t); (tY4 t, tZ3 t)] else [])
    ++ [(tY4 t, backshore); (- fofZ 1000, backshore)].
  Definition waterLine (lagWL outWL sea : F) (t : tsect F) : list (F * F) :=
    [(fofZ 1000, sea); (tY0 t, sea)]
    ++ (if fisnan (tY2 t) then [] else [(tY1 t, outWL); (tY2 t, outWL)])
    ++ (if negb (tY3 t =? tY4 t) then [(tY3 t, lagWL); (tY4 t, lagWL)] else []).

  (** visualise.py:683-757 updateTransectFig *)
  Definition transectFig (i : nat) (T : list (tsect F)) (LagoonWL OutletWL : list F) (sea : F)
             (beachTop closure slope backshore : F) : res tfig :=
    let! t := ix T i in
    let! lw := ix LagoonWL i in
    let! ow := ix OutletWL i in
    let g := groundLine beachTop closure slope backshore t in
    let w := waterLine lw ow sea t in
    let! gf := fillDown g in
    let! wf := fillDown w in
    Ok (mkTf g gf w wf).

  (** visualise.py:628-681 newTransectFig: index of the transect and the first figure *)
  Definition newTransectFig (T : list (tsect F)) (LagoonWL OutletWL : list F) (sea : F)
             (beachTop closure slope backshore x : F) : res (nat * tfig) :=
    let! i := transectIx T x in
    let! f := transectFig i T LagoonWL OutletWL sea beachTop closure slope backshore in
    Ok (i, f).

  (** ** Plan view *)

  (** np.interp(x, ShoreX, ShoreY[:,c]); NaN in, NaN out *)
  Definition interpN (l : list (F * F)) (x : F) : F := if fisnan x then x else interpX l x.
  Definition col (c : tsect F -> F) (T : list (tsect F)) : list (F * F) := map (fun t => (tX t, c t)) T.

  (** Assignment to [l[-k]]; all lists it is used on have at least four entries. *)
  Definition updEnd (l : list F) (k : nat) (v : F) : list F := upd l (length l - k) v.
  Definition fromEnd (l : list F) (k : nat) : res F := ix (rev l) (k - 1).

  (** Points of the two banks of the outlet channel, the first at the lagoon, the
      last at the sea. *)
  Record banks := mkBanks { bLX : list F; bLY : list F; bRX : list F; bRY : list F }.

  (** visualise.py:282-366.  [o]: OutletChanIx; [e0], [e1]: OutletEndX; [w]:
      OutletEndWidth; [spit]: SpitWidth.
      [np.interp] on the transects of the channel is applied to nodes in the order
      of the branch; simplification: numpy's result for nodes in decreasing order
      is not modelled (interpX walks through the list). *)
  Definition leftBank (T : list (tsect F)) (o : list nat) (spit e1 w usL dsL : F) : res (list F * list F) :=
    let! ts := gather T o in
    let! t0 := ix ts 0 in
    if usL <? dsL then
      let ok := filter (fun t => tX t <? dsL) ts in
      Ok ([usL; usL] ++ map tX ok ++ [dsL; dsL],
          [interpN (col tY3 T) usL; tY1 t0] ++ map tY1 ok
          ++ [interpN (col tY1 ts) dsL; interpN (col tY0 T) dsL])
    else
      let ok := filter (fun t => tX t <? usL) ts in
      let y3 := pymax (interpN (col tY0 T) dsL - spit - w) (interpN (col tY3 T) dsL) in
      let y1 := interpN (col tY0 T) dsL in
      Ok ([usL; usL] ++ map tX ok ++ [pymin e1 usL; dsL; dsL],
          [interpN (col tY3 T) usL; interpN (col tY2 (rev ts)) usL] ++ map tY2 ok
          ++ [fminimum y1 y3; (y1 - spit + y3) / f2; y1]).

  (** The right bank; the third component is the value line 347 assigns to
      [OutletLbY[-3]] (the left bank), if it is reached. *)
  Definition rightBank (T : list (tsect F)) (o : list nat) (spit e1 w usR dsR : F)
    : res (list F * list F * option F) :=
    let! ts := gather T o in
    let! t0 := ix ts 0 in
    if usR <? dsR then
      let ok := filter (fun t => usR <? tX t) ts in
      let y3 := pymax (interpN (col tY0 T) dsR - spit - w) (interpN (col tY3 T) dsR) in
      let y1 := interpN (col tY0 T) dsR in
      Ok ([usR; usR] ++ map tX ok ++ [pymax e1 usR; dsR; dsR],
          [interpN (col tY3 T) usR; interpN (col tY2 ts) usR] ++ map tY2 ok
          ++ [y3; (y1 - spit + y3) / f2; y1],
          Some (fminimum y1 y3))
    else
      let ok := filter (fun t => dsR <? tX t) ts in
      Ok ([usR; usR] ++ map tX ok ++ [dsR; dsR],
          [interpN (col tY3 T) usR; tY1 t0] ++ map tY1 ok
          ++ [interpN (col tY1 (rev ts)) dsR; interpN (col tY0 T) dsR],
          None).

  (** visualise.py:363-366: second point at least as far seaward as the first,
      second last at most as far as the last *)
  Definition squareEnds (y : list F) : res (list F) :=
    let! a := ix y 0 in
    let! b := ix y 1 in
    let y := upd y 1 (fmaximum a b) in
    let! p := fromEnd y 2 in
    let! q := fromEnd y 1 in
    Ok (updEnd y 2 (fminimum p q)).

  Definition outletBanks (T : list (tsect F)) (o : list nat) (spit e0 e1 w : F) : res banks :=
    let lag := filter (fun t => tY4 t <? tY3 t) T in
    let! a := ix T 0 in
    let! b := ix T 1 in
    let dx := tX b - tX a in
    (* np.min / np.max of an empty selection raise ValueError *)
    let! l0 := of_opt EValue (nth_error lag 0) in
    let leftEnd := fold_left fminimum (map tX (tl lag)) (tX l0) - dx in
    let rightEnd := fold_left fmaximum (map tX (tl lag)) (tX l0) + dx in
    let! o0 := ix o 0 in
    let! t0 := ix T o0 in
    let usW := tY1 t0 - tY2 t0 in
    let usL := pymax (e0 - usW / f2) leftEnd in
    let usR := pymin (e0 + usW / f2) rightEnd in
    let! (lx, ly) := leftBank T o spit e1 w usL (e1 - w / f2) in
    let! (rx, ry, over) := rightBank T o spit e1 w usR (e1 + w / f2) in
    let ly := match over with Some v => updEnd ly 3 v | None => ly end in
    let! ly := squareEnds ly in
    let! ry := squareEnds ry in
    Ok (mkBanks lx ly rx ry).

  (** What updateModelView draws (visualise.py:423-431); the channel edges of 193-194
      ([ChannelLine]) and the shore dots are left out. *)
  Record plan := mkPlan {
    plShore : list (F * F); plOutlet : list (F * F); plLagoon : list (F * F);
    plCliff : list (F * F); plRiver : list (F * F);
    plWater : list (F * F); plHatch : list (F * F)
  }.
  Definition gap : F * F := (fnan, fnan).
  Definition far : F := - fofZ 5000.

  (** visualise.py:197-204: cliff to the left and to the right of the river *)
  Definition cliffL (T : list (tsect F)) (rw : F) : list (F * F) :=
    col tY4 (filter (fun t => tX t <=? - rw / f2) T) ++ [(- rw / f2, interpN (col tY4 T) (- rw / f2))].
  Definition cliffR (T : list (tsect F)) (rw : F) : list (F * F) :=
    (rw / f2, interpN (col tY4 T) (rw / f2)) :: col tY4 (filter (fun t => rw / f2 <=? tX t) T).
  (** visualise.py:207-212: the river banks, from inland to the cliff *)
  Definition riverL (T : list (tsect F)) (rw : F) : res (list (F * F)) :=
    let! z := last_ (cliffL T rw) in Ok [(- rw / f2, far); (- rw / f2, snd z)].
  Definition riverR (T : list (tsect F)) (rw : F) : res (list (F * F)) :=
    let! a := ix (cliffR T rw) 0 in Ok [(rw / f2, far); (rw / f2, snd a)].
  (** visualise.py:215-228; line 226 takes [CliffToRX[-1]] for the Y coordinate *)
  Definition hatch (T : list (tsect F)) (rw : F) : res (list (F * F)) :=
    let! rl := riverL T rw in
    let! rr := riverR T rw in
    let! a := ix (cliffL T rw) 0 in
    let! z := last_ (cliffR T rw) in
    Ok (cliffL T rw ++ rev rl ++ [(fst a, far); (fst a, snd a)] ++ [gap]
        ++ [(fst z, fst z); (fst z, far)] ++ rr ++ cliffR T rw).

  (** visualise.py:182-431 updateModelView *)
  Definition planView (T : list (tsect F)) (o : list nat) (closed : bool) (rw spit e0 e1 w : F) : res plan :=
    let cl := cliffL T rw in
    let cr := cliffR T rw in
    let! rl := riverL T rw in
    let! rr := riverR T rw in
    let! h := hatch T rw in
    let! a := ix T 0 in
    let! z := last_ T in
    if closed then
      let shore := col tY0 T in
      let lag := col tY3 T in
      let water := lag ++ rev cr ++ rev rr ++ rl ++ rev cl ++ [(tX a, tY3 a)] ++ [gap]
                   ++ shore ++ [(tX z, fofZ 10000); (tX a, fofZ 10000)] ++ [(tX a, tY0 a)] in
      Ok (mkPlan shore [gap] lag (cl ++ [gap] ++ cr) (rl ++ [gap] ++ rr) water h)
    else
      let! b := outletBanks T o spit e0 e1 w in
      let lb := combine (bLX b) (bLY b) in
      let rb := combine (bRX b) (bRY b) in
      let! l0 := ix lb 0 in
      let! r0 := ix rb 0 in
      let! l1 := last_ lb in
      let! r1 := last_ rb in
      let dsL := e1 - w / f2 in
      let dsR := e1 + w / f2 in
      let shL := col tY0 (filter (fun t => tX t <=? dsL) T) ++ [l1] in
      let shR := r1 :: col tY0 (filter (fun t => dsR <=? tX t) T) in
      let lgL := col tY3 (filter (fun t => tX t <=? fst l0) T) ++ [l0] in
      let lgR := r0 :: col tY3 (filter (fun t => fst r0 <=? tX t) T) in
      let water := lgR ++ rev cr ++ rev rr ++ rl ++ rev cl ++ lgL ++ lb ++ rev shL
                   ++ [(tX a, fofZ 5000); (tX z, fofZ 5000)] ++ rev shR ++ rev rb in
      Ok (mkPlan (shL ++ [gap] ++ shR) (lb ++ [gap] ++ rb) (lgL ++ [gap] ++ lgR)
                 (cl ++ [gap] ++ cr) (rl ++ [gap] ++ rr) water h).

  (** visualise.py:231-238: the wave arrow: (dx, dy, width).  [scaling]: WaveScaling. *)
  Definition waveArrow (power dir scaling : F) : F * F * F :=
    let len := if (- fpi / f2 <? dir) && (dir <? fpi / f2) then power else fofQ 1 100 in
    (- fsin dir * len * scaling, - fcos dir * len * scaling,
     fmaximum ((len * scaling) / fofZ 10) (fofQ 1 1000)).

  (** visualise.py:66-180 modelView: the area of interest must have four entries; the
      first drawing does not pass the Closed flag on (176-178), so it defaults to
      False (183).  The default field of view (117) needs one lagoon edge that is
      a number. *)
  Definition modelView (T : list (tsect F)) (o : list nat) (rw spit e0 e1 w : F) (aoi : option (list F))
    : res plan :=
    let! _ := (match aoi with
               | Some l => assert_ (Nat.eqb (length l) 4)
               | None => let! _ := ix (filter (fun t => negb (fisnan (tY3 t))) T) 0 in Ok tt
               end) in
    planView T o false rw spit e0 e1 w.

  (** ** animate.py *)

  (** Python's range(start, stop, step) *)
  Definition pyrange (start stop step : Z) : res (list Z) :=
    if Z.eqb step 0 then Exc EValue
    else let n := if Z.ltb 0 step then ((stop - start + step - 1) / step)%Z
                  else ((start - stop - step - 1) / (- step))%Z in
         Ok (map (fun k => start + Z.of_nat k * step)%Z (seq 0 (Z.to_nat n))).

  (** animate.py:117-121 *)
  Definition endStep (size : nat) (e : option Z) : Z :=
    match e with
    | None => Z.of_nat size
    | Some e => if Z.ltb (Z.of_nat size) e then Z.of_nat size else e
    end.
  Definition frames (size : nat) (start : Z) (e : option Z) (step : Z) : res (list Z) :=
    pyrange start (endStep size e) step.

  (** out.readTimestep with a Python index (negative: from the end) *)
  Definition readAt (f : ncfile F) (k : Z) : res (@rstep F) :=
    let! i := of_opt EIndex (pyix (length (ncTimes f)) k) in readTimestep f i.

  (** animate.py:65-76, 178-192: long section of a record.  [P] holds the three
      parameters stored in the file (RiverWidth, MinOutletWidth, MaxOutletElev);
      the other fields are not available and must not matter. *)
  Definition recordChannel (P : phys F) (d : @rstep F) : res (@chan F) :=
    let! a := ix (rdT d) 0 in
    let! b := ix (rdT d) 1 in
    assembleChannel (rdT d) (rdE0 d) (rdE1 d) (rdW d) (rdZend d) (rdClosed d)
                    (rdRiv d) (map2 fsub (rdRWL d) (rdRiv d)) (rdRVel d)
                    (rdLWL d) (rdLVel d) (map2 (fun wl t => wl - tZ1 t) (rdOWL d) (rdT d)) (rdOVel d)
                    [rdEWL d - rdZend d] [rdEVel d] (tX b - tX a) P.
  Definition animLongSec (P : phys F) (f : ncfile F) (k : Z) : res lsec :=
    let! d := readAt f k in
    let! c := recordChannel P d in
    longSection (chDx c) (chElev c) (chWidth c) (chDep c) (chVel c) None.

  (** animate.py:19-35 *)
  Definition animMap (rw spit : F) (f : ncfile F) (k : Z) : res plan :=
    let! d := readAt f k in
    planView (rdT d) (rdIx d) (rdClosed d) rw spit (rdE0 d) (rdE1 d) (rdW d).

  (** animate.py:37-51 *)
  Definition animTransect (i : nat) (beachTop closure slope backshore : F) (f : ncfile F) (k : Z) : res tfig :=
    let! d := readAt f k in
    transectFig i (rdT d) (rdLWL d) (rdOWL d) (rdSea d) beachTop closure slope backshore.

  (** animate.py:81-227 main: the pictures of the animation, in order.
      Simplification: matplotlib draws the first frame once more to initialise. *)
  Definition mapAnimation (rw spit : F) (f : ncfile F) (start : Z) (e : option Z) (step : Z)
             (aoi : option (list F)) : res (list plan) :=
    let! d := readAt f start in
    let! _ := modelView (rdT d) (rdIx d) rw spit (rdE0 d) (rdE1 d) (rdW d) aoi in
    let! ks := frames (length (ncTimes f)) start e step in
    all_ok (map (animMap rw spit f) ks).
  Definition longSecAnimation (P : phys F) (f : ncfile F) (start : Z) (e : option Z) (step : Z)
    : res (list lsec) :=
    let! _ := animLongSec P f start in
    let! ks := frames (length (ncTimes f)) start e step in
    all_ok (map (animLongSec P f) ks).
  Definition transectAnimation (beachTop closure slope backshore x : F) (f : ncfile F)
             (start : Z) (e : option Z) (step : Z) : res (list tfig) :=
    let! d := readAt f start in
    let! (i, _) := newTransectFig (rdT d) (rdLWL d) (rdOWL d) (rdSea d) beachTop closure slope backshore x in
    let! ks := frames (length (ncTimes f)) start e step in
    all_ok (map (animTransect i beachTop closure slope backshore f) ks).
End Vis.
Arguments lsBed {F}. Arguments lsWater {F}. Arguments lsEnergy {F}. Arguments lsWidth {F}.
Arguments lsFlow {F}. Arguments lsVel {F}. Arguments lsFr {F}. Arguments lsQs {F}.
