(** Model of /repo/hapuamod/synth.py.  Times and durations: integer nanoseconds. *)
From Coq Require Import ZArith List Bool.
From Verif Require Import Base Num MState.

Section Synth.
  Context {F : Type} {NF : Num F}.
  Local Open Scope num_scope.

  Definition nsPerDay : Z := 86400000000000.

  (** pd.date_range(start=a, end=b, freq=f), f > 0: a, a+f, ... not after b *)
  Definition dateRange (a b f : Z) : list Z :=
    if (b <? a)%Z then []
    else map (fun k => (a + Z.of_nat k * f)%Z) (seq 0 (S (Z.to_nat ((b - a) / f)))).

  (** total_seconds() *)
  Definition secsOf (ns : Z) : F := fofZ ns / fofZ 1000000000.

  (** synth.py:164-204 harmonicTide; TidePeriod = (12*60 + 25.2)*60 s = 44712 s *)
  Definition tidePeriod : F := (fofZ (12 * 60) + fofQ 252 10) * fofZ 60.
  Definition tideAt (start : Z) (msl range : F) (t : Z) : F :=
    msl + (range / f2) * fsin (secsOf (t - start) / tidePeriod * f2 * fpi).
  Definition harmonicTide (start stop int : Z) (msl range : F) : list (Z * F) :=
    map (fun t => (t, tideAt start msl range t)) (dateRange start stop int).

  (** * shotNoise, synth.py:11-162 *)

  (** synth.py:82-99: validation and derived parameters.  [MeanGap]: duration; the
      code uses its [.days] field.  Result: (EventRate, PropRate2, Rate1Vals[0],
      Rate2Vals[0]).  DecayRate2 = None: division by None is TypeError; DecayRate2 = 0
      (possible when PropRate1 = 1): ZeroDivisionError.  Numbers are Python floats. *)
  Definition daysField (ns : Z) : Z := (ns / nsPerDay)%Z.
  Definition shotSetup (MeanGap : Z) (MeanInc d1 p1 : F) (d2 : option F) (rise : Z) : res (F * F * F * F * F) :=
    let! _ := assert_ (f0 <? d1) in
    let! _ := assert_ ((f0 <=? p1) && (p1 <=? f1)) in
    let! _ := (if p1 <? f1
               then match d2 with None => Exc EAssert | Some r => assert_ (f0 <? r) end
               else Ok tt) in
    let! _ := assert_ (0 <? rise)%Z in
    if (daysField MeanGap =? 0)%Z then Exc EZeroDiv
    else
      let rate := f1 / fofZ (daysField MeanGap) in
      let p2 := f1 - p1 in
      let r1 := MeanInc * (p1 / d1) * rate in
      match d2 with
      | None => Exc EType
      | Some d2 => if d2 =? f0 then Exc EZeroDiv else Ok (rate, p2, r1, MeanInc * (p2 / d2) * rate, d2)
      end.

  (** A point of the series under construction. *)
  Definition pt := (Z * F)%type.

  (** np.interp at [x] on two points, clamped outside (synth.py:122-131) *)
  Definition interp2 (x : Z) (a b : pt) : F :=
    if (x <=? fst a)%Z then snd a
    else if (fst b <=? x)%Z then snd b
    else (snd b - snd a) / (fofZ (fst b) - fofZ (fst a)) * (fofZ x - fofZ (fst a)) + snd a.

  (** Series.sort_index: insertion by time, stable. *)
  Fixpoint insertPt (p : pt) (l : list pt) : list pt :=
    match l with
    | [] => [p]
    | q :: r => if (fst p <? fst q)%Z then p :: l else q :: insertPt p r
    end.

  (** [l[-1] += v] *)
  Definition addLast (v : F) (l : list pt) : list pt :=
    match rev l with [] => [] | (t, x) :: r => rev r ++ [(t, x + v)] end.

  (** synth.py:140-143: calculation times in a gap longer than the rising limb *)
  Definition gapTimes (last gap rise calc : Z) : list Z :=
    filter (fun t => negb (t =? last)%Z) (dateRange last (last + gap - rise) calc)
    ++ [(last + gap - rise)%Z; (last + gap)%Z].

  (** synth.py:118-151: extend the series by one event.  [c1], [c2]: the two decaying
      components at the last event.  Result: series and new components.
      Simplification: the series is kept sorted, so sort_index moves only the
      inserted point; with a single point so far np.interp is constant. *)
  Definition lastTwo (l : list pt) : res (pt * pt) :=
    match rev l with
    | b :: a :: _ => Ok (a, b)
    | [b] => Ok (b, b)
    | [] => Exc EIndex
    end.
  Definition shotEvent (d1 d2 p1 p2 : F) (rise calc : Z) (last gap : Z) (size : F)
             (ts : list pt) (c1 c2 : F) : res (list pt * F * F) :=
    let startRise := (last + gap - rise)%Z in
    let! (ts, times) :=
      (if (gap <? rise)%Z then
         let! (a, b) := lastTwo ts in
         let ts := insertPt (startRise, interp2 startRise a b) ts in
         let! (_, (tl_, _)) := lastTwo ts in
         Ok (addLast (interp2 tl_ (startRise, f0) ((last + gap)%Z, size)) ts, [(last + gap)%Z])
       else Ok (ts, gapTimes last gap rise calc)) in
    let dec d t := fexp ((- d) * (secsOf (t - last) / fofZ 86400)) in
    let endT := (last + gap)%Z in
    let c1' := c1 * dec d1 endT + size * p1 in
    let c2' := c2 * dec d2 endT + size * p2 in
    let vals := map (fun t => (t, c1 * dec d1 t + c2 * dec d2 t)) (removelast times) ++ [(endT, c1' + c2')] in
    Ok (ts ++ vals, c1', c2').

  (** synth.py:114-115: a gap from the draw [u] and an event size from the draw [w];
      random.random() is in [0,1).  math.log raises ValueError for an argument that
      is not positive.  Simplification: the conversion of a float number of days to
      a Timedelta is taken to round down to nanoseconds. *)
  Definition gapOf (rate u : F) : res Z :=
    if f0 <? u then Ok (ffloor ((- flog u) / rate * fofZ nsPerDay)) else Exc EValue.
  Definition sizeOf (MeanInc w : F) : res F :=
    if f0 <? f1 - w then Ok ((- MeanInc) * flog (f1 - w)) else Exc EValue.

  (** synth.py:111-153.  [draws]: the two random numbers of each event.  Running out
      of draws: EFuel. *)
  Fixpoint shotLoop (draws : list (F * F)) (rate MeanInc d1 d2 p1 p2 : F) (rise calc stop : Z) (last : Z)
           (ts : list pt) (c1 c2 : F) : res (list pt * Z) :=
    if (last <? stop)%Z then
      match draws with
      | [] => Exc EFuel
      | (u, w) :: dr =>
        let! gap := gapOf rate u in
        let! size := sizeOf MeanInc w in
        let! (ts, c1, c2) := shotEvent d1 d2 p1 p2 rise calc last gap size ts c1 c2 in
        shotLoop dr rate MeanInc d1 d2 p1 p2 rise calc stop (last + gap) ts c1 c2
      end
    else Ok (ts, last).

  (** synth.py:82-153: everything before resampling. *)
  Definition shotNoiseRaw (us : list (F * F)) (start stop int MeanGap : Z) (MeanInc d1 p1 : F) (d2 : option F)
             (rise : Z) (calcInt : option Z) : res (list pt * Z) :=
    let calc := match calcInt with Some c => c | None => (int / 4)%Z end in
    let! (rate, p2, r1, r2, d2) := shotSetup MeanGap MeanInc d1 p1 d2 rise in
    shotLoop us rate MeanInc d1 d2 p1 p2 rise calc stop start [(start, r1 + r2)] r1 r2.

  (** synth.py:159: Series.resample(f).mean() of a series in order of time.  The bins have
      length [f], are counted from midnight of the day of the first point, are closed on the
      left and labelled with their start; an empty bin gives NaN. *)
  Definition binMean (b f : Z) (l : list pt) : F :=
    match map snd (filter (fun p => (b <=? fst p)%Z && (fst p <? b + f)%Z) l) with
    | [] => fnan
    | xs => fsum xs / fofZ (Z.of_nat (length xs))
    end.
  Definition binOrigin (f t : Z) : Z := (t - (t mod nsPerDay) mod f)%Z.
  Definition resampleMean (f : Z) (l : list pt) : res (list pt) :=
    let! a := ix l 0 in
    let! z := last_ l in
    let b0 := binOrigin f (fst a) in
    Ok (map (fun k => let b := (b0 + Z.of_nat k * f)%Z in (b, binMean b f l))
            (seq 0 (S (Z.to_nat ((fst z - b0) / f))))).

  (** synth.py:11-162; 160: OutputTs.loc[:EndDate]. *)
  Definition shotNoise (us : list (F * F)) (start stop int MeanGap : Z) (MeanInc d1 p1 : F) (d2 : option F)
             (rise : Z) (calcInt : option Z) : res (list pt) :=
    let! (ts, _) := shotNoiseRaw us start stop int MeanGap MeanInc d1 p1 d2 rise calcInt in
    let! r := resampleMean int ts in
    Ok (filter (fun p => (fst p <=? stop)%Z) r).
End Synth.
