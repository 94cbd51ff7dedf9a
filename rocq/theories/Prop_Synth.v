(** Synthetic boundary series: properties C72-C75 and C87. *)
From Coq Require Import ZArith List Bool Sorted Floats.
From Verif Require Import Base Num Xr Flt Sim MState MLoad MSynth SLoad SSynth PSynth PSynth2 PSynth3 PSynthEx.
Import ListNotations.

Theorem C72_times {F} {NF : Num F} start stop int (msl range : F) : (start <= stop)%Z -> (0 < int)%Z ->
  regular start int (harmonicTide start stop int msl range) /\
  exists z, nth_error (harmonicTide start stop int msl range) (length (harmonicTide start stop int msl range) - 1) = Some z /\
    (stop - int < fst z <= stop)%Z.
Proof. exact (@tide_times F NF start stop int msl range). Qed.
Print Assumptions C72_times.

Theorem C72_range start stop int msl range : (start <= stop)%Z -> (0 <= range)%R ->
  (forall p, In p (harmonicTide start stop int (Fin msl) (Fin range)) ->
     exists v, snd p = Fin v /\ (msl - range / 2 <= v <= msl + range / 2)%R) /\
  nth_error (harmonicTide start stop int (Fin msl) (Fin range)) 0 = Some (start, Fin msl).
Proof. exact (tide_range start stop int msl range). Qed.
Print Assumptions C72_range.

Theorem C72_value start msl range t :
  tideAt start (Fin msl) (Fin range) t = Fin (msl + range / 2 * sin (2 * PI * (IZR (t - start) / 1000000000 / 44712))).
Proof. exact (tide_val start msl range t). Qed.
Print Assumptions C72_value.

Theorem C72_accepted {F} {NF : Num F} start stop int (msl range : F) dtMax : (start <= stop)%Z -> (0 < int)%Z ->
  ((exists s, trimSeries start stop dtMax (harmonicTide start stop int msl range) = Ok s) <-> (int | stop - start)%Z).
Proof. exact (@tide_covers F NF start stop int msl range dtMax). Qed.
Print Assumptions C72_accepted.

Theorem C72_example : exists s, trimSeries 0 (10 * hour) hour (harmonicTide 0 (10 * hour) hour (Fin 0) (Fin 2)) = Ok s.
Proof. exact tide_example. Qed.
Print Assumptions C72_example.

Theorem C72_accepted_refuted : forall s, trimSeries 0 (10 * hour) (7 * hour) (harmonicTide 0 (10 * hour) (7 * hour) (Fin 0) (Fin 2)) <> Ok s.
Proof. exact tide_refused. Qed.
Print Assumptions C72_accepted_refuted.

Theorem C73_default {F} {NF : Num F} us start stop int gap (inc d1 : F) rise calc :
  (f0 <? d1)%n = true -> (f0 <=? f1)%n = true -> (f1 <=? f1)%n = true -> (f1 <? f1)%n = false -> (0 < rise)%Z -> (day <= gap)%Z ->
  shotNoise us start stop int gap inc d1 f1 None rise calc = Exc EType.
Proof. exact (@default_fails F NF us start stop int gap inc d1 rise calc). Qed.
Print Assumptions C73_default.

Theorem C73_never {F} {NF : Num F} us start stop int gap (inc d1 p1 : F) rise calc r :
  shotNoise us start stop int gap inc d1 p1 None rise calc <> Ok r.
Proof. exact (@none_never F NF us start stop int gap inc d1 p1 rise calc r). Qed.
Print Assumptions C73_never.

Theorem C73_short {F} {NF : Num F} us start stop int gap (inc d1 p1 d2 : F) rise calc :
  (f0 <? d1)%n = true -> (f0 <=? p1)%n = true -> (p1 <=? f1)%n = true -> (f0 <? d2)%n = true -> (0 < rise)%Z -> (0 <= gap < day)%Z ->
  shotNoise us start stop int gap inc d1 p1 (Some d2) rise calc = Exc EZeroDiv.
Proof. exact (@short_gap F NF us start stop int gap inc d1 p1 d2 rise calc). Qed.
Print Assumptions C73_short.

Theorem C73_whole_days {F} {NF : Num F} us start stop int gap gap' (inc d1 p1 : F) d2 rise calc : (gap / day = gap' / day)%Z ->
  shotNoise us start stop int gap inc d1 p1 d2 rise calc = shotNoise us start stop int gap' inc d1 p1 d2 rise calc.
Proof. exact (@whole_days F NF us start stop int gap gap' inc d1 p1 d2 rise calc). Qed.
Print Assumptions C73_whole_days.

Theorem C73_example : shotNoise [] 0 day hour (10 * day) 50%float 0.5%float 1%float None day None = Exc EType.
Proof. exact default_example. Qed.
Print Assumptions C73_example.

Theorem C74_positive us start stop int gap inc d1 p1 d2 rise calc ts last :
  Forall draw us -> (0 < inc)%R -> (0 < d1)%R -> (0 < d2)%R -> (0 <= p1 <= 1)%R -> (0 < rise)%Z -> (0 < calc)%Z -> (day <= gap)%Z ->
  shotNoiseRaw us start stop int gap (Fin inc) (Fin d1) (Fin p1) (Some (Fin d2)) rise (Some calc) = Ok (ts, last) ->
  in_time ts /\ Forall (fun p => above0 (snd p)) ts /\ (exists v, nth_error ts (length ts - 1) = Some (last, v)) /\ (stop <= last)%Z.
Proof. exact (raw_positive us start stop int gap inc d1 p1 d2 rise calc ts last). Qed.
Print Assumptions C74_positive.

Theorem C74_decay d1 d2 p1 p2 rise calc last gap s ts c1 c2 :
  (0 < rise)%Z -> (0 < calc)%Z -> (0 <= p1)%R -> (0 <= p2)%R -> (p1 + p2 = 1)%R -> (0 <= gap)%Z -> (0 <= s)%R -> fine last ts c1 c2 ->
  exists ts0 mid c1' c2',
    shotEvent (Fin d1) (Fin d2) (Fin p1) (Fin p2) rise calc last gap (Fin s) ts (Fin c1) (Fin c2) =
      Ok (ts0 ++ mid ++ [((last + gap)%Z, Fin (left_after d1 c1 gap + left_after d2 c2 gap + s))], Fin c1', Fin c2') /\
    (forall t v, In (t, v) mid -> (last <= t <= last + gap)%Z /\ v = Fin (left_after d1 c1 (t - last) + left_after d2 c2 (t - last))) /\
    (c1' = left_after d1 c1 gap + s * p1 /\ c2' = left_after d2 c2 gap + s * p2)%R /\
    (rise <= gap -> ts0 = ts /\ exists v, In ((last + gap - rise)%Z, v) mid)%Z.
Proof. exact (event_decay d1 d2 p1 p2 rise calc last gap s ts c1 c2). Qed.
Print Assumptions C74_decay.

Theorem C74_total us start stop int gap inc d1 p1 d2 rise calc :
  Forall draw us -> (0 < inc)%R -> (0 < d1)%R -> (0 < d2)%R -> (0 <= p1 <= 1)%R -> (0 < rise)%Z -> (0 < calc)%Z -> (day <= gap)%Z ->
  (exists r, shotNoise us start stop int gap (Fin inc) (Fin d1) (Fin p1) (Some (Fin d2)) rise (Some calc) = Ok r) \/
  shotNoise us start stop int gap (Fin inc) (Fin d1) (Fin p1) (Some (Fin d2)) rise (Some calc) = Exc EFuel.
Proof. exact (shot_total us start stop int gap inc d1 p1 d2 rise calc). Qed.
Print Assumptions C74_total.

Theorem C74_example : exists r,
  shotNoise [(Fin (exp (-(1/5))), Fin 0)] 0 day hour (10 * day) (Fin 50) (Fin (3/10)) (Fin (9/10)) (Some (Fin (15/1000))) day (Some (hour / 4)%Z) = Ok r.
Proof. exact one_event. Qed.
Print Assumptions C74_example.

Theorem C74_fine_example : fine 0 [(0%Z, Fin 3)] 1 2.
Proof. exact event_example. Qed.
Print Assumptions C74_fine_example.

Theorem C75_stops {F} {NF : Num F} us start stop int gap (inc d1 p1 : F) d2 rise calc ts last :
  shotNoiseRaw us start stop int gap inc d1 p1 d2 rise calc = Ok (ts, last) ->
  exists gaps, Forall2 (fun d g => gapOf (f1 / fofZ (gap / day))%n (fst d) = Ok g) (firstn (length gaps) us) gaps /\
    (forall k t, (k < length gaps)%nat -> nth_error (eventTimes start gaps) k = Some t -> (t < stop)%Z) /\
    nth_error (eventTimes start gaps) (length gaps) = Some last /\ (stop <= last)%Z.
Proof. exact (@raw_events F NF us start stop int gap inc d1 p1 d2 rise calc ts last). Qed.
Print Assumptions C75_stops.

Theorem C75_stops_refuted start stop int gap inc d1 p1 d2 rise calc :
  (0 < inc)%R -> (0 < d1)%R -> (0 < d2)%R -> (0 <= p1 <= 1)%R -> (0 < rise)%Z -> (0 < calc)%Z -> (day <= gap)%Z -> (start < stop)%Z ->
  exists u w, (0 < u < 1)%R /\ (0 <= w < 1)%R /\ forall n,
    shotNoise (repeat (Fin u, Fin w) n) start stop int gap (Fin inc) (Fin d1) (Fin p1) (Some (Fin d2)) rise (Some calc) = Exc EFuel.
Proof. exact (never_ends start stop int gap inc d1 p1 d2 rise calc). Qed.
Print Assumptions C75_stops_refuted.

Theorem C75_example : gapOf (F:=xr) (f1 / fofZ (10 * day / day))%n (Fin (exp (-(1/5)))) = Ok (2 * day)%Z.
Proof. exact one_gap. Qed.
Print Assumptions C75_example.

Theorem C87_series us start stop int gap inc d1 p1 d2 rise calc r :
  Forall draw us -> (0 < inc)%R -> (0 < d1)%R -> (0 < d2)%R -> (0 <= p1 <= 1)%R -> (0 < rise)%Z -> (0 < calc)%Z -> (day <= gap)%Z ->
  (0 < int)%Z -> (start <= stop)%Z ->
  shotNoise us start stop int gap (Fin inc) (Fin d1) (Fin p1) (Some (Fin d2)) rise (Some calc) = Ok r ->
  exists ts last b t0,
    shotNoiseRaw us start stop int gap (Fin inc) (Fin d1) (Fin p1) (Some (Fin d2)) rise (Some calc) = Ok (ts, last) /\
    regular b int r /\ (exists v, nth_error ts 0 = Some (t0, v)) /\ (b <= t0 < b + int)%Z /\ (b <= start)%Z /\ (int | b - (t0 - t0 mod day))%Z /\
    (exists e v, nth_error r (length r - 1) = Some (e, v) /\ (e <= stop < e + int)%Z) /\
    (covers start stop r <-> (int | stop - b)%Z) /\
    forall c v, In (c, v) r -> exists xs, inBin c (c + int) ts (map Fin xs) /\ (xs = [] /\ v = NaN \/ exists m, v = Fin m /\ meanOf xs m /\ (0 < m)%R).
Proof. exact (shot_series us start stop int gap inc d1 p1 d2 rise calc r). Qed.
Print Assumptions C87_series.

Theorem C87_limb_refuted {F} {NF : Num F} (u w : F) start stop int gap inc d1 p1 d2 rise calc r g :
  (0 < calc)%Z -> (start < stop)%Z -> (0 < rise <= g)%Z ->
  gapOf (f1 / fofZ (gap / day))%n u = Ok g ->
  shotNoise [(u, w)] start stop int gap inc d1 p1 d2 rise (Some calc) = Ok r ->
  forall c v, In (c, v) r -> (start + g - rise < c)%Z -> (c + int <= start + g)%Z -> v = fnan.
Proof. exact (@limb_missing F NF u w start stop int gap inc d1 p1 d2 rise calc r g). Qed.
Print Assumptions C87_limb_refuted.

Theorem C87_example : exists r, simShot (2 * day) = Ok r /\
  exists v, nth_error r 40 = Some ((40 * hour)%Z, v) /\ @fisnan float sim_num v = true.
Proof. exact limb_example. Qed.
Print Assumptions C87_example.

Theorem C87_end_refuted : exists r, simShot (day + hour / 2) = Ok r /\ trimSeries 0 (day + hour / 2) hour r = Exc EAssert.
Proof. exact end_example. Qed.
Print Assumptions C87_end_refuted.
