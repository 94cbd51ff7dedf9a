(** Properties C66-C71, C85, C86: parameters, initial state and boundary series. *)
From Coq Require Import Reals List ZArith Bool Floats.
From Verif Require Import Base Num Xr Flt MState MGeom MLoad SGeom SLoad SLine SShape PLoad PLoad2 PLoad3 PLoad4 PLoad5 PCoast PJac.
Import ListNotations.
Local Open Scope R_scope.

(** C66: the threshold line passes through its two points; K2 and the breaker coefficient
    satisfy their defining equations. *)
Theorem C66_line th top tw spit : tw <> spit -> exists m c,
  barRatSlope (Fin th) (Fin top) (Fin tw) (Fin spit) = Fin m /\ barRatInt (Fin th) (Fin top) (Fin tw) (Fin spit) = Fin c /\
  m * spit + c = top /\ m * tw + c = th.
Proof. exact (bar_line th top tw spit). Qed.
Print Assumptions C66_line.
Theorem C66_k2 k rs rw g v : (rs - rw) * g * (1 - v) <> 0 -> exists r,
  k2coef (Fin k) (Fin rs) (Fin rw) (Fin g) (Fin v) = Fin r /\ r * ((rs - rw) * g * (1 - v)) = k.
Proof. exact (k2_val k rs rw g v). Qed.
Print Assumptions C66_k2.
Theorem C66_breaker rw g ga : 0 < rw -> 0 < g -> 0 < ga -> exists r,
  breakerCoef (Fin rw) (Fin g) (Fin ga) = Fin r /\ r * (rw * (g * sqrt g) * (ga * ga)) = 8.
Proof. exact (breaker_val rw g ga). Qed.
Print Assumptions C66_breaker.
(** The derived parameters are those computed; all others keep their values. *)
Theorem C66_derive (F : Type) (NF : Num F) (P : phys F) :
  pK2coef (derive P) = k2coef (pKcoef P) (pRhoSed P) (pRhoSea P) (pGravity P) (pVoidRatio P) /\
  pBreakerCoef (derive P) = breakerCoef (pRhoSea P) (pGravity P) (pGammaRatio P) /\
  pBarRatSlope (derive P) = barRatSlope (pTargetBarHeight P) (pBeachTopElev P) (pTargetBarWidth P) (pSpitWidth P) /\
  pBarRatInt (derive P) = barRatInt (pTargetBarHeight P) (pBeachTopElev P) (pTargetBarWidth P) (pSpitWidth P) /\
  derive (derive P) = derive P /\ pGravity (derive P) = pGravity P /\ pRhoSea (derive P) = pRhoSea P /\ pSpitWidth (derive P) = pSpitWidth P.
Proof. exact (derived P). Qed.
Print Assumptions C66_derive.
Theorem C66_example : 30 <> 10 /\ (2650 - 1025) * (981/100) * (1 - 4/10) <> 0 /\ 0 < 1025 /\ 0 < 981/100 /\ 0 < 6/10.
Proof. exact derive_example. Qed.
Print Assumptions C66_example.

(** C67: number of sections, levels. *)
Theorem C67_bed P I dx slope len bed : pRiverSlope P = Fin slope -> pUpstreamLength P = Fin len -> iLagoonBed I = Fin bed ->
  0 < slope -> 0 < len -> 0 < dx ->
  exists l, iniRiver P (Fin dx) I = map Fin l /\ ceiling (len / dx) (INR (length l)) /\
    forall i z, nth_error l i = Some z -> z = bed + INR (length l - 1 - i) * (slope * dx).
Proof. exact (river_bed P I dx slope len bed). Qed.
Print Assumptions C67_bed.
Theorem C67_example : pRiverSlope ones = Fin 1 /\ pUpstreamLength ones = Fin 1 /\ iLagoonBed lIni = Fin 1.
Proof. exact (conj eq_refl (conj eq_refl eq_refl)). Qed.
Print Assumptions C67_example.

(** C68: the default grid and the transects on it. *)
Theorem C68_grid dx left right : 0 < dx -> 0 <= left -> 0 <= right ->
  exists l, straightX (Fin dx) (Fin left) (Fin right) = map Fin l /\ spaced dx l /\
    (exists i, nth_error l i = Some 0 /\ forall j, nth_error l j = Some 0 -> j = i) /\
    (exists a, nth_error l 0 = Some a /\ - left - dx < a <= - left) /\
    (exists z, nth_error l (length l - 1) = Some z /\ right <= z < right + dx).
Proof. exact (straight_grid dx left right). Qed.
Print Assumptions C68_grid.
Theorem C68_transects P I dx left right beach sp ow rw b be ob lb :
  pSpitWidth P = Fin sp -> pRiverWidth P = Fin rw -> I = mkIni (Fin lb) (Fin ob) (Fin ow) (Fin be) -> beach = Fin b ->
  forall T e0 e1 W Z, straightShore P I (Fin dx) (Fin left) (Fin right) beach = (T, e0, e1, W, Z) ->
  map tX T = straightX (Fin dx) (Fin left) (Fin right) /\ e0 = Fin 0 /\ e1 = Fin 0 /\ W = Fin ow /\ Z = Fin ob /\
  forall i t, nth_error T i = Some t -> forall x, tX t = Fin x ->
    (x = 0 -> t = mkT (Fin 0) (Fin 0) (Fin (- sp)) (Fin (- sp - ow)) (Fin (- sp - ow - 1/1000)) (Fin (- sp - ow - rw))
                      (Fin be) (Fin ((ob + lb) / 2)) (Fin be) (Fin lb)) /\
    (x <> 0 -> t = mkT (Fin x) (Fin 0) NaN NaN (Fin (- b)) (Fin (- b)) (Fin be) NaN NaN (Fin lb)).
Proof. exact (straight_rows P I dx left right beach sp ow rw b be ob lb). Qed.
Print Assumptions C68_transects.
Theorem C68_example : pSpitWidth ones = Fin 1 /\ pRiverWidth ones = Fin 1 /\ lIni = mkIni (Fin 1) (Fin 0) (Fin 10) (Fin 5) /\
  0 < 20 /\ 0 <= 1000 /\ 0 <= 990.
Proof. exact straight_hyps. Qed.
Print Assumptions C68_example.
(** In floating point X = 0 may be missing (Dx 0.1, one unit on either side): no channel at all. *)
Theorem C68_float_refuted : forallb (fun x => negb (x =? f0)%n) (@straightX float _ 0x1.999999999999ap-4 1 1)%float = true /\
  length (@straightX float _ 0x1.999999999999ap-4 1 1)%float = 21%nat.
Proof. exact grid_misses. Qed.
Print Assumptions C68_float_refuted.
Theorem C68_channel_refuted : forallb (fun t => fisnan (tY1 t)) (map (straightRow onesF (mkIni 1 0 10 5) 50) (straightX 0x1.999999999999ap-4 1 1))%float = true.
Proof. exact no_channel. Qed.
Print Assumptions C68_channel_refuted.

(** C69 *)
Theorem C69_direction n d : exists r k, waveDir (Fin n) (Fin d) = Fin r /\ - PI <= r < PI /\ r = d * PI / 180 - n + IZR k * (2 * PI).
Proof. exact (wave_dir n d). Qed.
Print Assumptions C69_direction.
(** Not the identity: 350 degrees. *)
Theorem C69_example : exists r k, waveDir (Fin 0) (Fin 350) = Fin r /\ - PI <= r < PI /\ r = 350 * PI / 180 - 0 + IZR k * (2 * PI).
Proof. exact (wave_dir 0 350). Qed.
Print Assumptions C69_example.

(** C70: which records stay; what stays covers the simulation. *)
Theorem C70_kept (A : Type) start stop dtMax (s s' : list (Z * A)) : trimSeries start stop dtMax s = Ok s' ->
  keeps (retained start stop dtMax (map fst s)) s s'.
Proof. exact (trim_keeps start stop dtMax s s'). Qed.
Print Assumptions C70_kept.
Theorem C70_accepted (A : Type) start stop dtMax (s s' : list (Z * A)) : trimSeries start stop dtMax s = Ok s' -> covers start stop s.
Proof. exact (trim_asserts start stop dtMax s s'). Qed.
Print Assumptions C70_accepted.
Theorem C70_total (A : Type) start stop dtMax (s : list (Z * A)) : covers start stop s -> exists s', trimSeries start stop dtMax s = Ok s'.
Proof. exact (trim_total start stop dtMax s). Qed.
Print Assumptions C70_total.
Theorem C70_covers (A : Type) start stop dtMax (s s' : list (Z * A)) : ordered_times s -> (start < stop)%Z -> (0 <= dtMax)%Z ->
  trimSeries start stop dtMax s = Ok s' -> covers start stop s'.
Proof. exact (trim_covers start stop dtMax s s'). Qed.
Print Assumptions C70_covers.
(** Records before the start stay, except the first. *)
Theorem C70_trimmed_refuted : trimSeries 100 200 10 [(0, 1); (20, 2); (40, 3); (100, 4); (150, 5); (205, 6); (215, 7); (230, 8)]%Z =
  Ok [(20, 2); (40, 3); (100, 4); (150, 5); (205, 6); (215, 7)]%Z.
Proof. exact trim_example. Qed.
Print Assumptions C70_trimmed_refuted.

(** C71: an outlet that meets no transect. *)
Theorem C71_same_y (F : Type) (NF : Num F) P I Dx toR (o o' : list (F * F)) T : filter hasOutlet T = [] -> map snd o = map snd o' ->
  outletSetup P I Dx toR o T = outletSetup P I Dx toR o' T.
Proof. exact (setup_same_y P I Dx toR o o' T). Qed.
Print Assumptions C71_same_y.
(** An outlet between X = 103 and 106 starts at X = 0. *)
Theorem C71_position_refuted : between = [(Fin 103, Fin (-5)); (Fin 106, Fin 15)] /\
  exists T', outletSetup ones lIni (Fin 10) true between [bareT 0 100 20; bareT 100 100 20] = Ok (T', Fin 0, Fin 5).
Proof. exact (conj eq_refl straight_example). Qed.
Print Assumptions C71_position_refuted.
(** Its lagoon edge ends up 1 mm seaward of the inner bank when the barrier is narrow. *)
Theorem C71_inserted P I t y0 y3 sp w : pSpitWidth P = Fin sp -> iOutletWidth I = Fin w -> tY0 t = Fin y0 -> tY3 t = Fin y3 ->
  exists y1, tY1 (insertStraight P I t) = Fin y1 /\ tY2 (insertStraight P I t) = Fin (y1 - w) /\
    tY3 (insertStraight P I t) = Fin (Rmin (y1 - w + 1/1000) y3) /\ y1 <= y0 - sp /\ y1 <= (y0 + y3) / 2 + w / 2 /\
    tX (insertStraight P I t) = tX t /\ tY0 (insertStraight P I t) = tY0 t /\ tY4 (insertStraight P I t) = tY4 t.
Proof. exact (insert_val P I t y0 y3 sp w). Qed.
Print Assumptions C71_inserted.
Theorem C71_overlap P I t y0 y3 sp w : pSpitWidth P = Fin sp -> iOutletWidth I = Fin w -> tY0 t = Fin y0 -> tY3 t = Fin y3 ->
  y0 - y3 < sp + w - 1/1000 ->
  exists y1, tY1 (insertStraight P I t) = Fin y1 /\ tY2 (insertStraight P I t) = Fin (y1 - w) /\ tY3 (insertStraight P I t) = Fin (y1 - w + 1/1000).
Proof. exact (insert_overlap P I t y0 y3 sp w). Qed.
Print Assumptions C71_overlap.
Theorem C71_example : tY0 (bareT 0 100 92) = Fin 100 /\ tY3 (bareT 0 100 92) = Fin 92 /\ iOutletWidth lIni = Fin 10 /\ 100 - 92 < 1 + 10 - 1/1000.
Proof. exact insert_example. Qed.
Print Assumptions C71_example.

(** C85: the model's coordinate system. *)
Theorem C85_origin b0 b1 ix iy : b0 <> 0 -> exists ox oy, originOf (Fin b0, Fin b1) (Fin ix, Fin iy) = (Fin ox, Fin oy) /\
  oy = b0 * ox + b1 /\ (ix - ox) * 1 + (iy - oy) * b0 = 0.
Proof. exact (origin_val b0 b1 ix iy). Qed.
Print Assumptions C85_origin.
(** Model Y is the signed distance from the baseline, to one side or the other of it. *)
Theorem C85_points b0 b1 ix iy X Y : b0 <> 0 -> exists x y,
  real2mod (Fin X) (Fin Y) (originOf (Fin b0, Fin b1) (Fin ix, Fin iy)) (shoreNormDir (Fin b0, Fin b1) (Fin ix, Fin iy)) = (Fin x, Fin y) /\
  y * sqrt (1 + b0 * b0) = (if Rltb 0 (ix * b0 + b1) then b0 * X + b1 - Y else Y - (b0 * X + b1)) /\
  x * sqrt (1 + b0 * b0) = (if Rltb 0 (ix * b0 + b1) then ix - X + b0 * (iy - Y) else X - ix + b0 * (Y - iy)).
Proof. exact (place_point b0 b1 ix iy X Y). Qed.
Print Assumptions C85_points.
(** The river is at X = 0, and landward (Y < 0) only if it lies on the side chosen by the sign
    of the baseline's world Y coordinate. *)
Theorem C85_inflow b0 b1 ix iy : b0 <> 0 -> exists y,
  real2mod (Fin ix) (Fin iy) (originOf (Fin b0, Fin b1) (Fin ix, Fin iy)) (shoreNormDir (Fin b0, Fin b1) (Fin ix, Fin iy)) = (Fin 0, Fin y) /\
  (y < 0 <-> if Rltb 0 (ix * b0 + b1) then b0 * ix + b1 < iy else iy < b0 * ix + b1).
Proof. exact (inflow_place b0 b1 ix iy). Qed.
Print Assumptions C85_inflow.
Theorem C85_landward_refuted : exists y, 0 <= y /\
  real2mod (Fin 0) (Fin 0) (originOf (Fin 1, Fin 10) (Fin 0, Fin 0)) (shoreNormDir (Fin 1, Fin 10) (Fin 0, Fin 0)) = (Fin 0, Fin y).
Proof. exact river_at_sea. Qed.
Print Assumptions C85_landward_refuted.
(** A baseline along a parallel has no origin, and the shoreline is refused. *)
Theorem C85_flat P I dx b1 ix iy shore lagoon cliff outlet : (2 <= length shore)%nat ->
  originOf (Fin 0, Fin b1) (Fin ix, Fin iy) = (NaN, NaN) /\
  shapeShore P I dx (Fin 0, Fin b1) (Fin ix, Fin iy) shore lagoon cliff outlet = Exc EAssert.
Proof. exact (fun L => conj (flat_baseline b1 ix iy) (flat_shore P I dx b1 ix iy shore lagoon cliff outlet L)). Qed.
Print Assumptions C85_flat.

(** C86: the initial channel. *)
Theorem C86_fits I shore lagoon cliff outlet lmin lmax omin omax x t w : iOutletWidth I = Fin w ->
  shapeRow I shore lagoon cliff outlet lmin lmax omin omax x = Ok t ->
  tX t = x /\ tZ0 t = iBarrierElev I /\ tZ3 t = iLagoonBed I /\ tZ1 t = NaN /\ tZ2 t = NaN /\
  ((tY1 t = NaN /\ tY2 t = NaN) \/
   exists y, tY1 t = Fin (y + w / 2) /\ tY2 t = Fin (y - w / 2) /\ (tY3 t <? tY2 t)%n = true /\ (tY1 t <? tY0 t)%n = true) /\
  ((lmin <? x)%n = false \/ (x <? lmax)%n = false -> tY3 t = tY4 t).
Proof. exact (row_inv I shore lagoon cliff outlet lmin lmax omin omax x t w). Qed.
Print Assumptions C86_fits.
Theorem C86_ends P I dx toR outlet T T' e0 e1 : outletSetup P I (Fin dx) toR outlet T = Ok (T', e0, e1) ->
  (exists t, In t T /\ chanHere t) -> (forall t, In t T -> chanHere t -> is_fin (tX t)) ->
  T' = T /\ exists lo hi, (exists t, In t T /\ chanHere t /\ tX t = Fin lo) /\ (exists t, In t T /\ chanHere t /\ tX t = Fin hi) /\
    (forall t x, In t T -> chanHere t -> tX t = Fin x -> lo <= x <= hi) /\
    e0 = Fin (if toR then lo else hi) /\ e1 = Fin (if toR then hi + dx / 2 else lo - dx / 2).
Proof. exact (setup_ends P I dx toR outlet T T' e0 e1). Qed.
Print Assumptions C86_ends.
(** The bed of the k-th channel transect counted from the upstream end. *)
Theorem C86_bed (F : Type) (NF : Num F) I toR (T : list (tsect F)) i t : nth_error T i = Some t ->
  nth_error (outletBeds I toR T) i = Some (if hasOutlet t
    then setZ2 (iBarrierElev I) (setZ1 (bedLevel I (length (filter hasOutlet T)) (length (filter hasOutlet (if toR then firstn i T else skipn (S i) T)))) t)
    else t).
Proof. exact (beds_nth I toR T i t). Qed.
Print Assumptions C86_bed.
Theorem C86_levels I a b n k : iLagoonBed I = Fin a -> iOutletBed I = Fin b -> (0 < n)%nat ->
  bedLevel I n k = Fin (a + INR k * ((b - a) / INR n)).
Proof. exact (bed_val I a b n k). Qed.
Print Assumptions C86_levels.
Theorem C86_example : outletSetup ones lIni (Fin 10) true between [bareT 0 100 20; chanT 10; chanT 20; bareT 30 100 20] =
  Ok ([bareT 0 100 20; chanT 10; chanT 20; bareT 30 100 20], Fin 10, Fin 25).
Proof. exact ends_example. Qed.
Print Assumptions C86_example.
Theorem C86_fits_example : exists t, shapeRow lIni [(Fin 0, Fin 100); (Fin 40, Fin 100)] [(Fin 5, Fin 20); (Fin 35, Fin 20)]
  [(Fin 0, Fin 0); (Fin 40, Fin 0)] [(Fin 0, Fin 30); (Fin 40, Fin 70)] (Fin 5) (Fin 35) (Fin 0) (Fin 40) (Fin 10) = Ok t /\
  tY1 t = Fin 45 /\ tY2 t = Fin 35 /\ tY3 t = Fin 20.
Proof. exact row_example. Qed.
Print Assumptions C86_fits_example.
(** One transect read off the input lines, and the whole initial shoreline. *)
Theorem C86_lines I shore lagoon cliff outlet l0 l1 o0 o1 x t w :
  iOutletWidth I = Fin w -> rightward shore -> shore <> [] ->
  shapeRow I (map fp shore) (map fp lagoon) (map fp cliff) (map fp outlet) (Fin l0) (Fin l1) (Fin o0) (Fin o1) (Fin x) = Ok t ->
  read_off shore lagoon cliff outlet l0 l1 o0 o1 w x t.
Proof. exact (row_lines I shore lagoon cliff outlet l0 l1 o0 o1 x t w). Qed.
Print Assumptions C86_lines.
Theorem C86_shape P I dx B inflow shore lagoon cliff outlet T e0 e1 W Z O d w s l c o :
  toModel (originOf B inflow) (shoreNormDir B inflow) shore = map fp s -> toModel (originOf B inflow) (shoreNormDir B inflow) lagoon = map fp l ->
  toModel (originOf B inflow) (shoreNormDir B inflow) cliff = map fp c -> toModel (originOf B inflow) (shoreNormDir B inflow) outlet = map fp o ->
  0 < dx -> iOutletWidth I = Fin w ->
  shapeShore P I (Fin dx) B inflow shore lagoon cliff outlet = Ok (T, e0, e1, W, Z, O, d) ->
  exists s' o' xs l0 l1 o0 o1 T0,
    (s' = s \/ s' = rev s) /\ rightward s' /\
    (exists p q, nth_error s' 0 = Some p /\ nth_error s' (length s' - 1) = Some q /\ multiples dx (fst p) (fst q) xs) /\
    (o' = o \/ o' = rev o) /\ (forall p q, nth_error o' 0 = Some p -> nth_error o' (length o' - 1) = Some q -> snd p <= snd q) /\
    spans l l0 l1 /\ spans o o0 o1 /\ (exists a z, nth_error xs 0 = Some a /\ nth_error xs (length xs - 1) = Some z /\ a < l0 /\ l1 < z) /\
    length T0 = length xs /\ length T = length xs /\
    (forall i x t, nth_error xs i = Some x -> nth_error T0 i = Some t -> read_off s' l c o' l0 l1 o0 o1 w x t) /\
    (forall i t0 t, nth_error T0 i = Some t0 -> nth_error T i = Some t -> tX t = tX t0 /\ tY0 t = tY0 t0 /\ tY4 t = tY4 t0 /\
       ((exists u, In u T0 /\ chanHere u) \/ tX t0 <> e0 -> tY1 t = tY1 t0 /\ tY2 t = tY2 t0 /\ tY3 t = tY3 t0)) /\
    (exists toR T1, outletSetup P I (Fin dx) toR (map fp o') T0 = Ok (T1, e0, e1) /\ T = outletBeds I toR T1 /\
       forall p q, nth_error o' 0 = Some p -> nth_error o' (length o' - 1) = Some q -> (toR = true <-> fst p < fst q)) /\
    W = iOutletWidth I /\ Z = iOutletBed I /\ O = originOf B inflow /\ d = shoreNormDir B inflow.
Proof. exact (shape_follows P I dx B inflow shore lagoon cliff outlet T e0 e1 W Z O d w s l c o). Qed.
Print Assumptions C86_shape.
Theorem C86_shape_example : (forall l, toModel (originOf eB eFlow) (shoreNormDir eB eFlow) (world l) = map fp l) /\
  exists T W Z O d, shapeShore ones lIni (Fin 20) eB eFlow (world eShore) (world eLagoon) (world eCliff) (world eOutlet) = Ok (T, Fin 0, Fin 30, W, Z, O, d) /\
  map tX T = [Fin (-20); Fin 0; Fin 20] /\ map tY1 T = [NaN; Fin 45; Fin 65] /\ map tY2 T = [NaN; Fin 35; Fin 55].
Proof. exact (conj back shape_example). Qed.
Print Assumptions C86_shape_example.
