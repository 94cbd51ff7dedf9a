(** C56-C65: mor.py, relic channels, breaches and the update as a whole. *)
From Coq Require Import ZArith List Bool Reals.
From Verif Require Import Base Num Xr MState MCoast MRiv MMor SMor SPost STouch SAdapt PCoast PCore PPost PTrunc PBreach PBreach2 PUpdate PUpdate2 PTouch PLevel PRateEx PCapEx PPostEx.
Import ListNotations.
Local Open Scope R_scope.

Theorem C56_channel_transects : forall {F} {NF : Num F} j i (t : tsect F), fisnan (tY1 t) = false ->
  (lagoonIntersect j i t = true <-> (tY3 t <? tY2 t)%n = false) /\ (shoreIntersect j i t = true <-> (tY1 t <? tY0 t)%n = false).
Proof. exact @memory_channel. Qed.
Print Assumptions C56_channel_transects.

Theorem C56_success_needs_true : forall (P : phys xr) T0 T pres x0 e0 e1 W Zend outlet Closed WL, length T0 = length T -> length pres = length T ->
  forall j1 j2 r, morBreach P j1 j2 T0 T pres x0 e0 e1 W Zend outlet Closed WL = Ok r ->
  forall i t, nth_error T i = Some t ->
    (tY1 t = NaN -> j1 i = true) /\
    (tY1 t = NaN \/ (tY3 t <? tY2 t)%n = false -> j2 i = true).
Proof. exact memory_true. Qed.
Print Assumptions C56_success_needs_true.

Theorem C56_success_is_unique : forall (P : phys xr) T0 T pres x0 e0 e1 W Zend outlet Closed WL, length T0 = length T -> length pres = length T ->
  forall j1 j2 k1 k2 r s,
  morBreach P j1 j2 T0 T pres x0 e0 e1 W Zend outlet Closed WL = Ok r ->
  morBreach P k1 k2 T0 T pres x0 e0 e1 W Zend outlet Closed WL = Ok s -> r = s.
Proof. exact memory_same. Qed.
Print Assumptions C56_success_is_unique.

Theorem C56_update : forall fuel j1 j2 (P : phys xr) N TP T e0 e1 W Zend RiverElev online outlet LagoonWL OutletDep CW CD fl LST q CST OW dt m,
  updateMorphology fuel j1 j2 P N TP T e0 e1 W Zend RiverElev online outlet LagoonWL OutletDep CW CD fl true LST q CST OW dt = Ok m ->
  forall i t, nth_error T i = Some t -> tY1 t = NaN -> j1 i = true /\ j2 i = true.
Proof. exact memory_update. Qed.
Print Assumptions C56_update.

Theorem C56_all_true : forall {F} {NF : Num F} i (t : tsect F),
  (lagoonIntersect (fun _ => true) i t = true <-> fisnan (tY1 t) = false /\ (tY3 t <? tY2 t)%n = false) /\
  (shoreIntersect (fun _ => true) i t = true <-> fisnan (tY1 t) = false /\ (tY1 t <? tY0 t)%n = false).
Proof. exact @memory_calm. Qed.
Print Assumptions C56_all_true.

(** The outcome does depend on what memory holds. *)
Theorem C56_deterministic_refuted : exists j (r : _), morBreach restP yes yes (exCoast 0) (exCoast 0) [false; false; false; false] 1 NaN (Fin 1) (Fin 5) (Fin 0) [] true [Fin 2; Fin 2; Fin 2; Fin 2] = Ok r /\
  morBreach restP j yes (exCoast 0) (exCoast 0) [false; false; false; false] 1 NaN (Fin 1) (Fin 5) (Fin 0) [] true [Fin 2; Fin 2; Fin 2; Fin 2] = Exc EAssert /\
  morBreach restP yes j (exCoast 0) (exCoast 0) [false; false; false; false] 1 NaN (Fin 1) (Fin 5) (Fin 0) [] true [Fin 2; Fin 2; Fin 2; Fin 2] = Exc EAssert.
Proof. exact memory_refuted. Qed.
Print Assumptions C56_deterministic_refuted.

Theorem C57_merge : forall x y0 y1 y2 y3 y4 z0 z1 z2 z3, y4 < y1 ->
  exists z, dissolve (withChannel x y0 y1 y2 y3 y4 z0 z1 z2 z3) =
    mkT (Fin x) (Fin y0) NaN NaN (Fin (y3 + (y1 - y2))) (Fin y4) (Fin z0) NaN (Fin z2) (Fin z) /\
    z * (y1 - y4) = z1 * (y1 - y2) + z3 * (y3 - y4) /\
    z * (y3 + (y1 - y2) - y4) = (z1 * (y1 - y2) + z3 * (y3 - y4)) + z * (y3 - y2).
Proof. exact dissolve_spec. Qed.
Print Assumptions C57_merge.

Theorem C57_bed_volume_refuted : exists x y0 y1 y2 y3 y4 z0 z1 z2 z3 z, y4 < y1 /\ y2 <= y3 /\
  dissolve (withChannel x y0 y1 y2 y3 y4 z0 z1 z2 z3) = mkT (Fin x) (Fin y0) NaN NaN (Fin (y3 + (y1 - y2))) (Fin y4) (Fin z0) NaN (Fin z2) (Fin z) /\
  z * (y3 + (y1 - y2) - y4) <> z1 * (y1 - y2) + z3 * (y3 - y4).
Proof. exact bed_refuted. Qed.
Print Assumptions C57_bed_volume_refuted.

Theorem C57_every_transect : forall {F} {NF : Num F} junk (T : list (tsect F)) i,
  nth_error (dissolveStep junk T) i = option_map (fun t => if meetsLagoon junk i t then dissolve t else t) (nth_error T i).
Proof. exact @dissolve_nth. Qed.
Print Assumptions C57_every_transect.

Theorem C58_fill : forall P D x y0 y1 y2 y3 y4 z0 z1 z2 z3, pClosureDepth P = Fin D -> 0 < z2 + D ->
  exists y, fillT P (withChannel x y0 y1 y2 y3 y4 z0 z1 z2 z3) =
    mkT (Fin x) (Fin y) NaN NaN (Fin y3) (Fin y4) (Fin z2) NaN NaN (Fin z3) /\
    (y0 - y) * (z2 + D) = (y1 - y2) * (z2 - z1).
Proof. exact fill_spec. Qed.
Print Assumptions C58_fill.

Theorem C58_every_transect : forall {F} {NF : Num F} (P : phys F) junk T pres e0 Closed cc T' pres' b,
  shoreFill P junk T pres e0 Closed cc = Ok (T', pres', b) ->
  length T' = length T /\
  forall i t, nth_error T i = Some t -> nth_error T' i = Some (if meetsSea junk i t then fillT P t else t).
Proof. exact @shore_nth. Qed.
Print Assumptions C58_every_transect.

Theorem C58_presence : forall {F} {NF : Num F} (P : phys F) junk T pres e0 Closed cc T' pres' b,
  shoreFill P junk T pres e0 Closed cc = Ok (T', pres', b) -> length pres = length T ->
  length pres' = length pres /\
  forall i t p, nth_error T i = Some t -> nth_error pres i = Some p -> nth_error pres' i = Some (negb (meetsSea junk i t) && p).
Proof. exact @shore_pres. Qed.
Print Assumptions C58_presence.

Theorem C58_example : exists y, fillT restP (withChannel 0 (-11) (-10) (-20) (-30) (-50) 3 0 2 (-1)) = mkT (Fin 0) (Fin y) NaN NaN (Fin (-30)) (Fin (-50)) (Fin 2) NaN NaN (Fin (-1)) /\ (-11 - y) * (2 + 1) = 10 * 2.
Proof. exact fill_case. Qed.
Print Assumptions C58_example.

Theorem C59_filled : forall {F} {NF : Num F} (P : phys F) junk T pres e0 Closed cc T' pres' b,
  shoreFill P junk T pres e0 Closed cc = Ok (T', pres', Some b) ->
  Closed = true /\ joined cc b /\ b <> 1%nat /\ (b = 0%nat -> forall i t, nth_error T i = Some t -> meetsSea junk i t = true) /\
  exists t, nth_error T b = Some t /\ meetsSea junk b t = true /\ nth_error T' b = Some (fillT P t).
Proof. exact @breach_filled. Qed.
Print Assumptions C59_filled.

Theorem C59_nearest : forall (P : phys xr) junk T pres e0 cc T' pres' b, numberedX T ->
  shoreFill P junk T pres (Fin e0) true cc = Ok (T', pres', Some b) -> nearest T e0 (seaInChannel junk T cc) b.
Proof. exact relic_where. Qed.
Print Assumptions C59_nearest.

Theorem C59_index : forall (P : phys xr) junk T pres e0 cc, numberedX T -> forall b, nearest T e0 (seaInChannel junk T cc) b ->
  (b = 1%nat \/ (b = 0%nat /\ exists i t, nth_error T i = Some t /\ meetsSea junk i t = false)) ->
  shoreFill P junk T pres (Fin e0) true cc = Exc EIndex.
Proof. exact relic_index. Qed.
Print Assumptions C59_index.

(** The breaching transect is not left open: it is filled like the others. *)
Theorem C59_open_refuted : exists T' pres', shoreFill restP yes [bare 0 0; exRow 1; reachedRow 2; exRow 3] [false; true; true; true] (Fin 1) true (Some (1, 3)%Z) = Ok (T', pres', Some 2%nat).
Proof. exact relic_case. Qed.
Print Assumptions C59_open_refuted.

Theorem C59_example : shoreFill restP yes [bare 0 0; reachedRow 1; exRow 2; exRow 3] [false; true; true; true] (Fin 1) true (Some (1, 3)%Z) = Exc EIndex.
Proof. exact relic_stop. Qed.
Print Assumptions C59_example.

Theorem C60_restored : forall h t x y0 y3 z0 z3, tX t = Fin x -> tY0 t = Fin y0 -> tY3 t = Fin y3 -> tZ0 t = Fin z0 -> tZ3 t = Fin z3 ->
  0 < h -> z3 < z0 -> y0 <= y3 ->
  exists a b, restoreT (Fin h) t = mkT (tX t) (Fin (y0 + a)) (tY1 t) (tY2 t) (Fin (y3 - b)) (tY4 t) (tZ0 t) (tZ1 t) (tZ2 t) (tZ3 t) /\
    0 < a /\ 0 < b /\ (y0 + a) - (y3 - b) = 1/1000 /\ a * h = b * (z0 - z3) /\
    0 < a * h + b * (z0 - z3).
Proof. exact restore_spec. Qed.
Print Assumptions C60_restored.

Theorem C60_every_transect : forall {F} {NF : Num F} (P : phys F) T0 T lagOpen x0 e0 Closed breach T' b',
  erosionBreach P T0 T lagOpen x0 e0 Closed breach = Ok (T', b') -> length T0 = length T ->
  length T' = length T /\
  forall i t0 t, nth_error T0 i = Some t0 -> nth_error T i = Some t ->
    nth_error T' i = Some (if washedAway t && negb (match breach, b' with None, Some b => Nat.eqb i b | _, _ => false end)
                           then restoreT (shoreHeight P t0) t else t).
Proof. exact @erosion_nth. Qed.
Print Assumptions C60_every_transect.

(** Volume appears from nowhere. *)
Theorem C60_conservation_refuted : exists a b, restoreT (Fin 4) (bare 0 (-40)) = mkT (Fin 0) (Fin (-40 + a)) NaN NaN (Fin (-30 - b)) (Fin (-50)) (Fin 3) NaN NaN (Fin (-1)) /\ 0 < a * 4 + b * 4.
Proof. exact restore_case. Qed.
Print Assumptions C60_conservation_refuted.

Theorem C61_crests : forall {F} {NF : Num F} pres (T T' : list (tsect F)), raiseCrests pres T = Ok T' -> length pres = length T ->
  length T' = length T /\
  forall i p t, nth_error pres i = Some p -> nth_error T i = Some t ->
    nth_error T' i = Some (if (p : bool) then setZ0 (fmaximum (tZ0 t) (tZ2 t)) t else t) /\
    fisnan (if p then fmaximum (tZ0 t) (tZ2 t) else tZ0 t) = false.
Proof. exact @raise_nth. Qed.
Print Assumptions C61_crests.

(** The check is not free of side effects: no breach, yet a crest was raised. *)
Theorem C61_check_only_refuted : exists T' e0' e1' W' Z', morBreach restP yes yes [bare 0 0; bare 1 0; relicRow 2; bare 3 0] [bare 0 0; bare 1 0; relicRow 2; bare 3 0] [false; false; true; false] 0 NaN (Fin 1) (Fin 5) (Fin 0) [] true (repeat (Fin 1) 4)
   = Ok (T', e0', e1', W', Z', false) /\ map tZ0 T' = [Fin 3; Fin 3; Fin 4; Fin 3].
Proof. exact raise_case. Qed.
Print Assumptions C61_check_only_refuted.

Theorem C62_geometry : forall (P : phys xr) w z m s mo (t : tsect xr) x y0 y3 y4 z0 z3,
  pMinOutletWidth P = Fin m -> pSpitWidth P = Fin s -> pMaxOutletElev P = Fin mo ->
  tX t = Fin x -> tY0 t = Fin y0 -> tY3 t = Fin y3 -> tY4 t = Fin y4 -> tZ0 t = Fin z0 -> tZ3 t = Fin z3 ->
  breachWidth P (Fin w) = Fin (Rmax w (2 * m)) /\ breachElev P (Fin z) = Fin (Rmin z mo) /\
  forall w' z', exists y1 y3' y4', breachT P (Fin w') (Fin z') t = withChannel x y0 y1 (y1 - w') y3' y4' z0 ((z' + z3) / 2) z0 z3 /\
    y1 = Rmin (y0 - s) ((y0 + y3) / 2 + w' / 2) /\ y3' < y1 - w' /\ y4' < y1 - w' /\
    (y3 < y1 - w' -> y3' = y3) /\ (y1 - w' <= y3 -> y3' = y1 - w' - 1/1000) /\
    (y4 < y1 - w' -> y4' = y4) /\ (y1 - w' <= y4 -> y4' = y1 - w' - 1/1000).
Proof. exact breach_spec. Qed.
Print Assumptions C62_geometry.

Theorem C62_open : forall (P : phys xr) (T : list (tsect xr)) b t w z m s mo x y0 y3 y4 z0 z3,
  pMinOutletWidth P = Fin m -> pSpitWidth P = Fin s -> pMaxOutletElev P = Fin mo -> 0 < m -> inOrder T ->
  nth_error T b = Some t ->
  tX t = Fin x -> tY0 t = Fin y0 -> tY3 t = Fin y3 -> tY4 t = Fin y4 -> tZ0 t = Fin z0 -> tZ3 t = Fin z3 ->
  let W := breachWidth P (Fin w) in
  outletPart P (upd T b (breachT P W (breachElev P (Fin z)) t)) (Fin x) (Fin x) W false = Ok ([b], [W], false).
Proof. exact breach_open. Qed.
Print Assumptions C62_open.

Theorem C62_example : let T := exCoast 0 in exists t, inOrder T /\ nth_error T 2 = Some t /\ pMinOutletWidth restP = Fin 1 /\ pSpitWidth restP = Fin 1 /\ pMaxOutletElev restP = Fin 1 /\
  tX t = Fin 1 /\ tY0 t = Fin 0 /\ tY3 t = Fin (-30) /\ tY4 t = Fin (-50) /\ tZ0 t = Fin 3 /\ tZ3 t = Fin (-1) /\ breachWidth restP (Fin 1) = Fin 2.
Proof. exact breach_case. Qed.
Print Assumptions C62_example.

Theorem C63_new_channel : forall {F} {NF : Num F} (P : phys F) T e0 e1 W Zend cc b T' e0' e1' W' Zend' t, (2 <= b)%nat -> nth_error T b = Some t ->
  createBreach P T e0 e1 W Zend cc (Some b) = Ok (T', e0', e1', W', Zend') ->
  e0' = tX t /\ e1' = tX t /\ W' = breachWidth P W /\ nth_error T' b = Some (breachT P W' Zend' t).
Proof. exact @always_new. Qed.
Print Assumptions C63_new_channel.

Theorem C63_index_one : forall cc n, inConnected n cc 1 = true <-> exists i, (i < n)%nat /\ joined cc i.
Proof. exact in_connected1. Qed.
Print Assumptions C63_index_one.

Theorem C63_index_zero : forall cc n, inConnected n cc 0 = true <-> exists i, (i < n)%nat /\ ~ joined cc i.
Proof. exact in_connected0. Qed.
Print Assumptions C63_index_zero.

(** A transect of the connected channel is not recognised as such. *)
Theorem C63_recognised_refuted : exists n cc b, (b < n)%nat /\ joined cc b /\ inConnected n cc b = false.
Proof. exact joined_refuted. Qed.
Print Assumptions C63_recognised_refuted.

Theorem C64_shape : forall {F} {NF : Num F} fuel junk1 junk2 (P : phys F) N TP T e0 e1 W Zend RiverElev online outlet
    LagoonWL OutletDep CW CD fl Closed LST q CST OW dt m,
  updateMorphology fuel junk1 junk2 P N TP T e0 e1 W Zend RiverElev online outlet LagoonWL OutletDep CW CD fl Closed LST q CST OW dt = Ok m ->
  map tX (oT m) = map tX T /\ length (oT m) = length T /\ length (oRiver m) = length RiverElev /\
  forall i t, nth_error (oT m) i = Some t -> fisnan (tY0 t) = false /\ fisnan (tY3 t) = false /\ fisnan (tY4 t) = false.
Proof. exact @update_shape. Qed.
Print Assumptions C64_shape.

Theorem C64_lagoon_width : forall fuel j1 j2 (P : phys xr) N TP T e0 e1 W Zend RiverElev online outlet LagoonWL OutletDep CW CD fl closed LST q CST OW dt (o : morOut xr) m,
  updateMorphology fuel j1 j2 P N TP T e0 e1 W Zend RiverElev online outlet LagoonWL OutletDep CW CD fl closed LST q CST OW dt = Ok o ->
  pMinOutletWidth P = Fin m ->
  exists i t t', nth_error T i = Some t /\ (tX t =? f0)%n = true /\ nth_error (oT o) i = Some t' /\
    forall y3 y4, tY3 t' = Fin y3 -> tY4 t' = Fin y4 -> m <= y3 - y4.
Proof. exact update_width. Qed.
Print Assumptions C64_lagoon_width.

Theorem C64_order_corrections : forall {F} {NF : Num F} (P : phys F) Dx T0 T e0 e1 W Zend outlet Closed T' pres' e0' e1' outlet',
  morCorrect P Dx T0 T e0 e1 W Zend outlet Closed = Ok (T', pres', e0', e1', outlet') -> length T0 = length T ->
  exists d TA pA TB oB TC TD oD, domainCheck T e1 = Ok d /\
    (forall i t0 t, nth_error T0 i = Some t0 -> nth_error T i = Some t -> exists a lev, nth_error TA i = Some a /\
       negWidth (hasChannel t0) (barBack t0) (barWidth t0) (cliffCollision P (shoreHeight P t0) t) = Ok (a, lev)) /\
    (if Closed then TB = TA /\ oB = outlet /\ TC = TB
     else extendStep P TA e0 d W Zend outlet = Ok (TB, oB) /\ seawardFirstStep TB oB = Ok TC) /\
    lagoonTrunc TC pA e0 d oB = Ok (TD, pres', e0', oD) /\ seaTrunc Dx TD e0' d oD = Ok (e1', outlet') /\
    (if Closed then T' = TD else lagoonLastStep P TD outlet' = Ok T').
Proof. exact @correct_order. Qed.
Print Assumptions C64_order_corrections.

Theorem C64_order : forall {F} {NF : Num F} fuel junk1 junk2 (P : phys F) N TP T e0 e1 W Zend RiverElev online outlet
    LagoonWL OutletDep CW CD fl Closed LST q CST OW dt m,
  updateMorphology fuel junk1 junk2 P N TP T e0 e1 W Zend RiverElev online outlet LagoonWL OutletDep CW CD fl Closed LST q CST OW dt = Ok m ->
  exists a T1 pres e0A e1A o1,
    morApply fuel P N TP T e0 e1 W Zend RiverElev online outlet LagoonWL OutletDep CW CD fl Closed LST q CST OW dt = Ok a /\
    morCorrect P (nDx N) T (aT a) e0 (aE1 a) (aW a) (aZ a) outlet Closed = Ok (T1, pres, e0A, e1A, o1) /\
    morBreach P junk1 junk2 T T1 pres (aX0 a) e0A e1A (aW a) (aZ a) o1 Closed (aWL a) = Ok (oT m, oE0 m, oE1 m, oW m, oZ m, oBreach m) /\
    oRiver m = aRiver a /\ oDt m = aDt a /\ length T1 = length T /\ length pres = length T1 /\ samePlaces T T1 /\ x0Ix T = Ok (aX0 a).
Proof. exact @update_inv. Qed.
Print Assumptions C64_order.

Theorem C64_example : exists o, updateMorphology 10 yes yes restP capNum capTP (exCoast 0) NaN (Fin 1) (Fin 5) (Fin 0) [Fin 1; Fin 1] [1]%nat [] [Fin 2; Fin 2; Fin 2; Fin 2] [] [Fin 5; Fin 5; Fin 5] [Fin 1; Fin 1; Fin 1] [0;0;1]%nat true
   [Fin 0; Fin 0; Fin 0] [Fin 0; Fin 0] [Fin 0; Fin 0; Fin 0; Fin 0] [false;false;false;false] (sec 15) = Ok o /\ oT o = exCoast 0.
Proof. exact still_update. Qed.
Print Assumptions C64_example.

Theorem C65_cause : forall {F} {NF : Num F} (P : phys F) j1 j2 T0 T pres x0 e0 e1 W Zend outlet Closed WL T' e0' e1' W' Zend' br,
  length T0 = length T -> length pres = length T -> (x0 < length T)%nat ->
  morBreach P j1 j2 T0 T pres x0 e0 e1 W Zend outlet Closed WL = Ok (T', e0', e1', W', Zend', br) ->
  br = true -> exists b t t', nth_error T b = Some t /\ nth_error T' b = Some t' /\ e1' = tX t /\ tX t' = tX t /\
    ((Closed = true /\ meetsSea j2 b (afterMerge j1 b t) = true) \/
     (washedAway (afterFill P j1 j2 b t) = true /\ openTo (map (wideLagoon P) T0) x0 b) \/
     (exists w, In w WL /\ (tZ0 t' <? w)%n = true)).
Proof. exact @breach_cause. Qed.
Print Assumptions C65_cause.

Theorem C65_none : forall {F} {NF : Num F} (P : phys F) j1 j2 T0 T pres x0 e0 e1 W Zend outlet Closed WL T' e0' e1' W' Zend' br,
  morBreach P j1 j2 T0 T pres x0 e0 e1 W Zend outlet Closed WL = Ok (T', e0', e1', W', Zend', br) ->
  br = false -> (e0' = e0 \/ (Closed = true /\ e0' = fnan)) /\ e1' = e1 /\ W' = W /\ Zend' = Zend.
Proof. exact @breach_none. Qed.
Print Assumptions C65_none.

Theorem C65_eroded_closed : forall {F} {NF : Num F} (P : phys F) j1 j2 T0 T pres x0 e0 e1 W Zend outlet Closed WL T' e0' e1' W' Zend' br,
  length T0 = length T -> length pres = length T ->
  morBreach P j1 j2 T0 T pres x0 e0 e1 W Zend outlet Closed WL = Ok (T', e0', e1', W', Zend', br) ->
  Closed = true -> (exists i t, nth_error T i = Some t /\ washedAway (afterFill P j1 j2 i t) = true /\ openTo (map (wideLagoon P) T0) x0 i) -> br = true.
Proof. exact @breach_eroded. Qed.
Print Assumptions C65_eroded_closed.

Theorem C65_calm : forall {F} {NF : Num F} (P : phys F) j1 j2 T0 T pres x0 e0 e1 W Zend outlet Closed WL T' e0' e1' W' Zend' br,
  length T0 = length T -> length pres = length T -> (x0 < length T)%nat ->
  morBreach P j1 j2 T0 T pres x0 e0 e1 W Zend outlet Closed WL = Ok (T', e0', e1', W', Zend', br) ->
  (forall i t, nth_error T i = Some t -> meetsLagoon j1 i t = false /\ meetsSea j2 i t = false /\ washedAway t = false /\
      forall w, In w WL -> (tZ0 t <? w)%n = false /\ (fmaximum (tZ0 t) (tZ2 t) <? w)%n = false) ->
  br = false /\ forall i t p, nth_error T i = Some t -> nth_error pres i = Some p ->
    let t1 := if (p : bool) then setZ0 (fmaximum (tZ0 t) (tZ2 t)) t else t in
    nth_error T' i = Some (if Nat.eqb i x0 then keepLagoon P t1 else t1).
Proof. exact @breach_calm. Qed.
Print Assumptions C65_calm.

(** The water levels handed to the breach logic: the channel level in the open outlet
    channel, else the lagoon level where there is a lagoon, else a level below everything. *)
Theorem C65_levels : forall {F} {NF : Num F} fuel (P : phys F) N TP T e0 e1 W Zend RiverElev online outlet LWL OD CW CD fl Closed LST q CST OW dt a,
  morApply fuel P N TP T e0 e1 W Zend RiverElev online outlet LWL OD CW CD fl Closed LST q CST OW dt = Ok a ->
  length (aWL a) = length T /\ length LWL = length T /\ Forall (fun w => fisnan w = false) (aWL a) /\
  forall i t, nth_error T i = Some t ->
    (Closed = false -> In i outlet -> exists d, nth_error OD i = Some d /\ nth_error (aWL a) i = Some (d + tZ1 t)%n) /\
    (Closed = true \/ ~ In i outlet -> nth_error (aWL a) i = if (tY4 t <? tY3 t)%n then nth_error LWL i else Some (fofQ (-99999) 10)).
Proof. exact @apply_level. Qed.
Print Assumptions C65_levels.

Theorem C65_example_levels : exists a, morApply 10 (exP 40) capNum capTP exT (Fin 0) (Fin 10) (Fin 10) (Fin 0) (map Fin [5; 4]) [2; 3]%nat [3]%nat capWL capWL exCW exCD exFl false
    (map Fin exLst) (map Fin exQ) (map Fin exCst) exOw (sec 15) = Ok a.
Proof. exact (proj2 (proj2 (proj2 (proj2 (proj2 (proj2 cap_example)))))). Qed.

Theorem C65_erosion_place : forall (P : phys xr) T0 T lagOpen x0 e0 Closed T' b, (forall i t, nth_error T i = Some t -> is_fin (tX t)) ->
  length lagOpen = length T -> (x0 < length T)%nat ->
  erosionBreach P T0 T lagOpen x0 (Fin e0) Closed None = Ok (T', Some b) ->
  nearest T 0 (fun i => exists t, nth_error T i = Some t /\ washedAway t = true /\ openTo lagOpen x0 i) b /\
  (Closed = false -> exists t, nth_error T b = Some t /\ Rabs (rv (tX t)) < Rabs e0).
Proof. exact erosion_place. Qed.
Print Assumptions C65_erosion_place.

Theorem C65_spill_place : forall (P : phys xr) T x0 Closed cc WL b, (forall i t, nth_error T i = Some t -> is_fin (tZ0 t)) -> (forall w, In w WL -> is_fin w) -> (x0 < length T)%nat ->
  spillBreach P T x0 Closed cc WL None = Ok (Some b) ->
  spillingAtRiver P T x0 cc WL b /\ forall i t u w v, spillingAtRiver P T x0 cc WL i -> nth_error T b = Some t -> nth_error WL b = Some w ->
    nth_error T i = Some u -> nth_error WL i = Some v -> rv v - rv (tZ0 u) <= rv w - rv (tZ0 t).
Proof. exact spill_place. Qed.
Print Assumptions C65_spill_place.

Theorem C65_spill_none : forall {F} {NF : Num F} (P : phys F) T x0 Closed cc WL, (x0 < length T)%nat ->
  spillBreach P T x0 Closed cc WL None = Ok None -> forall i, ~ spillingAtRiver P T x0 cc WL i.
Proof. exact @spill_nowhere. Qed.
Print Assumptions C65_spill_none.

(** Overtopping where no open water joins the river, lagoon open: an exception. *)
Theorem C65_stuck : forall {F} {NF : Num F} (P : phys F) T x0 cc WL, (x0 < length T)%nat ->
  (exists i, spilling T WL i) -> (forall i, ~ spillingAtRiver P T x0 cc WL i) -> spillBreach P T x0 false cc WL None = Exc EIndex.
Proof. exact @spill_index. Qed.
Print Assumptions C65_stuck.

Theorem C65_example_stuck : spillBreach restP [bare 0 0; mkT (Fin 1) (Fin 0) NaN NaN (Fin (-30)) (Fin (-30)) (Fin 3) NaN NaN (Fin (-1)); bare 2 0] 0 false (Some (0, 0)%Z) [Fin 2; Fin 2; Fin 4] None = Exc EIndex.
Proof. exact stuck_case. Qed.
Print Assumptions C65_example_stuck.

Theorem C65_example_erosion : exists r, morBreach ones yes yes (exCoast 0) (exCoast (-40)) [false; false; false; false] 1 NaN (Fin 1) (Fin 5) (Fin 0) [] true [Fin 2; Fin 2; Fin 2; Fin 2] = Ok r /\ snd r = true.
Proof. exact erode_case. Qed.
Print Assumptions C65_example_erosion.

Theorem C65_example_spill : exists r, morBreach ones yes yes (exCoast 0) (exCoast 0) [false; false; false; false] 1 NaN (Fin 1) (Fin 5) (Fin 0) [] true [Fin 2; Fin 2; Fin 4; Fin 2] = Ok r /\ snd r = true.
Proof. exact spill_case. Qed.
Print Assumptions C65_example_spill.

Theorem C65_example_calm : exists r, morBreach ones yes yes (exCoast 0) (exCoast 0) [false; false; false; false] 1 NaN (Fin 1) (Fin 5) (Fin 0) [] true [Fin 2; Fin 2; Fin 2; Fin 2] = Ok r /\ snd r = false.
Proof. exact calm_case. Qed.
Print Assumptions C65_example_calm.
