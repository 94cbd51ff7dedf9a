(** Properties C92 and C93: plan view and animations. *)
From Coq Require Import ZArith List Bool Reals Floats.
From Verif Require Import Base Num Xr Flt MState MGeom MCoast MRiv MMor MOut MCore MLoad MVis SLine SPlan SOut SAnim PLine PPlan PPlan2 PPlanEx PAnim PAnimEx Sim SimEx PCoreEx.
Import ListNotations.
Local Open Scope R_scope.
Local Open Scope nat_scope.

(** C92: when the view can be drawn, and what it shows. *)
Theorem C92_drawable : forall (F : Type) (NF : Num F) (T : list (tsect F)) o closed rw spit e0 e1 w, (exists p, planView T o closed rw spit e0 e1 w = Ok p) <->
    if closed then T <> []
    else 2 <= length T /\ (exists t, In t T /\ has_lagoon t) /\ o <> [] /\ Forall (fun i => i < length T) o.
Proof. exact @plan_ok. Qed.
Print Assumptions C92_drawable.

Theorem C92_first_drawing : forall (F : Type) (NF : Num F) (T : list (tsect F)) rw spit e0 e1 w aoi, exists e, modelView T [] rw spit e0 e1 w aoi = Exc e.
Proof. exact @first_drawing. Qed.
Print Assumptions C92_first_drawing.

Theorem C92_outline : forall (F : Type) (NF : Num F) (T : list (tsect F)) o rw spit e0 e1 w p, planView T o false rw spit e0 e1 w = Ok p -> loop (plWater p).
Proof. exact @water_open. Qed.
Print Assumptions C92_outline.

Theorem C92_closed : forall (F : Type) (NF : Num F) (T : list (tsect F)) o rw spit e0 e1 w p, planView T o true rw spit e0 e1 w = Ok p ->
    plShore p = feature tY0 T /\ plLagoon p = feature tY3 T /\ plOutlet p = [lifted] /\
    exists lag sea, pieces (plWater p) lag sea /\ loop lag /\ loop sea /\
      incl (plLagoon p) lag /\ incl (plShore p) sea.
Proof. exact @closed_inv. Qed.
Print Assumptions C92_closed.

Theorem C92_hatch : forall (F : Type) (NF : Num F) (T : list (tsect F)) o closed rw spit e0 e1 w p, planView T o closed rw spit e0 e1 w = Ok p ->
    forall z, ends T z -> (rw / f2 <=? tX z)%n = true -> In (tX z, tX z) (plHatch p).
Proof. exact @hatch_corner. Qed.
Print Assumptions C92_hatch.

Local Close Scope nat_scope.
Theorem C92_shoreline : forall T o rw spit e0 m d p shore, feature tY0 T = nodes shore -> rightward shore ->
  planView T o false rw spit e0 (Fin m) (Fin d) = Ok p ->
  exists L R yl yr, pieces (plShore p) L R /\ on_line shore (m - d / 2) yl /\ on_line shore (m + d / 2) yr /\
    along L shore (fun x => x <= m - d / 2) /\ ends L (Fin (m - d / 2), Fin yl) /\
    along R shore (fun x => m + d / 2 <= x) /\ starts R (Fin (m + d / 2), Fin yr) /\
    (forall x y, In (x, y) shore -> (x <= m - d / 2 -> In (Fin x, Fin y) L) /\ (m + d / 2 <= x -> In (Fin x, Fin y) R)) /\
    exists lb rb, pieces (plOutlet p) lb rb /\ ends lb (Fin (m - d / 2), Fin yl) /\ ends rb (Fin (m + d / 2), Fin yr).
Proof. exact @plan_shore. Qed.
Print Assumptions C92_shoreline.

Theorem C92_lagoon : forall T o rw spit x0 e1 w p lag o0 t0 y1 y2, feature tY3 T = nodes lag -> rightward lag -> starts o o0 -> nth_error T o0 = Some t0 -> tY1 t0 = Fin y1 -> tY2 t0 = Fin y2 ->
  planView T o false rw spit (Fin x0) e1 w = Ok p ->
  exists L R xl xr yl yr dx ml mr, pieces (plLagoon p) L R /\
    (exists a b, nth_error lag 0 = Some a /\ nth_error lag 1 = Some b /\ dx = fst b - fst a) /\
    (exists t, In t T /\ has_lagoon t /\ tX t = Fin ml) /\ (exists t, In t T /\ has_lagoon t /\ tX t = Fin mr) /\
    (forall t u, In t T -> has_lagoon t -> tX t = Fin u -> ml <= u <= mr) /\
    xl = Rmax (x0 - (y1 - y2) / 2) (ml - dx) /\ xr = Rmin (x0 + (y1 - y2) / 2) (mr + dx) /\
    on_line lag xl yl /\ on_line lag xr yr /\
    along L lag (fun x => x <= xl) /\ ends L (Fin xl, Fin yl) /\
    along R lag (fun x => xr <= x) /\ starts R (Fin xr, Fin yr) /\
    (forall x y, In (x, y) lag -> (x <= xl -> In (Fin x, Fin y) L) /\ (xr <= x -> In (Fin x, Fin y) R)) /\
    exists lb rb, pieces (plOutlet p) lb rb /\ starts lb (Fin xl, Fin yl) /\ starts rb (Fin xr, Fin yr).
Proof. exact @plan_lagoon. Qed.
Print Assumptions C92_lagoon.

Theorem C92_cliff : forall T o closed r spit e0 e1 w p cliff, feature tY4 T = nodes cliff -> rightward cliff ->
  planView T o closed (Fin r) spit e0 e1 w = Ok p ->
  exists L R yl yr, pieces (plCliff p) L R /\ on_line cliff (- r / 2) yl /\ on_line cliff (r / 2) yr /\
    along L cliff (fun x => x <= - r / 2) /\ ends L (Fin (- r / 2), Fin yl) /\
    along R cliff (fun x => r / 2 <= x) /\ starts R (Fin (r / 2), Fin yr) /\
    (forall x y, In (x, y) cliff -> (x <= - r / 2 -> In (Fin x, Fin y) L) /\ (r / 2 <= x -> In (Fin x, Fin y) R)) /\
    pieces (plRiver p) [(Fin (- r / 2), Fin (-5000)); (Fin (- r / 2), Fin yl)] [(Fin (r / 2), Fin (-5000)); (Fin (r / 2), Fin yr)].
Proof. exact @plan_cliff. Qed.
Print Assumptions C92_cliff.

Theorem C92_channel : forall (F : Type) (NF : Num F) (T : list (tsect F)) o rw spit e0 e1 w p, planView T o false rw spit e0 e1 w = Ok p ->
  exists lb rb, pieces (plOutlet p) lb rb /\
    forall i a, (2 <= i)%nat -> (nth_error lb i = Some a /\ (i + 3 < length lb)%nat) \/ (nth_error rb i = Some a /\ (i + 3 < length rb)%nat) ->
      exists k t, In k o /\ nth_error T k = Some t /\ (a = (tX t, tY1 t) \/ a = (tX t, tY2 t)).
Proof. exact @plan_banks. Qed.
Print Assumptions C92_channel.

Theorem C92_arrow : forall pw th s, 0 <= pw -> 0 < s ->
  exists dx dy wd, waveArrow (Fin pw) (Fin th) (Fin s) = (Fin dx, Fin dy, Fin wd) /\ 1 / 1000 <= wd /\
    (- (PI / 2) < th < PI / 2 -> dx = - (sin th) * (pw * s) /\ dy = - (cos th) * (pw * s) /\ dy <= 0 /\ dx * dx + dy * dy = (pw * s) * (pw * s)) /\
    (th <= - (PI / 2) \/ PI / 2 <= th -> dx * dx + dy * dy = (s / 100) * (s / 100)).
Proof. exact @arrow. Qed.
Print Assumptions C92_arrow.

Theorem C92_interpolation : forall l x y, rightward l -> l <> [] -> (interpX (nodes l) (Fin x) = Fin y <-> on_line l x y).
Proof. exact @interp_on. Qed.
Print Assumptions C92_interpolation.

Theorem C92_left_bank_refuted : exists p lb rb v,
  planView oT [1; 2; 3]%nat false 10%float 15%float (-25)%float 30%float 8%float = Ok p /\ pieces (plOutlet p) lb rb /\
  nth_error lb (length lb - 3)%nat = Some v /\ fst v = tX (ot 20%float true) /\ snd v = 37%float /\
  tY1 (ot 20%float true) = 40%float /\ tY2 (ot 20%float true) = 30%float.
Proof. exact @left_bank_moved. Qed.
Print Assumptions C92_left_bank_refuted.

Theorem C92_mirror_refuted : exists p q lb rb lb' rb',
  planView oT [1; 2; 3]%nat false 10%float 15%float (-25)%float 30%float 8%float = Ok p /\ pieces (plOutlet p) lb rb /\
  planView oT [3; 2; 1]%nat false 10%float 15%float 25%float (-30)%float 8%float = Ok q /\ pieces (plOutlet q) lb' rb' /\
  (exists v, In v (flipX rb') /\ ~ In v lb) /\ flipX lb' = rb /\ length rb' = length lb.
Proof. exact @not_mirrored. Qed.
Print Assumptions C92_mirror_refuted.

Theorem C92_hatch_refuted : exists p v, planView (oT ++ [ot 100%float false]) [1; 2; 3]%nat false 10%float 15%float (-25)%float 30%float 8%float = Ok p /\ In v (plHatch p) /\
  forall t, In t (oT ++ [ot 100%float false]) -> (tY0 t <? snd v)%n = true.
Proof. exact @hatch_at_sea. Qed.
Print Assumptions C92_hatch_refuted.

Theorem C92_example : exists p L R, planView rT [1; 2; 3]%nat false (Fin 10) (Fin 15) (Fin (-25)) (Fin 30) (Fin 8) = Ok p /\
  pieces (plShore p) L R /\ ends L (Fin 26, Fin 60) /\ starts R (Fin 34, Fin 60) /\ In (Fin 20, Fin 60) L /\ In (Fin 40, Fin 60) R.
Proof. exact @shore_example. Qed.

Theorem C92_closed_example : exists p, planView rT [] true (Fin 10) (Fin 15) NaN NaN NaN = Ok p.
Proof. exact @plan_example_closed. Qed.

Local Open Scope Z_scope.
(** C93: which records an animation shows. *)
Theorem C93_frames : forall n start e every ks k, 0 < every -> frames n start e every = Ok ks ->
  (In k ks <-> start <= k < stop_at n e /\ (every | k - start)).
Proof. exact @frames_in. Qed.
Print Assumptions C93_frames.

Theorem C93_interval_zero : forall n start e, frames n start e 0 = Exc EValue.
Proof. exact @frames_zero. Qed.
Print Assumptions C93_interval_zero.

Theorem C93_end_excluded : forall n start e every ks, 0 < every -> frames n start (Some e) every = Ok ks -> ~ In e ks.
Proof. exact @end_excluded. Qed.
Print Assumptions C93_end_excluded.

Theorem C93_map : forall (F : Type) (NF : Num F) rw spit (f : ncfile F) start e every aoi pics, 0 <= start -> 0 < every ->
    mapAnimation rw spit f start e every aoi = Ok pics ->
    shows f (fun d => planView (rdT d) (rdIx d) (rdClosed d) rw spit (rdE0 d) (rdE1 d) (rdW d)) start every (stop_at (length (ncTimes f)) e) pics.
Proof. exact @map_shows. Qed.
Print Assumptions C93_map.

Theorem C93_longsection : forall (F : Type) (NF : Num F) P (f : ncfile F) start e every pics, 0 <= start -> 0 < every ->
    longSecAnimation P f start e every = Ok pics ->
    shows f (fun d => let! c := savedChannel P d in longSection (chDx c) (chElev c) (chWidth c) (chDep c) (chVel c) None) start every (stop_at (length (ncTimes f)) e) pics.
Proof. exact @long_shows. Qed.
Print Assumptions C93_longsection.

Theorem C93_transect : forall (F : Type) (NF : Num F) bt cl sl bs x (f : ncfile F) start e every pics, 0 <= start -> 0 < every ->
    transectAnimation bt cl sl bs x f start e every = Ok pics ->
    exists d i, readAt f start = Ok d /\ transectIx (rdT d) x = Ok i /\
      shows f (fun d => transectFig i (rdT d) (rdLWL d) (rdOWL d) (rdSea d) bt cl sl bs) start every (stop_at (length (ncTimes f)) e) pics.
Proof. exact @transect_shows. Qed.
Print Assumptions C93_transect.

Theorem C93_parameters : forall (F : Type) (NF : Num F) (P Q : phys F) d, pRiverWidth P = pRiverWidth Q -> pMinOutletWidth P = pMinOutletWidth Q -> pMaxOutletElev P = pMaxOutletElev Q ->
    savedChannel P d = savedChannel Q d.
Proof. exact @three_parameters. Qed.
Print Assumptions C93_parameters.

Theorem C93_closed_start : forall (F : Type) (NF : Num F) (r32 : F -> F), (f0 =? f0)%n = true -> (f1 =? f0)%n = false ->
  forall f l f' rw spit start e every aoi a, ncTimes f = [] -> writeAll r32 f l = Ok f' ->
  nth_error l start = Some a -> wClosed a = true ->
  exists ex, mapAnimation rw spit f' (Z.of_nat start) e every aoi = Exc ex.
Proof. exact @written_closed. Qed.
Print Assumptions C93_closed_start.

Theorem C93_example : exists s f pics lsecs, after vFill false 6 = Ok s /\
  @writeAll float sim_num (fun x => x) (mkNc simX 5 [] (fun _ _ => None)) (gOuts s) = Ok f /\ length (ncTimes f) = 3%nat /\
  @mapAnimation float sim_num 10%float 15%float f 0 None 2 None = Ok pics /\ length pics = 2%nat /\
  @longSecAnimation float sim_num (simP 0.0009765625%float) f 0 None 2 = Ok lsecs /\ length lsecs = 2%nat.
Proof. exact @open_animation. Qed.

Theorem C93_closed_refuted : exists s f lsecs, after vFill true 6 = Ok s /\
  @writeAll float sim_num (fun x => x) (mkNc simX 5 [] (fun _ _ => None)) (gOuts s) = Ok f /\ length (ncTimes f) = 6%nat /\
  @mapAnimation float sim_num 10%float 15%float f 0 None 1 None = Exc EIndex /\
  @longSecAnimation float sim_num (simP 0.0009765625%float) f 0 None 1 = Ok lsecs /\ length lsecs = 6%nat.
Proof. exact @closed_animation. Qed.
Print Assumptions C93_closed_refuted.
