(** Properties C90 and C91: long section and transect view. *)
From Coq Require Import ZArith List Bool Reals.
From Verif Require Import Base Num Xr MState MCoast MRiv MMor MOut MLoad MVis SVis PVis PVisEx PTrans.
Import ListNotations.
Local Open Scope R_scope.

(** C90: every line of the long section, point by point. *)
Theorem C90_lines : forall dx z b h v : list R, length z = S (length dx) -> length b = length z -> length h = length z -> length v = length z ->
  forall qs : option (list R), (forall q, qs = Some q -> length q = length dx /\ q <> []) ->
  exists s,
    longSection (map Fin dx) (map Fin z) (map Fin b) (map Fin h) (map Fin v) (option_map (map Fin) qs) = Ok s /\
    drawn (lsBed s) (S (length dx)) (chainage dx) (at_ z) /\
    drawn (lsWater s) (S (length dx)) (chainage dx) (fun i => at_ z i + at_ h i) /\
    drawn (lsEnergy s) (length dx) (mean (chainage dx)) (head (981 / 100) z h v) /\
    drawn (lsWidth s) (S (length dx)) (chainage dx) (at_ b) /\
    drawn (lsFlow s) (S (length dx)) (chainage dx) (fun i => at_ v i * at_ h i * at_ b i) /\
    drawn (lsVel s) (S (length dx)) (chainage dx) (at_ v) /\
    (length (lsFr s) = S (length dx) /\ forall i, (i < S (length dx))%nat -> 0 < at_ h i ->
       nth_error (lsFr s) i = Some (Fin (chainage dx i), Fin (Rabs (at_ v i) / sqrt (981 / 100 * at_ h i)))) /\
    (match qs with
     | None => lsQs s = None /\ lsQsLim s = None
     | Some q => exists l hi, lsQs s = Some l /\ drawn l (length dx) (mean (chainage dx)) (fun i => hourly (at_ q i)) /\
         lsQsLim s = Some (Fin 0, Fin hi) /\ 55 <= hi /\ Forall (fun x => hourly x <= hi) q
     end) /\
    exists lo hi, lsFlowLim s = (Fin lo, Fin hi) /\ lo <= 0 /\
      forall i, (i < S (length dx))%nat -> lo <= at_ v i * at_ h i * at_ b i <= hi.
Proof. exact long_section. Qed.
Print Assumptions C90_lines.

Theorem C90_chainage : forall dx, chainage dx 0 = 0 /\ (forall i, (i < length dx)%nat -> chainage dx (S i) - chainage dx i = at_ dx i) /\
  (Forall (fun d => 0 < d) dx -> forall i j, (i < j <= length dx)%nat -> chainage dx i < chainage dx j).
Proof. exact @chainage_steps. Qed.
Print Assumptions C90_chainage.

Theorem C90_steady : forall dx z b rough q dswl (N : nump xr) h v, solveSteady (map Fin dx) (map Fin z) (map Fin b) rough (Fin q) dswl N = Ok (map Fin h, map Fin v) ->
  length z = S (length dx) -> Forall (fun x => x <> 0) b -> Forall (fun x => x <> 0) h ->
  exists s, longSection (map Fin dx) (map Fin z) (map Fin b) (map Fin h) (map Fin v) None = Ok s /\
    drawn (lsFlow s) (S (length dx)) (chainage dx) (fun _ => q).
Proof. exact @long_steady. Qed.
Print Assumptions C90_steady.

Theorem C90_gravity_refuted : ~ (forall g dx z b h v s, 0 < g ->
  longSection (map Fin dx) (map Fin z) (map Fin b) (map Fin h) (map Fin v) None = Ok s ->
  length z = S (length dx) -> length b = length z -> length h = length z -> length v = length z ->
  drawn (lsEnergy s) (length dx) (mean (chainage dx)) (head g z h v)).
Proof. exact @gravity_fixed. Qed.
Print Assumptions C90_gravity_refuted.

Theorem C90_axis_refuted : ~ (forall dx z b h v q s l lo hi,
  longSection (map Fin dx) (map Fin z) (map Fin b) (map Fin h) (map Fin v) (Some (map Fin q)) = Ok s ->
  length z = S (length dx) -> length b = length z -> length h = length z -> length v = length z -> length q = length dx -> q <> [] ->
  lsQs s = Some l -> lsQsLim s = Some (Fin lo, Fin hi) -> forall x y, In (Fin x, Fin y) l -> lo <= y <= hi).
Proof. exact @bedload_axis. Qed.
Print Assumptions C90_axis_refuted.

Theorem C90_example : exists s,
  longSection [Fin 2; Fin 4] [Fin 3; Fin 2; Fin 0] [Fin 5; Fin 5; Fin 10] [Fin 1; Fin 1; Fin 2] [Fin 2; Fin 2; Fin (1 / 2)] None = Ok s /\
  lsWater s = [(Fin 0, Fin 4); (Fin 2, Fin 3); (Fin 6, Fin 2)] /\
  lsFlow s = [(Fin 0, Fin 10); (Fin 2, Fin 10); (Fin 6, Fin 10)].
Proof. exact @long_example. Qed.

(** C91: the transect nearest to the requested position, its title and its profile. *)
Theorem C91_nearest : forall (T : list (tsect xr)) (X : list R), map tX T = map Fin X -> forall x a z,
  nth_error X 0 = Some a -> nth_error X (length X - 1) = Some z ->
    (a <= x <= z -> exists i r, transectIx T (Fin x) = Ok i /\ nth_error X i = Some r /\
       (forall j s, nth_error X j = Some s -> Rabs (r - x) <= Rabs (s - x)) /\
       (forall j s, (j < i)%nat -> nth_error X j = Some s -> Rabs (r - x) < Rabs (s - x))) /\
    (x < a \/ z < x -> transectIx T (Fin x) = Exc EAssert).
Proof. exact nearest. Qed.
Print Assumptions C91_nearest.

Theorem C91_title : forall T X x i, map tX T = map Fin X -> In 0 X -> transectIx T (Fin x) = Ok i ->
  exists r, nth_error X i = Some r /\
    ((x < 0 /\ r <= 0 /\ transectTitle T (Fin x) i = Ok (Some (true, Fin (Rabs r)))) \/
     (x = 0 /\ r = 0 /\ transectTitle T (Fin x) i = Ok None) \/
     (0 < x /\ 0 <= r /\ transectTitle T (Fin x) i = Ok (Some (false, Fin (Rabs r))))).
Proof. exact @title. Qed.
Print Assumptions C91_title.

Theorem C91_ground : forall i (T : list (tsect xr)) lw ow sea bt cl sl bk f t g, transectFig i T lw ow sea (Fin bt) (Fin cl) (Fin sl) (Fin bk) = Ok f ->
  nth_error T i = Some t -> transect_is t g -> sl <> 0 ->
  let toe := gY0 g + (bt + cl) / sl in
  exists p, through (tfGround f) p /\ closed_below (tfGroundFill f) (tfGround f) /\
    segment p (toe, - cl) (gY0 g, bt) /\
    level p 1000 toe (- cl) /\ level p (gY4 g) (-1000) bk /\
    match gChan g with
    | None => level p (gY0 g) (gY3 g) (gZ0 g)
    | Some (y1, y2) => level p (gY0 g) y1 (gZ0 g) /\ level p y1 y2 (gZ1 g) /\ level p y2 (gY3 g) (gZ2 g)
    end /\
    (gY3 g <> gY4 g -> level p (gY3 g) (gY4 g) (gZ3 g)) /\
    (ordered g -> gY0 g <= toe <= 1000 -> -1000 <= gY4 g -> landward p).
Proof. exact @transect_ground. Qed.
Print Assumptions C91_ground.

Theorem C91_water : forall i (T : list (tsect xr)) lw ow sea bt cl sl bk f t g a b, transectFig i T lw ow (Fin sea) bt cl sl bk = Ok f ->
  nth_error T i = Some t -> transect_is t g -> nth_error lw i = Some (Fin a) -> nth_error ow i = Some (Fin b) ->
  exists p, through (tfWater f) p /\ closed_below (tfWaterFill f) (tfWater f) /\
    level p 1000 (gY0 g) sea /\
    (forall y1 y2, gChan g = Some (y1, y2) -> level p y1 y2 b) /\
    (gY3 g <> gY4 g -> level p (gY3 g) (gY4 g) a) /\
    (ordered g -> gY0 g <= 1000 -> landward p) /\
    (gChan g = None -> gY3 g = gY4 g -> length p = 2%nat).
Proof. exact @transect_water. Qed.
Print Assumptions C91_water.

Theorem C91_folds_refuted : ~ (forall i (T : list (tsect xr)) lw ow sea bt cl sl bk f t g p,
  transectFig i T lw ow sea (Fin bt) (Fin cl) (Fin sl) (Fin bk) = Ok f -> nth_error T i = Some t -> transect_is t g ->
  0 < bt -> 0 < cl -> 0 < sl -> ordered g -> through (tfGround f) p -> landward p).
Proof. exact @folds. Qed.
Print Assumptions C91_folds_refuted.

Theorem C91_example : transect_is exT exG /\ ordered exG /\
  exists f, transectFig 0 [exT] [Fin 1] [Fin 1] (Fin 0) (Fin 3) (Fin 5) (Fin (1 / 10)) (Fin 6) = Ok f.
Proof. exact @transect_example. Qed.

Theorem C91_nearest_example : exists T : list (tsect xr), map tX T = map Fin [-10; 0; 10] /\ In 0 [-10; 0; 10] /\ transectIx T (Fin (-4)) = Ok 1%nat.
Proof. exact @nearest_example. Qed.
