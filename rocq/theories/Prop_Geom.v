(** C01-C04: geom.py. *)
From Coq Require Import Reals List Floats.
From Verif Require Import Base Num Xr Flt MGeom SGeom PGeom PTrimLine.
Local Open Scope R_scope.

Theorem C01_world_model_world : forall X Y ox oy d : R,
  let m := real2mod (Fin X) (Fin Y) (Fin ox, Fin oy) (Fin d) in
  mod2real (fst m) (snd m) (Fin ox, Fin oy) (Fin d) = (Fin X, Fin Y).
Proof. exact world_roundtrip. Qed.
Print Assumptions C01_world_model_world.

Theorem C01_example :
  real2mod (Fin 3) (Fin 4) (Fin 1, Fin 1) (Fin (PI / 2)) = (Fin (-3), Fin 2).
Proof. exact world_example. Qed.

Theorem C02_model_world_model : forall x y ox oy d : R,
  let w := mod2real (Fin x) (Fin y) (Fin ox, Fin oy) (Fin d) in
  real2mod (fst w) (snd w) (Fin ox, Fin oy) (Fin d) = (Fin x, Fin y).
Proof. exact model_roundtrip. Qed.
Print Assumptions C02_model_world_model.

Theorem C02_isometry : forall (p q o : pt2) (d : R),
  exists p' q',
    mod2real (Fin (fst p)) (Fin (snd p)) (fp o) (Fin d) = fp p' /\
    mod2real (Fin (fst q)) (Fin (snd q)) (fp o) (Fin d) = fp q' /\
    dist2 p' q' = dist2 p q.
Proof. exact transform_isometry. Qed.
Print Assumptions C02_isometry.

Theorem C02_example :
  mod2real (Fin (-3)) (Fin 2) (Fin 1, Fin 1) (Fin (PI / 2)) = (Fin 3, Fin 4).
Proof. exact model_example. Qed.

Theorem C03_intersect : forall (l : list pt2) (x : R),
  exists c, intersectPolyline (map fp l) (Fin x) = Ok (map Fin c) /\ crossings x l c.
Proof. exact intersect_spec. Qed.
Print Assumptions C03_intersect.

Theorem C03_crossings_unique : forall (l : list pt2) (x : R) (c c' : list R),
  crossings x l c -> crossings x l c' -> c = c'.
Proof. exact crossings_unique. Qed.
Print Assumptions C03_crossings_unique.

Theorem C03_closed_even : forall (l : list pt2) (x : R) (p : pt2) (ys : list xr),
  nth_error l 0 = Some p -> nth_error (rev l) 0 = Some p ->
  intersectPolyline (map fp l) (Fin x) = Ok ys -> Nat.even (length ys) = true.
Proof. exact intersect_closed. Qed.
Print Assumptions C03_closed_even.

Theorem C03_example :
  intersectPolyline (map fp [(0, 0); (2, 2); (0, 4); (0, 0)]) (Fin 1) = Ok [Fin 1; Fin 3].
Proof. exact intersect_example. Qed.

Theorem C04_trimLine : forall (fuel : nat) (L : list pt2) (TX SY EY : list R) (L' : list (xr * xr)),
  (3 <= length L)%nat -> length TX = length SY -> length TX = length EY -> increasing TX ->
  trimLine fuel (map fp L) (map Fin TX) (map Fin SY) (map Fin EY) = Ok L' ->
  length L' = length L /\
  (forall i, (0 < i < length L - 1)%nat -> nth_error L' i = nth_error (map fp L) i) /\
  (forall a b x' y', nth_error L 0 = Some a -> nth_error L 1 = Some b ->
     nth_error L' 0 = Some (Fin x', y') ->
     exists yr j, y' = Fin yr /\ on_line a b (x', yr) /\ on_seg TX SY j (x', yr)) /\
  (forall y z x' y', nth_error L (length L - 2) = Some y -> nth_error L (length L - 1) = Some z ->
     nth_error L' (length L - 1) = Some (Fin x', y') ->
     exists yr j, y' = Fin yr /\ on_line y z (x', yr) /\ on_seg TX EY j (x', yr)).
Proof. exact trimLine_spec. Qed.
Print Assumptions C04_trimLine.

Theorem C04_example :
  trimLine 1 (map fp [(1, 1); (1, 2); (1, 3)]) (map Fin [0; 2]) (map Fin [0; 0]) (map Fin [5; 7]) =
  Ok (map fp [(1, 0); (1, 2); (1, 6)]) /\ increasing [0; 2].
Proof. exact (conj trim_example trim_example_pre). Qed.

(** The search does not always end: on this line and trim line every fuel runs out. *)
Theorem C04_terminates_refuted : exists (Line : list (float * float)) (TX TY : list float),
  (forall fuel, trimLine fuel Line TX TY TY = Exc EFuel) /\
  Line = [(0.5, 20); (1.5, 21); (1.5, 22)]%float /\ TX = [0; 1; 2]%float /\ TY = [0; 10; 0]%float.
Proof. exact (ex_intro _ loopLine (ex_intro _ loopX (ex_intro _ loopY (conj trimLine_loops (conj eq_refl (conj eq_refl eq_refl)))))). Qed.
Print Assumptions C04_terminates_refuted.

(** With straight trim lines, reached within their extent, the search succeeds. *)
Theorem C04_succeeds : forall (f : nat) (L : list pt2) (TX : list R) (m1 c1 m2 c2 : R) (a b y z : pt2) (h e x1 x2 : R),
  (3 <= length L)%nat -> increasing TX -> (length TX <= f)%nat -> nth_error TX 0 = Some h -> nth_error TX (length TX - 1) = Some e ->
  nth_error L 0 = Some a -> nth_error L 1 = Some b -> nth_error L (length L - 2) = Some y -> nth_error L (length L - 1) = Some z ->
  h < fst a <= e -> h < fst z <= e -> h <= x1 <= e -> h <= x2 <= e -> meets a b m1 c1 x1 -> meets y z m2 c2 x2 ->
  exists L', trimLine f (map fp L) (map Fin TX) (map Fin (straight m1 c1 TX)) (map Fin (straight m2 c2 TX)) = Ok L' /\
    nth_error L' 0 = Some (Fin x1, Fin (m1 * x1 + c1)) /\ nth_error L' (length L - 1) = Some (Fin x2, Fin (m2 * x2 + c2)).
Proof. exact trim_succeeds. Qed.
Print Assumptions C04_succeeds.

(** Both end nodes must lie in a segment of the trim line, its left end excluded. *)
Theorem C04_range : forall (f : nat) (L : list pt2) (TX : list R) (SY EY : list xr) (L' : list (xr * xr)) (a z : pt2), (2 <= length L)%nat ->
  trimLine f (map fp L) (map Fin TX) SY EY = Ok L' -> nth_error L 0 = Some a -> nth_error L (length L - 1) = Some z ->
  in_some_seg TX (fst a) /\ in_some_seg TX (fst z).
Proof. exact trim_range. Qed.
Print Assumptions C04_range.

Theorem C04_outside : forall (f : nat) (L : list pt2) (TX : list R) (SY EY : list xr) (a b : pt2),
  nth_error L 0 = Some a -> nth_error L 1 = Some b -> ~ in_some_seg TX (fst a) ->
  trimLine f (map fp L) (map Fin TX) SY EY = Exc EIndex.
Proof. exact trim_outside. Qed.
Print Assumptions C04_outside.

Theorem C04_straight_example :
  increasing [0; 1; 2; 3] /\ meets (3, 1) (2, 2) 0 3 1 /\ meets (2, 2) (3, 4) 1 0 2 /\ ~ in_some_seg [0; 1; 2; 3] 0.
Proof. exact straight_example. Qed.
