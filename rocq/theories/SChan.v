(** Specifications for riv.py assembleChannel. *)
From Coq Require Import Reals ZArith List Bool.
From Verif Require Import Xr Num MState.
Import ListNotations.
Local Open Scope R_scope.

(** Transects at finite, strictly increasing positions, with finite lagoon edges. *)
Definition increasing (xs : list R) : Prop :=
  forall i j x y, (i < j)%nat -> nth_error xs i = Some x -> nth_error xs j = Some y -> x < y.
Definition finiteT (t : tsect xr) : Prop := is_fin (tX t) /\ is_fin (tY3 t) /\ is_fin (tY4 t).
Definition grid (T : list (tsect xr)) : Prop :=
  Forall finiteT T /\ increasing (map (fun t => rv (tX t)) T).

Definition posX (t : tsect xr) : R := rv (tX t).
Definition lagW (t : tsect xr) : R := rv (tY3 t) - rv (tY4 t).

(** Outlet width; a transect without outlet channel counts as width 0. *)
Definition outW (t : tsect xr) : xr :=
  match fsub (tY1 t) (tY2 t) with NaN => Fin 0 | w => w end.

(** Some outlet transect is too narrow: the outlet lies between its two ends. *)
Definition narrowOutlet (T : list (tsect xr)) (e0 e1 : R) (min : xr) : Prop :=
  exists t, In t T /\ Rmin e0 e1 <= posX t <= Rmax e0 e1 /\ fleb (outW t) min = true.

(** Position between river (X = 0, included) and outlet (excluded unless at 0). *)
Definition towards (e0 x : R) : Prop := (0 <= x < e0) \/ (e0 < x <= 0) \/ (x = 0 /\ e0 = 0).
Definition narrowLagoon (T : list (tsect xr)) (e0 : R) (min : xr) : Prop :=
  exists t, In t T /\ towards e0 (posX t) /\ fltb (Fin (lagW t)) min = true.

(** Lagoon area of the transects whose position satisfies [p]; [d] is the transect spacing. *)
Definition areaWhere (d : R) (p : R -> bool) (T : list (tsect xr)) : R :=
  fold_right Rplus 0 (map (fun t => if p (posX t) then lagW t * d else 0) T).
(** Length of the wet part of the lagoon. *)
Definition lengthWhere (d : R) (p : R -> bool) (T : list (tsect xr)) : R :=
  fold_right Rplus 0 (map (fun t => if p (posX t) && Rltb 0 (lagW t) then d else 0) T).

(** The side of the river away from the outlet, the side towards it (river included), the part
    beyond the outlet, and the part between river and outlet. *)
Definition farSide (e0 x : R) : bool := if Rltb 0 e0 then Rltb x 0 else Rltb 0 x.
Definition nearSide (e0 x : R) : bool := if Rltb e0 0 then Rleb x 0 else Rleb 0 x.
Definition beyond (e0 x : R) : bool := if Rltb e0 0 then Rltb x e0 else Rltb e0 x.
Definition towardsb (e0 x : R) : bool :=
  (Rleb 0 x && Rltb x e0) || (Rltb e0 x && Rleb x 0) || (Reqb x 0 && Reqb e0 0).

(** The outlet is shut before the lagoon is looked at. *)
Definition shutAtOutlet (T : list (tsect xr)) (e0 e1 : R) (eW : xr) (Closed : bool) (min : xr) : Prop :=
  Closed = true \/ narrowOutlet T e0 e1 min \/ fleb eW min = true.

(** Lagoon area and wet length of the listed transects. *)
Definition areaOn (d : R) (T : list (tsect xr)) (idx : list nat) : R :=
  fold_right Rplus 0 (map (fun i => match nth_error T i with Some t => lagW t * d | None => 0 end) idx).
Definition lengthOn (d : R) (T : list (tsect xr)) (idx : list nat) : R :=
  fold_right Rplus 0 (map (fun i => match nth_error T i with
                                    | Some t => if Rltb 0 (lagW t) then d else 0 | None => 0 end) idx).
Definition total (l : list xr) : R := fold_right Rplus 0 (map rv l).

(** Offline areas [sa] and [ea] sit at the first and last online section (sections [nr] to
    [last]); the latter wins if they coincide.  Seepage lengths: each online section has the
    spacing; [sl] and [el] are added at the two ends. *)
Definition attachedArea (nr last : nat) (sa ea : R) (l : list xr) : Prop :=
  forall i x, nth_error l i = Some x -> x = Fin (if Nat.eqb i last then ea else if Nat.eqb i nr then sa else 0).
Definition attachedLength (nr last : nat) (d sl el : R) (l : list xr) : Prop :=
  forall i x, nth_error l i = Some x ->
    x = Fin ((if Nat.leb nr i && Nat.leb i last then d else 0)
             + (if Nat.eqb i nr then sl else 0) + (if Nat.eqb i last then el else 0)).

(** [x] interpolates the known values at position [i]: linear between the nearest known
    neighbours, constant beyond the first and last known value. *)
Definition interpolated {F} {NF : Num F} (known : nat -> F -> Prop) (i : nat) (x : F) : Prop :=
  (exists p q a b, (p < i < q)%nat /\ known p a /\ known q b /\
     (forall j y, (p < j < q)%nat -> ~ known j y) /\
     x = fadd (fmul (fdiv (fsub b a) (fofZ (Z.of_nat q - Z.of_nat p))) (fofZ (Z.of_nat i - Z.of_nat p))) a) \/
  (exists p, (p < i)%nat /\ known p x /\ forall j y, (p < j)%nat -> ~ known j y) \/
  (exists q, (i < q)%nat /\ known q x /\ forall j y, (j < q)%nat -> ~ known j y).

Definition present {F} {NF : Num F} (l : list F) (i : nat) (x : F) : Prop :=
  nth_error l i = Some x /\ fisnan x = false.

(** Depths: present ones are kept, missing ones interpolated. *)
Definition filledDep {F} {NF : Num F} (raw out : list F) : Prop :=
  length out = length raw /\
  forall i x y, nth_error raw i = Some x -> nth_error out i = Some y ->
    if fisnan x then interpolated (present raw) i y else y = x.
(** Velocities: the flow per unit width is interpolated. *)
Definition filledVel {F} {NF : Num F} (dep raw out : list F) : Prop :=
  length out = length raw /\
  forall i x y, nth_error raw i = Some x -> nth_error out i = Some y ->
    if fisnan x then exists v d, interpolated (fun j q => exists u h, present raw j u /\ nth_error dep j = Some h /\ q = fmul h u) i v
                                 /\ nth_error dep i = Some d /\ y = fdiv v d
    else y = x.

(** The values the channel is assembled from, section by section. *)
Definition lookup {A} (l : list A) (idx : list nat) (xs : list A) : Prop := Forall2 (fun i x => nth_error l i = Some x) idx xs.
Definition rawDepths {F} {NF : Num F} (T : list (tsect F)) (closed : bool) (RivDep LagoonWL OutletDep EndDep : list F)
           (online outlet : list nat) (raw : list F) : Prop :=
  exists ts wl od, lookup T online ts /\ lookup LagoonWL online wl /\ (closed = false -> lookup OutletDep outlet od) /\
    raw = RivDep ++ map (fun wt => fsub (fst wt) (tZ3 (snd wt))) (combine wl ts)
          ++ (if closed then [] else od ++ match EndDep with [x] => [x; fnan] | _ => EndDep end).
(** A closed channel ends in still water. *)
Definition rawVels {F} {NF : Num F} (closed : bool) (RivVel LagoonVel OutletVel EndVel : list F)
           (online outlet : list nat) (raw : list F) : Prop :=
  exists lv ov, lookup LagoonVel online lv /\ (closed = false -> lookup OutletVel outlet ov) /\
    raw = RivVel ++ (if closed then removelast lv ++ [f0]
                     else lv ++ ov ++ match EndVel with [x] => [x; fnan] | _ => EndVel end).
