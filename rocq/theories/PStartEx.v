Set Warnings "-inexact-float".
(** Example: a coast read from shapefiles. *)
From Coq Require Import ZArith List Bool Floats String Ascii.
From Verif Require Import Base Num Flt Sim SimEx MState MGeom MOut MCoast MRiv MMor MCore MLoad MSynth MConf SConf SRun SAdapt SOut PConf PConf2 PConf3 PConf4 PConfEx.
Import ListNotations.
Local Open Scope string_scope.

(** Model coordinates laid out in the world: origin (-5, 5), coast facing northwest. *)
Definition laid (l : list (float * float)) : list (float * float) :=
  let c := PrimFloat.sqrt 0.5 in
  map (fun p => (-5 - fst p * c + snd p * c, 5 - fst p * c - snd p * c)%float) l.
Definition exShp (n : string) : option (shp float) :=
  if String.eqb n "/home/hapua/shore.shp" then Some (mkShp 3 [laid [(-130, 100); (130, 100)]%float])
  else if String.eqb n "/home/hapua/river.shp" then Some (mkShp 1 [[(0, 0)%float]])
  else if String.eqb n "/home/hapua/lagoon.shp" then Some (mkShp 3 [laid [(-50, 20); (50, 20)]%float])
  else if String.eqb n "/home/hapua/cliff.shp" then Some (mkShp 3 [laid [(-140, 0); (140, 0)]%float])
  else if String.eqb n "/home/hapua/outlet.shp" then Some (mkShp 3 [laid [(-50, 30); (70, 70)]%float])
  else None.
Definition exShpEntries : entries :=
  (sSI, "Shoreline", "shore.shp") :: (sSI, "RiverLocation", "river.shp") :: (sSI, "BarrierBackshore", "lagoon.shp") ::
  (sSI, "CliffToe", "cliff.shp") :: (sSI, "OutletLocation", "outlet.shp") :: exEntries.
Definition exShpWorld : world float :=
  @mkWorld float (fun _ => true) (fun _ => written exShpEntries) (fun _ => None) exShp (fun _ => (1, 10)%float) exSeries exWaves exDraws.
Definition exShpLoad : res (model float) := @loadModel float sim_num exX exShpWorld (fun x => x) exFile.
Definition sizeOf (r : res (model float)) : option (nat * nat) :=
  match r with Ok m => Some (List.length (mdT m), List.length (filter (fun t => negb (PrimFloat.is_nan (tY1 t))) (mdT m))) | Exc _ => None end.
Definition keyOf (l : entries) (s k : string) : option (option (cval float)) :=
  match @validate float sim_num exX (written l) with Ok c => Some (c s k) | Exc _ => None end.
Lemma key_of l s k v c : keyOf l s k = Some v -> @validate float sim_num exX (written l) = Ok c -> c s k = v.
Proof. unfold keyOf. intros H E. rewrite E in H. injection H as H. exact H. Qed.
Lemma shp_size : sizeOf exShpLoad = Some (13, 5).
Proof. vm_compute. reflexivity. Qed.
Lemma straight_size : sizeOf (exLoad exEntries exFile) = Some (16, 1).
Proof. vm_compute. reflexivity. Qed.
Lemma shp_hot : keyOf exShpEntries "HotStart" "InitialConditionsNetCDF" = Some (Some CNone).
Proof. vm_compute. reflexivity. Qed.
Lemma shp_shore : keyOf exShpEntries "SpatialInputs" "Shoreline" = Some (Some (CS "shore.shp")).
Proof. vm_compute. reflexivity. Qed.
Lemma str_hot : keyOf exEntries "HotStart" "InitialConditionsNetCDF" = Some (Some CNone).
Proof. vm_compute. reflexivity. Qed.
Lemma str_shore : keyOf exEntries "SpatialInputs" "Shoreline" = Some (Some CNone).
Proof. vm_compute. reflexivity. Qed.
Lemma shp_valid : exists c, @validate float sim_num exX (written exShpEntries) = Ok c.
Proof. apply isOk_ex. vm_compute. reflexivity. Qed.
Lemma ex_shapes : (exists c, @validate float sim_num exX (written exShpEntries) = Ok c /\
    c "HotStart" "InitialConditionsNetCDF" = Some CNone /\ c "SpatialInputs" "Shoreline" = Some (CS "shore.shp")) /\
  sizeOf exShpLoad = Some (13, 5).
Proof. split; [|exact shp_size]. destruct shp_valid as [c E]. exists c. exact (conj E (conj (key_of _ _ _ _ _ shp_hot E) (key_of _ _ _ _ _ shp_shore E))). Qed.
Lemma ex_straight : (exists c, @validate float sim_num exX (written exEntries) = Ok c /\
    c "HotStart" "InitialConditionsNetCDF" = Some CNone /\ c "SpatialInputs" "Shoreline" = Some CNone) /\
  sizeOf (exLoad exEntries exFile) = Some (16, 1).
Proof. split; [|exact straight_size]. destruct ex_valid as [c E]. exists c. exact (conj E (conj (key_of _ _ _ _ _ str_hot E) (key_of _ _ _ _ _ str_shore E))). Qed.
