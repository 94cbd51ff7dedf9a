(** Specification vocabulary for the self-description of result files. *)
From Coq Require Import ZArith List Bool String Lia.
From Verif Require Import Base Num MState MOut MNc.
Import ListNotations.
Local Open Scope string_scope.

(** A row of [k] values fits the declaration [d] in a file described by [h]: one value per time, or
    as many as a fixed dimension of the file has. *)
Definition fits {F} (h : header F) (d : vdecl) (k : nat) : Prop :=
  (vDims d = ["time"] /\ k = 1%nat) \/ (exists x, vDims d = ["time"; x] /\ In (x, Some k) (hdDims h)).
(** The values of a row are of the declared type. *)
Definition typed {F} {NF : Num F} (r32 : F -> F) (d : vdecl) (row : list F) : Prop :=
  match vType d with
  | NcF32 => Forall (fun x => exists y, x = r32 y) row
  | NcI8 => Forall (fun x => x = f0 \/ x = f1) row
  | NcF64 => False
  end.
(** [d] holds data for every time. *)
Definition inTime (d : vdecl) : Prop := hd_error (vDims d) = Some "time" /\ vName d <> "time".
(** The physical parameters that are not recorded. *)
Definition unrecorded : list string := ["MPM_coef"; "MPM_exp"; "GrainRoughness"].
(** The result file [f], described by [h], holds [n] records and nothing else. *)
Record described {F} {NF : Num F} (r32 : F -> F) (h : header F) (f : ncfile F) (n : nat) (holes : list string) : Prop := mkDescribed {
  ds_times : List.length (ncTimes f) = n;
  ds_once : NoDup (map vName (hdVars h)) /\ NoDup (map fst (hdDims h));
  ds_dims : forall d x, In d (hdVars h) -> In x (vDims d) -> In x (map fst (hdDims h));
  ds_rows : forall v k row, ncVar f v k = Some row -> (k < n)%nat /\
    exists d, In d (hdVars h) /\ vName d = v /\ inTime d /\ fits h d (List.length row) /\ typed r32 d row;
  ds_full : forall d k, In d (hdVars h) -> inTime d -> (k < n)%nat ->
    (ncVar f (vName d) k = None <-> In (vName d) holes)
}.
(** The calls of writeTsOut for a list of records. *)
Fixpoint tsAll {F} {NF : Num F} (r32 : F -> F) (f : ncfile F) (l : list (targs F)) : ncfile F :=
  match l with [] => f | b :: l => tsAll r32 (writeTsOut r32 f b) l end.

(** Coordinates of [x] under name [n] in the file. *)
Definition coord {F} (h : header F) (n : string) (l : list F) : Prop := In (n, l) (hdCoords h).
(** An instant with whole microseconds. *)
Definition wholeMicro (t : Z) : Prop := exists u, t = (1000 * u)%Z.
(** Midnight of the day of [t]: a multiple of a day (24 hours of nanoseconds) at most a day earlier. *)
Definition midnightOf (t e : Z) : Prop := exists d, e = (d * 86400000000000)%Z /\ (e <= t < e + 86400000000000)%Z.
