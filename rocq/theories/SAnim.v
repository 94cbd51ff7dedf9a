(** Specification vocabulary for animations (animate.py). *)
From Coq Require Import ZArith List.
From Verif Require Import Base Num MState MOut MRiv.
Import ListNotations.
Local Open Scope Z_scope.

(** First record not animated: the number of records or the requested end. *)
Definition stop_at (n : nat) (e : option Z) : Z := match e with None => Z.of_nat n | Some e => Z.min (Z.of_nat n) e end.
(** Picture [j] exists exactly if record [start + j * every] comes before [stop],
    and it shows that record. *)
Definition shows {F A} {NF : Num F} (f : ncfile F) (draw : rstep F -> res A) (start every stop : Z) (pics : list A) : Prop :=
  (forall j, (j < length pics)%nat <-> start + Z.of_nat j * every < stop) /\
  (forall j a, nth_error pics j = Some a ->
     exists d, readTimestep f (Z.to_nat (start + Z.of_nat j * every)) = Ok d /\ draw d = Ok a).

(** The channel of a saved record: every depth is the saved water level less the bed of the
    same place (river, outlet channel, outlet end); the spacing is that of the first two transects. *)
Definition savedChannel {F} {NF : Num F} (P : phys F) (d : rstep F) : res (chan F) :=
  bind (ix (rdT d) 0) (fun a => bind (ix (rdT d) 1) (fun b =>
    assembleChannel (rdT d) (rdE0 d) (rdE1 d) (rdW d) (rdZend d) (rdClosed d)
      (rdRiv d) (map2 (fun level bed => fsub level bed) (rdRWL d) (rdRiv d)) (rdRVel d) (rdLWL d) (rdLVel d)
      (map2 (fun level t => fsub level (tZ1 t)) (rdOWL d) (rdT d)) (rdOVel d)
      [fsub (rdEWL d) (rdZend d)] [rdEVel d] (fsub (tX b) (tX a)) P)).
