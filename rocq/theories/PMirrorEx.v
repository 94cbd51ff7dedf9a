Set Warnings "-inexact-float".
(** A pass and its mirror image, and what the mirror does not keep. *)
From Coq Require Import ZArith List Bool Reals Lra Lia Floats FinFun.
From Verif Require Import Base Num Xr Flt MState MCoast MRiv MMor MOut MCore SAdapt SMirror Sim SimEx PCoreEx.
Import ListNotations.

(** ** A pass in doubles *)
Definition sameF (x y : float) : bool := PrimFloat.eqb x y || (negb (PrimFloat.eqb x x) && negb (PrimFloat.eqb y y)).
Fixpoint sameL (l m : list float) : bool :=
  match l, m with [], [] => true | x :: l, y :: m => sameF x y && sameL l m | _, _ => false end.
Definition mirPass : res (state float * state float) :=
  let! s := after vFill false 0 in
  let! a := @step float sim_num 100 (simOr 0) vFill s in
  let! b := @step float sim_num 100 (simOr 0) (@acrossSetup float sim_num vFill) (@acrossRun float sim_num s) in Ok (a, b).
Definition waterMirrored (r : res (state float * state float)) : bool :=
  match r with
  | Ok (a, b) => sameL (gLWL b) (rev (gLWL a)) && sameL (gLVel b) (rev (gLVel a)) && sameL (gODep b) (rev (gODep a)) && sameL (gOVel b) (rev (gOVel a)) &&
                 sameL (gRDep b) (gRDep a) && sameL (gEDep b) (gEDep a)
  | Exc _ => false
  end.
Definition depthsOf (r : res (state float * state float)) : option (list bool * list bool) :=
  match r with Ok (a, b) => Some (map (fun x => PrimFloat.eqb x x) (gODep a), map (fun x => PrimFloat.eqb x x) (gODep b)) | Exc _ => None end.
Definition shoreAt (i : nat) (r : res (state float * state float)) : option (float * float) :=
  match r with Ok (a, b) => match nth_error (gT a) i, nth_error (gT b) (fromEnd 9 i) with Some t, Some u => Some (tY0 t, tY0 u) | _, _ => None end | Exc _ => None end.
Lemma mir_water : waterMirrored mirPass = true.
Proof. vm_compute. reflexivity. Qed.
Lemma mir_depths : depthsOf mirPass = Some ([false; false; false; false; false; true; false; false; false], [false; false; false; true; false; false; false; false; false]).
Proof. vm_compute. reflexivity. Qed.
(** The shoreline in front of the outlet does not move alike. *)
Lemma mir_shore : exists x y, shoreAt 5 mirPass = Some (x, y) /\ PrimFloat.ltb y x = true.
Proof. eexists. eexists. split; vm_compute; reflexivity. Qed.
Lemma mir_shore_beside : shoreAt 6 mirPass = match mirPass with Ok (a, _) => match nth_error (gT a) 6 with Some t => Some (tY0 t, tY0 t) | None => None end | Exc _ => None end.
Proof. vm_compute. reflexivity. Qed.

(** ** Channels *)
(** The lagoon is narrower left of the river. *)
Definition lopsided : list (tsect float) :=
  map (fun t => if PrimFloat.ltb (tX t) 0 then mkT (tX t) (tY0 t) (tY1 t) (tY2 t) 80%float (tY4 t) (tZ0 t) (tZ1 t) (tZ2 t) (tZ3 t) else t) (simShore 30).
Definition chanOf (T : list (tsect float)) (e0 e1 : float) : res (chan float) :=
  @assembleChannel float sim_num T e0 e1 30%float (-1)%float false [0.5; 0.25; 0; -0.25; -0.5]%float [2.5; 2.25; 2; 2; 2]%float [0; 0; 0; 0; 0]%float
    (rep 1.5) (rep 0) (rep 0) (rep 0) [0; 0]%float [0; 0]%float 20%float (simP 0.001).
Definition chanAcross (T : list (tsect float)) (e0 e1 : float) : res (chan float) := chanOf (@across float sim_num T) (- e0)%float (- e1)%float.
Definition areaOf (r : res (chan float)) : option float := match r with Ok c => Some (fold_right PrimFloat.add 0%float (chLagArea c)) | Exc _ => None end.
Definition lengthOf (r : res (chan float)) : option float := match r with Ok c => Some (fold_right PrimFloat.add 0%float (chDx c)) | Exc _ => None end.
Definition thruOf (r : res (chan float)) : option (list nat * list nat) := match r with Ok c => Some (chOnline c, chOutlet c) | Exc _ => None end.
Lemma chan_beside : areaOf (chanOf lopsided 10 30) = areaOf (chanAcross lopsided 10 30) /\ lengthOf (chanOf lopsided 10 30) = lengthOf (chanAcross lopsided 10 30) /\
  areaOf (chanOf lopsided 10 30) = Some 4000%float /\
  thruOf (chanOf lopsided 10 30) = Some ([4], [5]) /\ thruOf (chanAcross lopsided 10 30) = Some ([4], [3]).
Proof. repeat split; vm_compute; reflexivity. Qed.
Lemma chan_facing : areaOf (chanOf lopsided 0 30) = Some 4000%float /\ areaOf (chanAcross lopsided 0 30) = Some 2400%float.
Proof. split; vm_compute; reflexivity. Qed.
Lemma chan_grid : lengthOf (chanOf lopsided 10 40) = Some 180%float /\ lengthOf (chanAcross lopsided 10 40) = Some 200%float.
Proof. split; vm_compute; reflexivity. Qed.

(** ** The hypotheses in exact arithmetic *)
Local Open Scope R_scope.
Definition exX (k : Z) : tsect xr := mkT (Fin (IZR k * 20)) (Fin 200) (Fin 180) (Fin 150) (Fin 100) (Fin 50) (Fin 4) (Fin (-1)) (Fin (7 / 2)) (Fin (-1)).
Definition mirCoast : list (tsect xr) := map exX [-4; -3; -2; -1; 0; 1; 2; 3; 4]%Z.
Definition mirRep (x : R) : list xr := repeat (Fin x) 9.
Definition mirStart (v : env xr) : state xr :=
  mkS mirCoast (Fin 10) (Fin 30) (Fin 30) (Fin (-1)) [Fin 0; Fin 0] [Fin 2; Fin 2] [Fin 0; Fin 0] (mirRep 1) (mirRep 0) (mirRep 0) (mirRep 0) [Fin 0; Fin 0] [Fin 0; Fin 0] false
      0 60000000000 0 0 [] [].
Lemma mirCoast_nodup : NoDup (map tX mirCoast).
Proof.
  unfold mirCoast. rewrite map_map. apply Injective_map_NoDup with (l := [-4; -3; -2; -1; 0; 1; 2; 3; 4]%Z).
  - intros a b H. injection H as H. apply eq_IZR. lra.
  - repeat (apply NoDup_cons; [cbn; intuition lia|]). apply NoDup_nil.
Qed.
Lemma mir_met v : nDx (vN v) = Fin 20 -> twoSided v (mirStart v).
Proof.
  intros D. split; [apply mirCoast_nodup|]. split; [split; cbn; [intros H; injection H as H; lra|discriminate]|].
  split; [right|repeat split; reflexivity]. exists 30, 20. split; [reflexivity|]. split; [exact D|]. split; [lra|]. left. split; [cbn; intros H; injection H as H; lra|].
  intros k H. assert (K : IZR (2 * k) = IZR 3) by (rewrite mult_IZR; lra). apply eq_IZR in K. lia.
Qed.
