Set Warnings "-inexact-float".
(** Updates after which the next update cannot start, and an update of the proved kind. *)
From Coq Require Import ZArith List Bool Floats.
From Verif Require Import Base Num Flt MState MCoast MRiv MMor SMor STouch SNext SAdapt Sim SimEx PNext.
Import ListNotations.
Local Open Scope float_scope.

(** A coast of five transects with a closed outlet; [a] and [b] are the transects at x = -20 and x = 20. *)
Definition beach (x : float) : tsect float := mkT x 0 PrimFloat.nan PrimFloat.nan (-30) (-50) 4 PrimFloat.nan PrimFloat.nan (-1).
Definition five (a b : tsect float) : list (tsect float) := [beach (-40); a; beach 0; b; beach 40].
(** The update for 16 s; the waves carry [q] (m3/s) away from transect 1 *)
Definition fiveUpdate (a b : tsect float) (e0 q : float) : res (morOut float) :=
  @updateMorphology float sim_num 10 (fun _ => true) (fun _ => true) (simP 0.001) simN (simTP 0 64 16 4 16) (five a b) e0 20 5 (-1) [1; 1] [2]%nat []
    [2; 2; 2; 2; 2] [] [5; 5; 5] [1; 1; 1] [0;0;1]%nat true [0; q; q; q] [0; 0] [0; 0; 0; 0; 0] [false;false;false;false;false] (sec 16).

(** 1. The barrier at x = -20 is 1 cm wide; a relic channel at x = 20 is joined to the lagoon.  The sea breaks
    through at x = -20; the breach is taken for one on the channel at x = 20, so no channel is made. *)
Definition thin : tsect float := mkT (-20) 0 PrimFloat.nan PrimFloat.nan (-0.01) (-50) 4 PrimFloat.nan PrimFloat.nan (-1).
Definition relic : tsect float := mkT 20 0 (-5) (-15) (-30) (-50) 4 (-1) 3.5 (-1).
(** 2. At x = -20 a channel 9 cm wide lies close behind the shoreline and in front of a cliff without lagoon.  The sea
    breaks into it; filling it takes the shoreline behind the cliff. *)
Definition tight : tsect float := mkT (-20) 0 (-0.01) (-0.099) (-0.1) (-0.1) 4 (-2) 3 (-1).

Definition left (r : res (morOut float)) : res (bool * list bool) :=
  match r with Ok o => Ok (oBreach o, map (@stands float sim_num) (oT o)) | Exc e => Exc e end.
Lemma thin_left : left (fiveUpdate thin relic 20 0.5625) = Ok (true, [true; false; true; true; true]).
Proof. vm_compute. reflexivity. Qed.
Lemma tight_left : left (fiveUpdate tight (beach 20) PrimFloat.nan 0.5625) = Ok (false, [true; false; true; true; true]).
Proof. vm_compute. reflexivity. Qed.
(** the same updates with the sea at rest *)
Lemma thin_calm : left (fiveUpdate thin relic 20 0) = Ok (false, [true; true; true; true; true]).
Proof. vm_compute. reflexivity. Qed.
Lemma tight_calm : left (fiveUpdate tight (beach 20) PrimFloat.nan 0) = Ok (false, [true; true; true; true; true]).
Proof. vm_compute. reflexivity. Qed.
Lemma left_inv r b l : left r = Ok (b, l) -> exists o, r = Ok o /\ oBreach o = b /\ map (@stands float sim_num) (oT o) = l.
Proof. destruct r as [o|]; [|discriminate]. cbn [left]. intros H. apply Ok_inj in H. injection H as <- <-. eauto. Qed.
Lemma stuck {F} {NF : Num F} fuel j1 j2 P N TP (T : list (tsect F)) e0 e1 W Zend RiverElev online outlet LagoonWL OutletDep CW CD fl closed LST q CST OW dt :
  forallb stands T = false ->
  exists e, updateMorphology fuel j1 j2 P N TP T e0 e1 W Zend RiverElev online outlet LagoonWL OutletDep CW CD fl closed LST q CST OW dt = Exc e.
Proof.
  intros H. destruct (updateMorphology _ _ _ _ _ _ _ _ _ _ _ _ _ _ _ _ _ _ _ _ _ _ _ _ _) as [o|e] eqn:E; [|eauto]. apply update_stood in E. congruence.
Qed.
Lemma shown_stands {F} {NF : Num F} (T : list (tsect F)) l : map stands T = l -> forallb stands T = forallb (fun b => b) l.
Proof. intros <-. induction T as [|t T IH]; [reflexivity|]. cbn [forallb map]. rewrite IH. reflexivity. Qed.
Lemma thin_refuted : exists o, fiveUpdate thin relic 20 0.5625 = Ok o /\ oBreach o = true /\ map (@stands float sim_num) (oT o) = [true; false; true; true; true] /\
  forall fuel j1 j2 P N TP e0 e1 W Zend RiverElev online outlet LagoonWL OutletDep CW CD fl closed LST q CST OW dt,
  exists e, @updateMorphology float sim_num fuel j1 j2 P N TP (oT o) e0 e1 W Zend RiverElev online outlet LagoonWL OutletDep CW CD fl closed LST q CST OW dt = Exc e.
Proof.
  destruct (left_inv _ _ _ thin_left) as (o & E & B & S). exists o. split; [exact E|]. split; [exact B|]. split; [exact S|]. intros. apply stuck. rewrite (shown_stands _ _ S). reflexivity.
Qed.
Lemma tight_refuted : exists o, fiveUpdate tight (beach 20) PrimFloat.nan 0.5625 = Ok o /\ oBreach o = false /\ map (@stands float sim_num) (oT o) = [true; false; true; true; true] /\
  forall fuel j1 j2 P N TP e0 e1 W Zend RiverElev online outlet LagoonWL OutletDep CW CD fl closed LST q CST OW dt,
  exists e, @updateMorphology float sim_num fuel j1 j2 P N TP (oT o) e0 e1 W Zend RiverElev online outlet LagoonWL OutletDep CW CD fl closed LST q CST OW dt = Exc e.
Proof.
  destruct (left_inv _ _ _ tight_left) as (o & E & B & S). exists o. split; [exact E|]. split; [exact B|]. split; [exact S|]. intros. apply stuck. rewrite (shown_stands _ _ S). reflexivity.
Qed.
Lemma calm_case : (exists o, fiveUpdate thin relic 20 0 = Ok o /\ oBreach o = false /\ map (@stands float sim_num) (oT o) = [true; true; true; true; true]) /\
  exists o, fiveUpdate tight (beach 20) PrimFloat.nan 0 = Ok o /\ oBreach o = false /\ map (@stands float sim_num) (oT o) = [true; true; true; true; true].
Proof. exact (conj (left_inv _ _ _ thin_calm) (left_inv _ _ _ tight_calm)). Qed.
