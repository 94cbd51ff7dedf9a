(** The plan view: concrete cases and refutations. *)
From Coq Require Import ZArith List Bool Lia Reals Lra Floats.
From Verif Require Import Base Num Xr Flt MState MGeom MRiv MMor MOut MLoad MVis SLine SPlan PTrans PRate PVis PLine PPlan PPlan2.
Import ListNotations.

(** Five transects, 20 m apart; the channel crosses the middle three. *)
Definition ot (x : float) (c : bool) : tsect float :=
  (mkT x 60 (if c then 40 else nan) (if c then 30 else nan) 20 0 3 (if c then 0 else nan) (if c then 3 else nan) (-1))%float.
Definition oT : list (tsect float) := ([ot (-40)%float false; ot (-20)%float true; ot 0%float true; ot 20%float true; ot 40%float false])%float.

(** The third last vertex of the left bank is not on the channel when the channel
    runs to the right. *)
Lemma left_bank_moved : exists p lb rb v,
  planView oT [1; 2; 3]%nat false 10%float 15%float (-25)%float 30%float 8%float = Ok p /\ pieces (plOutlet p) lb rb /\
  nth_error lb (length lb - 3)%nat = Some v /\ fst v = tX (ot 20%float true) /\ snd v = 37%float /\
  tY1 (ot 20%float true) = 40%float /\ tY2 (ot 20%float true) = 30%float.
Proof.
  do 4 eexists. split; [vm_compute; reflexivity|]. split; [|split; [|]].
  - unfold pieces. cbn [plOutlet]. instantiate (2 := [(-30, 20); (-30, 40); (-20, 40); (0, 40); (20, 37); (26, 40); (26, 60)]%float). cbn [app]. unfold lifted. reflexivity.
  - reflexivity.
  - repeat split.
Qed.

(** A mirrored coast does not give a mirrored drawing. *)
Definition flipX (l : list (float * float)) : list (float * float) := map (fun a => (0 - fst a, snd a)%float) l.
Lemma not_mirrored : exists p q lb rb lb' rb',
  planView oT [1; 2; 3]%nat false 10%float 15%float (-25)%float 30%float 8%float = Ok p /\ pieces (plOutlet p) lb rb /\
  planView oT [3; 2; 1]%nat false 10%float 15%float 25%float (-30)%float 8%float = Ok q /\ pieces (plOutlet q) lb' rb' /\
  (exists v, In v (flipX rb') /\ ~ In v lb) /\ flipX lb' = rb /\ length rb' = length lb.
Proof.
  exists (match planView oT [1; 2; 3]%nat false 10%float 15%float (-25)%float 30%float 8%float with Ok p => p | Exc _ => mkPlan [] [] [] [] [] [] [] end).
  exists (match planView oT [3; 2; 1]%nat false 10%float 15%float 25%float (-30)%float 8%float with Ok p => p | Exc _ => mkPlan [] [] [] [] [] [] [] end).
  exists [(-30, 20); (-30, 40); (-20, 40); (0, 40); (20, 37); (26, 40); (26, 60)]%float.
  exists [(-20, 20); (-20, 30); (0, 30); (20, 30); (30, 37); (34, 41); (34, 60)]%float.
  exists [(20, 20); (20, 30); (0, 30); (-20, 30); (-30, 37); (-34, 41); (-34, 60)]%float.
  exists [(30, 20); (30, 40); (20, 40); (0, 40); (-20, 40); (-26, 40); (-26, 60)]%float.
  split; [vm_compute; reflexivity|]. split; [vm_compute; reflexivity|]. split; [vm_compute; reflexivity|]. split; [vm_compute; reflexivity|].
  split; [|split; vm_compute; reflexivity]. exists (20, 40)%float. split; [vm_compute; tauto|].
  assert (D : forall a b : float * float, PrimFloat.eqb (snd a) (snd b) = false \/ PrimFloat.eqb (fst a) (fst b) = false -> (PrimFloat.eqb (snd a) (snd a) && PrimFloat.eqb (fst a) (fst a))%bool = true -> a <> b).
  { intros a b [H|H] E ->; apply andb_prop in E as [E1 E2]; congruence. }
  intros I. repeat destruct I as [I|I]; try contradiction; symmetry in I; revert I; apply D; vm_compute; auto.
Qed.

(** The hatched land reaches seaward of the whole shoreline. *)
Lemma hatch_at_sea : exists p v, planView (oT ++ [ot 100%float false]) [1; 2; 3]%nat false 10%float 15%float (-25)%float 30%float 8%float = Ok p /\ In v (plHatch p) /\
  forall t, In t (oT ++ [ot 100%float false]) -> (tY0 t <? snd v)%n = true.
Proof.
  exists (match planView (oT ++ [ot 100%float false]) [1; 2; 3]%nat false 10%float 15%float (-25)%float 30%float 8%float with Ok p => p | Exc _ => mkPlan [] [] [] [] [] [] [] end).
  exists (100, 100)%float. split; [vm_compute; reflexivity|]. split; [vm_compute; tauto|].
  intros t I. repeat destruct I as [<-|I]; try contradiction; reflexivity.
Qed.

(** The same coast in exact arithmetic. *)
Local Open Scope R_scope.
Definition rt (x : R) (c : bool) : tsect xr :=
  mkT (Fin x) (Fin 60) (if c then Fin 40 else NaN) (if c then Fin 30 else NaN) (Fin 20) (Fin 0) (Fin 3) (if c then Fin 0 else NaN) (if c then Fin 3 else NaN) (Fin (-1)).
Definition rT : list (tsect xr) := [rt (-40) false; rt (-20) true; rt 0 true; rt 20 true; rt 40 false].
Definition lvl (y : R) : list (R * R) := [(-40, y); (-20, y); (0, y); (20, y); (40, y)].
Lemma lvl_rightward y : rightward (lvl y).
Proof. repeat constructor; cbn; lra. Qed.
Lemma plan_example : exists p, planView rT [1; 2; 3]%nat false (Fin 10) (Fin 15) (Fin (-25)) (Fin 30) (Fin 8) = Ok p.
Proof.
  apply plan_ok. split; [cbn; lia|]. split.
  - exists (rt 0 true). split; [cbn; tauto|]. unfold has_lagoon. cbn [tY4 tY3 rt]. change (Rltb 0 20 = true). apply Rltb_true. lra.
  - split; [discriminate|]. repeat constructor; cbn; lia.
Qed.
Lemma plan_example_closed : exists p, planView rT [] true (Fin 10) (Fin 15) NaN NaN NaN = Ok p.
Proof. apply plan_ok. discriminate. Qed.
(** Mouth from 26 to 34: the shoreline is drawn up to there. *)
Lemma shore_example : exists p L R, planView rT [1; 2; 3]%nat false (Fin 10) (Fin 15) (Fin (-25)) (Fin 30) (Fin 8) = Ok p /\
  pieces (plShore p) L R /\ ends L (Fin 26, Fin 60) /\ starts R (Fin 34, Fin 60) /\ In (Fin 20, Fin 60) L /\ In (Fin 40, Fin 60) R.
Proof.
  destruct plan_example as [p H]. exists p.
  destruct (plan_shore rT _ _ _ _ _ _ _ (lvl 60) eq_refl (lvl_rightward 60) H) as (L & R & yl & yr & P & Ol & Or & _ & E1 & _ & E2 & I & _).
  assert (A : on_line (lvl 60) (30 - 8 / 2) 60) by (apply (ol_mid _ _ _ 3%nat (20, 60) (40, 60)); cbn; auto; lra).
  assert (B : on_line (lvl 60) (30 + 8 / 2) 60) by (apply (ol_mid _ _ _ 3%nat (20, 60) (40, 60)); cbn; auto; lra).
  rewrite (on_line_fun _ _ _ _ (lvl_rightward 60) Ol A) in E1. rewrite (on_line_fun _ _ _ _ (lvl_rightward 60) Or B) in E2.
  replace (30 - 8 / 2) with 26 in E1 by lra. replace (30 + 8 / 2) with 34 in E2 by lra.
  exists L, R. split; [exact H|]. split; [exact P|]. split; [exact E1|]. split; [exact E2|]. split.
  - apply (I 20 60); [cbn; tauto|lra].
  - apply (I 40 60); [cbn; tauto|lra].
Qed.
