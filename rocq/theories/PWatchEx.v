Set Warnings "-inexact-float".
(** A run recorded often and seldom. *)
From Coq Require Import ZArith List Bool Floats.
From Verif Require Import Base Num Flt MState MCoast MRiv MMor MOut MCore SAdapt SWatch PWatch Sim SimEx PCoreEx.
Import ListNotations.

(** The run of PCoreEx that opens its outlet, with records of the coast every 150 s and of the time series every 1000 s. *)
Definition vRare : env float := mkEnv (vP vFill) (vN vFill) (vTP vFill) (vFlow vFill) (vSea vFill) (vWaves vFill) (sec 150) (sec 1000).
Definition recorded (v : env float) : res (list Z * list Z * bool) :=
  let! s := simInit vFill 30 true in let! s' := @steps float sim_num 100 6 0 simOr v s in Ok (map wTime (gOuts s'), map sTime (gTs s'), gClosed s').
Lemma recorded_often : recorded vFill = Ok (map sec [60; 120; 180; 240; 300; 360]%Z, map sec [60; 120; 180; 240; 300; 360]%Z, false).
Proof. vm_compute. reflexivity. Qed.
Lemma recorded_rare : recorded vRare = Ok (map sec [60; 240; 360]%Z, map sec [60]%Z, false).
Proof. vm_compute. reflexivity. Qed.
Lemma recorded_inv v a b c : recorded v = Ok (a, b, c) -> exists s s', simInit vFill 30 true = Ok s /\ @steps float sim_num 100 6 0 simOr v s = Ok s' /\
  map wTime (gOuts s') = a /\ map sTime (gTs s') = b /\ gClosed s' = c.
Proof.
  unfold recorded. intros H. apply bind_ok in H. destruct H as (s & E & H). apply bind_ok in H. destruct H as (s' & E' & H). apply Ok_inj in H.
  pose proof (f_equal (fun x => fst (fst x)) H) as Q1. pose proof (f_equal (fun x => snd (fst x)) H) as Q2. pose proof (f_equal snd H) as Q3. cbn [fst snd] in Q1, Q2, Q3.
  exists s, s'. exact (conj E (conj E' (conj Q1 (conj Q2 Q3)))).
Qed.
Lemma rare_same : sameSetup vFill vRare.
Proof. exact (conj eq_refl (conj eq_refl (conj eq_refl (conj eq_refl (conj eq_refl eq_refl))))). Qed.
Lemma watch_case : exists s s1 s2, simInit vFill 30 true = Ok s /\ sameSetup vFill vRare /\ samePlace s s /\
  @steps float sim_num 100 6 0 simOr vFill s = Ok s1 /\ @steps float sim_num 100 6 0 simOr vRare s = Ok s2 /\ gClosed s2 = false /\
  map wTime (gOuts s1) = map sec [60; 120; 180; 240; 300; 360]%Z /\ map wTime (gOuts s2) = map sec [60; 240; 360]%Z /\ map sTime (gTs s2) = map sec [60]%Z.
Proof.
  destruct (recorded_inv _ _ _ _ recorded_often) as (s & s1 & A1 & A2 & A3 & A4 & A5). destruct (recorded_inv _ _ _ _ recorded_rare) as (s' & s2 & B1 & B2 & B3 & B4 & B5).
  pose proof (Ok_inj (eq_trans (eq_sym A1) B1)) as Q. subst s'. exists s, s1, s2.
  exact (conj A1 (conj rare_same (conj (place_refl s) (conj A2 (conj B2 (conj B5 (conj A3 (conj B3 B4)))))))).
Qed.
