Set Warnings "-inexact-float".
(** An example of a restart. *)
From Coq Require Import ZArith List Bool Floats Lia.
From Verif Require Import Base Num Flt Sim MState MCoast MRiv MMor MOut MLoad MCore SAdapt SOut POut SRun SWatch SimEx SAgain PAgain.
Import ListNotations.
Local Open Scope float_scope.

Definition agEnv (start : Z) (oi : Z) : env float := simEnv (simTP start 3600 5 15 60) 50 0.5 1 oi 30.
Definition agDep (t : tsect float) : float := if PrimFloat.eqb (tZ1 t) (tZ1 t) then 2 else PrimFloat.nan.
Definition agAt (dt : Z) : state float :=
  mkS (simShore 30) 10 30 30 (-1) [0.5; 0.25; 0; -0.25; -0.5] [2; 2; 2; 2.25; 2.5] [0.5; 0.5; 0.5; 0.5; 0.5]
      (rep 1.5) (rep 0.25) (map agDep (simShore 30)) (rep 0.25) [2; 1.5] [0.5; 0.75] false (sec 120) (sec dt) (sec 180) (sec 150) [] [].
Definition agS : state float := agAt 15.
Definition agW : wargs float :=
  mkW (sec 120) 0.5 50 1 0.125 (gT agS) (gLWL agS) (gLVel agS) (rep 0) (gODep agS) (gOVel agS) (rep 0) (repeat 0 8) (rep 0) (rep 30)
      (gRiver agS) (gRDep agS) (gRVel agS) [0; 0; 0; 0; 0] 10 30 (-1) 30 [2; 1.5] [0.5; 0.75] [0; 0] false.
Definition agFile : ncfile float := mkNc (map tX (gT agS)) 5 [] (fun _ _ => None).
Definition agTwo (s : res (state float)) : res (Z * bool) := let! s := s in Ok (gTime s, PrimFloat.ltb (gE1 s) 30).
Notation asm := (@assembled float sim_num).
Notation stp := (@steps float sim_num).
Definition keep (x : float) : float := x.

Lemma ag_shows dt : shows agW (agAt dt).
Proof. repeat split. Qed.
Lemma ag_keeps : @keeps float sim_num keep agW.
Proof.
  split; [apply Forall_forall; reflexivity|]. split; [repeat constructor|]. split; [|split; [reflexivity|split; [reflexivity|]]].
  - vm_compute. repeat constructor.
  - intros d l E. injection E as <- <-. vm_compute. reflexivity.
Qed.
Lemma ag_written : exists f', @writeAll float sim_num keep agFile [agW] = Ok f'.
Proof.
  destruct (@write_ok float sim_num keep agFile agW) as [f' E]; [vm_compute; repeat split; lia|]. exists f'. cbn [writeAll]. rewrite E. reflexivity.
Qed.
Lemma ag_asm dt : exists c, asm (agEnv 0 60) (agAt dt) = Ok c /\ chClosed c = false.
Proof.
  destruct (asm (agEnv 0 60) (agAt dt)) as [c|e] eqn:E.
  - exists c. split; [reflexivity|]. apply (f_equal (fun r => match r with Ok c => chClosed c | _ => true end)) in E. rewrite <- E. vm_compute. reflexivity.
  - apply (f_equal (fun r => match r with Ok _ => true | _ => false end)) in E. vm_compute in E. discriminate.
Qed.
Lemma ag_from : @from float (gTime agS) (agEnv 0 60) (agEnv 120 600).
Proof. repeat split. Qed.
Lemma ag_closest : closest (map wTime [agW]) (sec 119) 0 /\ forall j, closest (map wTime [agW]) (sec 119) j -> j = 0%nat.
Proof.
  split.
  - exists (sec 120). split; [reflexivity|]. intros [|j] u Hu; [injection Hu as <-; apply Z.le_refl|destruct j; discriminate].
  - intros [|j] (u & Hu & _); [reflexivity|destruct j; discriminate].
Qed.
Lemma ag_steps : agTwo (stp 100 2 0 simOr (agEnv 0 60) agS) = Ok (sec 195, true).
Proof. vm_compute. reflexivity. Qed.
Lemma two_inv r t b : agTwo r = Ok (t, b) -> exists s, r = Ok s /\ gTime s = t /\ PrimFloat.ltb (gE1 s) 30 = b.
Proof. destruct r as [s|e]; cbn; intros H; [|discriminate]. injection H as H1 H2. eauto. Qed.
Lemma ag_numbers : Forall (fun x => @fisnan float sim_num x = false) (gRDep agS) /\ Forall (fun x => @fisnan float sim_num x = false) (gRVel agS).
Proof. split; repeat (constructor; [vm_compute; reflexivity|]); constructor. Qed.
Lemma ag_moving : exists x, In x (gLVel agS) /\ @feqb float sim_num x (@f0 float sim_num) = false.
Proof. exists 0.25. split; [left; reflexivity|vm_compute; reflexivity]. Qed.
Lemma ag_at : (exists q, @at1 float sim_num (vFlow (agEnv 0 60)) (gTime agS) = Ok q) /\ (exists z, @at1 float sim_num (vSea (agEnv 0 60)) (gTime agS) = Ok z).
Proof. split; eexists; vm_compute; reflexivity. Qed.

Lemma ag_restart : exists f' h s0, @writeAll float sim_num keep agFile [agW] = Ok f' /\ @hotLoad float sim_num keep f' (sec 119) 0 true 20 = Ok h /\ htStart h = sec 120 /\
  @begins float sim_num (agEnv 120 600) h = Ok s0 /\ samePlace agS s0 /\
  forall af n j o, alike (stp af n j o (agEnv 0 60) agS) (stp af n j o (agEnv 120 600) s0) /\
                   alike (@loop float sim_num af n j o (agEnv 0 60) agS) (@loop float sim_num af n j o (agEnv 120 600) s0).
Proof.
  destruct ag_written as [f' W]. destruct (ag_asm 15) as (c & A & C). destruct ag_closest as [C1 C2]. destruct ag_numbers as [N1 N2]. destruct ag_at as [Q1 Q2].
  destruct (@restart float sim_num keep) with (f := agFile) (l := [agW]) (f' := f') (want := sec 119) (start := 0%Z) (Dx := 20) (k := 0%nat) (w := agW)
    (x0 := -80) (x1 := -60) (s := agS) (v := agEnv 0 60) (v' := agEnv 120 600) (c := c) as (h & s0 & H1 & H2 & H3 & H4 & H5).
  1, 2: vm_compute; reflexivity.
  1: reflexivity.
  1: exact W.
  1, 2: reflexivity.
  1: vm_compute; reflexivity.
  1: reflexivity.
  1: exact C1.
  1: exact C2.
  1: reflexivity.
  1: exact (ag_shows 15).
  1: exact ag_keeps.
  1: exact ag_from.
  1: reflexivity.
  1: exact A.
  1: exact C.
  1: reflexivity.
  1: exact N1.
  1: exact N2.
  1: exact ag_moving.
  1: exact Q1.
  1: exact Q2.
  exists f', h, s0. exact (conj W (conj H1 (conj H2 (conj H3 (conj H4 H5))))).
Qed.

Lemma again_case : exists f' h s0 s1 s2, shows agW agS /\ @keeps float sim_num keep agW /\ @writeAll float sim_num keep agFile [agW] = Ok f' /\
  @hotLoad float sim_num keep f' (sec 119) 0 true 20 = Ok h /\ @begins float sim_num (agEnv 120 600) h = Ok s0 /\
  stp 100 2 0 simOr (agEnv 0 60) agS = Ok s1 /\ stp 100 2 0 simOr (agEnv 120 600) s0 = Ok s2 /\ gTime s2 = sec 195 /\ gE1 s1 = gE1 s2 /\ PrimFloat.ltb (gE1 s2) 30 = true.
Proof.
  destruct ag_restart as (f' & h & s0 & H1 & H2 & _ & H4 & _ & H6). destruct (two_inv _ _ _ ag_steps) as (s1 & E1 & T1 & B1).
  destruct (H6 100%nat 2%nat 0%nat simOr) as [AL _]. rewrite E1 in AL. destruct (stp 100 2 0 simOr (agEnv 120 600) s0) as [s2|e] eqn:E2; [|destruct AL].
  assert (G : gTime s1 = gTime s2 /\ gE1 s1 = gE1 s2) by (unfold alike, samePlace in AL; tauto). destruct G as [G1 G2].
  exists f', h, s0, s1, s2. rewrite <- G1, <- G2.
  exact (conj (ag_shows 15) (conj ag_keeps (conj H1 (conj H2 (conj H4 (conj E1 (conj E2 (conj T1 (conj eq_refl B1))))))))).
Qed.

(** With a longer step the record looks the same, and the restarted run takes other steps. *)
Lemma again_differs : exists f' h s0 s1 s2, shows agW (agAt 60) /\ @keeps float sim_num keep agW /\ @writeAll float sim_num keep agFile [agW] = Ok f' /\
  @hotLoad float sim_num keep f' (sec 119) 0 true 20 = Ok h /\ @begins float sim_num (agEnv 120 600) h = Ok s0 /\
  stp 100 1 0 simOr (agEnv 0 60) (agAt 60) = Ok s1 /\ stp 100 1 0 simOr (agEnv 120 600) s0 = Ok s2 /\ gTime s1 = sec 135 /\ gTime s2 = sec 180.
Proof.
  destruct ag_restart as (f' & h & s0 & H1 & H2 & _ & H4 & _ & H6).
  assert (K : exists b, agTwo (stp 100 1 0 simOr (agEnv 0 60) (agAt 60)) = Ok (sec 135, b)) by (eexists; vm_compute; reflexivity).
  assert (L : exists b, agTwo (stp 100 1 0 simOr (agEnv 0 60) agS) = Ok (sec 180, b)) by (eexists; vm_compute; reflexivity).
  destruct K as [b K]. destruct L as [d L].
  destruct (two_inv _ _ _ K) as (s1 & E1 & T1 & _). destruct (two_inv _ _ _ L) as (s3 & E3 & T3 & _).
  destruct (H6 100%nat 1%nat 0%nat simOr) as [AL _]. rewrite E3 in AL. destruct (stp 100 1 0 simOr (agEnv 120 600) s0) as [s2|e] eqn:E2; [|destruct AL].
  assert (G : gTime s3 = gTime s2) by (unfold alike, samePlace in AL; tauto).
  exists f', h, s0, s1, s2. rewrite <- G.
  exact (conj (ag_shows 60) (conj ag_keeps (conj H1 (conj H2 (conj H4 (conj E1 (conj E2 (conj T1 T3)))))))).
Qed.
