(** Passes of the small hapua of SimEx.v with changing boundary conditions, by computation. *)
From Coq Require Import ZArith List Bool Floats Lia.
From Verif Require Import Base Num Flt MState MCoast MRiv MMor MOut MCore SAdapt SRun SStep PCore Sim SimEx PCoreEx PStep.
Import ListNotations.
Local Open Scope Z_scope.

Definition rise (a b : float) : series float := [(sec 0, a); (sec 64, b)].
Definition vRise : env float :=
  mkEnv (simP 0.0009765625) simN (simTP 0 64 4 16 32) (rise 50 82) (rise 0.5 1) (mkWaves (rise 0.125 0.25) (rise 1000 1016) (rise 8 9) (rise 70 78) (rise 1 2)) (sec 16) (sec 16).
Definition badOr (_ : nat) : oracle float := mkOr (fun _ _ => SSingular) (fun _ => true) (fun _ => true).
Definition riseRun (o : nat -> oracle float) (n : nat) : res (state float) :=
  let! s := simInit vRise 30 false in @steps float sim_num 100 n 0 o vRise s.

(** What is needed of a pass, as closed values: the forcing, whether the unsteady solution exists, and the records written. *)
Definition val1 (b : series float) (t : Z) : res float := let! l := @interpolateAt float sim_num b [t] in ix l 0.
Definition probe (o : nat -> oracle float) (n : nat) : res (forcing float * bool * list (Z * float * float) * list (Z * float * float)) :=
  let! s := riseRun o n in let! s' := @step float sim_num 100 (o n) vRise s in let! c := @SRun.assembled float sim_num vRise s in
  let t := hydTimes (gTime s) (gDt s) (tHydDt (vTP vRise)) in
  let! flow := @interpolateAt float sim_num (vFlow vRise) t in let! sea := @interpolateAt float sim_num (vSea vRise) t in
  let! q := last_ flow in let! w := last_ sea in
  let! d := val1 (wvDir (vWaves vRise)) (gTime s) in let! p := val1 (wvPow (vWaves vRise)) (gTime s) in
  let! e := val1 (wvPer (vWaves vRise)) (gTime s) in let! l := val1 (wvLen (vWaves vRise)) (gTime s) in let! h := val1 (wvHs (vWaves vRise)) (gTime s) in
  Ok (mkForcing w q d p e l h, match @unsteady float sim_num (o n) vRise c flow sea with Ok _ => true | _ => false end,
      map (fun w => (wTime w, wSea w, wFlow w)) (gOuts s'), map (fun w => (sTime w, sSea w, sFlow w)) (gTs s')).
Lemma probe_inv o n f b ws ts : probe o n = Ok (f, b, ws, ts) -> exists s s' c sea flow,
  @run float sim_num 100 n o vRise s /\ @step float sim_num 100 (o n) vRise s = Ok s' /\ @SRun.assembled float sim_num vRise s = Ok c /\
  @forcedBy float sim_num vRise s sea flow f /\
  (if b then exists r, @unsteady float sim_num (o n) vRise c flow sea = Ok r else exists e, @unsteady float sim_num (o n) vRise c flow sea = Exc e) /\
  map (fun w => (wTime w, wSea w, wFlow w)) (gOuts s') = ws /\ map (fun w => (sTime w, sSea w, sFlow w)) (gTs s') = ts.
Proof.
  unfold probe, val1. intros H.
  bok H s. bok H s'. bok H c. bok H flow. bok H sea. bok H q. bok H w.
  bok H d. bok H p. bok H e. bok H l. bok H h. apply Ok_inj in H.
  pose proof (f_equal (fun x => fst (fst (fst x))) H) as Q1. pose proof (f_equal (fun x => snd (fst (fst x))) H) as Q2.
  pose proof (f_equal (fun x => snd (fst x)) H) as Q3. pose proof (f_equal snd H) as Q4. cbn [fst snd] in Q1, Q2, Q3, Q4. clear H.
  exists s, s', c, sea, flow. split.
  { unfold riseRun in Es. apply bind_ok in Es. destruct Es as (s0 & I & S). unfold simInit in I. do 16 eexists. split; [exact I|exact S]. }
  split; [exact Es'|]. split; [exact Ec|]. split.
  { subst f. apply bind_ok in Ed as (l1 & A1 & B1). apply bind_ok in Ep as (l2 & A2 & B2). apply bind_ok in Ee as (l3 & A3 & B3).
    apply bind_ok in El as (l4 & A4 & B4). apply bind_ok in Eh as (l5 & A5 & B5).
    constructor; cbn [fcSea fcFlow fcDir fcPow fcPer fcLen fcHs].
    - split; [exact Esea|apply PSynth.in_last_; exact Ew].
    - split; [exact Eflow|apply PSynth.in_last_; exact Eq].
    - exists l1. split; [exact A1|apply ix_ok; exact B1].
    - exists l2. split; [exact A2|apply ix_ok; exact B2].
    - exists l3. split; [exact A3|apply ix_ok; exact B3].
    - exists l4. split; [exact A4|apply ix_ok; exact B4].
    - exists l5. split; [exact A5|apply ix_ok; exact B5]. }
  split; [|auto]. subst b. destruct (unsteady _ _ _ _ _); eauto.
Qed.
Local Open Scope float_scope.
Definition fRise : forcing float := mkForcing 1 82 0.1875 1008 8.5 74 1.5.
Lemma probe_bad : probe badOr 1 = Ok (fRise, false, [(sec 32, 0.625, 58); (sec 64, 1, 82)], [(sec 32, 0.625, 58); (sec 64, 1, 82)]).
Proof. vm_compute. reflexivity. Qed.
Lemma probe_good : probe simOr 1 = Ok (fRise, true, [(sec 32, 0.625, 58); (sec 64, 1, 82)], [(sec 32, 0.625, 58); (sec 64, 1, 82)]).
Proof. vm_compute. reflexivity. Qed.
Lemma probe_first : probe simOr 0 = Ok (mkForcing 0.625 58 0.125 1000 8 70 1, true, [(sec 32, 0.625, 58)], [(sec 32, 0.625, 58)]).
Proof. vm_compute. reflexivity. Qed.

Lemma fallback_example : exists s s' c sea flow e,
  @run float sim_num 100 1 badOr vRise s /\ @step float sim_num 100 (badOr 1) vRise s = Ok s' /\ @SRun.assembled float sim_num vRise s = Ok c /\
  @forcedBy float sim_num vRise s sea flow fRise /\ @unsteady float sim_num (badOr 1) vRise c flow sea = Exc e.
Proof. destruct (probe_inv _ _ _ _ _ _ probe_bad) as (s & s' & c & sea & flow & A & B & C & D & (e & E) & _). exists s, s', c, sea, flow, e. auto. Qed.
Lemma map1 {A B} (f : A -> B) l y : map f l = [y] -> exists x, l = [x] /\ f x = y.
Proof. destruct l as [|x [|z l]]; cbn; intros H; try discriminate. exists x. split; [reflexivity|]. congruence. Qed.
Lemma records_example : exists s s' c sea flow f w x,
  @run float sim_num 100 0 simOr vRise s /\ @step float sim_num 100 (simOr 0%nat) vRise s = Ok s' /\ @SRun.assembled float sim_num vRise s = Ok c /\
  @forcedBy float sim_num vRise s sea flow f /\ gOuts s' = gOuts s ++ [w] /\ gTs s' = gTs s ++ [x] /\ wTime w = sec 32 /\ wSea w = 0.625 /\ wFlow w = 58.
Proof.
  destruct (probe_inv _ _ _ _ _ _ probe_first) as (s & s' & c & sea & flow & A & B & C & D & _ & E & G).
  apply map1 in E as (w & E & W). apply map1 in G as (x & G & X).
  assert (gOuts s = [] /\ gTs s = []) as [O1 O2].
  { destruct A as (T & e0 & e1 & W0 & Z0 & River & RWL & RV & LWL & LVel & OD & OV & ED & EV & Cl & s0 & I & S). cbn [steps] in S. apply Ok_inj in S. subst s0.
    unfold init in I. cbv zeta in I. bok I a1. bok I a2. bok I a3. bok I a4. destruct a4 as [[a5 a6] [[[[[a7 a8] a9] b1] b2] b3]]. bok I b4. bok I b5. apply Ok_inj in I. subst s. cbn [gOuts gTs]. auto. }
  exists s, s', c, sea, flow, (mkForcing 0.625 58 0.125 1000 8 70 1), w, x.
  pose proof (f_equal (fun x => fst (fst x)) W) as W1. pose proof (f_equal (fun x => snd (fst x)) W) as W2. pose proof (f_equal snd W) as W3. cbn [fst snd] in W1, W2, W3.
  rewrite O1, O2. cbn [app]. repeat (split; [assumption|]). exact W3.
Qed.
(** The record written at 32 s holds the sea level at 16 s (0.625), not that at 32 s (0.75). *)
Lemma stamp_refuted : ~ (forall F (NF : Num F) af n o v s s' w, @run F NF af n o v s -> @step F NF af (o n) v s = Ok s' ->
  gOuts s' = gOuts s ++ [w] -> @valueAt F NF (vSea v) (wTime w) (wSea w)).
Proof.
  intros H. destruct records_example as (s & s' & c & sea & flow & f & w & x & R & S & _ & _ & O & _ & T & V & _).
  specialize (H _ _ _ _ _ _ _ _ _ R S O). rewrite T, V in H. destruct H as (l & A & B).
  assert (Q : @interpolateAt float sim_num (vSea vRise) [sec 32] = Ok [0.75]) by (vm_compute; reflexivity).
  rewrite Q in A. apply Ok_inj in A. subst l. cbn [nth_error] in B. apply Some_inj in B. apply (f_equal (fun x => PrimFloat.eqb x 0.625)) in B. vm_compute in B. discriminate.
Qed.
