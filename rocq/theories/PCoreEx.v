(** Runs of the small hapua of SimEx.v, by computation. *)
From Coq Require Import ZArith List Bool Floats Lia Reals Lra Sorting.Sorted.
From Verif Require Import Base Num Xr Flt MState MCoast MRiv MMor MOut MCore SAdapt SChan SCore SRun PChan PLag PAdapt PInterp PCore Sim SimEx.
Import ListNotations.
Local Open Scope Z_scope.

Definition vLong : env float := simEnv (simTP 0 3600 5 15 3840) 50 0.5 1 60 30.
Definition vFill : env float := simEnv (simTP 0 3600 5 15 60) 200 0.5 1 60 30.
Definition after (v : env float) (closed : bool) (n : nat) : res (state float) :=
  let! s := simInit v 30 closed in @steps float sim_num 100 n 0 simOr v s.
Definition clock (r : res (state float)) : res (Z * Z * bool * nat * nat) :=
  let! s := r in Ok (gTime s, gDt s, gClosed s, length (gOuts s), length (gTs s)).

Lemma after_run v closed n s : after v closed n = Ok s -> @run float sim_num 100 n simOr v s.
Proof.
  unfold after. intros H. apply bind_ok in H. destruct H as (s0 & I & S).
  unfold simInit in I. do 16 eexists. split; [exact I|exact S].
Qed.
Lemma clocked_run v closed n t d c a b : clock (after v closed n) = Ok (t, d, c, a, b) ->
  exists s, @run float sim_num 100 n simOr v s /\ gTime s = t /\ gDt s = d /\ gClosed s = c /\ length (gOuts s) = a /\ length (gTs s) = b.
Proof.
  unfold clock. intros H. apply bind_ok in H. destruct H as (s & E & H). apply Ok_inj in H. injection H as <- <- <- <- <-.
  exists s. split; [eapply after_run; eauto|repeat split].
Qed.
Lemma steps_S af n k o v (s : state float) : @steps float sim_num af (S n) k o v s =
  (let! x := @step float sim_num af (o k) v s in @steps float sim_num af n (S k) o v x).
Proof. reflexivity. Qed.
Lemma steps_1 af k o v (s : state float) : @steps float sim_num af 1 k o v s = @step float sim_num af (o k) v s.
Proof. rewrite steps_S. destruct (step _ _ _ _); reflexivity. Qed.
Lemma steps_snoc af n : forall k o v (s : state float), @steps float sim_num af (n + 1) k o v s =
  (let! x := @steps float sim_num af n k o v s in @step float sim_num af (o (k + n)%nat) v x).
Proof.
  induction n as [|n IH]; intros k o v s.
  - cbn [Nat.add]. rewrite steps_1, Nat.add_0_r. reflexivity.
  - change (S n + 1)%nat with (S (n + 1)). rewrite !steps_S. destruct (step af (o k) v s); cbn [bind]; [|reflexivity].
    rewrite IH, <- plus_n_Sm. reflexivity.
Qed.
Lemma clock_inv r t d c a b : clock r = Ok (t, d, c, a, b) -> exists s, r = Ok s /\ gTime s = t /\ gDt s = d /\ gClosed s = c.
Proof.
  unfold clock. intros H. apply bind_ok in H. destruct H as (s & E & H). apply Ok_inj in H. injection H as <- <- <- <- <-. exists s. auto.
Qed.
Lemma after_next v closed n s s' : after v closed n = Ok s -> after v closed (n + 1) = Ok s' ->
  @step float sim_num 100 (simOr n) v s = Ok s'.
Proof.
  unfold after. intros A B. apply bind_ok in A. destruct A as (s0 & I & A). rewrite I in B. cbn [bind] in B.
  rewrite steps_snoc, A in B. exact B.
Qed.
(** One hour in one step, although the step was 15 s and the interval between records one minute. *)
Lemma long1 : clock (after vLong false 1) = Ok (sec 3600, sec 3600, false, 1%nat, 1%nat).
Proof. vm_compute. reflexivity. Qed.
Lemma long2 : clock (after vLong false 2) = Ok (sec 3600, 0, false, 2%nat, 2%nat).
Proof. vm_compute. reflexivity. Qed.
Lemma long3 : clock (after vLong false 3) = Exc EIndex.
Proof. vm_compute. reflexivity. Qed.
Lemma fill5 : clock (after vFill true 5) = Ok (sec 300, sec 60, true, 5%nat, 5%nat).
Proof. vm_compute. reflexivity. Qed.
Lemma fill6 : clock (after vFill true 6) = Ok (sec 360, sec 60, false, 6%nat, 6%nat).
Proof. vm_compute. reflexivity. Qed.

Lemma clock_example : tStart (vTP vLong) <= tEnd (vTP vLong) /\ 0 <= tMorDtMin (vTP vLong) /\
  exists s s', @run float sim_num 100 1 simOr vLong s /\ @steps float sim_num 100 1 1 simOr vLong s = Ok s' /\
    gTime s = sec 3600 /\ gTime s' = sec 3600.
Proof.
  split; [vm_compute; discriminate|]. split; [vm_compute; discriminate|].
  destruct (clock_inv _ _ _ _ _ _ long1) as (s1 & A1 & B1 & _). destruct (clock_inv _ _ _ _ _ _ long2) as (s2 & A2 & B2 & _).
  exists s1, s2. split; [exact (after_run _ _ _ _ A1)|]. split; [|auto]. rewrite steps_1. exact (after_next _ _ 1 _ _ A1 A2).
Qed.
Lemma never_example : exists s, @run float sim_num 100 2 simOr vLong s /\ gTime s = tEnd (vTP vLong) /\ gDt s = 0.
Proof. destruct (clocked_run _ _ _ _ _ _ _ _ long2) as (s & R & A & B & _). exists s. auto. Qed.

Lemma behind : exists s, @run float sim_num 100 1 simOr vLong s /\
  length (gOuts s) = 1%nat /\ (gTime s - tStart (vTP vLong)) / vOutInt vLong = 60.
Proof. destruct (clocked_run _ _ _ _ _ _ _ _ long1) as (s & R & A & B & C & D & E). exists s. split; [auto|]. split; [auto|]. rewrite A. vm_compute. reflexivity. Qed.
Lemma complete_refuted : ~ (forall F (NF : Num F) af n o v s,
  tStart (vTP v) <= tEnd (vTP v) -> 0 < tMorDtMin (vTP v) -> 0 < vOutInt v -> @run F NF af n o v s ->
  (gTime s - tStart (vTP v)) / vOutInt v <= Z.of_nat (length (gOuts s))).
Proof.
  intros H. destruct behind as (s & R & L & D). specialize (H float sim_num 100%nat 1%nat simOr vLong s ltac:(vm_compute; discriminate) ltac:(vm_compute; reflexivity) ltac:(vm_compute; reflexivity) R).
  rewrite L, D in H. vm_compute in H. apply H. reflexivity.
Qed.

(** The sixth step of filling a closed lagoon breaches the barrier. *)
Lemma opens_example : exists s s', @run float sim_num 100 5 simOr vFill s /\
  @step float sim_num 100 (simOr 5) vFill s = Ok s' /\ gClosed s = true /\ gClosed s' = false.
Proof.
  destruct (clock_inv _ _ _ _ _ _ fill5) as (s1 & A1 & _ & _ & B1). destruct (clock_inv _ _ _ _ _ _ fill6) as (s2 & A2 & _ & _ & B2).
  exists s1, s2. split; [exact (after_run _ _ _ _ A1)|]. split; [|auto]. exact (after_next _ _ 5 _ _ A1 A2).
Qed.
(** An open outlet whose end has become too narrow shuts. *)
Definition narrowed (s : state float) : state float :=
  mkS (gT s) (gE0 s) (gE1 s) 0.5%float (gZ s) (gRiver s) (gRDep s) (gRVel s) (gLWL s) (gLVel s) (gODep s) (gOVel s) (gEDep s) (gEVel s)
      false (gTime s) (gDt s) (gOutT s) (gTsT s) (gOuts s) (gTs s).
Lemma shuts_example : exists s s', @step float sim_num 100 (simOr 0) vLong s = Ok s' /\ gClosed s = false /\ gClosed s' = true.
Proof.
  assert (H : (let! s := simInit vLong 30 false in let! s' := @step float sim_num 100 (simOr 0) vLong (narrowed s) in Ok (gClosed s')) = Ok true) by (vm_compute; reflexivity).
  apply bind_ok in H. destruct H as (s & _ & H). apply bind_ok in H. destruct H as (s' & A & B). apply Ok_inj in B. exists (narrowed s), s'. auto.
Qed.

Lemma mismatch : exists s s', @step float sim_num 100 (simOr 0) vLong s = Ok s' /\ gDt s = sec 15 /\ gTime s' = gTime s + sec 3600 /\
  exists w, gOuts s' = gOuts s ++ [w] /\ wTime w = gTime s + sec 3600.
Proof.
  assert (H : (let! s := simInit vLong 30 false in let! s' := @step float sim_num 100 (simOr 0) vLong s in
              Ok (gDt s, gTime s, gTime s', gOuts s, map wTime (gOuts s'))) = Ok (sec 15, 0, sec 3600, [], [sec 3600])) by (vm_compute; reflexivity).
  apply bind_ok in H. destruct H as (s & _ & H). apply bind_ok in H. destruct H as (s' & A & B). apply Ok_inj in B.
  injection B as B1 B2 B3 B4 B5. exists s, s'. split; [auto|]. split; [auto|]. split; [rewrite B2; auto|].
  destruct (gOuts s') as [|w [|]]; [discriminate| |discriminate]. exists w. rewrite B4, B2. split; [reflexivity|]. cbn in B5. injection B5. auto.
Qed.
(** The same step with EndTime one minute away: the same hour of morphological change. *)
Lemma clamped : exists s s1 s2, @step float sim_num 100 (simOr 0) vLong s = Ok s1 /\
  @step float sim_num 100 (simOr 0) (withEnd vLong (sec 60)) s = Ok s2 /\ gTime s1 = gTime s + sec 3600 /\ gTime s2 = gTime s + sec 60.
Proof.
  assert (H : (let! s := simInit vLong 30 false in let! s1 := @step float sim_num 100 (simOr 0) vLong s in
               let! s2 := @step float sim_num 100 (simOr 0) (withEnd vLong (sec 60)) s in Ok (gTime s, gTime s1, gTime s2)) = Ok (0, sec 3600, sec 60)) by (vm_compute; reflexivity).
  apply bind_ok in H. destruct H as (s & _ & H). apply bind_ok in H. destruct H as (s1 & A & H). apply bind_ok in H. destruct H as (s2 & B & H).
  apply Ok_inj in H. injection H as H1 H2 H3. exists s, s1, s2. rewrite H1, H2, H3. auto.
Qed.

(** ** Interpolation *)
Definition exSer : list (Z * R) := [(0, 1%R); (10, 3%R); (30, 2%R); (40, 2%R)].
Lemma exSer_ok : ordered exSer /\ spanned [5; 10; 25] 5 25 /\ (exists p, In p exSer /\ fst p <= 5) /\ (exists q, In q exSer /\ 25 <= fst q).
Proof.
  split; [unfold ordered, exSer; repeat constructor|]. split; [split; [reflexivity|split; [reflexivity|repeat constructor; lia]]|].
  split; [exists (0, 1%R)|exists (30, 2%R)]; unfold exSer; cbn; split; auto; lia.
Qed.

(** ** Flag, exact arithmetic *)
Lemma shuts_exact af o (v : env xr) s s' e0 e1 d : grid (gT s) -> gE0 s = Fin e0 -> gE1 s = Fin e1 -> nDx (vN v) = Fin d ->
  step af o v s = Ok s' -> gClosed s = false -> gClosed s' = true ->
  narrowOutlet (gT s) e0 e1 (pMinOutletWidth (vP v)) \/ (gW s <=? pMinOutletWidth (vP v))%n = true \/
  narrowLagoon (gT s) e0 (pMinOutletWidth (vP v)).
Proof.
  intros G H0 H1 Hd H C D. destruct (shuts _ _ _ _ _ H C D) as (m & c & _ & _ & A & K).
  unfold SRun.assembled in A. rewrite H0, H1, Hd in A. apply (closure _ G) in A. rewrite C in A. apply A in K.
  destruct K as [K|K]; [discriminate|exact K].
Qed.
