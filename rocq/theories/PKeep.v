(** Proofs of what stays the same during a run. *)
From Coq Require Import ZArith List Bool Lia Reals Lra.
From Verif Require Import Base Num Xr MState MOut MCoast MRiv MMor MCore SMor STouch SRun SNext SKeep PCoast PLag PCore PUpdate PUpdate2 PHot PMain PPostEx PNext.
Import ListNotations.

Section Run.
  Context {F : Type} {NF : Num F}.
  Variables (af : nat) (v : env F).
  Lemma step_mapped o (s s' : state F) : step af o v s = Ok s' -> mapped (gT s').
  Proof.
    intros H t Ht. destruct (step_inv _ _ _ _ _ H) as (c & m & p). destruct (p_mor _ _ _ _ _ _ _ p) as (lwl & odep & dep & lst & bed & cst & ow & U).
    rewrite (p_T _ _ _ _ _ _ _ p) in Ht. apply In_nth_error in Ht. destruct Ht as (i & Hi).
    destruct (update_shape _ _ _ _ _ _ _ _ _ _ _ _ _ _ _ _ _ _ _ _ _ _ _ _ _ _ U) as (_ & _ & _ & A). exact (A i t Hi).
  Qed.
  Lemma step_stood o (s s' : state F) : step af o v s = Ok s' -> forallb stands (gT s) = true.
  Proof.
    intros H. destruct (step_inv _ _ _ _ _ H) as (c & m & p). destruct (p_mor _ _ _ _ _ _ _ p) as (lwl & odep & dep & lst & bed & cst & ow & U).
    eapply update_stood. exact U.
  Qed.
  Lemma steps_grid o n : forall k (s s' : state F), steps af n k o v s = Ok s' -> map tX (gT s') = map tX (gT s) /\ length (gRiver s') = length (gRiver s).
  Proof.
    induction n as [|n IH]; intros k s s' H; cbn [steps] in H; [apply Ok_inj in H; subst; auto|]. bok H t. destruct (step_shaped _ _ _ _ _ Et) as (A & _ & B & _).
    destruct (IH _ _ _ H) as (C & D). split; congruence.
  Qed.
  Lemma steps_mapped o n : forall k (s s' : state F), steps af (S n) k o v s = Ok s' -> mapped (gT s').
  Proof.
    induction n as [|n IH]; intros k s s' H; cbn [steps] in H; bok H t.
    - cbn [steps] in H. apply Ok_inj in H. subst. eapply step_mapped. exact Et.
    - eapply IH. cbn [steps]. exact H.
  Qed.
  Lemma steps_stood o n : forall k (s s' : state F) j, (j < n)%nat -> steps af n k o v s = Ok s' -> exists t, steps af j k o v s = Ok t /\ forallb stands (gT t) = true.
  Proof.
    induction n as [|n IH]; intros k s s' j Hj H; [lia|]. cbn [steps] in H. bok H t. destruct j as [|j].
    - exists s. split; [reflexivity|]. eapply step_stood. exact Et.
    - destruct (IH (S k) t s' j ltac:(lia) H) as (u & A & B). exists u. split; [cbn [steps]; rewrite Et; exact A|exact B].
  Qed.
  Lemma step_stuck o (s : state F) : forallb stands (gT s) = false -> exists e, step af o v s = Exc e.
  Proof. intros H. destruct (step af o v s) as [s'|e] eqn:E; [|eauto]. apply step_stood in E. congruence. Qed.
  Lemma steps_records o n : forall k (s s' : state F), steps af n k o v s = Ok s' -> exists r, gOuts s' = gOuts s ++ r /\
    forall w, In w r -> map tX (wT w) = map tX (gT s) /\ length (wRiv w) = length (gRiver s) /\ mapped (wT w).
  Proof.
    induction n as [|n IH]; intros k s s' H; cbn [steps] in H; [apply Ok_inj in H; subst; exists []; split; [rewrite app_nil_r; reflexivity|intros w []]|]. bok H t.
    destruct (step_shaped _ _ _ _ _ Et) as (A & _ & B & _). pose proof (step_mapped _ _ _ Et) as M. destruct (IH _ _ _ H) as (r & R1 & R2).
    assert (Q : exists r0, gOuts t = gOuts s ++ r0 /\ forall w, In w r0 -> wT w = gT t /\ wRiv w = gRiver t).
    { destruct (step_written _ _ _ _ _ Et) as [W|(w & W & _ & W1 & _ & _ & _ & _ & W2 & _)].
      - exists []. split; [rewrite app_nil_r; exact W|intros x []].
      - exists [w]. split; [exact W|]. intros x [<-|[]]. split; assumption. }
    destruct Q as (r0 & Q1 & Q2). exists (r0 ++ r). split; [rewrite R1, Q1, app_assoc; reflexivity|]. intros w Hw. apply in_app_iff in Hw as [Hw|Hw].
    - destruct (Q2 w Hw) as (-> & ->). split; [congruence|]. split; [congruence|exact M].
    - destruct (R2 w Hw) as (E1 & E2 & E3). split; [congruence|]. split; [congruence|exact E3].
  Qed.
End Run.
Local Open Scope R_scope.
Lemma steps_lagoon af o (v : env xr) n w : pMinOutletWidth (vP v) = Fin w -> forall k (s s' : state xr), steps af (S n) k o v s = Ok s' ->
  exists i t, nth_error (gT s') i = Some t /\ (tX t =? f0)%n = true /\ forall y3 y4, tY3 t = Fin y3 -> tY4 t = Fin y4 -> w <= y3 - y4.
Proof.
  intros HW. induction n as [|n IH]; intros k s s' H; cbn [steps] in H; bok H t.
  - cbn [steps] in H. apply Ok_inj in H. subst t. destruct (step_inv _ _ _ _ _ Et) as (c & m & p). destruct (p_mor _ _ _ _ _ _ _ p) as (lwl & odep & dep & lst & bed & cst & ow & U).
    destruct (update_width _ _ _ _ _ _ _ _ _ _ _ _ _ _ _ _ _ _ _ _ _ _ _ _ _ _ _ U HW) as (i & u & u' & Hu & HX & Hu' & B). rewrite (p_T _ _ _ _ _ _ _ p).
    exists i, u'. split; [exact Hu'|]. split; [|exact B].
    destruct (update_shape _ _ _ _ _ _ _ _ _ _ _ _ _ _ _ _ _ _ _ _ _ _ _ _ _ _ U) as (MX & _).
    assert (E : nth_error (map tX (oT m)) i = nth_error (map tX (gT s)) i) by (rewrite MX; reflexivity). rewrite !nth_error_map, Hu, Hu' in E. cbn in E. injection E as ->. exact HX.
  - eapply IH. cbn [steps]. exact H.
Qed.
