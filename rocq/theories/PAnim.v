(** Proofs about animations. *)
From Coq Require Import ZArith List Bool Lia.
From Verif Require Import Base Num MState MGeom MRiv MMor MOut MLoad MVis SOut POut SAnim PPlan.
Import ListNotations.
Local Open Scope Z_scope.

Lemma all_ok_nth {A} (l : list (res A)) r : all_ok l = Ok r -> length r = length l /\ forall j a, nth_error r j = Some a -> nth_error l j = Some (Ok a).
Proof.
  revert r. induction l as [|x l IH]; intros r H; cbn in H.
  - apply Ok_inj in H. subst r. split; [reflexivity|]. intros [|]; discriminate.
  - apply bind_ok in H as (y & Hy & H). apply bind_ok in H as (ys & Hys & H). apply Ok_inj in H. subst r x. destruct (IH _ Hys) as [L N].
    split; [cbn; congruence|]. intros [|j] a Ha; cbn in *; [congruence|now apply N].
Qed.
Lemma all_ok_total {A} (l : list (res A)) : (forall r, In r l -> exists a, r = Ok a) -> exists r, all_ok l = Ok r.
Proof.
  induction l as [|x l IH]; intros H; [now exists []|]. destruct (H x) as [a ->]; [now left|]. destruct IH as [r E]; [intros y Hy; apply H; now right|].
  exists (a :: r). cbn. now rewrite E.
Qed.

Lemma endStep_stop n e : endStep n e = stop_at n e.
Proof. destruct e as [e|]; [|reflexivity]. cbn. destruct (Z.ltb_spec (Z.of_nat n) e); lia. Qed.

Lemma frames_ok n start e every : 0 < every ->
  exists ks, frames n start e every = Ok ks /\
    (forall j, (j < length ks)%nat <-> start + Z.of_nat j * every < stop_at n e) /\
    (forall j k, nth_error ks j = Some k -> k = start + Z.of_nat j * every).
Proof.
  intros H. unfold frames, pyrange. rewrite endStep_stop. destruct (Z.eqb_spec every 0); [lia|]. destruct (Z.ltb_spec 0 every); [|lia].
  eexists. split; [reflexivity|]. set (s := stop_at n e). split.
  - intros j. rewrite map_length, seq_length. assert (D := Z.div_mod (s - start + every - 1) every ltac:(lia)). assert (M := Z.mod_pos_bound (s - start + every - 1) every H).
    set (q := (s - start + every - 1) / every) in *. split; intros J.
    + assert (J' : Z.of_nat j + 1 <= q) by lia. nia.
    + assert (Z.of_nat j < q) by nia. lia.
  - intros j k Hk. rewrite nth_error_map in Hk. destruct (nth_error (seq _ _) j) as [i|] eqn:E; [|discriminate]. cbn in Hk. apply Some_inj in Hk. subst k.
    assert (j < length (seq 0 (Z.to_nat ((s - start + every - 1) / every))))%nat by (apply nth_error_Some; congruence).
    rewrite seq_length in H1. rewrite nth_error_nth' with (d := 0%nat) in E by (now rewrite seq_length). rewrite seq_nth in E by assumption. apply Some_inj in E. subst i. reflexivity.
Qed.
Lemma frames_zero n start e : frames n start e 0 = Exc EValue.
Proof. reflexivity. Qed.
Lemma frames_in n start e every ks k : 0 < every -> frames n start e every = Ok ks ->
  (In k ks <-> start <= k < stop_at n e /\ (every | k - start)).
Proof.
  intros H E. destruct (frames_ok n start e every H) as (ks' & E' & L & N). rewrite E in E'. apply Ok_inj in E'. subst ks'. split.
  - intros I. apply In_nth_error in I as [j Hj]. pose proof (N _ _ Hj) as K. assert (J : (j < length ks)%nat) by (apply nth_error_Some; congruence). apply L in J.
    split; [nia|]. exists (Z.of_nat j). lia.
  - intros [B [q Q]]. assert (0 <= q) by nia. assert (J : (Z.to_nat q < length ks)%nat) by (apply L; rewrite Z2Nat.id by lia; nia).
    apply nth_error_Some in J as J'. destruct (nth_error ks (Z.to_nat q)) as [k'|] eqn:Ek; [|congruence]. pose proof (N _ _ Ek) as K. rewrite Z2Nat.id in K by lia.
    apply nth_error_In in Ek. replace k with k' by lia. exact Ek.
Qed.
(** The documented last record is left out. *)
Lemma end_excluded n start e every ks : 0 < every -> frames n start (Some e) every = Ok ks -> ~ In e ks.
Proof. intros H E I. apply (frames_in _ _ _ _ _ _ H E) in I as [I _]. cbn in I. lia. Qed.

Section Read.
  Context {F : Type} {NF : Num F}.
  Lemma readAt_in (f : ncfile F) k : 0 <= k < Z.of_nat (length (ncTimes f)) -> readAt f k = readTimestep f (Z.to_nat k).
  Proof. intros H. unfold readAt. rewrite <- (Z2Nat.id k) at 1 by lia. rewrite pyix_nonneg by lia. reflexivity. Qed.

  Lemma stop_in n e : stop_at n e <= Z.of_nat n.
  Proof. destruct e; cbn; lia. Qed.

  Lemma pictures {A} (f : ncfile F) (draw : rstep F -> res A) start e every : 0 <= start -> 0 < every ->
    forall pics, (let! ks := frames (length (ncTimes f)) start e every in all_ok (map (fun k => let! d := readAt f k in draw d) ks)) = Ok pics ->
    shows f draw start every (stop_at (length (ncTimes f)) e) pics.
  Proof.
    intros Hs He pics H. destruct (frames_ok (length (ncTimes f)) start e every He) as (ks & E & L & N). rewrite E in H. cbn [bind] in H.
    apply all_ok_nth in H as [Lp Np]. rewrite map_length in Lp. split; [intros j; rewrite Lp; apply L|].
    intros j a Ha. apply Np in Ha as Hb. rewrite nth_error_map in Hb. destruct (nth_error ks j) as [k|] eqn:Ek; [|discriminate]. cbn in Hb. apply Some_inj in Hb.
    pose proof (N _ _ Ek) as K. subst k. assert (J : (j < length ks)%nat) by (apply nth_error_Some; congruence). apply L in J.
    pose proof (stop_in (length (ncTimes f)) e). rewrite readAt_in in Hb by lia. apply bind_ok in Hb as (d & Hd & Hb). exists d. auto.
  Qed.
  Lemma pictures_total {A} (f : ncfile F) (draw : rstep F -> res A) start e every : 0 <= start -> 0 < every ->
    (forall k, start <= k < stop_at (length (ncTimes f)) e -> exists d a, readTimestep f (Z.to_nat k) = Ok d /\ draw d = Ok a) ->
    exists pics, (let! ks := frames (length (ncTimes f)) start e every in all_ok (map (fun k => let! d := readAt f k in draw d) ks)) = Ok pics.
  Proof.
    intros Hs He H. destruct (frames_ok (length (ncTimes f)) start e every He) as (ks & E & _). rewrite E. cbn [bind]. apply all_ok_total.
    intros r Ir. apply in_map_iff in Ir as (k & <- & Ik). apply (frames_in _ _ _ _ _ _ He E) in Ik as [Ik _]. pose proof (stop_in (length (ncTimes f)) e).
    destruct (H k Ik) as (d & a & Hd & Ha). rewrite readAt_in, Hd by lia. exists a. exact Ha.
  Qed.

  Definition drawMap (rw spit : F) (d : rstep F) : res plan := planView (rdT d) (rdIx d) (rdClosed d) rw spit (rdE0 d) (rdE1 d) (rdW d).
  Definition drawLong (P : phys F) (d : rstep F) : res lsec := let! c := recordChannel P d in longSection (chDx c) (chElev c) (chWidth c) (chDep c) (chVel c) None.
  Definition drawTransect i (bt cl sl bs : F) (d : rstep F) : res tfig := transectFig i (rdT d) (rdLWL d) (rdOWL d) (rdSea d) bt cl sl bs.

  Lemma map_shows rw spit (f : ncfile F) start e every aoi pics : 0 <= start -> 0 < every ->
    mapAnimation rw spit f start e every aoi = Ok pics ->
    shows f (fun d => planView (rdT d) (rdIx d) (rdClosed d) rw spit (rdE0 d) (rdE1 d) (rdW d)) start every (stop_at (length (ncTimes f)) e) pics.
  Proof.
    intros Hs He H. unfold mapAnimation in H. apply bind_ok in H as (d & _ & H). apply bind_ok in H as (p & _ & H). exact (pictures f (drawMap rw spit) start e every Hs He pics H).
  Qed.
  Lemma long_shows P (f : ncfile F) start e every pics : 0 <= start -> 0 < every ->
    longSecAnimation P f start e every = Ok pics ->
    shows f (fun d => let! c := recordChannel P d in longSection (chDx c) (chElev c) (chWidth c) (chDep c) (chVel c) None) start every (stop_at (length (ncTimes f)) e) pics.
  Proof. intros Hs He H. unfold longSecAnimation in H. apply bind_ok in H as (p & _ & H). exact (pictures f (drawLong P) start e every Hs He pics H). Qed.
  Lemma transect_shows bt cl sl bs x (f : ncfile F) start e every pics : 0 <= start -> 0 < every ->
    transectAnimation bt cl sl bs x f start e every = Ok pics ->
    exists d i, readAt f start = Ok d /\ transectIx (rdT d) x = Ok i /\
      shows f (fun d => transectFig i (rdT d) (rdLWL d) (rdOWL d) (rdSea d) bt cl sl bs) start every (stop_at (length (ncTimes f)) e) pics.
  Proof.
    intros Hs He H. unfold transectAnimation in H. apply bind_ok in H as (d & Hd & H). apply bind_ok in H as ([i fig] & Hi & H). exists d, i. split; [exact Hd|].
    unfold newTransectFig in Hi. apply bind_ok in Hi as (i' & Hi & Hf). apply bind_ok in Hf as (g & _ & Hf). apply Ok_inj in Hf. injection Hf as -> _. split; [exact Hi|].
    exact (pictures f (drawTransect i bt cl sl bs) start e every Hs He pics H).
  Qed.

  (** A record of a closed outlet lists no channel. *)
  Lemma closed_no_channel (f : ncfile F) k d : readTimestep f k = Ok d -> rdClosed d = true -> rdIx d = [].
  Proof.
    unfold readTimestep. intros H. repeat (apply bind_ok in H as (? & _ & H)). apply Ok_inj in H. subst d. cbn. intros ->. reflexivity.
  Qed.
  Lemma closed_start rw spit (f : ncfile F) start e every aoi d : 0 <= start < Z.of_nat (length (ncTimes f)) ->
    readTimestep f (Z.to_nat start) = Ok d -> rdClosed d = true -> exists ex, mapAnimation rw spit f start e every aoi = Exc ex.
  Proof.
    intros Hs Hd Hc. unfold mapAnimation. rewrite readAt_in, Hd by lia. cbn [bind]. rewrite (closed_no_channel _ _ _ Hd Hc).
    destruct (first_drawing (rdT d) rw spit (rdE0 d) (rdE1 d) (rdW d) aoi) as [ex ->]. exists ex. reflexivity.
  Qed.

  (** The long section needs three parameters only. *)
  Lemma three_parameters (P Q : phys F) d : pRiverWidth P = pRiverWidth Q -> pMinOutletWidth P = pMinOutletWidth Q -> pMaxOutletElev P = pMaxOutletElev Q ->
    recordChannel P d = recordChannel Q d.
  Proof.
    intros E1 E2 E3. unfold recordChannel, assembleChannel, outletPart, lagoonCut, chanShape. rewrite ?E1, ?E2, ?E3. reflexivity.
  Qed.
End Read.
