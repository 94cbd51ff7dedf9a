(** Proofs: the records of a pass fit the file. *)
From Coq Require Import String ZArith List Bool Lia.
From Verif Require Import Base Num MState MCoast MRiv MMor MOut MCore MLoad SOut SRun POut PHot PCore PUpdate PChan.
Import List ListNotations.
Local Open Scope list_scope.

Section Gen.
  Context {F : Type} {NF : Num F}.

  Definition count (p : nat -> bool) (fl : list nat) : nat := length (filter p fl).
  Lemma filter2_count (p : nat -> bool) : forall fl (l : list F), length fl = length l -> length (filter2 (map p fl) l) = count p fl.
  Proof.
    unfold count. induction fl as [|k fl IH]; intros [|x l] H; cbn in H; try discriminate; [reflexivity|].
    cbn [map filter2 filter]. destruct (p k); cbn [length]; rewrite IH by lia; reflexivity.
  Qed.
  Lemma sel_count fl p (l r : list F) : selFlag fl p l = Ok r -> length r = count p fl.
  Proof.
    unfold selFlag. destruct (Nat.eqb _ _) eqn:E; [|discriminate]. apply Nat.eqb_eq in E. intros H. apply Ok_inj in H. subst r.
    apply filter2_count, E.
  Qed.
  Lemma count_app p a b : count p (a ++ b) = (count p a + count p b)%nat.
  Proof. unfold count. rewrite filter_app, app_length. reflexivity. Qed.
  Lemma count_repeat p k n : count p (repeat k n) = if p k then n else 0%nat.
  Proof. unfold count. induction n as [|n IH]; cbn [repeat filter]; [destruct (p k); reflexivity|]. destruct (p k); cbn [length]; rewrite IH; reflexivity. Qed.
  Lemma scatterNew_len n (d : F) idx v r : scatterNew n d idx v = Ok r -> length r = n.
  Proof.
    unfold scatterNew. destruct (negb _); [discriminate|]. destruct (negb _); [discriminate|]. intros H. apply Ok_inj in H. subst r.
    rewrite map_length. apply seq_length.
  Qed.

  (** Numbers of sections of each kind. *)
  Lemma flags0 nr on out cl : count (Nat.eqb 0) (flags nr on out cl) = nr.
  Proof. unfold flags. rewrite !count_app, !count_repeat. cbn [Nat.eqb]. destruct cl; [cbn; lia|]. rewrite count_app, count_repeat. cbn. lia. Qed.
  Lemma flags34 nr on out : count (fun k => Nat.eqb k 3 || Nat.eqb k 4) (flags nr on out false) = 2%nat.
  Proof. unfold flags. rewrite !count_app, !count_repeat. reflexivity. Qed.
  Lemma removelast_repeat (k n : nat) : removelast (repeat k (S n)) = repeat k n.
  Proof. induction n as [|n IH]; [reflexivity|]. change (repeat k (S (S n))) with (k :: repeat k (S n)). cbn [repeat]. cbn [repeat] in IH. cbn [removelast]. cbn [removelast] in IH. rewrite IH. reflexivity. Qed.
  Lemma flags0_last nr on out cl : on <> 0%nat -> count (Nat.eqb 0) (removelast (flags nr on out cl)) = nr.
  Proof.
    intros N. unfold flags. destruct cl.
    - rewrite app_nil_r, removelast_app by (destruct on; [lia|discriminate]). destruct on as [|on]; [lia|].
      rewrite removelast_repeat, count_app, !count_repeat. cbn. lia.
    - rewrite removelast_app by (destruct on; [lia|discriminate]).
      rewrite removelast_app by (destruct out; discriminate). rewrite removelast_app by discriminate.
      rewrite !count_app, !count_repeat. cbn. lia.
  Qed.

  Lemma store_len dep vel on out fl Z cl (wl lv od ov ed ev : list F) :
    storeHydraulics dep vel on out fl Z cl = Ok (wl, lv, od, ov, ed, ev) ->
    length wl = length Z /\ length lv = length Z /\ length od = length Z /\ length ov = length Z /\
    on <> [] /\
    (cl = false -> count (fun k => Nat.eqb k 3 || Nat.eqb k 4) fl = length ed /\ count (fun k => Nat.eqb k 3 || Nat.eqb k 4) fl = length ev) /\
    (cl = true -> length ed = 2%nat /\ length ev = 2%nat).
  Proof.
    unfold storeHydraulics. intros H. bok H d1. destruct (negb _); [discriminate|]. destruct (negb _); [discriminate|].
    destruct on as [|o os]; [discriminate|]. bok H lo. bok H hi. bok H v1. bok H lv'. destruct cl.
    - apply Ok_inj in H. injection H as <- <- <- <- <- <-. rewrite !mapi_length, !repeat_length.
      split; [reflexivity|]. split; [eapply scatterNew_len; eassumption|]. repeat split; try discriminate; reflexivity.
    - bok H d2. bok H v2. bok H od'. bok H ov'. bok H ed'. bok H ev'. apply Ok_inj in H. injection H as <- <- <- <- <- <-. rewrite !mapi_length.
      split; [reflexivity|]. split; [eapply scatterNew_len; eassumption|]. split; [eapply scatterNew_len; eassumption|].
      split; [eapply scatterNew_len; eassumption|]. split; [discriminate|]. split; [|discriminate]. intros _.
      split; symmetry; eapply sel_count; eassumption.
  Qed.
  Lemma bed_len bed n on out fl cl (lb ob eb : list F) : storeBedload bed n on out fl cl = Ok (lb, ob, eb) -> length lb = n /\ length ob = n.
  Proof.
    unfold storeBedload. intros H. destruct cl.
    - bok H b1. bok H lb'. apply Ok_inj in H. injection H as <- <- <-. rewrite repeat_length. split; [eapply scatterNew_len; eassumption|reflexivity].
    - bok H b2. bok H ob'. bok H eb'. bok H b1. bok H lb'. apply Ok_inj in H. injection H as <- <- <-. split; eapply scatterNew_len; eassumption.
  Qed.
  Lemma removelast_len {A} (l : list A) : length (removelast l) = (length l - 1)%nat.
  Proof. induction l as [|x [|y l] IH]; [reflexivity|reflexivity|]. change (removelast (x :: y :: l)) with (x :: removelast (y :: l)). cbn [length] in *. lia. Qed.
  Lemma lst_len Y (Dx a b c d : F) P : length (longShoreTransport Y Dx a b c d P) = (length Y - 1)%nat.
  Proof. unfold longShoreTransport. rewrite map2_length, removelast_len. destruct Y; cbn [tl length]; lia. Qed.

  (** A pass keeps the sizes and its record, if any, has them. *)
  Lemma step_shaped af o v (s s' : state F) : step af o v s = Ok s' ->
    map tX (gT s') = map tX (gT s) /\ length (gT s') = length (gT s) /\ length (gRiver s') = length (gRiver s) /\
    (gOuts s' = gOuts s \/ exists w, gOuts s' = gOuts s ++ [w] /\ shaped (length (gT s)) (length (gRiver s)) w) /\
    (gTs s' = gTs s \/ exists b, gTs s' = gTs s ++ [b]).
  Proof.
    intros H. unfold step in H. cbv zeta in H. bok H c. bok H flow. bok H sea. bok H hyd. destruct hyd as [dep vel].
    bok H st. destruct st as [[[[[lwl lvel] odep] ovel] edep] evel]. bok H u. bok H dir. bok H pow. bok H per. bok H len. bok H hs.
    bok H seaN. bok H flowN. bok H ot. destruct ot as [cst ow]. bok H m. bok H rdep. bok H rvel. bok H outs. destruct outs as [outs outT].
    bok H ts. destruct ts as [ts tsT]. apply Ok_inj in H. subst s'.
    cbn [gT gRiver gOuts gTs].
    destruct (update_shape _ _ _ _ _ _ _ _ _ _ _ _ _ _ _ _ _ _ _ _ _ _ _ _ _ _ Em) as (MX & LT & LR & _).
    split; [exact MX|]. split; [exact LT|]. split; [exact LR|].
    destruct (layout _ _ _ _ _ _ _ _ _ _ _ _ _ _ _ _ _ _ Ec) as (HF & _).
    destruct (store_len _ _ _ _ _ _ _ _ _ _ _ _ _ Est) as (L1 & L2 & L3 & L4 & NE & Lo & Lc). rewrite map_length in L1, L2, L3, L4.
    assert (EN : (2 <= length edep)%nat /\ (2 <= length evel)%nat).
    { destruct (chClosed c) eqn:C; [destruct (Lc eq_refl); lia|]. destruct (Lo eq_refl) as [<- <-]. rewrite HF, flags34. lia. }
    apply sel_count in Erdep, Ervel. rewrite HF, flags0 in Erdep, Ervel.
    unfold overtopping in Eot. bok Eot u1. apply Ok_inj in Eot. injection Eot as <- <-.
    split.
    - destruct (gOutT s <=? _)%Z.
      + bok Eouts sb. destruct sb as [[lb ob] eb]. bok Eouts rb. apply Ok_inj in Eouts. pose proof (f_equal fst Eouts) as Eo. cbn [fst] in Eo.
        right. eexists. split; [symmetry; exact Eo|].
        destruct (bed_len _ _ _ _ _ _ _ _ _ Esb) as (L5 & L6). apply sel_count in Erb. rewrite HF, flags0_last in Erb by (destruct (chOnline c); [easy|discriminate]).
        unfold shaped. cbn [wT wLWL wLVel wLBed wODep wOVel wOBed wCST wOW wLST wRiv wRDep wRVel wRBed wEDep wEVel].
        rewrite lst_len, !map_length. destruct EN. repeat split; assumption || reflexivity.
      + apply Ok_inj in Eouts. left. symmetry. exact (f_equal fst Eouts).
    - destruct (gTsT s <=? _)%Z.
      + bok Ets d. bok Ets q. bok Ets w. bok Ets b0. apply Ok_inj in Ets. pose proof (f_equal fst Ets) as Et. cbn [fst] in Et.
        right. eexists. symmetry. exact Et.
      + apply Ok_inj in Ets. left. symmetry. exact (f_equal fst Ets).
  Qed.
End Gen.
