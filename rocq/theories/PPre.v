(** Proofs about the model of riv.py solveFullPreissmann: structure of the loops. *)
From Coq Require Import ZArith List Bool Lia.
From Verif Require Import Base Num Xr MState MRiv.
Local Open Scope num_scope.

Section Loops.
  Context {F : Type} {NF : Num F}.
  Notation solver := (list (list F) -> list F -> solout F).

  Definition hOk (h : F) : Prop := (h <=? f0) = false.
  Definition vOk (v : F) : Prop := (v =? f0) = false.

  Lemma fixH_ok h : (fofQ 1 10000 <=? f0) = false -> hOk (fixH h).
  Proof. intros H. unfold hOk, fixH. destruct (h <=? f0) eqn:E; auto. Qed.
  Lemma fixV_ok v : (fofQ 1 10000 =? f0) = false -> vOk (fixV v).
  Proof. intros H. unfold vOk, fixV. destruct (v =? f0) eqn:E; auto. Qed.

  (** What the caller sees. *)
  Definition caller (s : pst F) : list F * list F :=
    match pOut s with Some o => o | None => (ph s, pV s) end.

  Definition okPair (o : list F * list F) : Prop := Forall hOk (fst o) /\ Forall vOk (snd o).

  Hypothesis small_pos : (fofQ 1 10000 <=? f0) = false.
  Hypothesis small_nz : (fofQ 1 10000 =? f0) = false.

  Lemma newton_out (solve : solver) l c Q W C1 C2 s s' conv :
    preNewton solve l c Q W C1 C2 s = Ok (s', conv) -> pOut s' = pOut s.
  Proof.
    revert s; induction l as [|l IH]; intros s H; cbn [preNewton] in H.
    - apply Ok_inj in H. congruence.
    - apply bind_ok in H as (err & _ & H). apply bind_ok in H as (band & _ & H).
      apply bind_ok in H as (delta & _ & H). apply bind_ok in H as (dh & _ & H). apply bind_ok in H as (dV & _ & H).
      destruct (forallb _ delta); [apply Ok_inj in H; injection H as <- _; reflexivity|].
      apply IH in H. exact H.
  Qed.

  Lemma newton_okp (solve : solver) l c Q W C1 C2 s s' conv :
    preNewton solve l c Q W C1 C2 s = Ok (s', conv) ->
    okPair (ph s, pV s) -> okPair (ph s', pV s').
  Proof.
    revert s; induction l as [|l IH]; intros s H Hs; cbn [preNewton] in H.
    - apply Ok_inj in H. injection H as <- <-. auto.
    - apply bind_ok in H as (err & _ & H). apply bind_ok in H as (band & _ & H).
      apply bind_ok in H as (delta & _ & H). apply bind_ok in H as (dh & _ & H). apply bind_ok in H as (dV & _ & H).
      assert (G : forall a b, okPair (map fixH a, map fixV b)).
      { intros a b. split; cbn; rewrite Forall_map, Forall_forall; intros; [apply fixH_ok|apply fixV_ok]; auto. }
      destruct (forallb _ delta).
      + apply Ok_inj in H. injection H as <- _. apply G.
      + apply IH in H; [exact H|apply G].
  Qed.

  (** After a pass: frozen arrays stay, otherwise the caller gets the last iterate. *)
  Lemma step_caller (solve : solver) N c qe we Q W s s' :
    preStep solve N c qe we Q W s = Ok s' ->
    (forall o, pOut s = Some o -> pOut s' = Some o) /\
    (okPair (caller s) -> okPair (caller s')).
  Proof.
    unfold preStep. intros H. apply bind_ok in H as ([s1 conv] & Hn & H).
    pose proof (newton_out _ _ _ _ _ _ _ _ _ _ Hn) as Ho. cbn [pOut] in Ho.
    pose proof (newton_okp _ _ _ _ _ _ _ _ _ _ Hn) as Hp. cbn [ph pV] in Hp.
    destruct conv.
    - apply Ok_inj in H. subst s'. split; [intros; congruence|]. unfold caller. rewrite Ho. destruct (pOut s); auto.
    - apply bind_ok in H as ([hs vs] & _ & H). apply Ok_inj in H. subst s'. cbn [pOut caller]. rewrite Ho. split.
      + intros o ->. reflexivity.
      + unfold caller. cbn [pOut]. destruct (pOut s); auto.
  Qed.

  Lemma loop_caller (solve : solver) N c qe we bc s s' :
    preLoop solve N c qe we bc s = Ok s' ->
    (forall o, pOut s = Some o -> pOut s' = Some o) /\
    (okPair (caller s) -> okPair (caller s')).
  Proof.
    revert s; induction bc as [|[Q W] bc IH]; intros s H; cbn [preLoop] in H.
    - apply Ok_inj in H. subst; auto.
    - apply bind_ok in H as (s1 & H1 & H). apply step_caller in H1. apply IH in H. intuition.
  Qed.

  Lemma full_inv (solve : solver) z B LA LL cl h V dx dt Q W N P r :
    solveFullPreissmann solve z B LA LL cl h V dx dt Q W N P = Ok r ->
    exists c s, preInit z B LA LL cl h V dx dt N P = Ok (c, s) /\
      ((Q = [] /\ r = (ph s, pV s)) \/
       exists qe we s', preLoop solve N c qe we (combine Q W) s = Ok s' /\ r = caller s').
  Proof.
    unfold solveFullPreissmann. intros H. apply bind_ok in H as ([c s] & Hi & H).
    exists c, s. split; [auto|].
    destruct (Nat.ltb (length W) (length Q)) eqn:E; [discriminate|]. apply Nat.ltb_ge in E.
    destruct (rev Q) as [|qe rq] eqn:EQ.
    - apply Ok_inj in H. left. split; [|auto]. apply (f_equal (@rev F)) in EQ. rewrite rev_involutive in EQ. auto.
    - destruct (rev W) as [|we rw] eqn:EW.
      + apply (f_equal (@length F)) in EQ. apply (f_equal (@length F)) in EW. rewrite rev_length in *. cbn in *. lia.
      + apply bind_ok in H as (s' & Hl & H). apply Ok_inj in H. subst r. right. exists qe, we, s'. split; auto.
  Qed.

  Lemma init_state z B LA LL cl h V dx dt N P c s :
    preInit z B LA LL cl h V dx dt N P = Ok (c, s) ->
    ph s = map fixH h /\ pV s = map fixV V /\ pDelta s = None /\ pOut s = None /\
    cMaxIt c = nMaxIt N /\ cTol c = nErrTol N /\ cz c = z /\
    length h = length z /\ length V = length z.
  Proof.
    unfold preInit. intros H. destruct (negb _) eqn:E; [discriminate|].
    apply negb_false_iff in E. rewrite !andb_true_iff, !Nat.eqb_eq in E.
    apply bind_ok in H as (d2 & _ & H). apply bind_ok in H as (zn & _ & H). apply bind_ok in H as (hn & _ & H).
    apply Ok_inj in H. injection H as <- <-. cbn. intuition.
  Qed.

  Lemma full_ok (solve : solver) z B LA LL cl h V dx dt Q W N P r :
    solveFullPreissmann solve z B LA LL cl h V dx dt Q W N P = Ok r ->
    Forall hOk (fst r) /\ Forall vOk (snd r).
  Proof.
    intros H. apply full_inv in H as (c & s & Hi & H). apply init_state in Hi as (E1 & E2 & _ & E3 & _).
    assert (Hs : okPair (ph s, pV s)).
    { rewrite E1, E2. split; cbn; rewrite Forall_map, Forall_forall; intros; [apply fixH_ok|apply fixV_ok]; auto. }
    destruct H as [[_ ->]|(qe & we & s' & Hl & ->)]; [exact Hs|].
    apply loop_caller in Hl as [_ Hl]. apply Hl. unfold caller. rewrite E3. exact Hs.
  Qed.
End Loops.

Section Frozen.
  Context {F : Type} {NF : Num F}.
  Notation solver := (list (list F) -> list F -> solout F).

  (** No correction the solver returns is within tolerance. *)
  Definition never_within (solve : solver) (tol : F) : Prop :=
    forall band err d, solve band err = SSol d -> forallb (fun x => fabs x <? tol) d = false.
  
  Definition badDelta (tol : F) (d : option (list F)) : Prop :=
    match d with Some d => forallb (fun x => fabs x <? tol) d = false | None => True end.

  Lemma newton_never (solve : solver) l c Q W C1 C2 s s' conv :
    never_within solve (cTol c) -> badDelta (cTol c) (pDelta s) ->
    preNewton solve l c Q W C1 C2 s = Ok (s', conv) -> conv = false /\ badDelta (cTol c) (pDelta s').
  Proof.
    intros Hnev. revert s; induction l as [|l IH]; intros s Hs H; cbn [preNewton] in H.
    - apply Ok_inj in H. injection H as <- <-. auto.
    - apply bind_ok in H as (err & _ & H). apply bind_ok in H as (band & _ & H).
      apply bind_ok in H as (delta & Hd & H). apply bind_ok in H as (dh & _ & H). apply bind_ok in H as (dV & _ & H).
      assert (Hb : forallb (fun x => fabs x <? cTol c) delta = false).
      { destruct (solve band err) as [d| |e] eqn:E.
        - apply Ok_inj in Hd. subst. eapply Hnev; eauto.
        - destruct (pDelta s) as [d|]; [|discriminate]. cbn in Hd. apply Ok_inj in Hd. subst. exact Hs.
        - discriminate. }
      rewrite Hb in H. apply IH in H; auto.
  Qed.

  Lemma step_frozen (solve : solver) N c qe we Q W s s' :
    preStep solve N c qe we Q W s = Ok s' ->
    forall o, pOut s = Some o -> pOut s' = Some o.
  Proof.
    unfold preStep. intros H. apply bind_ok in H as ([s1 conv] & Hn & H).
    pose proof (newton_out _ _ _ _ _ _ _ _ _ _ Hn) as Ho. cbn [pOut] in Ho.
    destruct conv.
    - apply Ok_inj in H. subst s'. intros; congruence.
    - apply bind_ok in H as ([hs vs] & _ & H). apply Ok_inj in H. subst s'. cbn [pOut]. rewrite Ho. intros o ->. reflexivity.
  Qed.

  Lemma loop_frozen (solve : solver) N c qe we bc s s' :
    preLoop solve N c qe we bc s = Ok s' -> forall o, pOut s = Some o -> pOut s' = Some o.
  Proof.
    revert s; induction bc as [|[Q W] bc IH]; intros s H o Ho; cbn [preLoop] in H.
    - apply Ok_inj in H. congruence.
    - apply bind_ok in H as (s1 & H1 & H). eapply IH; eauto. eapply step_frozen; eauto.
  Qed.

  (** A pass whose Newton loop does not converge leaves the iterate with the caller,
      and the rest of the call cannot change it. *)
  Lemma nonconverged_iterate (solve : solver) N c qe we Q W bc s s1 s2 :
    pOut s = None ->
    preNewton solve (cMaxIt c) c Q W
      (reaches (preC1 c W (pDsWl s)) (nodesOf (cz c) (cB c) (cBe c) (ph s) (pV s) (pA s) (pSf s)) (reachesOf (cdx c) (cSeep c) (cS0 c)))
      (reaches (preC2 c) (nodesOf (cz c) (cB c) (cBe c) (ph s) (pV s) (pA s) (pSf s)) (reachesOf (cdx c) (cSeep c) (cS0 c)))
      (mkPst (ph s) (pV s) (pA s) (pSf s) W (pDelta s) (pOut s)) = Ok (s1, false) ->
    preLoop solve N c qe we ((Q, W) :: bc) s = Ok s2 ->
    caller s2 = (ph s1, pV s1).
  Proof.
    intros Ho Hn H. cbn [preLoop] in H. apply bind_ok in H as (s' & H1 & H).
    unfold preStep in H1. cbv zeta in H1. rewrite Hn in H1. cbn [bind] in H1.
    pose proof (newton_out _ _ _ _ _ _ _ _ _ _ Hn) as Hout. cbn [pOut] in Hout.
    apply bind_ok in H1 as ([hs vs] & _ & H1). apply Ok_inj in H1. subst s'.
    unfold caller. erewrite (loop_frozen _ _ _ _ _ _ _ _ H); [|cbn [pOut]; reflexivity].
    rewrite Hout, Ho. reflexivity.
  Qed.

  (** With a solver that never gets within tolerance, only the first hydraulic step counts. *)
  Lemma only_first_step (solve : solver) z B LA LL cl h V dx dt q Qs w Ws N P r r1 :
    never_within solve (nErrTol N) ->
    solveFullPreissmann solve z B LA LL cl h V dx dt (q :: Qs) (w :: Ws) N P = Ok r ->
    solveFullPreissmann solve z B LA LL cl h V dx dt [q] [w] N P = Ok r1 ->
    r = r1.
  Proof.
    intros Hnev H H1.
    apply full_inv in H as (c & s & Hi & [[C _]|(qe & we & s' & Hl & ->)]); [discriminate|].
    apply full_inv in H1 as (c' & s0 & Hi' & [[C _]|(qe' & we' & s'' & Hl' & ->)]); [discriminate|].
    rewrite Hi in Hi'. apply Ok_inj in Hi'. injection Hi' as <- <-.
    apply init_state in Hi as (E1 & E2 & Ed & E3 & E4 & E5 & _).
    cbn [combine] in Hl, Hl'.
    pose proof Hl as Hl2. cbn [preLoop] in Hl2. apply bind_ok in Hl2 as (t & Ht & _). unfold preStep in Ht.
    apply bind_ok in Ht as ([s1 conv] & Hn & _).
    pose proof Hn as Hc. apply newton_never in Hc as [-> _]; [|rewrite E5; auto|cbn [pDelta]; rewrite Ed; exact I].
    rewrite (nonconverged_iterate _ _ _ _ _ _ _ _ _ _ _ E3 Hn Hl).
    rewrite (nonconverged_iterate _ _ _ _ _ _ _ _ _ _ _ E3 Hn Hl'). reflexivity.
  Qed.

  (** Singular matrix. *)
  Lemma preErr_defined c Q W C1 C2 nd rc : nd <> [] -> exists e, preErr (F := F) c Q W C1 C2 nd rc = Ok e.
  Proof.
    intros H. unfold preErr. destruct nd as [|a nd]; [easy|]. cbn [ix nth_error of_opt bind].
    unfold last_. destruct (rev (a :: nd)) eqn:E.
    - apply (f_equal (@length _)) in E. rewrite rev_length in E. discriminate.
    - cbn [of_opt bind]. eexists; reflexivity.
  Qed.
  Lemma preBand_defined c nd rc : nd <> [] -> exists e, preBand (F := F) c nd rc = Ok e.
  Proof.
    intros H. unfold preBand. destruct nd as [|a nd]; [easy|]. cbn [ix nth_error of_opt bind].
    unfold last_. destruct (rev (a :: nd)) eqn:E.
    - apply (f_equal (@length _)) in E. rewrite rev_length in E. discriminate.
    - cbn [of_opt bind]. eexists; reflexivity.
  Qed.

  Lemma nodesOf_length (z B Be h V A Sf : list F) n :
    length z = n -> length B = n -> length Be = n -> length h = n -> length V = n -> length A = n -> length Sf = n ->
    length (nodesOf z B Be h V A Sf) = n.
  Proof.
    revert z B Be h V A Sf; induction n as [|n IH]; intros z B Be h V A Sf; intros;
      destruct z, B, Be, h, V, A, Sf; try discriminate; [reflexivity|].
    cbn [nodesOf length] in *. f_equal. apply IH; lia.
  Qed.
End Frozen.

Section Singular.
  Context {F : Type} {NF : Num F}.
  Notation solver := (list (list F) -> list F -> solout F).

  Lemma dx2_length (dx d2 : list F) : dx2 dx = Ok d2 -> length d2 = S (length dx).
  Proof.
    unfold dx2. intros H. apply bind_ok in H as (d0 & Hd & H). apply bind_ok in H as (dn & _ & H). apply Ok_inj in H. subst.
    cbn [length]. rewrite app_length, map2_length. cbn [length].
    destruct dx as [|x dx]; [discriminate|].
    assert (length (removelast (x :: dx)) = length dx).
    { rewrite removelast_firstn_len, firstn_length. cbn. lia. }
    rewrite H. cbn [tl length]. lia.
  Qed.

  Lemma init_full z B LA LL cl h V dx dt N P c s :
    preInit (F := F) z B LA LL cl h V dx dt N P = Ok (c, s) ->
    let n := length z in (1 < n)%nat /\
    length B = n /\ length h = n /\ length V = n /\ S (length dx) = n /\
    cB c = B /\ cz c = z /\ length (cBe c) = n /\ length (pA s) = n /\ length (pSf s) = n.
  Proof.
    unfold preInit. intros H. destruct (negb _) eqn:E; [discriminate|].
    apply negb_false_iff in E. rewrite !andb_true_iff, !Nat.eqb_eq in E.
    apply bind_ok in H as (d2 & Hd & H). apply bind_ok in H as (zn & _ & H). apply bind_ok in H as (hn & _ & H).
    apply Ok_inj in H. injection H as <- <-. cbn [cB cz cBe pA pSf].
    pose proof (dx2_length _ _ Hd).
    assert (dx <> []) by (intros ->; discriminate). destruct dx; [easy|]. cbn [length] in *.
    repeat split; repeat rewrite ?map2_length, ?map_length; lia.
  Qed.

  (** First system of the call: the same for every solver. *)
  Lemma first_singular z B LA LL cl h V dx dt q Qs Ws N P c s :
    preInit (F := F) z B LA LL cl h V dx dt N P = Ok (c, s) ->
    (0 < nMaxIt N)%nat -> (length (q :: Qs) <= length Ws)%nat ->
    exists band err, forall solve : solver,
      (solve band err = SSingular -> solveFullPreissmann solve z B LA LL cl h V dx dt (q :: Qs) Ws N P = Exc EUnbound) /\
      (forall e, solve band err = SRaise e -> solveFullPreissmann solve z B LA LL cl h V dx dt (q :: Qs) Ws N P = Exc e).
  Proof.
    intros Hi Hm HW.
    pose proof (init_state _ _ _ _ _ _ _ _ _ _ _ _ _ Hi) as (E1 & E2 & Ed & E3 & E4 & E5 & Ez & Eh & EV).
    pose proof (init_full _ _ _ _ _ _ _ _ _ _ _ _ _ Hi) as (Hn & LB & _ & _ & Ldx & EB & _ & LBe & LA' & LS).
    set (nd := nodesOf (cz c) (cB c) (cBe c) (ph s) (pV s) (pA s) (pSf s)).
    assert (Hnd : nd <> []).
    { assert (length nd = length z).
      { apply nodesOf_length; auto; try congruence; rewrite ?E1, ?E2, map_length; auto. }
      intros C. rewrite C in H. cbn in H. lia. }
    destruct Ws as [|w Ws]; [cbn in HW; lia|].
    set (rc := reachesOf (cdx c) (cSeep c) (cS0 c)).
    destruct (preErr_defined c q w (reaches (preC1 c w (pDsWl s)) nd rc) (reaches (preC2 c) nd rc) nd rc Hnd) as (err & Herr).
    destruct (preBand_defined c nd rc Hnd) as (band & Hband).
    exists band, err. intros solve.
    assert (G : forall e, (match solve band err with SSol d => Ok d | SSingular => of_opt EUnbound (pDelta s) | SRaise e => Exc e end) = Exc e ->
      solveFullPreissmann solve z B LA LL cl h V dx dt (q :: Qs) (w :: Ws) N P = Exc e).
    { intros e He. unfold solveFullPreissmann. rewrite Hi. cbn [bind].
      replace (Nat.ltb (length (w :: Ws)) (length (q :: Qs))) with false by (symmetry; apply Nat.ltb_ge; auto).
      destruct (rev (q :: Qs)) as [|qe rq] eqn:EQ.
      { apply (f_equal (@length F)) in EQ. rewrite rev_length in EQ. discriminate. }
      destruct (rev (w :: Ws)) as [|we rw] eqn:EW.
      { apply (f_equal (@length F)) in EW. rewrite rev_length in EW. discriminate. }
      cbn [combine preLoop]. unfold preStep at 1. cbv zeta. fold nd rc.
      destruct (cMaxIt c) as [|l] eqn:EM; [lia|]. cbn [preNewton ph pV pA pSf pDelta]. fold nd rc.
      rewrite Herr. cbn [bind]. rewrite Hband. cbn [bind]. rewrite He. reflexivity. }
    split.
    - intros Hs. apply G. rewrite Hs, Ed. reflexivity.
    - intros e Hs. apply G. rewrite Hs. reflexivity.
  Qed.

  (** A later singular system: the call behaves exactly as if the solver had returned the
      previous correction again. *)
  Lemma newton_singular_repeat (solve solve' : solver) l c Q W C1 C2 s d :
    pDelta s = Some d ->
    (forall band err, solve band err = SSingular) ->
    (forall band err, solve' band err = SSol d) ->
    preNewton solve l c Q W C1 C2 s = preNewton solve' l c Q W C1 C2 s.
  Proof.
    intros Hd Hs Hs'. revert s Hd; induction l as [|l IH]; intros s Hd; [reflexivity|].
    cbn [preNewton]. destruct (preErr _ _ _ _ _ _ _) as [err|]; [|reflexivity]. cbn [bind].
    destruct (preBand _ _ _) as [band|]; [|reflexivity]. cbn [bind].
    rewrite Hs, Hs', Hd. cbn [of_opt bind].
    destruct (evens _ d) as [dh|]; [|reflexivity]. cbn [bind]. destruct (odds _ d) as [dV|]; [|reflexivity]. cbn [bind].
    destruct (forallb _ d); [reflexivity|]. apply IH. reflexivity.
  Qed.

  (** One iteration, any solver. *)
  Lemma newton_singular_once (solve : solver) c Q W C1 C2 s d :
    pDelta s = Some d ->
    preNewton solve 1 c Q W C1 C2 s =
    preNewton (fun band err => match solve band err with SSingular => SSol d | r => r end) 1 c Q W C1 C2 s.
  Proof.
    intros Hd. cbn [preNewton]. destruct (preErr _ _ _ _ _ _ _) as [err|]; [|reflexivity]. cbn [bind].
    destruct (preBand _ _ _) as [band|]; [|reflexivity]. cbn [bind].
    rewrite Hd. destruct (solve band err); reflexivity.
  Qed.
  (** Iterations compose. *)
  Lemma newton_compose (solve : solver) l c Q W C1 C2 s :
    preNewton solve (S l) c Q W C1 C2 s =
    (let! (s', conv) := preNewton solve 1 c Q W C1 C2 s in
     if conv then Ok (s', true) else preNewton solve l c Q W C1 C2 s').
  Proof.
    cbn [preNewton]. destruct (preErr _ _ _ _ _ _ _) as [err|]; [|reflexivity]. cbn [bind].
    destruct (preBand _ _ _) as [band|]; [|reflexivity]. cbn [bind].
    destruct (match solve band err with SSol d => _ | SSingular => _ | SRaise e => _ end) as [d|]; [|reflexivity]. cbn [bind].
    destruct (evens _ d) as [dh|]; [|reflexivity]. cbn [bind]. destruct (odds _ d) as [dV|]; [|reflexivity]. cbn [bind].
    destruct (forallb _ d); reflexivity.
  Qed.
End Singular.
