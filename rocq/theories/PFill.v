(** Proofs about the model of riv.py assembleChannel: filling of missing depths and velocities. *)
From Coq Require Import Reals ZArith List Bool Lia Lra Sorted.
From Verif Require Import Base Num Xr MState MRiv SChan PCoast PChan PLag.
Import ListNotations.
Local Open Scope num_scope.

Lemma sorted_filter (p : nat -> bool) l : StronglySorted lt l -> StronglySorted lt (filter p l).
Proof.
  induction 1 as [|a l S IH Hf]; cbn [filter]; [constructor|]. destruct (p a); [|auto].
  constructor; auto. rewrite Forall_forall in *. intros x Hx. apply filter_In in Hx. apply Hf. tauto.
Qed.
Lemma sorted_head a l : StronglySorted lt (a :: l) -> forall j, In j (a :: l) -> (a <= j)%nat.
Proof.
  intros H j Hj. inversion H as [|? ? _ Hf]; subst. rewrite Forall_forall in Hf.
  destruct Hj as [<-|Hj]; [lia|]. specialize (Hf j Hj). lia.
Qed.
Lemma sorted_app l m : StronglySorted lt (l ++ m) -> forall x y, In x l -> In y m -> (x < y)%nat.
Proof.
  induction l as [|a l IH]; intros H x y Hx Hy; [destruct Hx|]. cbn in H. inversion H as [|? ? S Hf]; subst.
  rewrite Forall_forall in Hf. destruct Hx as [<-|Hx]; [apply Hf, in_or_app; auto|apply IH; auto].
Qed.
Lemma sorted_last a r l : StronglySorted lt l -> rev l = a :: r -> forall j, In j l -> (j <= a)%nat.
Proof.
  intros H E j Hj. assert (El : l = rev r ++ [a]) by (rewrite <- (rev_involutive l), E; reflexivity).
  rewrite El in H, Hj. apply in_app_or in Hj as [Hj|[<-|[]]]; [|lia].
  pose proof (sorted_app _ _ H j a Hj (or_introl eq_refl)). lia.
Qed.

Section Fill.
  Context {F : Type} {NF : Num F}.

  Definition knownAt (mask : list bool) (vals : list F) (j : nat) (x : F) : Prop :=
    nth_error mask j = Some false /\ nth_error vals j = Some x.

  Lemma interpAt_spec mask vals i x : nth_error mask i = Some true -> length vals = length mask ->
    interpAt mask vals i = Ok x -> interpolated (knownAt mask vals) i x.
  Proof.
    intros Hi Hlen H. unfold interpAt in H. set (known := where_ negb mask) in *.
    assert (HS : StronglySorted lt known) by apply where_from_sorted.
    assert (HK : forall j, In j known <-> nth_error mask j = Some false).
    { intros j. unfold known. rewrite where_spec. split; [intros (b & E & Hb); destruct b; [discriminate|auto]|eauto]. }
    assert (HL : forall p r, rev (filter (fun j => Nat.ltb j i) known) = p :: r ->
              (p < i)%nat /\ nth_error mask p = Some false /\ forall j, nth_error mask j = Some false -> (j < i)%nat -> (j <= p)%nat).
    { intros p r E. assert (Hp : In p (filter (fun j => Nat.ltb j i) known)) by (apply in_rev; rewrite E; left; auto).
      apply filter_In in Hp as [Hp1 Hp2]. apply Nat.ltb_lt in Hp2. split; [auto|]. split; [apply HK; auto|].
      intros j Hj Hji. eapply sorted_last; [apply sorted_filter, HS|exact E|]. apply filter_In. rewrite HK, Nat.ltb_lt. auto. }
    assert (HL0 : rev (filter (fun j => Nat.ltb j i) known) = [] -> forall j, nth_error mask j = Some false -> ~ (j < i)%nat).
    { intros E j Hj C. assert (Hp : In j (rev (filter (fun j => Nat.ltb j i) known))) by (rewrite <- in_rev; apply filter_In; rewrite HK, Nat.ltb_lt; auto).
      rewrite E in Hp. destruct Hp. }
    assert (HR : forall q r, filter (fun j => Nat.ltb i j) known = q :: r ->
              (i < q)%nat /\ nth_error mask q = Some false /\ forall j, nth_error mask j = Some false -> (i < j)%nat -> (q <= j)%nat).
    { intros q r E. assert (Hp : In q (filter (fun j => Nat.ltb i j) known)) by (rewrite E; left; auto).
      apply filter_In in Hp as [Hp1 Hp2]. apply Nat.ltb_lt in Hp2. split; [auto|]. split; [apply HK; auto|].
      intros j Hj Hji. apply (sorted_head q r); [rewrite <- E; apply sorted_filter, HS|]. rewrite <- E. apply filter_In. rewrite HK, Nat.ltb_lt. auto. }
    assert (HR0 : filter (fun j => Nat.ltb i j) known = [] -> forall j, nth_error mask j = Some false -> ~ (i < j)%nat).
    { intros E j Hj C. assert (Hp : In j (filter (fun j => Nat.ltb i j) known)) by (apply filter_In; rewrite HK, Nat.ltb_lt; auto).
      rewrite E in Hp. destruct Hp. }
    assert (Hne : forall j, nth_error mask j = Some false -> j <> i) by (intros j Hj ->; congruence).
    destruct (rev _) as [|p r] eqn:EL; destruct (filter (fun j => Nat.ltb i j) known) as [|q r'] eqn:ER; [discriminate| | |].
    - right. right. destruct (HR _ _ eq_refl) as (H1 & H2 & H3). apply ix_ok in H. exists q. split; [auto|]. split; [split; auto|].
      intros j y Hj [Hm _]. destruct (Nat.lt_trichotomy j i) as [C|[C|C]].
      + apply (HL0 eq_refl j Hm C). + exact (Hne _ Hm C). + specialize (H3 j Hm C). lia.
    - right. left. destruct (HL _ _ eq_refl) as (H1 & H2 & H3). apply ix_ok in H. exists p. split; [auto|]. split; [split; auto|].
      intros j y Hj [Hm _]. destruct (Nat.lt_trichotomy j i) as [C|[C|C]].
      + specialize (H3 j Hm C). lia. + exact (Hne _ Hm C). + apply (HR0 eq_refl j Hm C).
    - left. destruct (HL _ _ eq_refl) as (H1 & H2 & H3). destruct (HR _ _ eq_refl) as (H4 & H5 & H6).
      apply bind_ok in H as (a & Ha & H). apply bind_ok in H as (b & Hb & H). apply ix_ok in Ha, Hb. apply Ok_inj in H.
      exists p, q, a, b. split; [lia|]. split; [split; auto|]. split; [split; auto|]. split; [|auto].
      intros j y Hj [Hm _]. destruct (Nat.lt_trichotomy j i) as [C|[C|C]].
      + specialize (H3 j Hm C). lia. + exact (Hne _ Hm C). + specialize (H6 j Hm C). lia.
  Qed.

  Lemma all_ok_nth {A} (l : list (res A)) xs i r : all_ok l = Ok xs -> nth_error l i = Some r -> exists x, r = Ok x /\ nth_error xs i = Some x.
  Proof.
    revert xs i; induction l as [|r0 l IH]; intros xs i H Hr; [destruct i; discriminate|]. cbn [all_ok] in H.
    apply bind_ok in H as (x & Hx & H). apply bind_ok in H as (ys & Hy & H). apply Ok_inj in H. subst xs.
    destruct i as [|i]; cbn in Hr |- *; [|eauto]. apply Some_inj in Hr. exists x. split; congruence.
  Qed.

  Lemma fillNan_nth mask vals old f out i x y : length mask = length old ->
    fillNan mask vals old f = Ok out -> nth_error old i = Some x -> nth_error out i = Some y ->
    exists m, nth_error mask i = Some m /\ if m : bool then exists v, interpAt mask vals i = Ok v /\ f v i = Ok y else y = x.
  Proof.
    unfold fillNan. intros HL H Hx Hy.
    destruct (nth_error mask i) as [m|] eqn:Em.
    2:{ apply nth_error_None in Em. assert (i < length old)%nat by (apply nth_error_Some; congruence). lia. }
    exists m. split; [reflexivity|].
    pose proof (nth_error_mapi (fun i x => if nth i mask false then let! v := interpAt mask vals i in f v i else Ok x) old i) as E.
    rewrite Hx in E. cbn [option_map] in E.
    destruct (all_ok_nth _ _ _ _ H E) as (z & Hz & Hz'). rewrite Hy in Hz'. apply Some_inj in Hz'. subst z.
    rewrite (nth_error_nth mask i false Em) in Hz. destruct m.
    - apply bind_ok in Hz as (v & Hv & Hz). eauto.
    - apply Ok_inj in Hz. auto.
  Qed.

  Lemma interpolated_ext (k1 k2 : nat -> F -> Prop) i x :
    (forall j y, k1 j y -> k2 j y) -> (forall j y, k2 j y -> exists z, k1 j z) -> interpolated k1 i x -> interpolated k2 i x.
  Proof.
    intros H H' [(p & q & a & b & H1 & H2 & H3 & H4 & H5)|[(p & H1 & H2 & H3)|(p & H1 & H2 & H3)]].
    - left. exists p, q, a, b. split; [auto|]. split; [auto|]. split; [auto|]. split; [|auto].
      intros j y Hj C. apply H' in C as (z & C). exact (H4 j z Hj C).
    - right. left. exists p. split; [auto|]. split; [auto|]. intros j y Hj C. apply H' in C as (z & C). exact (H3 j z Hj C).
    - right. right. exists p. split; [auto|]. split; [auto|]. intros j y Hj C. apply H' in C as (z & C). exact (H3 j z Hj C).
  Qed.

  Lemma mask_nth (l : list F) j b : nth_error (map fisnan l) j = Some b <-> exists x, nth_error l j = Some x /\ fisnan x = b.
  Proof.
    rewrite nth_error_map. destruct (nth_error l j) as [x|]; cbn [option_map]; split.
    - intros H. apply Some_inj in H. eauto.
    - intros (y & Hy & Hb). apply Some_inj in Hy. congruence.
    - discriminate.
    - intros (y & Hy & _). discriminate.
  Qed.

  Lemma fillDep_spec raw out : (if existsb fisnan raw then fillDep raw else Ok raw) = Ok out -> filledDep raw out.
  Proof.
    intros H. destruct (existsb fisnan raw) eqn:E.
    - split; [apply fillNan_length in H; exact H|]. intros i x y Hx Hy. unfold fillDep in H.
      assert (HLm : length (map fisnan raw) = length raw) by apply map_length.
      destruct (fillNan_nth _ _ _ _ _ _ _ _ HLm H Hx Hy) as (m & Hm & Hz).
      apply mask_nth in Hm as (x' & Hx' & <-). rewrite Hx in Hx'. apply Some_inj in Hx'. subst x'.
      destruct (fisnan x) eqn:En; [|exact Hz]. destruct Hz as (v & Hv & Ev). apply Ok_inj in Ev. subst v.
      apply interpAt_spec in Hv; [|apply mask_nth; eauto|auto].
      eapply interpolated_ext; [| |exact Hv]; unfold knownAt, present; intros j z.
      + intros [Hk Hj]. apply mask_nth in Hk as (z' & Hz' & Hb). split; [auto|congruence].
      + intros [Hj Hb]. exists z. split; [apply mask_nth; eauto|auto].
    - apply Ok_inj in H. subst out. split; [reflexivity|]. intros i x y Hx Hy. rewrite Hx in Hy. apply Some_inj in Hy. subst y.
      destruct (fisnan x) eqn:En; [|reflexivity]. exfalso. apply not_true_iff_false in E. apply E, existsb_exists. exists x. split; [eapply nth_error_In; eauto|auto].
  Qed.

  Lemma fillVel_spec dep raw out : length dep = length raw ->
    (if existsb fisnan raw then fillVel dep raw else Ok raw) = Ok out -> filledVel dep raw out.
  Proof.
    intros HD H. destruct (existsb fisnan raw) eqn:E.
    - split; [apply fillNan_length in H; exact H|]. intros i x y Hx Hy. unfold fillVel in H.
      assert (HLm : length (map fisnan raw) = length raw) by apply map_length.
      destruct (fillNan_nth _ _ _ _ _ _ _ _ HLm H Hx Hy) as (m & Hm & Hz).
      apply mask_nth in Hm as (x' & Hx' & <-). rewrite Hx in Hx'. apply Some_inj in Hx'. subst x'.
      destruct (fisnan x) eqn:En; [|exact Hz]. destruct Hz as (v & Hv & Ev). apply bind_ok in Ev as (d & Hd & Ev). apply ix_ok in Hd. apply Ok_inj in Ev.
      apply interpAt_spec in Hv; [|apply mask_nth; eauto|rewrite map2_length, map_length; lia].
      exists v, d. split; [|auto].
      eapply interpolated_ext; [| |exact Hv]; unfold knownAt, present; intros j z.
      + intros [Hk Hj]. apply mask_nth in Hk as (u & Hu & Hb). rewrite nth_error_map2 in Hj.
        destruct (nth_error dep j) as [h|] eqn:Eh; [|discriminate]. rewrite Hu in Hj. apply Some_inj in Hj. exists u, h. auto.
      + intros (u & h & [Hj Hb] & Hh & ->). exists (h * u). split; [apply mask_nth; eauto|]. rewrite nth_error_map2, Hh, Hj. reflexivity.
    - apply Ok_inj in H. subst out. split; [reflexivity|]. intros i x y Hx Hy. rewrite Hx in Hy. apply Some_inj in Hy. subst y.
      destruct (fisnan x) eqn:En; [|reflexivity]. exfalso. apply not_true_iff_false in E. apply E, existsb_exists. exists x. split; [eapply nth_error_In; eauto|auto].
  Qed.

  Lemma removelast_app_cons {A} (l m : list A) : m <> [] -> forall x, upd (l ++ m) (length (l ++ m) - 1) x = l ++ removelast m ++ [x].
  Proof.
    intros Hm x. destruct (exists_last Hm) as (m' & y & ->). rewrite removelast_last, !app_assoc.
    rewrite app_length. cbn [length]. replace (length (l ++ m') + 1 - 1)%nat with (length (l ++ m')) by lia.
    generalize (l ++ m'). intros k. induction k as [|a k IH]; [reflexivity|]. cbn. f_equal. exact IH.
  Qed.

  Section Asm.
    Variables (T : list (tsect F)) (e0 e1 eW eElev : F) (Closed : bool).
    Variables (RiverElev RivDep RivVel LagoonWL LagoonVel OutletDep OutletVel EndDep EndVel : list F).
    Variables (Dx : F) (P : phys F).
    Notation asm := (assembleChannel T e0 e1 eW eElev Closed RiverElev RivDep RivVel LagoonWL LagoonVel
                                     OutletDep OutletVel EndDep EndVel Dx P).

    Lemma no_missing ch : asm = Ok ch ->
      Forall (fun w => (w <=? f0) = false /\ fisnan w = false) (chWidth ch) /\
      Forall (fun x => fisnan x = false) (chElev ch) /\ Forall (fun x => fisnan x = false) (chDep ch) /\
      Forall (fun x => fisnan x = false) (chVel ch).
    Proof.
      intros H. apply assemble_inv in H as [x0 t0 ow cl1 on1 sa sl ea1 el1 ea el lts dep0 vel0].
      assert (G : forall (p : F -> bool) l, existsb p l = false -> Forall (fun x => p x = false) l).
      { intros p l E. apply Forall_forall. intros x Hx. destruct (p x) eqn:Ep; [|reflexivity]. apply not_true_iff_false in E.
        exfalso. apply E, existsb_exists. eauto. }
      apply G in a_pos, a_nw, a_nz, a_nv, a_nd. split; [|auto].
      rewrite Forall_forall in *. auto.
    Qed.

    Lemma raw_filled ch : asm = Ok ch -> length RivDep = length RivVel ->
      (chClosed ch = false -> length EndDep = length EndVel) ->
      exists dep vel, rawDepths T (chClosed ch) RivDep LagoonWL OutletDep EndDep (chOnline ch) (chOutlet ch) dep /\
                      rawVels (chClosed ch) RivVel LagoonVel OutletVel EndVel (chOnline ch) (chOutlet ch) vel /\
                      filledDep dep (chDep ch) /\ filledVel (chDep ch) vel (chVel ch).
    Proof.
      intros H HL HE. apply assemble_inv in H as [x0 t0 ow cl1 on1 sa sl ea1 el1 ea el lts dep0 vel0].
      pose proof (fillDep_spec _ _ a_dep) as HD.
      unfold chanHyd in a_hyd. rewrite a_lts in a_hyd. cbn [bind] in a_hyd.
      apply bind_ok in a_hyd as (wl & Hw & a_hyd). apply bind_ok in a_hyd as (lv & Hv & a_hyd).
      assert (Ew : map2 fsub wl (map tZ3 lts) = map (fun wt => fst wt - tZ3 (snd wt)) (combine wl lts)).
      { clear. revert lts. induction wl as [|w wl IH]; intros [|t lts]; cbn; auto. f_equal. apply IH. }
      pose proof (gather_length _ _ a_lts) as L1. pose proof (gather_length _ _ Hw) as L2. pose proof (gather_length _ _ Hv) as L3.
      exists dep0, vel0.
      destruct (chClosed ch).
      - apply Ok_inj in a_hyd.
        assert (E1 : RivDep ++ map2 fsub wl (map tZ3 lts) = dep0) by congruence.
        assert (E2 : upd (RivVel ++ lv) (length (RivVel ++ lv) - 1) f0 = vel0) by congruence.
        assert (Hlv : lv <> []) by (intros ->; cbn in L3; apply a_ne; destruct (chOnline ch); [auto|discriminate]).
        split; [|split; [|split; [exact HD|]]].
        + exists lts, wl, []. split; [apply gather_ok; auto|]. split; [apply gather_ok; auto|]. split; [discriminate|].
          rewrite <- E1, Ew, app_nil_r. reflexivity.
        + exists lv, []. split; [apply gather_ok; auto|]. split; [discriminate|]. rewrite <- E2. apply removelast_app_cons. auto.
        + apply fillVel_spec; [|exact a_vel]. destruct HD as [-> _]. rewrite <- E1, <- E2, upd_length, !app_length, map2_length, map_length. lia.
      - apply bind_ok in a_hyd as (od & Hod & a_hyd). apply bind_ok in a_hyd as (ov & Hov & a_hyd).
        apply Ok_inj in a_hyd.
        assert (E1 : RivDep ++ map2 fsub wl (map tZ3 lts) ++ od ++ padEnd EndDep = dep0) by congruence.
        assert (E2 : RivVel ++ lv ++ ov ++ padEnd EndVel = vel0) by congruence.
        pose proof (gather_length _ _ Hod) as L4. pose proof (gather_length _ _ Hov) as L5. specialize (HE eq_refl).
        assert (HP : length (padEnd EndDep) = length (padEnd EndVel)) by (destruct EndDep as [|? [|? ?]], EndVel as [|? [|? ?]]; cbn in *; lia).
        split; [|split; [|split; [exact HD|]]].
        + exists lts, wl, od. split; [apply gather_ok; auto|]. split; [apply gather_ok; auto|]. split; [intros _; apply gather_ok; auto|].
          rewrite <- E1, Ew. reflexivity.
        + exists lv, ov. split; [apply gather_ok; auto|]. split; [intros _; apply gather_ok; auto|]. rewrite <- E2. reflexivity.
        + apply fillVel_spec; [|exact a_vel]. destruct HD as [-> _]. rewrite <- E1, <- E2, !app_length, map2_length, map_length. lia.
    Qed.
  End Asm.
End Fill.

(** Filled depths stay within the range of the known ones. *)
Local Open Scope R_scope.
Lemma interp_range (known : nat -> xr -> Prop) lo hi i x :
  (forall j y, known j y -> exists r, y = Fin r /\ lo <= r <= hi) -> interpolated known i x -> exists r, x = Fin r /\ lo <= r <= hi.
Proof.
  intros H [(p & q & a & b & H1 & H2 & H3 & H4 & H5)|[(p & H1 & H2 & H3)|(p & H1 & H2 & H3)]]; [|eauto|eauto].
  destruct (H _ _ H2) as (ra & -> & Ha). destruct (H _ _ H3) as (rb & -> & Hb).
  set (n := (Z.of_nat q - Z.of_nat p)%Z) in *. set (m := (Z.of_nat i - Z.of_nat p)%Z) in *.
  assert (Hm : 0 < IZR m) by (apply IZR_lt; unfold m; lia). assert (Hn : IZR m < IZR n) by (apply IZR_lt; unfold m, n; lia).
  change (fofZ n) with (Fin (IZR n)) in H5. change (fofZ m) with (Fin (IZR m)) in H5.
  change (Fin rb - Fin ra)%n with (Fin (rb - ra)) in H5. change (fdiv (Fin (rb - ra)) (Fin (IZR n))) with (xdiv (Fin (rb - ra)) (Fin (IZR n))) in H5.
  rewrite xdiv_fin in H5 by lra. subst x. exists ((rb - ra) / IZR n * IZR m + ra). split; [reflexivity|].
  set (l := IZR m / IZR n). assert (Hl : 0 < l < 1).
  { unfold l. split; [apply Rdiv_lt_0_compat; lra|]. apply Rmult_lt_reg_r with (IZR n); [lra|]. unfold Rdiv. rewrite Rmult_assoc, Rinv_l by lra. lra. }
  replace ((rb - ra) / IZR n * IZR m + ra) with (l * rb + (1 - l) * ra) by (unfold l; field; lra). nra.
Qed.

Lemma filled_range lo hi raw out : filledDep raw out ->
  (forall i y, present raw i y -> exists r, y = Fin r /\ lo <= r <= hi) ->
  Forall (fun y => exists r, y = Fin r /\ lo <= r <= hi) out.
Proof.
  intros [HL H] HK. apply Forall_forall. intros y Hy. apply In_nth_error in Hy as (i & Hi).
  destruct (nth_error raw i) as [x|] eqn:Ex.
  - specialize (H i x y Ex Hi). destruct (fisnan x) eqn:E.
    + eapply interp_range; eauto.
    + subst y. apply (HK i). split; auto.
  - apply nth_error_None in Ex. assert (i < length out)%nat by (apply nth_error_Some; congruence). lia.
Qed.

Section Exact.
  Variables (T : list (tsect xr)) (e0 e1 eW eElev : xr) (Closed : bool).
  Variables (RiverElev RivDep RivVel LagoonWL LagoonVel OutletDep OutletVel EndDep EndVel : list xr).
  Variables (Dx : xr) (P : phys xr).
  Notation asm := (assembleChannel T e0 e1 eW eElev Closed RiverElev RivDep RivVel LagoonWL LagoonVel
                                   OutletDep OutletVel EndDep EndVel Dx P).

  Lemma depths_in_range ch lo hi : asm = Ok ch -> length RivDep = length RivVel ->
    (chClosed ch = false -> length EndDep = length EndVel) ->
    (forall raw, rawDepths T (chClosed ch) RivDep LagoonWL OutletDep EndDep (chOnline ch) (chOutlet ch) raw ->
                 forall i y, present raw i y -> exists r, y = Fin r /\ lo <= r <= hi) ->
    Forall (fun y => exists r, y = Fin r /\ lo <= r <= hi) (chDep ch).
  Proof.
    intros H HL HE HK. destruct (raw_filled _ _ _ _ _ _ _ _ _ _ _ _ _ _ _ _ _ ch H HL HE) as (dep & vel & H1 & _ & H2 & _).
    eapply filled_range; [exact H2|]. apply HK. exact H1.
  Qed.
End Exact.
