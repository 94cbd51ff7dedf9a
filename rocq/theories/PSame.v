(** Which records of the driving conditions matter. *)
From Coq Require Import ZArith List Bool Reals Lia Lra Sorting.Sorted.
From Verif Require Import Base Num Xr MState MCoast MRiv MMor MOut MCore SCore SRun SSame PShift PInterp PCore.
Import ListNotations.
Local Open Scope Z_scope.

Section Local.
  Context {A : Type}.
  Lemma lw_mid (p : A -> bool) pre mid post : Forall (fun x => p x = false) post -> Exists (fun x => p x = true) mid ->
    last_where p (pre ++ mid ++ post) = option_map (Nat.add (length pre)) (last_where p mid).
  Proof.
    intros Hp Hm. apply Exists_exists in Hm. destruct Hm as (x & Hx & Px). apply In_nth_error in Hx. destruct Hx as (k & Hk).
    destruct (last_where p mid) as [i|] eqn:Ei; [|eapply last_where_None in Ei; [|exact Hk]; congruence].
    assert (Kl := proj1 (nth_error_Some mid k) ltac:(congruence)).
    assert (Hk' : nth_error (pre ++ mid ++ post) (length pre + k) = Some x) by (rewrite nth_error_app2, Nat.add_comm, Nat.add_sub, nth_error_app1 by lia; exact Hk).
    destruct (last_where p (pre ++ mid ++ post)) as [j|] eqn:Ej; [|eapply last_where_None in Ej; [|exact Hk']; congruence].
    cbn [option_map]. f_equal. apply last_where_Some in Ei, Ej. destruct Ei as ((y & Y1 & Y2) & Y3), Ej as ((z & Z1 & Z2) & Z3).
    assert (Il := proj1 (nth_error_Some mid i) ltac:(congruence)).
    assert (Y1' : nth_error (pre ++ mid ++ post) (length pre + i) = Some y) by (rewrite nth_error_app2, Nat.add_comm, Nat.add_sub, nth_error_app1 by lia; exact Y1).
    destruct (Nat.lt_trichotomy j (length pre + i)) as [L|[L|L]]; [specialize (Z3 _ _ L Y1'); congruence|exact L|exfalso].
    rewrite nth_error_app2 in Z1 by lia. destruct (Nat.lt_ge_cases (j - length pre) (length mid)) as [M|M].
    - rewrite nth_error_app1 in Z1 by lia. assert (Li : (i < j - length pre)%nat) by lia. specialize (Y3 _ _ Li Z1). congruence.
    - rewrite nth_error_app2 in Z1 by lia. apply nth_error_In in Z1. rewrite Forall_forall in Hp. apply Hp in Z1. congruence.
  Qed.
  Lemma fw_mid (p : A -> bool) pre mid post : Forall (fun x => p x = false) pre -> Exists (fun x => p x = true) mid ->
    first_where p (pre ++ mid ++ post) = option_map (Nat.add (length pre)) (first_where p mid).
  Proof.
    intros Hp Hm. apply Exists_exists in Hm. destruct Hm as (x & Hx & Px). apply In_nth_error in Hx. destruct Hx as (k & Hk).
    destruct (first_where p mid) as [i|] eqn:Ei; [|rewrite first_where_None in Ei; apply Ei in Hk; congruence].
    cbn [option_map]. apply first_where_Some in Ei. destruct Ei as ((y & Y1 & Y2) & Y3).
    assert (Il := proj1 (nth_error_Some mid i) ltac:(congruence)).
    apply first_where_Some. split.
    - exists y. split; [|exact Y2]. rewrite nth_error_app2, Nat.add_comm, Nat.add_sub, nth_error_app1 by lia. exact Y1.
    - intros j z Lj Hj. destruct (Nat.lt_ge_cases j (length pre)) as [M|M].
      + rewrite nth_error_app1 in Hj by lia. apply nth_error_In in Hj. rewrite Forall_forall in Hp. apply Hp. exact Hj.
      + rewrite nth_error_app2, nth_error_app1 in Hj by lia. apply (Y3 (j - length pre)%nat); [lia|exact Hj].
  Qed.
  Lemma slice_mid (pre mid post : list A) i j : (j < length mid)%nat -> slice (pre ++ mid ++ post) (length pre + i) (S (length pre + j)) = slice mid i (S j).
  Proof.
    intros H. unfold slice. replace (S (length pre + j) - (length pre + i))%nat with (S j - i)%nat by lia.
    rewrite skipn_app, skipn_all2 by lia. cbn [app]. replace (length pre + i - length pre)%nat with i by lia.
    rewrite skipn_app, firstn_app, skipn_length. replace (S j - i - (length mid - i))%nat with 0%nat by lia. rewrite firstn_O, app_nil_r. reflexivity.
  Qed.
End Local.

Section Same.
  Context {F : Type} {NF : Num F}.
  Lemma interp_local (pre mid post : list (Z * F)) ts a b : spanned ts a b ->
    Forall (fun p => fst p < b) pre -> Forall (fun p => a < fst p) post -> Exists (fun p => fst p <= a) mid -> Exists (fun p => b <= fst p) mid ->
    interpolateAt (pre ++ mid ++ post) ts = interpolateAt mid ts.
  Proof.
    intros (Ha & Hb & _) H1 H2 H3 H4. unfold interpolateAt. rewrite ix_hd, last_rev, Ha, Hb. cbn [of_opt bind].
    rewrite lw_mid; [|revert H2; apply Forall_impl; intros p L; apply Z.leb_gt; lia|revert H3; apply Exists_impl; intros p L; apply Z.leb_le; lia].
    rewrite fw_mid; [|revert H1; apply Forall_impl; intros p L; apply Z.leb_gt; lia|revert H4; apply Exists_impl; intros p L; apply Z.leb_le; lia].
    destruct (last_where _ mid) as [i|]; [|reflexivity]. destruct (first_where _ mid) as [j|] eqn:Ej; [|reflexivity]. cbn [option_map of_opt bind].
    rewrite slice_mid; [reflexivity|]. apply first_where_Some in Ej. destruct Ej as ((x & X & _) & _). apply nth_error_Some. congruence.
  Qed.
  Lemma spanned_le ts a b : spanned ts a b -> a <= b.
  Proof.
    intros (Ha & _ & H). destruct ts as [|t ts]; [discriminate|]. cbn in Ha. injection Ha as ->. apply Forall_inv in H. lia.
  Qed.
  Lemma alike_answer lo hi (s s' : list (Z * F)) : alike lo hi s s' -> answerAlike lo hi s s'.
  Proof.
    intros (pre & pre' & mid & post & post' & -> & -> & H1 & H2 & H3 & H4) ts a b S La Lb. pose proof (spanned_le _ _ _ S) as AB.
    apply Forall_app in H1, H2. destruct H1 as [H1 H1'], H2 as [H2 H2'].
    assert (E3 : Exists (fun p => fst p <= a) mid) by (revert H3; apply Exists_impl; intros; lia).
    assert (E4 : Exists (fun p => b <= fst p) mid) by (revert H4; apply Exists_impl; intros; lia).
    rewrite (interp_local pre mid post ts a b S), (interp_local pre' mid post' ts a b S); auto;
      match goal with H : Forall _ ?l |- Forall _ ?l => revert H; apply Forall_impl; intros; lia end.
  Qed.

  Section Run.
    Variables (lo hi : Z) (v v' : env F).
    Hypothesis D : drivenAlike (answerAlike lo hi) v v'.
    Hypothesis Hf : 0 < tHydDt (vTP v).
    Lemma at_same (s s' : list (Z * F)) t : answerAlike lo hi s s' -> lo <= t <= hi -> at1 s' t = at1 s t.
    Proof. intros H L. unfold at1. rewrite (H [t] t t); [reflexivity| |lia|lia]. split; [reflexivity|]. split; [reflexivity|]. constructor; [lia|constructor]. Qed.
    Lemma times_same (s s' : list (Z * F)) t d : answerAlike lo hi s s' -> lo <= t -> t + d <= hi ->
      interpolateAt s' (hydTimes t d (tHydDt (vTP v))) = interpolateAt s (hydTimes t d (tHydDt (vTP v))).
    Proof.
      intros H L1 L2. destruct (hydTimes t d (tHydDt (vTP v))) as [|x l] eqn:E; [reflexivity|]. symmetry.
      unfold hydTimes in E. set (f := tHydDt (vTP v)) in *. set (n := Z.to_nat (d / f)) in *.
      assert (N : (0 < n)%nat) by (destruct n; [discriminate|lia]).
      assert (Q : 0 <= d / f) by (unfold n in N; lia). assert (M := Z.mul_div_le d f Hf). assert (Nn : Z.of_nat n = d / f) by (unfold n; lia).
      rewrite <- E. apply (H _ (t + 1 * f) (t + Z.of_nat n * f)); [|lia|rewrite Nn; lia].
      split; [destruct n; [lia|reflexivity]|]. split.
      - rewrite <- map_rev. destruct n as [|m]; [lia|]. rewrite seq_S, rev_app_distr. reflexivity.
      - apply Forall_forall. intros y Hy. apply in_map_iff in Hy. destruct Hy as (k & <- & Hk). apply in_seq in Hk. nia.
    Qed.
    Lemma step_same fuel o s : asksWithin lo hi s -> step fuel o v' s = step fuel o v s.
    Proof.
      intros (L1 & L2). destruct D as (E1 & E2 & E3 & E4 & E5 & Df & Ds & D1 & D2 & D3 & D4 & D5).
      unfold step. cbv zeta. rewrite <- E1, <- E2, <- E3, <- E4, <- E5.
      rewrite (times_same _ _ _ _ Df) by lia. rewrite (times_same _ _ _ _ Ds) by lia.
      rewrite (at_same _ _ _ D1 L1), (at_same _ _ _ D2 L1), (at_same _ _ _ D3 L1), (at_same _ _ _ D4 L1), (at_same _ _ _ D5 L1).
      apply bind_ext. intros c. apply bind_ext. intros fl. apply bind_ext. intros se.
      unfold hydraulics. rewrite <- E1, <- E2, <- E3. reflexivity.
    Qed.
    Lemma steps_same af o : forall n k s,
      (forall m s1, (m < n)%nat -> steps af m k o v s = Ok s1 -> asksWithin lo hi s1) -> steps af n k o v' s = steps af n k o v s.
    Proof.
      induction n as [|n IH]; intros k s H; [reflexivity|]. cbn [steps]. rewrite (step_same af (o k) s) by (apply (H 0%nat); [lia|reflexivity]).
      destruct (step af (o k) v s) as [s1|e] eqn:E; [|reflexivity]. cbn [bind]. apply IH. intros m s2 Hm Hs. apply (H (S m)); [lia|]. cbn [steps]. rewrite E. exact Hs.
    Qed.
    Lemma loop_same af o : forall n k s,
      (forall m s1, (m < n)%nat -> steps af m k o v s = Ok s1 -> asksWithin lo hi s1) -> loop af n k o v' s = loop af n k o v s.
    Proof.
      assert (E3 : vTP v' = vTP v) by (destruct D as (_ & _ & E & _); auto).
      induction n as [|n IH]; intros k s H; cbn [loop]; rewrite E3; destruct (_ <=? _); try reflexivity. rewrite (step_same af (o k) s) by (apply (H 0%nat); [lia|reflexivity]).
      destruct (step af (o k) v s) as [s1|e] eqn:E; [|reflexivity]. cbn [bind]. apply IH. intros m s2 Hm Hs. apply (H (S m)); [lia|]. cbn [steps]. rewrite E. exact Hs.
    Qed.
    Lemma init_same T e0 e1 W Z0 Ri RWL RV LWL LVel OD OV ED EV cl : lo <= tStart (vTP v) <= hi ->
      init v' T e0 e1 W Z0 Ri RWL RV LWL LVel OD OV ED EV cl = init v T e0 e1 W Z0 Ri RWL RV LWL LVel OD OV ED EV cl.
    Proof.
      intros L. destruct D as (E1 & E2 & E3 & E4 & E5 & Df & Ds & _). unfold init. cbv zeta. rewrite <- E1, <- E2, <- E3, <- E4, <- E5.
      rewrite (at_same _ _ _ Df L), (at_same _ _ _ Ds L). reflexivity.
    Qed.
  End Run.
  (** The time steps a run can take are those the clock has room for. *)
  Lemma run_same lo hi v v' af o : drivenAlike (answerAlike lo hi) v v' -> 0 < tHydDt (vTP v) -> lo <= tStart (vTP v) <= tEnd (vTP v) ->
    0 <= tMorDtMin (vTP v) -> tEnd (vTP v) + (tEnd (vTP v) - tStart (vTP v)) <= hi -> tStart (vTP v) + tMorDtMin (vTP v) <= hi ->
    forall T e0 e1 W Z0 Ri RWL RV LWL LVel OD OV ED EV cl n,
    (let! s := init v' T e0 e1 W Z0 Ri RWL RV LWL LVel OD OV ED EV cl in steps af n 0 o v' s) =
    (let! s := init v T e0 e1 W Z0 Ri RWL RV LWL LVel OD OV ED EV cl in steps af n 0 o v s).
  Proof.
    intros D Hf L1 Hm Hh Hi. intros. rewrite (init_same lo hi v v' D) by lia. destruct (init v _ _ _ _ _ _ _ _ _ _ _ _ _ _ _) as [s|e] eqn:E; [|reflexivity]. cbn [bind].
    apply (steps_same lo hi v v' D Hf). intros m s1 _ Hs. apply init_facts in E. destruct E as (I1 & I2 & _).
    assert (C : clocked v s) by (split; lia). unfold asksWithin.
    destruct m as [|m]; [cbn in Hs; apply Ok_inj in Hs; subst s1; lia|].
    destruct (steps_clock _ _ _ _ _ _ _ C Hs) as ([C1 C2] & C3).
    assert (G : gDt s1 <= tEnd (vTP v) - tStart (vTP v)).
    { clear -Hs C I1. revert s C I1 Hs. generalize 0%nat as k.
      assert (Q : forall m k s s1, clocked v s -> tStart (vTP v) <= gTime s -> steps af (S m) k o v s = Ok s1 -> gDt s1 <= tEnd (vTP v) - tStart (vTP v)).
      { clear m s1. induction m as [|m IH]; intros k s s1 C I Hs; cbn [steps] in Hs; bok Hs s2.
        - cbn in Hs. apply Ok_inj in Hs. subst s2. apply step_inv in Es2. destruct Es2 as (c & mo & P). rewrite (p_dt _ _ _ _ _ _ _ P). unfold clocked in C. lia.
        - destruct (step_clock _ _ _ _ _ C Es2) as [C1 L1]. apply (IH (S k) s2 s1 C1); [lia|exact Hs]. }
      intros k s C I1 Hs. apply (Q m k s s1 C); [lia|exact Hs]. }
    lia.
  Qed.
End Same.

(** ** Records on the line *)
Lemma apart l1 p q l2 r : ordered (l1 ++ p :: q :: l2) -> In r (l1 ++ p :: q :: l2) -> fst r <= fst p \/ fst q <= fst r.
Proof.
  intros Hs Hr. unfold ordered in Hs. apply in_app_or in Hr. destruct Hr as [Hr|[->|[->|Hr]]]; [| | |].
  - left. induction l1 as [|y l1 IH]; [destruct Hr|]. cbn in Hs. apply StronglySorted_inv in Hs. destruct Hs as [Hs Hy].
    destruct Hr as [->|Hr]; [|apply IH; auto]. rewrite Forall_forall in Hy. assert (fst r < fst p); [|lia]. apply Hy. apply in_or_app. right. left. auto.
  - left. lia.
  - right. lia.
  - right. apply sorted_app_r in Hs. apply StronglySorted_inv in Hs. destruct Hs as [Hs _]. apply StronglySorted_inv in Hs. destruct Hs as [_ Hq].
    rewrite Forall_forall in Hq. apply Hq in Hr. lia.
Qed.
Lemma refines_curve s s' t v w : ordered s -> ordered s' -> refines s s' -> curve s t v -> curve s' t w -> v = w.
Proof.
  intros Hs Hs' [Hi Hc] Hv Hw. rewrite Forall_forall in Hc. destruct Hw as [w H|m1 a va b vb m2 E L].
  - apply Hc in H. cbn in H. exact (curve_unique s t _ _ Hs Hv H).
  - assert (Ia : In (a, va) s') by (subst s'; apply in_or_app; right; left; auto).
    assert (Ib : In (b, vb) s') by (subst s'; apply in_or_app; right; right; left; auto).
    assert (G : forall r, In r s -> fst r <= a \/ b <= fst r).
    { intros r Hr. apply Hi in Hr. rewrite E in Hr, Hs'. apply (apart _ _ _ _ _ Hs' Hr). }
    apply Hc in Ia, Ib. cbn [fst snd] in Ia, Ib.
    destruct Hv as [v H|l1 t1 v1 t2 v2 l2 Es L2]; [apply G in H; cbn in H; lia|].
    assert (J1 : In (t1, v1) s) by (subst s; apply in_or_app; right; left; auto).
    assert (J2 : In (t2, v2) s) by (subst s; apply in_or_app; right; right; left; auto).
    pose proof (G _ J1) as G1. pose proof (G _ J2) as G2. cbn [fst] in G1, G2.
    assert (line : forall x, t1 <= x <= t2 -> curve s x (v1 + (v2 - v1) * (IZR (x - t1) / IZR (t2 - t1)))%R).
    { assert (Hd : IZR (t2 - t1) <> 0%R) by (apply not_0_IZR; lia).
      intros x Lx. destruct (Z.eq_dec x t1) as [->|N1]; [|destruct (Z.eq_dec x t2) as [->|N2]].
      - replace (v1 + (v2 - v1) * (IZR (t1 - t1) / IZR (t2 - t1)))%R with v1; [constructor; exact J1|]. rewrite Z.sub_diag. field. exact Hd.
      - replace (v1 + (v2 - v1) * (IZR (t2 - t1) / IZR (t2 - t1)))%R with v2; [constructor; exact J2|]. field. exact Hd.
      - eapply curve_between; [exact Es|lia]. }
    rewrite (curve_unique _ _ _ _ Hs Ia (line a ltac:(lia))), (curve_unique _ _ _ _ Hs Ib (line b ltac:(lia))).
    assert (IZR t2 - IZR t1 <> 0)%R by (rewrite <- minus_IZR; apply not_0_IZR; lia).
    assert (IZR b - IZR a <> 0)%R by (rewrite <- minus_IZR; apply not_0_IZR; lia).
    rewrite !minus_IZR. field. auto.
Qed.
Lemma refined_answer lo hi x x' : refined lo hi x x' -> answerAlike lo hi x x'.
Proof.
  intros (s & s' & -> & -> & Hs & Hs' & R & (C1 & C2)) ts a b S La Lb.
  apply Exists_exists in C1, C2. destruct C1 as (p & P1 & P2), C2 as (q & Q1 & Q2). destruct R as [Ri Rc].
  destruct (interp_exact s ts a b Hs S) as (vs & V1 & V2); [exists p; split; [auto|lia]|exists q; split; [auto|lia]|].
  destruct (interp_exact s' ts a b Hs' S) as (ws & W1 & W2); [exists p; split; [auto|lia]|exists q; split; [auto|lia]|].
  rewrite V1, W1. f_equal. f_equal. clear -V2 W2 Hs Hs' Ri Rc. revert ws W2. induction V2 as [|t v ts vs Hv _ IH]; intros ws W2; inversion W2; subst; [reflexivity|].
  f_equal; [|apply IH; auto]. match goal with H : curve s' _ ?w |- _ = ?w => exact (refines_curve s s' t v w Hs Hs' (conj Ri Rc) Hv H) end.
Qed.
Lemma driven_impl {F} {NF : Num F} (r r' : list (Z * F) -> list (Z * F) -> Prop) v v' : (forall s s', r s s' -> r' s s') -> drivenAlike r v v' -> drivenAlike r' v v'.
Proof. intros H D. unfold drivenAlike in *. decompose [and] D. repeat (split; [auto|]). auto. Qed.
