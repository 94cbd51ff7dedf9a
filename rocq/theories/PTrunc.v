(** Proofs about the truncation of the outlet channel (mor.py:349-420). *)
From Coq Require Import ZArith List Bool Lia Reals Lra Sorted.
From Verif Require Import Base Num Xr XEval MState MCoast MRiv MMor SMor SPost PCoast PGeom PLag PCore PFill PRate PPost.
Import ListNotations.
Local Open Scope R_scope.

(** ** Lists *)
Definition at_ {A} (T : list A) (f : A -> bool) (i : nat) : bool :=
  match nth_error T i with Some t => f t | None => false end.
Lemma at_true {A} (T : list A) f i : at_ T f i = true <-> exists t, nth_error T i = Some t /\ f t = true.
Proof.
  unfold at_. destruct (nth_error T i) as [t|]; split; intros H; [eauto| |discriminate|destruct H as (? & ? & _); discriminate].
  destruct H as (u & Hu & H). apply Some_inj in Hu. now subst.
Qed.
Lemma filter2_gather {A} (T : list A) (f : A -> bool) : forall o ts, gather T o = Ok ts ->
  filter2 (map f ts) o = filter (at_ T f) o.
Proof.
  induction o as [|i o IH]; intros ts H; cbn [gather] in H.
  - apply Ok_inj in H. subst. reflexivity.
  - bok H x. bok H xs. apply Ok_inj in H. subst ts. cbn [map filter2 filter]. apply ix_ok in Ex. unfold at_ at 1. rewrite Ex.
    rewrite (IH _ Exs). reflexivity.
Qed.
Lemma existsb_gather {A} (T : list A) (f : A -> bool) : forall o ts, gather T o = Ok ts -> existsb f ts = existsb (at_ T f) o.
Proof.
  induction o as [|i o IH]; intros ts H; cbn [gather] in H.
  - apply Ok_inj in H. subst. reflexivity.
  - bok H x. bok H xs. apply Ok_inj in H. subst ts. cbn [existsb]. apply ix_ok in Ex. unfold at_ at 1. rewrite Ex.
    rewrite (IH _ Exs). reflexivity.
Qed.
Lemma gather_tl {A} (T : list A) o ts : gather T o = Ok ts -> gather T (tl o) = Ok (tl ts).
Proof.
  destruct o as [|i o]; cbn [gather tl]; intros H.
  - apply Ok_inj in H. subst. reflexivity.
  - bok H x. bok H xs. apply Ok_inj in H. subst. exact Exs.
Qed.
(** The first of the selected. *)
Lemma filter_first {A} (p : A -> bool) l : match filter p l with
  | [] => forall x, In x l -> p x = false
  | k :: _ => exists j, nth_error l j = Some k /\ p k = true /\ forall i x, (i < j)%nat -> nth_error l i = Some x -> p x = false
  end.
Proof.
  induction l as [|a l IH]; cbn [filter]; [intros x []|]. destruct (p a) eqn:E.
  - exists 0%nat. split; [reflexivity|]. split; [auto|]. intros; lia.
  - destruct (filter p l) as [|k r].
    + intros x [<-|H]; auto.
    + destruct IH as (j & H1 & H2 & H3). exists (S j). split; [auto|]. split; [auto|].
      intros [|i] x Hi Hx; cbn in Hx; [congruence|]. apply (H3 i x); auto. lia.
Qed.
Lemma filter_rev {A} (p : A -> bool) l : filter p (rev l) = rev (filter p l).
Proof.
  induction l as [|a l IH]; cbn [rev filter]; [reflexivity|]. rewrite filter_app, IH. cbn [filter].
  destruct (p a); cbn [rev]; [reflexivity|]. now rewrite app_nil_r.
Qed.
Lemma where_lists {A} (p : A -> bool) T : lists T (fun t => p t = true) true (where_ p T).
Proof.
  split; [intros i; apply where_spec|]. intros a b i j Ha Hb Hab.
  pose proof (where_from_sorted p T 0) as S. change (where_from 0 p T) with (where_ p T) in S.
  revert a b Ha Hb Hab. induction S as [|x l S IH Hf]; intros [|a] [|b] Ha Hb Hab; try lia; cbn in Ha, Hb; try discriminate.
  - apply Some_inj in Ha. subst. rewrite Forall_forall in Hf. apply Hf. eapply nth_error_In; eauto.
  - apply (IH a b); auto. lia.
Qed.
Lemma lists_rev {A} (T : list A) p l : lists T p true l -> lists T p false (rev l).
Proof.
  intros [H1 H2]. split; [intros i; rewrite <- in_rev; apply H1|]. intros a b i j Ha Hb Hab.
  assert (La : (a < length l)%nat) by (rewrite <- rev_length; apply nth_error_Some; congruence).
  assert (Lb : (b < length l)%nat) by (rewrite <- rev_length; apply nth_error_Some; congruence).
  rewrite nth_error_rev in Ha by lia. rewrite nth_error_rev in Hb by lia.
  apply (H2 (length l - 1 - b)%nat (length l - 1 - a)%nat); auto; lia.
Qed.
Lemma lists_ext {A} (T : list A) (p q : A -> Prop) u l : (forall i t, nth_error T i = Some t -> (p t <-> q t)) ->
  lists T p u l -> lists T q u l.
Proof.
  intros E [H1 H2]. split; [|auto]. intros i. rewrite H1. split; intros (t & Ht & Hp); exists t; split; auto; now apply (E i t Ht).
Qed.

(** ** 6. Lagoon side *)
Lemma removelast_In {A} (l : list A) j x : nth_error (removelast l) j = Some x -> (S j < length l)%nat /\ nth_error l j = Some x.
Proof.
  intros H. assert (L : (j < length (removelast l))%nat) by (apply nth_error_Some; congruence).
  rewrite length_removelast in L. split; [lia|]. rewrite <- H. symmetry. apply nth_error_removelast. lia.
Qed.
Lemma mapi_changed {A} (T : list A) (m : nat -> bool) (f : A -> A) (r : A -> A -> Prop) : (forall t, r t (f t)) ->
  changedAt T (mapi (fun i t => if m i then f t else t) T) (fun i => m i = true) r.
Proof.
  intros H. split; [apply mapi_length|]. intros i t t' H1 H2. rewrite nth_error_mapi, H1 in H2. cbn in H2. apply Some_inj in H2.
  subst t'. destruct (m i); split; intros; auto; try discriminate. congruence.
Qed.
Lemma changed_iff {A} (T T' : list A) S S' r : (forall i, S i <-> S' i) -> changedAt T T' S r -> changedAt T T' S' r.
Proof. intros E [L H]. split; [auto|]. intros i t t' H1 H2. destruct (H i t t' H1 H2). rewrite <- (E i). auto. Qed.
Lemma memb_arange a b i : memb i (arange a b) = true <-> (a <= i < b)%nat.
Proof. rewrite memb_In. unfold arange. rewrite in_seq. lia. Qed.

Section LagoonTrunc.
  Context {F : Type} {NF : Num F}.
  Local Open Scope num_scope.
  Variables (T : list (tsect F)) (pres : list bool) (e0 e1 : F) (outlet : list nat).
  Variables (T' : list (tsect F)) (pres' : list bool) (e0' : F) (outlet' : list nat).
  Hypothesis run : lagoonTrunc T pres e0 e1 outlet = Ok (T', pres', e0', outlet').
  (** The [j]-th channel transect (not the last one) has merged with the lagoon. *)
  Definition mergedAt (j k : nat) : Prop :=
    nth_error outlet j = Some k /\ (S j < length outlet)%nat /\ exists t, nth_error T k = Some t /\ (tY2 t <=? tY3 t) = true.

  Lemma trunc_none : (forall j k, ~ mergedAt j k) -> T' = T /\ pres' = pres /\ e0' = e0 /\ outlet' = outlet.
  Proof.
    intros N. unfold lagoonTrunc in run.
    assert (K : Ok (T, pres, e0, outlet) = Ok (T', pres', e0', outlet') -> T' = T /\ pres' = pres /\ e0' = e0 /\ outlet' = outlet).
    { intros H. injection H. intros. subst. auto. }
    destruct (Nat.ltb 1 (length outlet)); [|auto]. pose proof run as H. bok H ts. rewrite (filter2_gather _ _ _ _ Ets) in H.
    pose proof (filter_first (at_ T merged) (removelast outlet)) as FF. destruct (filter _ _) as [|k r]; [auto|].
    exfalso. destruct FF as (j & H1 & H2 & _). apply removelast_In in H1 as [H1 H1']. apply at_true in H2.
    apply (N j k). split; [auto|]. split; auto.
  Qed.

  Lemma trunc_first j k : mergedAt j k -> (forall i k', (i < j)%nat -> ~ mergedAt i k') ->
    exists nx tk, (if e0 <? e1 then ix T (S k) else pynth T (Z.of_nat k - 1)) = Ok nx /\ nth_error T k = Some tk /\
      e0' = tX nx /\ outlet' = outletIx T e0' e1 /\ outlet' <> [] /\
      ((tY2 tk <=? tY4 tk) = false -> T' = T /\ pres' = pres) /\
      ((tY2 tk <=? tY4 tk) = true -> exists c,
         (if f0 <? tX tk then last_where lagoonPresent T = Some c else first_where lagoonPresent T = Some c) /\
         let swallowed i := if f0 <? tX tk then (c < i <= k)%nat else (k <= i < c)%nat in
         changedAt T T' swallowed converted /\ changedAt pres pres' swallowed (fun _ b => b = false)).
  Proof.
    intros (M1 & M2 & M3) N. unfold lagoonTrunc in run.
    replace (Nat.ltb 1 (length outlet)) with true in run by (symmetry; apply Nat.ltb_lt; lia).
    pose proof run as H. clear run. bok H ts. rewrite (filter2_gather _ _ _ _ Ets) in H. clear Ets ts.
    pose proof (filter_first (at_ T merged) (removelast outlet)) as FF.
    assert (M1' : nth_error (removelast outlet) j = Some k) by (rewrite nth_error_removelast by lia; exact M1).
    destruct (filter _ _) as [|k' r].
    { exfalso. specialize (FF k (nth_error_In _ _ M1')). apply at_true in M3. fold (merged) in M3.
      change (at_ T merged k = true) in M3. congruence. }
    destruct FF as (j' & F1 & F2 & F3).
    assert (k' = k) as ->.
    { apply removelast_In in F1 as [F0 F1]. apply at_true in F2.
      destruct (Nat.lt_trichotomy j j') as [Q|[Q|Q]].
      - exfalso. specialize (F3 j k Q M1'). apply at_true in M3. change (at_ T merged k = true) in M3. congruence.
      - subst j'. congruence.
      - exfalso. apply (N j' k' Q). split; [auto|]. split; auto. }
    bok H nx. bok H u. apply assert_ok in Eu. bok H tk. apply ix_ok in Etk.
    exists nx, tk. split; [auto|]. split; [auto|].
    assert (NE : outletIx T (tX nx) e1 <> []).
    { destruct (outletIx T (tX nx) e1); [discriminate|congruence]. }
    destruct (tY2 tk <=? tY4 tk) eqn:C.
    - bok H ext. injection H. intros. subst.
      split; [auto|]. split; [auto|]. split; [auto|]. split; [discriminate|]. intros _.
      assert (X : exists c, (if f0 <? tX tk then last_where lagoonPresent T = Some c else first_where lagoonPresent T = Some c) /\
        forall i, memb i ext = true <-> (if f0 <? tX tk then (c < i <= k)%nat else (k <= i < c)%nat)).
      { destruct (f0 <? tX tk).
        - bok Eext c. apply Ok_inj in Eext. subst ext. exists c. destruct (last_where lagoonPresent T); [|discriminate]. cbn in Ec. apply Ok_inj in Ec. subst.
          split; [auto|]. intros i. rewrite memb_arange. lia.
        - bok Eext c. apply Ok_inj in Eext. subst ext. exists c. destruct (first_where lagoonPresent T); [|discriminate]. cbn in Ec. apply Ok_inj in Ec. subst.
          split; [auto|]. intros i. rewrite memb_arange. lia. }
      destruct X as (c & Xc & XI). exists c. split; [exact Xc|]. split.
      + apply (changed_iff _ _ _ _ _ XI). apply (mapi_changed T (fun i => memb i ext) convertT).
        intros t. unfold converted, convertT. fl. repeat split.
      + apply (changed_iff _ _ _ _ _ XI). apply (mapi_changed pres (fun i => memb i ext) (fun _ => false)). auto.
    - injection H. intros. subst. split; [auto|]. split; [auto|]. split; [auto|]. split; [auto|discriminate].
  Qed.
End LagoonTrunc.

(** ** 7. Sea side *)
Lemma regular_gap d T : regular d T -> forall n i t u, nth_error T i = Some t -> nth_error T (i + n) = Some u ->
  rv (tX u) = rv (tX t) + INR n * d.
Proof.
  intros [D R]. induction n as [|n IH]; intros i t u Ht Hu.
  - rewrite Nat.add_0_r in Hu. rewrite Ht in Hu. apply Some_inj in Hu. subst. cbn. lra.
  - rewrite S_INR. destruct (nth_error T (i + n)) as [w|] eqn:Hw.
    + specialize (IH i t w Ht Hw). rewrite <- plus_n_Sm in Hu. rewrite (R _ _ _ Hw Hu). lra.
    + exfalso. apply nth_error_None in Hw. assert (nth_error T (i + S n) <> None) by congruence. apply nth_error_Some in H. lia.
Qed.
Lemma regular_lt d T i j t u : regular d T -> nth_error T i = Some t -> nth_error T j = Some u ->
  (rv (tX t) < rv (tX u) <-> (i < j)%nat) /\ ((i < j)%nat -> rv (tX t) + d <= rv (tX u)).
Proof.
  intros Rg Ht Hu. assert (D : 0 < d) by (destruct Rg; auto).
  assert (K : forall i j t u, nth_error T i = Some t -> nth_error T j = Some u -> (i < j)%nat -> rv (tX t) + d <= rv (tX u)).
  { intros i' j' t' u' H1 H2 L. replace j' with (i' + (j' - i'))%nat in H2 by lia.
    rewrite (regular_gap _ _ Rg _ _ _ _ H1 H2). assert (1 <= INR (j' - i')) by (change 1 with (INR 1); apply le_INR; lia).
    assert (1 * d <= INR (j' - i') * d) by (apply Rmult_le_compat_r; lra). lra. }
  split; [|intros L; eauto]. split; intros H.
  - destruct (Nat.lt_trichotomy i j) as [Q|[Q|Q]]; auto.
    + subst j. rewrite Ht in Hu. apply Some_inj in Hu. subst. lra.
    + specialize (K _ _ _ _ Hu Ht Q). lra.
  - specialize (K _ _ _ _ Ht Hu H). lra.
Qed.

(** The sea has reached the channel at transect [k]. *)
Definition broken (T : list (tsect xr)) (k : nat) : Prop :=
  exists t, nth_error T k = Some t /\ (tY0 t <=? tY1 t)%n = true.
Lemma broken_at T k : at_ T atSea k = true <-> broken T k.
Proof. apply at_true. Qed.
Definition finX (T : list (tsect xr)) : Prop := forall i t, nth_error T i = Some t -> is_fin (tX t).

Lemma gather_all {A} (T : list A) o : (forall i, In i o -> (i < length T)%nat) -> exists ts, gather T o = Ok ts.
Proof.
  induction o as [|i o IH]; intros H; [exists []; reflexivity|].
  destruct IH as (ts & Hts); [intros; apply H; right; auto|].
  assert (L : (i < length T)%nat) by (apply H; left; auto).
  destruct (nth_error T i) as [t|] eqn:E; [|apply nth_error_None in E; lia].
  exists (t :: ts). cbn [gather]. unfold ix. rewrite E. cbn. rewrite Hts. reflexivity.
Qed.

Section SeaTrunc.
  Variables (T : list (tsect xr)) (d e0 e1 : R) (outlet : list nat).
  Hypothesis (fx : finX T) (reg : regular d T).
  Notation out := (seaTrunc (Fin d) T (Fin e0) (Fin e1) outlet).
  Definition within (a b : R) (t : tsect xr) : Prop := a <= rv (tX t) <= b.

  Lemma ixLR_lists a b : lists T (within a b) true (ixLR T (Fin a) (Fin b)).
  Proof.
    eapply lists_ext; [|apply where_lists]. intros i t Ht. unfold within. destruct (fx _ _ Ht) as (x & Hx). rewrite Hx. cbn [rv].
    change ((Rleb a x && Rleb x b)%bool = true <-> a <= x <= b). rewrite andb_true_iff, !Rleb_true. tauto.
  Qed.
  Lemma ixRL_lists a b : lists T (within b a) false (ixRL T (Fin a) (Fin b)).
  Proof.
    apply lists_rev. eapply lists_ext; [|apply where_lists]. intros i t Ht. unfold within. destruct (fx _ _ Ht) as (x & Hx). rewrite Hx. cbn [rv].
    change ((Rleb b x && Rleb x a)%bool = true <-> b <= x <= a). rewrite andb_true_iff, !Rleb_true. tauto.
  Qed.
  Lemma lists_bound p u l i : lists T p u l -> In i l -> (i < length T)%nat.
  Proof. intros [H _] Hi. apply H in Hi as (t & Ht & _). apply nth_error_Some. congruence. Qed.

  Section LR.
    Hypothesis (dir : e0 < e1) (lst : lists T (within e0 e1) true outlet).
    Lemma sea_LR_none : (forall j k, nth_error outlet (S j) = Some k -> ~ broken T k) -> out = Ok (Fin e1, outlet).
    Proof.
      intros N. unfold seaTrunc. destruct (Nat.ltb 1 (length outlet)); [|reflexivity].
      destruct (gather_all T outlet) as (ts & Hts); [intros i; apply (lists_bound _ _ _ _ lst)|]. rewrite Hts. cbn [bind].
      rewrite (existsb_gather T atSea (tl outlet)) by (apply gather_tl; auto).
      destruct (existsb _ _) eqn:E; [|reflexivity]. exfalso. apply existsb_exists in E as (k & Hk & Hb).
      apply In_nth_error in Hk as (j & Hj). rewrite nth_error_tl in Hj. apply (N j k Hj). now apply broken_at.
    Qed.
    Lemma sea_LR j k : nth_error outlet 0 <> None -> (forall k0, nth_error outlet 0 = Some k0 -> ~ broken T k0) ->
      nth_error outlet j = Some k -> broken T k -> (forall i k', (i < j)%nat -> nth_error outlet i = Some k' -> ~ broken T k') ->
      exists t outlet', nth_error T k = Some t /\ out = Ok (Fin (rv (tX t) - d / 2), outlet') /\
        lists T (fun u => e0 <= rv (tX u) < rv (tX t)) true outlet' /\ outlet' <> [] /\
        (forall i, In i outlet' -> In i outlet /\ ~ broken T i).
    Proof.
      intros NE H0 Hj Hk Hf.
      assert (J : (0 < j)%nat).
      { destruct j; [|lia]. exfalso. exact (H0 _ Hj Hk). }
      assert (LJ : (j < length outlet)%nat) by (apply nth_error_Some; congruence).
      destruct (gather_all T outlet) as (ts & Hts); [intros i; apply (lists_bound _ _ _ _ lst)|].
      destruct Hk as (t & Ht & Hb). destruct (fx _ _ Ht) as (x & Hx).
      assert (Q : out = Ok (Fin (x - d / 2), ixLR T (Fin e0) (Fin (x - d / 2)))).
      { unfold seaTrunc. replace (Nat.ltb 1 (length outlet)) with true by (symmetry; apply Nat.ltb_lt; lia).
        rewrite Hts. cbn [bind]. rewrite (existsb_gather T atSea (tl outlet)) by (apply gather_tl; auto).
        replace (existsb _ _) with true.
        2:{ symmetry. apply existsb_exists. exists k. split; [|apply broken_at; exists t; auto].
            apply (nth_error_In _ (j - 1)). rewrite nth_error_tl. replace (S (j - 1)) with j by lia. exact Hj. }
        rewrite (filter2_gather T atSea outlet ts Hts). rewrite xlt.
        replace (Rltb e0 e1) with true by (symmetry; apply Rltb_true; lra).
        pose proof (filter_first (at_ T atSea) outlet) as FF. destruct (filter _ _) as [|k' r].
        { exfalso. specialize (FF k (nth_error_In _ _ Hj)). assert (at_ T atSea k = true) by (apply broken_at; exists t; auto). congruence. }
        destruct FF as (j' & F1 & F2 & F3). assert (k' = k) as ->.
        { destruct (Nat.lt_trichotomy j j') as [Q|[Q|Q]].
          - exfalso. specialize (F3 j k Q Hj). assert (at_ T atSea k = true) by (apply broken_at; exists t; auto). congruence.
          - congruence.
          - exfalso. apply (Hf j' k' Q F1). now apply broken_at. }
        cbn [ix of_opt nth_error bind]. unfold ix. cbn [nth_error of_opt bind]. rewrite Ht. cbn [of_opt bind]. rewrite Hx. xf. reflexivity. }
      exists t, (ixLR T (Fin e0) (Fin (x - d / 2))). rewrite Hx. cbn [rv].
      assert (D : 0 < d) by (destruct reg; auto).
      assert (LS : lists T (fun u => e0 <= rv (tX u) < x) true (ixLR T (Fin e0) (Fin (x - d / 2)))).
      { eapply lists_ext; [|apply ixLR_lists]. intros i u Hu. unfold within. split; intros [A B]; (split; [lra|]); [lra|].
        assert (Lx : rv (tX u) < rv (tX t)) by (rewrite Hx; exact B).
        destruct (regular_lt _ _ _ _ _ _ reg Hu Ht) as [G1 G2]. apply G1 in Lx. apply G2 in Lx. rewrite Hx in Lx. cbn [rv] in Lx. lra. }
      destruct lst as [LI LO].
      split; [auto|]. split; [exact Q|]. split; [exact LS|]. split.
      - intros E. destruct (nth_error outlet 0) as [k0|] eqn:E0; [|congruence].
        assert (I0 : In k0 outlet) by (eapply nth_error_In; eauto). apply LI in I0 as (u & Hu & W).
        assert (L0 : (k0 < k)%nat) by exact (LO _ _ _ _ E0 Hj J).
        assert (Lx : rv (tX u) < x).
        { destruct (regular_lt _ _ _ _ _ _ reg Hu Ht) as [G1 _]. apply G1 in L0. rewrite Hx in L0. exact L0. }
        assert (In k0 (ixLR T (Fin e0) (Fin (x - d / 2)))).
        { apply LS. exists u. split; [auto|]. unfold within in W. lra. }
        rewrite E in H. exact H.
      - intros i Hi. apply LS in Hi as (u & Hu & A & B).
        assert (K : (i < k)%nat).
        { destruct (regular_lt _ _ _ _ _ _ reg Hu Ht) as [G1 _]. apply G1. rewrite Hx. exact B. }
        assert (Ik : In k outlet) by (eapply nth_error_In; eauto). apply LI in Ik as (t' & Ht' & W). rewrite Ht in Ht'. apply Some_inj in Ht'. subst t'.
        unfold within in W. rewrite Hx in W. cbn [rv] in W.
        assert (Io : In i outlet) by (apply LI; exists u; split; [auto|unfold within; lra]).
        split; [auto|]. apply In_nth_error in Io as (a & Ha).
        assert (a < j)%nat.
        { destruct (Nat.lt_trichotomy a j) as [Z|[Z|Z]]; [auto| |].
          - exfalso. subst a. rewrite Ha in Hj. apply Some_inj in Hj. lia.
          - exfalso. pose proof (LO _ _ _ _ Hj Ha Z). cbn in H. lia. }
        apply (Hf a i); auto.
    Qed.
  End LR.

  Section RL.
    Hypothesis (dir : e1 <= e0) (lst : lists T (within e1 e0) false outlet).
    (** Right to left the farthest transect reached by the sea decides. *)
    Lemma sea_RL j k : (0 < j)%nat -> nth_error outlet j = Some k -> broken T k ->
      (forall i k', (j < i)%nat -> nth_error outlet i = Some k' -> ~ broken T k') ->
      exists t outlet', nth_error T k = Some t /\ out = Ok (Fin (rv (tX t) + d / 2), outlet') /\
        lists T (fun u => rv (tX t) < rv (tX u) <= e0) false outlet' /\
        (forall i k', (i < j)%nat -> nth_error outlet i = Some k' -> In k' outlet').
    Proof.
      intros J Hj Hk Hf.
      assert (LJ : (j < length outlet)%nat) by (apply nth_error_Some; congruence).
      destruct (gather_all T outlet) as (ts & Hts); [intros i; apply (lists_bound _ _ _ _ lst)|].
      destruct Hk as (t & Ht & Hb). destruct (fx _ _ Ht) as (x & Hx).
      assert (AK : at_ T atSea k = true) by (apply broken_at; exists t; auto).
      assert (Q : out = Ok (Fin (x + d / 2), ixRL T (Fin e0) (Fin (x + d / 2)))).
      { unfold seaTrunc. replace (Nat.ltb 1 (length outlet)) with true by (symmetry; apply Nat.ltb_lt; lia).
        rewrite Hts. cbn [bind]. rewrite (existsb_gather T atSea (tl outlet)) by (apply gather_tl; auto).
        replace (existsb _ _) with true.
        2:{ symmetry. apply existsb_exists. exists k. split; [|auto].
            apply (nth_error_In _ (j - 1)). rewrite nth_error_tl. replace (S (j - 1)) with j by lia. exact Hj. }
        rewrite (filter2_gather T atSea outlet ts Hts). rewrite xlt.
        replace (Rltb e0 e1) with false by (symmetry; apply Rltb_false; lra).
        unfold last_. rewrite <- filter_rev.
        pose proof (filter_first (at_ T atSea) (rev outlet)) as FF. destruct (filter _ _) as [|k' r].
        { exfalso. assert (In k (rev outlet)) by (rewrite <- in_rev; eapply nth_error_In; eauto). specialize (FF k H). congruence. }
        destruct FF as (j' & F1 & F2 & F3).
        assert (LJ' : (j' < length outlet)%nat) by (rewrite <- rev_length; apply nth_error_Some; congruence).
        rewrite nth_error_rev in F1 by auto.
        assert (k' = k) as ->.
        { set (a := (length outlet - 1 - j')%nat) in *.
          destruct (Nat.lt_trichotomy a j) as [Z|[Z|Z]].
          - exfalso. assert (X : at_ T atSea k = false); [|congruence].
            apply (F3 (length outlet - 1 - j)%nat); [unfold a in Z; lia|]. rewrite nth_error_rev by lia.
            replace (length outlet - 1 - (length outlet - 1 - j))%nat with j by lia. exact Hj.
          - congruence.
          - exfalso. apply (Hf a k' Z F1). now apply broken_at. }
        cbn [nth_error of_opt bind]. unfold ix. rewrite Ht. cbn [of_opt bind]. rewrite Hx. xf. reflexivity. }
      exists t, (ixRL T (Fin e0) (Fin (x + d / 2))). rewrite Hx. cbn [rv].
      assert (D : 0 < d) by (destruct reg; auto).
      assert (LS : lists T (fun u => x < rv (tX u) <= e0) false (ixRL T (Fin e0) (Fin (x + d / 2)))).
      { eapply lists_ext; [|apply ixRL_lists]. intros i u Hu. unfold within. split; intros [A B]; (split; [|lra]); [lra|].
        assert (Lx : rv (tX t) < rv (tX u)) by (rewrite Hx; exact A).
        destruct (regular_lt _ _ _ _ _ _ reg Ht Hu) as [G1 G2]. apply G1 in Lx. apply G2 in Lx. rewrite Hx in Lx. cbn [rv] in Lx. lra. }
      split; [auto|]. split; [exact Q|]. split; [exact LS|].
      intros i k' Hi Hk'. destruct lst as [LI LO]. assert (K : (k < k')%nat) by exact (LO _ _ _ _ Hk' Hj Hi).
      assert (Ik : In k' outlet) by (eapply nth_error_In; eauto). apply LI in Ik as (u & Hu & W).
      apply LS. exists u. split; [auto|]. unfold within in W.
      destruct (regular_lt _ _ _ _ _ _ reg Ht Hu) as [G1 _]. apply G1 in K. rewrite Hx in K. cbn [rv] in K. lra.
    Qed.
  End RL.
End SeaTrunc.
