(** Proofs about uninitialised memory and the causes of a breach (mor.py:443-692). *)
From Coq Require Import ZArith List Bool Lia Reals Lra.
From Verif Require Import Base Num Xr XEval MState MCoast MRiv MMor SMor SPost PCoast PGeom PLag PCore PFill PRate PCap PPost PTrunc PBreach PBreach2 PUpdate.
Import ListNotations.
Local Open Scope R_scope.

(** ** Uninitialised memory *)
Lemma xsub_nan_l a : (NaN - a)%n = NaN :> xr. Proof. destruct a; reflexivity. Qed.
Lemma xsub_nan_r a : (a - NaN)%n = NaN :> xr. Proof. destruct a; reflexivity. Qed.
Lemma xadd_nan_l a : (NaN + a)%n = NaN :> xr. Proof. destruct a; reflexivity. Qed.
Lemma xadd_nan_r a : (a + NaN)%n = NaN :> xr. Proof. destruct a; reflexivity. Qed.
Lemma xmul_nan_l a : (NaN * a)%n = NaN :> xr. Proof. destruct a; reflexivity. Qed.
Lemma xdiv_nan_l a : (NaN / a)%n = NaN :> xr. Proof. destruct a; reflexivity. Qed.
Lemma xle_nan_r a : (a <=? NaN)%n = false :> bool. Proof. destruct a; reflexivity. Qed.
Lemma xle_nan_l a : (NaN <=? a)%n = false :> bool. Proof. destruct a; reflexivity. Qed.

Section Memory.
  Variables (P : phys xr) (T0 T : list (tsect xr)) (pres : list bool) (x0 : nat) (e0 e1 W Zend : xr) (outlet : list nat) (Closed : bool) (WL : list xr).
  Hypothesis (L0 : length T0 = length T) (LP : length pres = length T).
  Lemma memory_true j1 j2 r : morBreach P j1 j2 T0 T pres x0 e0 e1 W Zend outlet Closed WL = Ok r ->
    forall i t, nth_error T i = Some t ->
      (tY1 t = NaN -> j1 i = true) /\
      (tY1 t = NaN \/ (tY3 t <? tY2 t)%n = false -> j2 i = true).
  Proof.
    intros H i t Ht. destruct r as [[[[[T' eA] eB] W'] Z'] br].
    destruct (breach_inv _ _ _ _ _ _ _ _ _ _ _ _ _ _ _ _ _ _ _ _ H) as [g].
    destruct (rows g L0 LP i t Ht) as (t0 & p & f' & c & q & t' & _ & _ & _ & Ef & Ec & _ & _ & Hq & Et & Ht').
    pose proof (forallb_nth _ _ _ _ (s8 _ _ _ _ _ _ _ _ _ _ _ _ _ _ _ _ _ _ _ _ g) Ht') as R. unfold rowOk in R.
    apply andb_true_iff in R as [R R3]. apply andb_true_iff in R as [R1 R2]. rewrite negb_true_iff in R1, R2.
    set (d := if lagoonIntersect j1 i t then dissolve t else t) in *. set (f := if shoreIntersect j2 i d then fillT P d else d) in *.
    assert (K3 : tY3 f = NaN -> False).
    { intros E. assert (E1 : tY3 f' = NaN).
      { rewrite Ef. unfold eroded. rewrite E, xle_nan_r. exact E. }
      assert (E2 : tY3 c = NaN) by (rewrite Ec; match goal with |- tY3 (if ?v then _ else _) = _ => destruct v end; exact E1).
      assert (E3 : tY3 q = NaN). { destruct Hq as [->|[_ ->]]; [exact E2|]. unfold breachT. fl. rewrite E2, xle_nan_r. reflexivity. }
      assert (E4 : tY3 t' = NaN) by (rewrite Et; destruct (Nat.eqb i x0); [unfold keepLagoon; destruct (_ <? _)%n; exact E3|exact E3]).
      rewrite E4 in R2. discriminate. }
    assert (K0 : tY0 f = NaN -> False).
    { intros E. assert (E1 : tY0 f' = NaN).
      { rewrite Ef. unfold eroded. rewrite E, xle_nan_l. exact E. }
      assert (E2 : tY0 c = NaN) by (rewrite Ec; match goal with |- tY0 (if ?v then _ else _) = _ => destruct v end; exact E1).
      assert (E3 : tY0 q = NaN) by (destruct Hq as [->|[_ ->]]; exact E2).
      assert (E4 : tY0 t' = NaN) by (rewrite Et; destruct (Nat.eqb i x0); [unfold keepLagoon; destruct (_ <? _)%n; exact E3|exact E3]).
      rewrite E4 in R1. discriminate. }
    assert (D3 : tY3 d = NaN -> False) by (intros E; apply K3; unfold f; destruct (shoreIntersect _ _ _); exact E).
    assert (D1 : tY1 d = NaN -> j2 i = true).
    { intros E. destruct (j2 i) eqn:J; [auto|exfalso]. apply K0. unfold f, shoreIntersect. rewrite E. change (fisnan (NaN : xr)) with true. cbn [negb].
      rewrite J. cbn [negb]. unfold fillT. fl. rewrite E, xsub_nan_l, xmul_nan_l, xdiv_nan_l, xsub_nan_r. reflexivity. }
    assert (A : tY1 t = NaN -> j1 i = true).
    { intros E. destruct (j1 i) eqn:J; [auto|exfalso]. apply D3. unfold d, lagoonIntersect. rewrite E. change (fisnan (NaN : xr)) with true. cbn [negb].
      rewrite J. cbn [negb]. unfold dissolve. fl. rewrite E, xsub_nan_l, xadd_nan_r. reflexivity. }
    assert (A2 : tY1 t = NaN -> tY1 d = NaN) by (intros E; unfold d; destruct (lagoonIntersect j1 i t); [reflexivity|exact E]).
    split; [exact A|]. intros [E|G]; apply D1; [exact (A2 E)|]. destruct (fisnan (tY1 t)) eqn:E.
    - apply A2. destruct (tY1 t); try discriminate; reflexivity.
    - unfold d, lagoonIntersect. rewrite E, G. reflexivity.
  Qed.
  Lemma mapi_ext {A B} (f g : nat -> A -> B) l : (forall i x, nth_error l i = Some x -> f i x = g i x) -> mapi f l = mapi g l.
  Proof.
    intros E. apply nth_error_ext. intros i. rewrite !nth_error_mapi. destruct (nth_error l i) as [x|] eqn:Q; [|reflexivity]. cbn. f_equal. auto.
  Qed.
  Lemma memory_same j1 j2 k1 k2 r s :
    morBreach P j1 j2 T0 T pres x0 e0 e1 W Zend outlet Closed WL = Ok r ->
    morBreach P k1 k2 T0 T pres x0 e0 e1 W Zend outlet Closed WL = Ok s -> r = s.
  Proof.
    intros H1 H2. pose proof (memory_true _ _ _ H1) as M1. pose proof (memory_true _ _ _ H2) as M2.
    assert (ED : dissolveStep j1 T = dissolveStep k1 T).
    { apply mapi_ext. intros i t Ht. replace (lagoonIntersect j1 i t) with (lagoonIntersect k1 i t); [reflexivity|].
      unfold lagoonIntersect. destruct (fisnan (tY1 t)) eqn:E; [|reflexivity]. cbn [negb].
      assert (N : tY1 t = NaN) by (destruct (tY1 t); try discriminate; reflexivity).
      rewrite (proj1 (M1 i t Ht) N), (proj1 (M2 i t Ht) N). reflexivity. }
    assert (EF : forall i d, nth_error (dissolveStep k1 T) i = Some d -> shoreIntersect j2 i d = shoreIntersect k2 i d).
    { intros i d Hd. unfold shoreIntersect. destruct (fisnan (tY1 d)) eqn:E; [|reflexivity]. cbn [negb].
      assert (N : tY1 d = NaN) by (destruct (tY1 d); try discriminate; reflexivity).
      rewrite dissolve_nth in Hd. destruct (nth_error T i) as [t|] eqn:Ht; [|discriminate]. cbn in Hd. apply Some_inj in Hd.
      assert (Q : tY1 t = NaN \/ (tY3 t <? tY2 t)%n = false).
      { destruct (lagoonIntersect k1 i t) eqn:K in Hd; [|left; congruence]. unfold lagoonIntersect in K. apply negb_true_iff in K.
        destruct (fisnan (tY1 t)) eqn:X; cbn [negb] in K; [left; destruct (tY1 t); try discriminate; reflexivity | right; exact K]. }
      rewrite (proj2 (M1 i t Ht) Q), (proj2 (M2 i t Ht) Q). reflexivity. }
    assert (morBreach P j1 j2 T0 T pres x0 e0 e1 W Zend outlet Closed WL = morBreach P k1 k2 T0 T pres x0 e0 e1 W Zend outlet Closed WL); [|congruence].
    unfold morBreach, shoreFill. cbv zeta. rewrite ED. rewrite (mapi_ext _ _ _ EF). reflexivity.
  Qed.
  (** Memory that holds true everywhere does whatever any memory can do. *)
  Lemma memory_best j1 j2 r : morBreach P j1 j2 T0 T pres x0 e0 e1 W Zend outlet Closed WL = Ok r ->
    morBreach P (fun _ => true) (fun _ => true) T0 T pres x0 e0 e1 W Zend outlet Closed WL = Ok r.
  Proof.
    intros H1. pose proof (memory_true _ _ _ H1) as M1.
    assert (ED : dissolveStep j1 T = dissolveStep (fun _ => true) T).
    { apply mapi_ext. intros i t Ht. replace (lagoonIntersect j1 i t) with (lagoonIntersect (fun _ => true) i t); [reflexivity|].
      unfold lagoonIntersect. destruct (fisnan (tY1 t)) eqn:E; [|reflexivity]. cbn [negb].
      assert (N : tY1 t = NaN) by (destruct (tY1 t); try discriminate; reflexivity). rewrite (proj1 (M1 i t Ht) N). reflexivity. }
    assert (EF : forall i d, nth_error (dissolveStep (fun _ => true) T) i = Some d -> shoreIntersect j2 i d = shoreIntersect (fun _ => true) i d).
    { intros i d Hd. unfold shoreIntersect. destruct (fisnan (tY1 d)) eqn:E; [|reflexivity]. cbn [negb].
      assert (N : tY1 d = NaN) by (destruct (tY1 d); try discriminate; reflexivity).
      rewrite dissolve_nth in Hd. destruct (nth_error T i) as [t|] eqn:Ht; [|discriminate]. cbn in Hd. apply Some_inj in Hd.
      assert (Q : tY1 t = NaN \/ (tY3 t <? tY2 t)%n = false).
      { destruct (lagoonIntersect (fun _ => true) i t) eqn:K in Hd; [|left; congruence]. unfold lagoonIntersect in K. apply negb_true_iff in K.
        destruct (fisnan (tY1 t)) eqn:X; cbn [negb] in K; [left; destruct (tY1 t); try discriminate; reflexivity | right; exact K]. }
      rewrite (proj2 (M1 i t Ht) Q). reflexivity. }
    rewrite <- H1. unfold morBreach, shoreFill. cbv zeta. rewrite ED. rewrite (mapi_ext _ _ _ EF). reflexivity.
  Qed.
End Memory.
(** With memory holding true everywhere, nothing is merged or filled without reason. *)
Lemma memory_calm {F} {NF : Num F} i (t : tsect F) :
  (lagoonIntersect (fun _ => true) i t = true <-> fisnan (tY1 t) = false /\ (tY3 t <? tY2 t)%n = false) /\
  (shoreIntersect (fun _ => true) i t = true <-> fisnan (tY1 t) = false /\ (tY1 t <? tY0 t)%n = false).
Proof.
  unfold lagoonIntersect, shoreIntersect. destruct (fisnan (tY1 t)); cbn [negb]; destruct (tY3 t <? tY2 t)%n; destruct (tY1 t <? tY0 t)%n; cbn; intuition congruence.
Qed.
(** At transects with a channel, memory does not matter. *)
Lemma memory_channel {F} {NF : Num F} j i (t : tsect F) : fisnan (tY1 t) = false ->
  (lagoonIntersect j i t = true <-> (tY3 t <? tY2 t)%n = false) /\ (shoreIntersect j i t = true <-> (tY1 t <? tY0 t)%n = false).
Proof.
  intros E. unfold lagoonIntersect, shoreIntersect. rewrite E. cbn [negb]. destruct (tY3 t <? tY2 t)%n; destruct (tY1 t <? tY0 t)%n; cbn; intuition congruence.
Qed.

(** No channel before the update of a closed lagoon: none after the corrections. *)
Lemma correct_closed_nan (P : phys xr) Dx T0 T e0 e1 W Zend outlet T' pres' e0' e1' outlet' :
  morCorrect P Dx T0 T e0 e1 W Zend outlet true = Ok (T', pres', e0', e1', outlet') -> length T0 = length T ->
  forall i t t', nth_error T i = Some t -> nth_error T' i = Some t' -> tY1 t = NaN -> (exists t0, nth_error T0 i = Some t0 /\ tY1 t0 = NaN) -> tY1 t' = NaN.
Proof.
  intros H L i t t' Ht Ht' HY (t0 & Ht0 & HY0). unfold morCorrect in H. bok H d. apply bind_ok in H as ([TA pA] & EA & H). cbn [bind] in H.
  apply bind_ok in H as ([[[TD pD] eD] oD] & ED & H). apply bind_ok in H as ([eE oE] & EE & H). cbn [bind] in H. injection H as <- _ _ _ _.
  assert (C1 : exists c, nth_error (map2 (fun t0 t => cliffCollision P (shorefaceHeight P t0) t) T0 T) i = Some c /\ tY1 c = NaN).
  { rewrite nth_error_map2, Ht0, Ht. eexists. split; [reflexivity|]. unfold cliffCollision. destruct (_ <=? _)%n; exact HY. }
  destruct C1 as (c & Hc & Yc).
  destruct (neg_step _ _ _ _ _ EA) as [LA NA]; [apply map_length|rewrite map2_length; lia|].
  assert (Hp : nth_error (map outletPresent T0) i = Some (outletPresent t0)) by (rewrite nth_error_map, Ht0; reflexivity).
  destruct (NA _ _ _ _ Hp Ht0 Hc) as (u & lev & Hu & HW).
  assert (Yu : tY1 u = NaN).
  { unfold negWidth in HW. replace (outletPresent t0) with false in HW by (unfold outletPresent; rewrite HY0; reflexivity).
    cbn [andb] in HW. apply Ok_inj in HW. pose proof (f_equal fst HW) as Q. cbn [fst] in Q. congruence. }
  unfold lagoonTrunc in ED.
  assert (K : TD = TA \/ exists ext, TD = mapi (fun i t => if memb i ext then convertT t else t) TA).
  { destruct (Nat.ltb 1 _); [|injection ED as <- _ _ _; auto]. bok ED ts.
    destruct (filter2 _ _) as [|k r]; [injection ED as <- _ _ _; auto|]. bok ED nx. bok ED u'. bok ED tk.
    destruct (_ <=? _)%n; [|injection ED as <- _ _ _; auto]. bok ED ext. injection ED as <- _ _ _. right. exists ext. reflexivity. }
  destruct K as [->|(ext & ->)]; [congruence|]. rewrite nth_error_mapi, Hu in Ht'. cbn in Ht'. apply Some_inj in Ht'. subst t'.
  destruct (memb i ext); [reflexivity|exact Yu].
Qed.
Lemma memory_update fuel j1 j2 (P : phys xr) N TP T e0 e1 W Zend RiverElev online outlet LagoonWL OutletDep CW CD fl LST q CST OW dt m :
  updateMorphology fuel j1 j2 P N TP T e0 e1 W Zend RiverElev online outlet LagoonWL OutletDep CW CD fl true LST q CST OW dt = Ok m ->
  forall i t, nth_error T i = Some t -> tY1 t = NaN -> j1 i = true /\ j2 i = true.
Proof.
  intros H i t Ht HY. destruct (update_inv _ _ _ _ _ _ _ _ _ _ _ _ _ _ _ _ _ _ _ _ _ _ _ _ _ _ H) as (a & T1 & pres & eA & eB & o1 & EA & EC & EB & _ & _ & L1 & LP & _ & _).
  pose proof (apply_sameX _ _ _ _ _ _ _ _ _ _ _ _ _ _ _ _ _ _ _ _ _ _ _ _ EA) as (SA & _ & _ & RA).
  destruct (RA i) as (t_ & ta & Ht_ & Hta & r & Er); [congruence|]. rewrite Ht in Ht_. apply Some_inj in Ht_. subst t_. rewrite HY, xadd_nan_l in Er.
  assert (Li : (i < length T1)%nat) by (rewrite L1; apply nth_error_Some; congruence).
  destruct (nth_error T1 i) as [t1|] eqn:E1; [|apply nth_error_None in E1; lia].
  assert (Y1 : tY1 t1 = NaN) by (eapply (correct_closed_nan _ _ _ _ _ _ _ _ _ _ _ _ _ _ EC); eauto; symmetry; apply sameX_len; auto).
  destruct (memory_true _ _ _ _ _ _ _ _ _ _ _ _ (eq_sym L1) LP _ _ _ EB i t1 E1) as [A B]. split; [apply A|apply B; left]; exact Y1.
Qed.

(** ** Water levels of the connected channel *)
Section Levels.
  Context {F : Type} {NF : Num F}.
  Lemma upd_from (WL : list F) i v : In v WL -> forall w, In w (upd WL i v) -> In w WL.
  Proof.
    intros Hv w Hw. apply In_nth_error in Hw as (k & Hk). destruct (Nat.eq_dec i k) as [->|N].
    - assert (k < length WL)%nat by (rewrite <- (upd_length WL k v); apply nth_error_Some; congruence).
      rewrite nth_error_upd_eq in Hk by auto. apply Some_inj in Hk. subst; auto.
    - rewrite nth_error_upd_ne in Hk by auto. eapply nth_error_In; eauto.
  Qed.
  Lemma pynth_In {A} (l : list A) z v : pynth l z = Ok v -> In v l.
  Proof.
    unfold pynth. destruct (pyix _ _) as [k|]; [|discriminate]. intros H. apply ix_ok in H. eapply nth_error_In; eauto.
  Qed.
  Lemma searchLeft_from fuel : forall wide (WL : list F) lo lo' WL', searchLeft fuel wide WL lo = Ok (lo', WL') ->
    length WL' = length WL /\ (lo' <= lo)%Z /\ forall w, In w WL' -> In w WL.
  Proof.
    induction fuel as [|f IH]; intros wide WL lo lo' WL' H; cbn [searchLeft] in H; bok H w; destruct w; try discriminate;
      try (injection H as <- <-; split; [auto|split; [lia|auto]]).
    bok H v. bok H i. apply IH in H as (L & Q & HI). rewrite upd_length in L. split; [auto|]. split; [lia|]. intros w Hw. apply HI in Hw. eapply upd_from; [eapply pynth_In; eauto|exact Hw].
  Qed.
  Lemma searchRight_from fuel : forall wide (WL : list F) hi hi' WL', searchRight fuel wide WL hi = Ok (hi', WL') ->
    length WL' = length WL /\ (hi <= hi')%Z /\ forall w, In w WL' -> In w WL.
  Proof.
    induction fuel as [|f IH]; intros wide WL lo lo' WL' H; cbn [searchRight] in H; bok H w; destruct w; try discriminate;
      try (injection H as <- <-; split; [auto|split; [lia|auto]]).
    bok H v. bok H i. apply IH in H as (L & Q & HI). rewrite upd_length in L. split; [auto|]. split; [lia|]. intros w Hw. apply HI in Hw. eapply upd_from; [eapply pynth_In; eauto|exact Hw].
  Qed.
  Lemma connect_from (P : phys F) T pres lagOpen x0 e0 Closed outlet WL cc WL' e0' :
    connect P T pres lagOpen x0 e0 Closed outlet WL = Ok (cc, WL', e0') ->
    length WL' = length WL /\ (forall w, In w WL' -> In w WL) /\ (e0' = e0 \/ (Closed = true /\ e0' = fnan)) /\
    (Closed = false -> forall o, In o outlet -> joined cc o) /\ (Closed = true -> fisnan e0 = true -> cc = None) /\
    (e0' = fnan -> Closed = true -> fisnan e0 = false -> fisnan (fnan : F) = true -> cc = None).
  Proof.
    intros H. unfold connect in H. cbv zeta in H. bok H us. apply bind_ok in H as ([c e] & Ec & H).
    assert (K : length WL' = length WL /\ (forall w, In w WL' -> In w WL) /\ e0' = e /\ match c, cc with Some (lo, hi), Some (lo', hi') => (lo' <= lo)%Z /\ (hi <= hi')%Z | None, None => True | _, _ => False end).
    { destruct c as [[lo hi]|].
      - apply bind_ok in H as ([lo1 WL1] & E1 & H). apply bind_ok in H as ([hi1 WL2] & E2 & H). bok H u. injection H as <- <- <-.
        apply searchLeft_from in E1 as (A1 & A2 & A3). apply searchRight_from in E2 as (B1 & B2 & B3). split; [congruence|]. split; [auto|]. split; [auto|]. split; lia.
      - bok H u. injection H as <- <- <-. auto. }
    destruct K as (K1 & K2 & -> & K3). split; [auto|]. split; [auto|].
    destruct Closed; cbn [negb] in Ec.
    - destruct (fisnan e0) eqn:E; cbn [negb] in Ec.
      + injection Ec as <- <-. destruct cc as [[]|]; [destruct K3|]. split; [auto|]. split; [discriminate|]. split; [auto|]. intros; congruence.
      + bok Ec w. destruct w; cbn [negb] in Ec.
        * destruct (negb _); injection Ec as <- <-.
          -- destruct cc as [[]|]; [destruct K3|]. split; [auto|]. split; [discriminate|]. split; auto.
          -- split; [auto|]. split; [discriminate|]. split; [discriminate|]. intros -> _ Q1 Q2. congruence.
        * injection Ec as <- <-. destruct cc as [[]|]; [destruct K3|]. split; [auto|]. split; [discriminate|]. split; auto.
    - destruct outlet as [|o os]; [discriminate|]. injection Ec as <- <-. split; [auto|]. split; [|split; discriminate].
      intros _ k Hk. destruct cc as [[lo' hi']|]; [|destruct K3]. cbn [joined]. destruct K3 as [K3 K4].
      assert (MM : forall l a, (fold_left Nat.min l a <= a)%nat /\ (forall x, In x l -> (fold_left Nat.min l a <= x)%nat) /\
                   (a <= fold_left Nat.max l a)%nat /\ (forall x, In x l -> (x <= fold_left Nat.max l a)%nat)).
      { clear. induction l as [|b l IH]; intros a; cbn [fold_left]; [repeat split; auto; intros ? []|].
        destruct (IH (Nat.min a b)) as (A1 & A2 & _). destruct (IH (Nat.max a b)) as (_ & _ & A3 & A4).
        split; [lia|]. split; [intros x [<-|Hx]; [lia|auto]|]. split; [lia|intros x [<-|Hx]; [lia|auto]]. }
      destruct (MM os o) as (A1 & A2 & A3 & A4). destruct Hk as [<-|Hk]; [lia|]. specialize (A2 _ Hk). specialize (A4 _ Hk). lia.
  Qed.
End Levels.

(** ** Causes of a breach *)
Lemma keep_Z0 {F} {NF : Num F} (P : phys F) q : tZ0 (keepLagoon P q) = tZ0 q.
Proof. unfold keepLagoon. destruct (_ <? _)%n; reflexivity. Qed.
Lemma erosion_closed2 {F} {NF : Num F} (P : phys F) T0 T lagOpen x0 e0 Closed : Closed = true -> forall T' b,
  erosionBreach P T0 T lagOpen x0 e0 Closed None = Ok (T', b) ->
  (exists i t, nth_error T i = Some t /\ eroded t = true /\ reachable lagOpen x0 i = true) -> b <> None.
Proof. intros ->. apply erosion_closed. Qed.
Section Cause.
  Context {F : Type} {NF : Num F}.
  Variables (P : phys F) (j1 j2 : nat -> bool) (T0 T : list (tsect F)) (pres : list bool) (x0 : nat) (e0 e1 W Zend : F) (outlet : list nat) (Closed : bool) (WL : list F)
            (T' : list (tsect F)) (e0' e1' W' Zend' : F) (br : bool).
  Hypothesis (L0 : length T0 = length T) (LP : length pres = length T) (X0 : (x0 < length T)%nat).
  Hypothesis H : morBreach P j1 j2 T0 T pres x0 e0 e1 W Zend outlet Closed WL = Ok (T', e0', e1', W', Zend', br).
  (** The transects after merging into the lagoon and filling from the shoreface. *)
  Definition mergedRow (i : nat) (t : tsect F) : tsect F := if lagoonIntersect j1 i t then dissolve t else t.
  Definition filledRow (i : nat) (t : tsect F) : tsect F := if shoreIntersect j2 i (mergedRow i t) then fillT P (mergedRow i t) else mergedRow i t.
  Lemma breach_cause : br = true -> exists b t t', nth_error T b = Some t /\ nth_error T' b = Some t' /\ e1' = tX t /\ tX t' = tX t /\
    ((Closed = true /\ shoreIntersect j2 b (mergedRow b t) = true) \/
     (eroded (filledRow b t) = true /\ openTo (map (lagoonOpen P) T0) x0 b) \/
     (exists w, In w WL /\ (tZ0 t' <? w)%n = true)).
  Proof.
    intros ->. destruct (breach_inv _ _ _ _ _ _ _ _ _ _ _ _ _ _ _ _ _ _ _ _ H) as [g].
    pose proof (s9 _ _ _ _ _ _ _ _ _ _ _ _ _ _ _ _ _ _ _ _ g) as E9. destruct (gB3 _ _ _ _ _ _ _ _ _ _ _ _ _ _ _ _ _ _ _ _ g) as [b|] eqn:EB; [|discriminate].
    pose proof (s6 _ _ _ _ _ _ _ _ _ _ _ _ _ _ _ _ _ _ _ _ g) as C. rewrite EB in C. apply create_inv in C as (c & Hc & C).
    assert (Lb : (b < length T)%nat) by (rewrite <- (len3 g L0 LP); apply nth_error_Some; congruence).
    destruct (nth_error T b) as [t|] eqn:Ht; [|apply nth_error_None in Ht; lia].
    destruct (rows g L0 LP b t Ht) as (t0 & p & f' & c' & q & t' & Ht0 & Hp & Hf & Ef & Ec & Hc' & Hq & Eq & Et & Ht'). rewrite Hc in Hc'. apply Some_inj in Hc'. rewrite <- Hc' in Ec, Eq. clear Hc'.
    assert (XT : tX t' = tX t).
    { pose proof (breach_sameX g L0 LP) as S. unfold sameX in S. assert (Q : nth_error (map tX T') b = nth_error (map tX T) b) by (rewrite S; reflexivity).
      rewrite !nth_error_map, Ht, Ht' in Q. apply Some_inj in Q. exact Q. }
    assert (XC : tX c = tX t).
    { assert (A1 : tX t' = tX q) by (rewrite Et; destruct (Nat.eqb b x0); [|reflexivity]; unfold keepLagoon; destruct (_ <? _)%n; reflexivity).
      assert (A2 : tX q = tX c) by (destruct Eq as [->|[_ ->]]; reflexivity). congruence. }
    assert (ZC : tZ0 t' = tZ0 c).
    { assert (A1 : tZ0 t' = tZ0 q) by (rewrite Et; destruct (Nat.eqb b x0); [|reflexivity]; unfold keepLagoon; destruct (_ <? _)%n; reflexivity).
      assert (A2 : tZ0 q = tZ0 c) by (destruct Eq as [->|[_ ->]]; reflexivity). congruence. }
    exists b, t, t'. split; [auto|]. split; [auto|]. split; [destruct C as [C|C]; decompose [and] C; congruence|]. split; [auto|].
    pose proof (s2 _ _ _ _ _ _ _ _ _ _ _ _ _ _ _ _ _ _ _ _ g) as E2. pose proof (s3 _ _ _ _ _ _ _ _ _ _ _ _ _ _ _ _ _ _ _ _ g) as E3.
    pose proof (s5 _ _ _ _ _ _ _ _ _ _ _ _ _ _ _ _ _ _ _ _ g) as E5. rewrite EB in E5.
    destruct (gB1 _ _ _ _ _ _ _ _ _ _ _ _ _ _ _ _ _ _ _ _ g) as [b1|].
    - apply erosion_keeps in E3. rewrite E3 in E5. apply spill_keeps in E5. injection E5 as ->.
      apply breach_filled in E2 as (A & _ & _ & _ & d & Hd & Hs & _). left. split; [auto|]. rewrite dissolve_nth, Ht in Hd. cbn in Hd. apply Some_inj in Hd. subst d. exact Hs.
    - destruct (gB2 _ _ _ _ _ _ _ _ _ _ _ _ _ _ _ _ _ _ _ _ g) as [b2|].
      + apply spill_keeps in E5. injection E5 as ->. apply erosion_breach in E3 as (f & Hf2 & He & Hr). right. left. rewrite Hf in Hf2. apply Some_inj in Hf2. subst f.
        split; [exact He|]. apply reach_open; [auto| |]; rewrite map_length; lia.
      + apply spill_some in E5 as [(u & w & Hu & Hw & Hz) _]. right. right. exists w. split.
        * apply (proj1 (proj2 (connect_from _ _ _ _ _ _ _ _ _ _ _ _ (s1 _ _ _ _ _ _ _ _ _ _ _ _ _ _ _ _ _ _ _ _ g)))). eapply nth_error_In; eauto.
        * rewrite ZC. rewrite Hc in Hu. apply Some_inj in Hu. subst u. exact Hz.
  Qed.
  Lemma breach_none : br = false -> (e0' = e0 \/ (Closed = true /\ e0' = fnan)) /\ e1' = e1 /\ W' = W /\ Zend' = Zend.
  Proof.
    intros ->. destruct (breach_inv _ _ _ _ _ _ _ _ _ _ _ _ _ _ _ _ _ _ _ _ H) as [g].
    pose proof (s9 _ _ _ _ _ _ _ _ _ _ _ _ _ _ _ _ _ _ _ _ g) as E9. destruct (gB3 _ _ _ _ _ _ _ _ _ _ _ _ _ _ _ _ _ _ _ _ g) as [b|] eqn:EB; [discriminate|].
    pose proof (s6 _ _ _ _ _ _ _ _ _ _ _ _ _ _ _ _ _ _ _ _ g) as C. rewrite EB in C. apply create_none in C as (_ & -> & -> & -> & ->).
    pose proof (connect_from _ _ _ _ _ _ _ _ _ _ _ _ (s1 _ _ _ _ _ _ _ _ _ _ _ _ _ _ _ _ _ _ _ _ g)) as (_ & _ & K & _). auto.
  Qed.
  (** Eroded through and joined to the river by open lagoon, while closed: it breaches. *)
  Lemma breach_eroded : Closed = true -> (exists i t, nth_error T i = Some t /\ eroded (filledRow i t) = true /\ openTo (map (lagoonOpen P) T0) x0 i) -> br = true.
  Proof.
    intros HC (i & t & Ht & He & Ho). destruct (breach_inv _ _ _ _ _ _ _ _ _ _ _ _ _ _ _ _ _ _ _ _ H) as [g].
    pose proof (s9 _ _ _ _ _ _ _ _ _ _ _ _ _ _ _ _ _ _ _ _ g) as E9. destruct (gB3 _ _ _ _ _ _ _ _ _ _ _ _ _ _ _ _ _ _ _ _ g) as [b|] eqn:EB; [auto|exfalso].
    destruct (rows g L0 LP i t Ht) as (t0 & p & f' & c' & q & t' & Ht0 & Hp & Hf & _).
    pose proof (s3 _ _ _ _ _ _ _ _ _ _ _ _ _ _ _ _ _ _ _ _ g) as E3. pose proof (s5 _ _ _ _ _ _ _ _ _ _ _ _ _ _ _ _ _ _ _ _ g) as E5. rewrite EB in E5.
    destruct (gB1 _ _ _ _ _ _ _ _ _ _ _ _ _ _ _ _ _ _ _ _ g) as [b1|].
    - apply erosion_keeps in E3. rewrite E3 in E5. apply spill_keeps in E5. discriminate.
    - destruct (gB2 _ _ _ _ _ _ _ _ _ _ _ _ _ _ _ _ _ _ _ _ g) as [b2|] eqn:E2; [apply spill_keeps in E5; discriminate|].
      eapply (erosion_closed2 _ _ _ _ _ _ _ HC) in E3; [apply E3; reflexivity|]. exists i, (filledRow i t). split; [exact Hf|]. split; [exact He|]. apply open_reach. exact Ho.
  Qed.
  (** Nothing merged, filled, eroded or overtopped: no breach; only crests change. *)
  Lemma breach_calm : (forall i t, nth_error T i = Some t -> lagoonIntersect j1 i t = false /\ shoreIntersect j2 i t = false /\ eroded t = false /\
      forall w, In w WL -> (tZ0 t <? w)%n = false /\ (fmaximum (tZ0 t) (tZ2 t) <? w)%n = false) ->
    br = false /\ forall i t p, nth_error T i = Some t -> nth_error pres i = Some p ->
      let t1 := if (p : bool) then setZ0 (fmaximum (tZ0 t) (tZ2 t)) t else t in
      nth_error T' i = Some (if Nat.eqb i x0 then keepLagoon P t1 else t1).
  Proof.
    intros HQ. destruct (breach_inv _ _ _ _ _ _ _ _ _ _ _ _ _ _ _ _ _ _ _ _ H) as [g].
    assert (R3 : forall i t p, nth_error T i = Some t -> nth_error pres i = Some p -> exists q t', nth_error (gT3 _ _ _ _ _ _ _ _ _ _ _ _ _ _ _ _ _ _ _ _ g) i = Some (if (p : bool) then setZ0 (fmaximum (tZ0 t) (tZ2 t)) t else t) /\
       (q = (if (p : bool) then setZ0 (fmaximum (tZ0 t) (tZ2 t)) t else t) \/ gB3 _ _ _ _ _ _ _ _ _ _ _ _ _ _ _ _ _ _ _ _ g <> None) /\ t' = (if Nat.eqb i x0 then keepLagoon P q else q) /\ nth_error T' i = Some t').
    { intros i t p Ht Hp. destruct (HQ i t Ht) as (A & B & C & _).
      destruct (rows g L0 LP i t Ht) as (t0 & p' & f' & c' & q & t' & Ht0 & Hp' & _ & Ef & Ec & Hc & _ & Eq & Et & Ht').
      rewrite Hp in Hp'. apply Some_inj in Hp'. subst p'. rewrite A, B, C in Ef. cbn [andb] in Ef. subst f'. rewrite A, B in Ec. cbn [negb andb] in Ec. subst c'.
      exists q, t'. split; [exact Hc|]. split; [destruct Eq as [->|[Q _]]; [auto|right; congruence]|]. auto. }
    assert (NB : gB3 _ _ _ _ _ _ _ _ _ _ _ _ _ _ _ _ _ _ _ _ g = None).
    { destruct (gB3 _ _ _ _ _ _ _ _ _ _ _ _ _ _ _ _ _ _ _ _ g) as [b|] eqn:EB; [exfalso|auto].
      assert (BT : br = true) by (rewrite (s9 _ _ _ _ _ _ _ _ _ _ _ _ _ _ _ _ _ _ _ _ g), EB; reflexivity).
      destruct (breach_cause BT) as (b' & t & t' & Ht & Ht' & _ & _ & K).
      destruct (HQ _ _ Ht) as (A & B & C & D). unfold filledRow, mergedRow in K. rewrite A, B in K.
      destruct K as [[_ K]|[[K _]|(w & Hw & K)]]; [congruence|congruence|].
      destruct (D w Hw) as [D1 D2].
      destruct (rows g L0 LP b' t Ht) as (t0 & p' & f' & c' & q & u & Ht0 & Hp' & _ & Ef & Ec & Hc & _ & Eq & Et & Hu).
      rewrite Ht' in Hu. apply Some_inj in Hu. rewrite A, B, C in Ef. cbn [andb] in Ef. subst f'. rewrite A, B in Ec. cbn [negb andb] in Ec.
      assert (A1 : tZ0 t' = tZ0 q) by (rewrite Hu, Et; destruct (Nat.eqb b' x0); [apply keep_Z0|reflexivity]).
      assert (A2 : tZ0 q = tZ0 c') by (destruct Eq as [->|[_ ->]]; reflexivity).
      rewrite A1, A2, Ec in K. destruct p'; cbn [setZ0 tZ0] in K; congruence. }
    split; [rewrite (s9 _ _ _ _ _ _ _ _ _ _ _ _ _ _ _ _ _ _ _ _ g), NB; reflexivity|].
    intros i t p Ht Hp. destruct (R3 i t p Ht Hp) as (q & t' & _ & [->|Q] & Et & Ht'); [|congruence]. cbv zeta. rewrite Ht', Et. reflexivity.
  Qed.
End Cause.

(** ** Where it breaches *)
Lemma erosion_where (P : phys xr) T0 T lagOpen x0 e0 Closed T' b : (forall i t, nth_error T i = Some t -> is_fin (tX t)) ->
  erosionBreach P T0 T lagOpen x0 (Fin e0) Closed None = Ok (T', Some b) ->
  nearest T 0 (fun i => exists t, nth_error T i = Some t /\ eroded t = true /\ reachable lagOpen x0 i = true) b /\
  (Closed = false -> exists t, nth_error T b = Some t /\ Rabs (rv (tX t)) < Rabs e0).
Proof.
  intros FX H. pose proof H as H0. unfold erosionBreach in H. cbv zeta in H. apply bind_ok in H as (b' & Eb & H). apply Ok_inj in H.
  pose proof (f_equal snd H) as H2. cbn [snd] in H2. subst b'. clear H.
  set (poss := filter (reachable lagOpen x0) (where_ eroded T)) in *.
  assert (PI : forall i, In i poss <-> exists t, nth_error T i = Some t /\ eroded t = true /\ reachable lagOpen x0 i = true).
  { intros i. unfold poss. rewrite filter_In, where_spec. split; [intros ((t & A & B) & C); eauto|intros (t & A & B & C); eauto]. }
  assert (PS : forall a c i j, nth_error poss a = Some i -> nth_error poss c = Some j -> (a < c)%nat -> (i < j)%nat).
  { assert (S : Sorted.StronglySorted lt poss) by (apply sorted_filter; apply where_from_sorted). clear -S.
    induction S as [|p l S IH HF]; intros a c i j Ha Hc L; [destruct a; discriminate|]. rewrite Forall_forall in HF.
    destruct c as [|c]; [lia|]. cbn in Hc. destruct a as [|a]; cbn in Ha.
    - apply Some_inj in Ha. subst p. apply HF. eapply nth_error_In; eauto.
    - eapply (IH a c); eauto; lia. }
  assert (HF : forall i t, nth_error T i = Some t -> fabs (tX t) = Fin (Rabs (rv (tX t) - 0))).
  { intros i t Ht. destruct (FX i t Ht) as (v & ->). cbn [rv]. rewrite PRate.xabs. do 2 f_equal. lra. }
  destruct poss as [|p0 pr] eqn:EP; [discriminate|].
  bok Eb ts. bok Eb k. bok Eb bi.
  assert (bi = b) as -> by (destruct Closed; [congruence|]; destruct (map _ ts) in Eb; [discriminate|]; cbn [bind] in Eb; destruct (_ <? _)%n in Eb; [congruence|discriminate]).
  assert (NN : nearest T 0 (fun i => exists t, nth_error T i = Some t /\ eroded t = true /\ reachable lagOpen x0 i = true) b).
  { eapply (argmin_nearest T 0 (fun t => fabs (tX t))); eauto. }
  split; [exact NN|]. intros ->. destruct NN as [(t & Ht & _) NN]. exists t. split; [auto|].
  rewrite (gather_map_fin T (fun t => fabs (tX t)) (fun t => Rabs (rv (tX t) - 0)) _ ts Ets) in Ek, Eb by (intros; eauto).
  apply argmin_spec in Ek as (a & Ha & Hm & _).
  assert (Na : a = Rabs (rv (tX t))).
  { destruct (gather_at T _ ts k b Ets) as (u & Hu & Hu'); [apply ix_ok; auto|]. rewrite Ht in Hu'. apply Some_inj in Hu'. subst u.
    rewrite nth_error_map, Hu in Ha. cbn in Ha. apply Some_inj in Ha. rewrite <- Ha. f_equal. lra. }
  destruct (map (fun t => Rabs (rv (tX t) - 0)) ts) as [|d0 dr] eqn:ED; [discriminate|]. cbn [map bind] in Eb.
  assert (FM : forall l v, exists r, fold_left fminimum (map Fin l) (Fin v) = Fin r /\ (r = v \/ In r l)).
  { clear. induction l as [|x l IH]; intros v; cbn [map fold_left]; [eauto|]. rewrite xmin. destruct (IH (Rmin v x)) as (r & -> & K). exists r. split; [auto|].
    destruct K as [->|K]; [|right; right; auto]. unfold Rmin. destruct (Rle_dec v x); [auto|right; left; auto]. }
  destruct (FM dr d0) as (r & Er & Kr). rewrite Er in Eb. rewrite PRate.xabs, xlt in Eb. destruct (Rltb r (Rabs e0)) eqn:Q; [|discriminate]. rb.
  assert (a <= r).
  { destruct Kr as [->|Kr]; [apply (Hm 0%nat); reflexivity|]. apply In_nth_error in Kr as (j & Hj). apply (Hm (S j)). exact Hj. }
  rewrite <- Na. lra.
Qed.
Lemma spill_where (P : phys xr) T x0 Closed cc WL b : (forall i t, nth_error T i = Some t -> is_fin (tZ0 t)) -> (forall w, In w WL -> is_fin w) ->
  spillBreach P T x0 Closed cc WL None = Ok (Some b) ->
  canBreach P T x0 cc WL b /\ forall i t u w v, canBreach P T x0 cc WL i -> nth_error T b = Some t -> nth_error WL b = Some w ->
    nth_error T i = Some u -> nth_error WL i = Some v -> rv v - rv (tZ0 u) <= rv w - rv (tZ0 t).
Proof.
  intros FT FW H. split; [eapply spill_some; eauto|]. intros i t u w v Ci Ht Hw Hu Hv.
  unfold spillBreach in H. destruct (where_ _ _) as [|s0 s] eqn:ES; [discriminate|]. cbv zeta in H. rewrite <- ES in H.
  apply poss_In in Ci. destruct (concat _) as [|p0 pr] eqn:EP in H; [destruct Closed; discriminate|]. rewrite EP in Ci.
  bok H ts. bok H ws. bok H k. bok H bi. injection H as ->. apply ix_ok in Ebi.
  assert (HM : exists l, map2 (fun w t => w - tZ0 t)%n ws ts = map Fin l).
  { clear Ek. pose proof (Forall_forall (fun w => is_fin w) ws) as [_ A]. pose proof (Forall_forall (fun t => is_fin (tZ0 t)) ts) as [_ B].
    assert (A' : Forall (fun w => is_fin w) ws) by (apply A; intros y Hy; apply FW; apply (In_gather _ _ _ y Ews) in Hy as (j & _ & Hj); eapply nth_error_In; eauto).
    assert (B' : Forall (fun t => is_fin (tZ0 t)) ts) by (apply B; intros y Hy; apply (In_gather _ _ _ y Ets) in Hy as (j & _ & Hj); eapply FT; eauto).
    clear -A' B'. revert ts B'. induction A' as [|a ws [ra ->] _ IH]; intros ts B'; [exists []; reflexivity|]. destruct ts as [|c ts]; [exists []; reflexivity|].
    inversion B' as [|? ? [rc Hc] B'']; subst. destruct (IH ts B'') as (l & Hl). exists ((ra - rc) :: l). cbn [map2 map]. rewrite Hl, Hc, PRate.xsub. reflexivity. }
  destruct HM as (l & HM). rewrite HM in Ek. apply argmax_spec in Ek as (a & Ha & Hm & _).
  assert (V : forall j x y z, nth_error (p0 :: pr) j = Some x -> nth_error T x = Some y -> nth_error WL x = Some z -> nth_error l j = Some (rv z - rv (tZ0 y))).
  { intros j x y z Hj Hy Hz. destruct (gather_at T _ ts j x Ets Hj) as (y' & Y1 & Y2). destruct (gather_at WL _ ws j x Ews Hj) as (z' & Z1 & Z2).
    assert (y' = y) by congruence. assert (z' = z) by congruence. subst y' z'.
    assert (Q : nth_error (map Fin l) j = Some (z - tZ0 y)%n) by (rewrite <- HM, nth_error_map2, Y1, Z1; reflexivity).
    destruct (FT _ _ Y2) as (ry & Ry). destruct (FW z (nth_error_In _ _ Z2)) as (rz & ->). rewrite Ry, PRate.xsub in Q. rewrite Ry. cbn [rv].
    rewrite nth_error_map in Q. destruct (nth_error l j); [|discriminate]. cbn in Q. apply Some_inj in Q. injection Q as ->. reflexivity. }
  pose proof (V k b t w Ebi Ht Hw) as Va. rewrite Ha in Va. apply Some_inj in Va. subst a.
  apply In_nth_error in Ci as (j & Hj). eapply Hm. exact (V j i u v Hj Hu Hv).
Qed.
Lemma relic_where (P : phys xr) junk T pres e0 cc T' pres' b : finX T ->
  shoreFill P junk T pres (Fin e0) true cc = Ok (T', pres', Some b) -> nearest T e0 (reached junk T cc) b.
Proof.
  intros FX H. unfold shoreFill in H. cbv zeta in H. destruct (existsb _ _); [|discriminate]. apply bind_ok in H as ([m q] & Em & H).
  destruct (negb (Nat.eqb (length m) (length T))); [discriminate|]. injection H as _ _ ->.
  destruct (true && negb _) in Em; [|discriminate]. bok Em ts. bok Em k. bok Em bi. injection Em as _ ->.
  eapply (argmin_nearest T e0 (fun t => fabs (tX t - Fin e0)%n)); eauto.
  - intros i t Ht. destruct (FX i t Ht) as (v & ->). cbn [rv]. rewrite PRate.xsub, PRate.xabs. reflexivity.
  - intros i. apply poss_spec.
  - pose proof (where_lists (fun b : bool => b) (mapi (fun i b => b && connected cc i) (mapi (shoreIntersect junk) T))) as [_ O]. exact O.
Qed.
