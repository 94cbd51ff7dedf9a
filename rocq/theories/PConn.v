(** The channel joined to the lagoon (mor.py:467-505). *)
From Coq Require Import ZArith List Bool Lia Reals Lra.
From Verif Require Import Base Num Xr XEval MState MCoast MRiv MMor SMor SPost SConn PCoast PGeom PLag PCore PFill PRate PCap PPost PTrunc PBreach PBreach2 PUpdate PUpdate2 PCapEx PPostEx.
Import ListNotations.

Section Search.
  Context {F : Type} {NF : Num F}.

  Lemma pynth_nat {A} (l : list A) z x : (0 <= z)%Z -> pynth l z = Ok x -> nth_error l (Z.to_nat z) = Some x.
  Proof.
    intros Hz H. unfold pynth, pyix in H. destruct (z <? 0)%Z eqn:E; [apply Z.ltb_lt in E; lia|]. destruct (_ <? _)%Z in H; [|discriminate]. apply ix_ok. exact H.
  Qed.
  Lemma pynth_range {A} (l : list A) z x : pynth l z = Ok x -> (- Z.of_nat (length l) <= z < Z.of_nat (length l))%Z.
  Proof.
    intros H. unfold pynth, pyix in H. destruct (z <? 0)%Z eqn:E; [apply Z.ltb_lt in E|apply Z.ltb_ge in E].
    - destruct (_ <=? _)%Z eqn:E2 in H; [|discriminate]. apply Z.leb_le in E2. lia.
    - destruct (_ <? _)%Z eqn:E2 in H; [|discriminate]. apply Z.ltb_lt in E2. lia.
  Qed.
  Lemma pynth_exc {A} (l : list A) z e : pynth l z = Exc e -> e = EIndex.
  Proof.
    intros H. unfold pynth in H. destruct (pyix _ _) as [i|] in H; [unfold ix in H; destruct (nth_error l i); [discriminate|]; cbn in H; congruence|congruence].
  Qed.
  Lemma pynth_total {A} (l : list A) z : (- Z.of_nat (length l) <= z < Z.of_nat (length l))%Z -> exists x, pynth l z = Ok x.
  Proof.
    intros H. unfold pynth, pyix. destruct (z <? 0)%Z eqn:E; [apply Z.ltb_lt in E|apply Z.ltb_ge in E].
    - destruct (_ <=? _)%Z eqn:E2; [|apply Z.leb_gt in E2; lia]. unfold ix. destruct (nth_error l _) as [x|] eqn:X; [exists x; reflexivity|]. apply nth_error_None in X. lia.
    - destruct (_ <? _)%Z eqn:E2; [|apply Z.ltb_ge in E2; lia]. unfold ix. destruct (nth_error l _) as [x|] eqn:X; [exists x; reflexivity|]. apply nth_error_None in X. lia.
  Qed.
  Lemma pyix_nat n z i : (0 <= z)%Z -> pyix n z = Some i -> i = Z.to_nat z /\ (i < n)%nat.
  Proof.
    intros Hz H. unfold pyix in H. destruct (z <? 0)%Z eqn:E; [apply Z.ltb_lt in E; lia|]. destruct (_ <? _)%Z eqn:E2 in H; [|discriminate]. apply Z.ltb_lt in E2.
    apply Some_inj in H. lia.
  Qed.

  Lemma left_spec fuel : forall wide (WL : list F) lo lo' WL', searchLeft fuel wide WL lo = Ok (lo', WL') ->
    (lo' <= lo)%Z /\ (forall z, (lo' <= z < lo)%Z -> pynth wide z = Ok true) /\ pynth wide (lo' - 1) = Ok false /\ length WL' = length WL /\
    ((0 <= lo')%Z -> forall i, nth_error WL' i = if ((lo' <=? Z.of_nat i) && (Z.of_nat i <? lo))%Z then nth_error WL (Z.to_nat lo) else nth_error WL i).
  Proof.
    induction fuel as [|f IH]; intros wide WL lo lo' WL' H; cbn [searchLeft] in H; bok H w; destruct w; try discriminate.
    1,3: apply Ok_inj in H; injection H as <- <-; split; [lia|split; [intros; lia|split; [exact Ew|split; [reflexivity|]]]];
      intros _ i; destruct ((lo <=? Z.of_nat i) && (Z.of_nat i <? lo))%Z eqn:E; [apply andb_prop in E; destruct E as (E1 & E2); lia|reflexivity].
    bok H v. bok H i. destruct (pyix _ _) as [i'|] eqn:EI in Ei; [|discriminate]. apply Ok_inj in Ei. subst i'.
    apply IH in H. destruct H as (A1 & A2 & A3 & A4 & A5). rewrite upd_length in A4. split; [lia|]. split; [|split; [auto|split; [auto|]]].
    - intros z Hz. destruct (Z.eq_dec z (lo - 1)) as [->|NE]; [exact Ew|]. apply A2. lia.
    - intros H0 j. rewrite (A5 H0 j). apply pyix_nat in EI; [|lia]. destruct EI as (-> & LI). apply pynth_nat in Ev; [|lia].
      destruct ((lo' <=? Z.of_nat j) && (Z.of_nat j <? lo - 1))%Z eqn:E1.
      + apply andb_prop in E1. destruct E1 as (E1 & E2). apply Z.leb_le in E1. apply Z.ltb_lt in E2.
        rewrite nth_error_upd_eq by auto. replace ((lo' <=? Z.of_nat j) && (Z.of_nat j <? lo))%Z with true by (symmetry; apply andb_true_intro; split; [apply Z.leb_le|apply Z.ltb_lt]; lia). auto.
      + destruct (Nat.eq_dec j (Z.to_nat (lo - 1))) as [->|NE].
        * rewrite nth_error_upd_eq by auto. replace ((lo' <=? _) && (_ <? lo))%Z with true by (symmetry; apply andb_true_intro; split; [apply Z.leb_le|apply Z.ltb_lt]; lia). auto.
        * rewrite nth_error_upd_ne by auto. replace ((lo' <=? Z.of_nat j) && (Z.of_nat j <? lo))%Z with false; [reflexivity|].
          symmetry. apply andb_false_iff. apply andb_false_iff in E1. destruct E1 as [E1|E1]; [auto|]. apply Z.ltb_ge in E1. right. apply Z.ltb_ge. lia.
  Qed.
  Lemma right_spec fuel : forall wide (WL : list F) hi hi' WL', (0 <= hi)%Z -> searchRight fuel wide WL hi = Ok (hi', WL') ->
    (hi <= hi')%Z /\ (forall z, (hi < z <= hi')%Z -> pynth wide z = Ok true) /\ pynth wide (hi' + 1) = Ok false /\ length WL' = length WL /\
    (forall i, nth_error WL' i = if ((hi <? Z.of_nat i) && (Z.of_nat i <=? hi'))%Z then nth_error WL (Z.to_nat hi) else nth_error WL i).
  Proof.
    induction fuel as [|f IH]; intros wide WL hi hi' WL' Hh H; cbn [searchRight] in H; bok H w; destruct w; try discriminate.
    1,3: apply Ok_inj in H; injection H as <- <-; split; [lia|split; [intros; lia|split; [exact Ew|split; [reflexivity|]]]];
      intros i; destruct ((hi <? Z.of_nat i) && (Z.of_nat i <=? hi))%Z eqn:E; [apply andb_prop in E; destruct E as (E1 & E2); lia|reflexivity].
    bok H v. bok H i. destruct (pyix _ _) as [i'|] eqn:EI in Ei; [|discriminate]. apply Ok_inj in Ei. subst i'.
    apply IH in H; [|lia]. destruct H as (A1 & A2 & A3 & A4 & A5). rewrite upd_length in A4. split; [lia|]. split; [|split; [auto|split; [auto|]]].
    - intros z Hz. destruct (Z.eq_dec z (hi + 1)) as [->|NE]; [exact Ew|]. apply A2. lia.
    - intros j. rewrite (A5 j). apply pyix_nat in EI; [|lia]. destruct EI as (-> & LI). apply pynth_nat in Ev; [|lia].
      destruct ((hi + 1 <? Z.of_nat j) && (Z.of_nat j <=? hi'))%Z eqn:E1.
      + apply andb_prop in E1. destruct E1 as (E1 & E2). apply Z.ltb_lt in E1. apply Z.leb_le in E2.
        rewrite nth_error_upd_eq by auto. replace ((hi <? Z.of_nat j) && (Z.of_nat j <=? hi'))%Z with true by (symmetry; apply andb_true_intro; split; [apply Z.ltb_lt|apply Z.leb_le]; lia). auto.
      + destruct (Nat.eq_dec j (Z.to_nat (hi + 1))) as [->|NE].
        * rewrite nth_error_upd_eq by auto. replace ((hi <? _) && (_ <=? hi'))%Z with true by (symmetry; apply andb_true_intro; split; [apply Z.ltb_lt|apply Z.leb_le]; lia). auto.
        * rewrite nth_error_upd_ne by auto. replace ((hi <? Z.of_nat j) && (Z.of_nat j <=? hi'))%Z with false; [reflexivity|].
          symmetry. apply andb_false_iff. apply andb_false_iff in E1. destruct E1 as [E1|E1]; [|auto]. apply Z.ltb_ge in E1. left. apply Z.ltb_ge. lia.
  Qed.
  (** The searches end within twice the number of transects. *)
  Lemma left_fuel fuel : forall wide (WL : list F) lo, (lo <= Z.of_nat (length wide))%Z -> (lo + Z.of_nat (length wide) <= Z.of_nat fuel)%Z -> searchLeft fuel wide WL lo <> Exc EFuel.
  Proof.
    induction fuel as [|f IH]; intros wide WL lo H1 H2; cbn [searchLeft]; destruct (pynth wide (lo - 1)) as [w|e] eqn:E; cbn [bind].
    - apply pynth_range in E. destruct w; [lia|discriminate].
    - apply pynth_exc in E. subst. discriminate.
    - destruct w; [|discriminate]. destruct (pynth WL lo) as [v|e] eqn:Ev; cbn [bind].
      + destruct (pyix _ _); cbn [of_opt bind]; [|discriminate]. apply IH; lia.
      + apply pynth_exc in Ev. subst. discriminate.
    - apply pynth_exc in E. subst. discriminate.
  Qed.
  Lemma right_fuel fuel : forall wide (WL : list F) hi, (0 <= hi)%Z -> (Z.of_nat (length wide) <= hi + 1 + Z.of_nat fuel)%Z -> searchRight fuel wide WL hi <> Exc EFuel.
  Proof.
    induction fuel as [|f IH]; intros wide WL hi H1 H2; cbn [searchRight]; destruct (pynth wide (hi + 1)) as [w|e] eqn:E; cbn [bind].
    - apply pynth_range in E. destruct w; [lia|discriminate].
    - apply pynth_exc in E. subst. discriminate.
    - destruct w; [|discriminate]. destruct (pynth WL hi) as [v|e] eqn:Ev; cbn [bind].
      + destruct (pyix _ _); cbn [of_opt bind]; [|discriminate]. apply IH; lia.
      + apply pynth_exc in Ev. subst. discriminate.
    - apply pynth_exc in E. subst. discriminate.
  Qed.

  Variables (P : phys F) (T : list (tsect F)) (pres : list bool).
  Hypothesis LP : length pres = length T.
  Notation wide := (map2 (wideEnough P) pres T).
  Lemma wide_len : length wide = length T. Proof. rewrite map2_length. lia. Qed.
  Lemma wide_true i : nth_error wide i = Some true <-> wideAt P T pres i.
  Proof.
    rewrite nth_error_map2. unfold wideAt, wideEnough. destruct (nth_error T i) as [t|] eqn:Et; [|destruct (nth_error pres i); split; [discriminate|intros (? & ? & _); congruence|discriminate|intros (? & ? & _); congruence]].
    destruct (nth_error pres i) as [p|] eqn:Ep; [|split; [discriminate|intros (? & _ & ? & _); congruence]].
    split.
    - intros H. apply Some_inj in H. apply andb_prop in H. destruct H as (-> & H). eauto.
    - intros (t' & E1 & E2 & E3). injection E1 as <-. injection E2 as ->. rewrite E3. reflexivity.
  Qed.
  Lemma wide_py z : (0 <= z)%Z -> pynth wide z = Ok true -> wideAt P T pres (Z.to_nat z).
  Proof. intros H E. apply wide_true. apply pynth_nat; auto. Qed.
  Lemma wide_last b : pynth wide (-1) = Ok b -> (wideAt P T pres (length T - 1) <-> b = true).
  Proof.
    intros E. pose proof (pynth_range _ _ _ E) as R. unfold pynth, pyix in E. cbn [Z.ltb Z.compare] in E. destruct (_ <=? _)%Z eqn:EB in E; [|discriminate].
    apply ix_ok in E. rewrite wide_len in *. replace (Z.to_nat _) with (length T - 1)%nat in E by lia. rewrite <- wide_true, E. split; [intros H; injection H; auto|intros ->; auto].
  Qed.

  Lemma search_stretch f a b lo hi WL WL1 WL2 : (a <= b)%nat ->
    searchLeft f wide WL (Z.of_nat a) = Ok (lo, WL1) -> searchRight f wide WL1 (Z.of_nat b) = Ok (hi, WL2) -> stretch P T pres a b (Some (lo, hi)) WL WL2.
  Proof.
    intros AB H1 H2. apply left_spec in H1. apply right_spec in H2; [|lia]. destruct H1 as (A1 & A2 & A3 & A4 & A5). destruct H2 as (B1 & B2 & B3 & B4 & B5).
    exists lo, hi. split; [reflexivity|]. split; [lia|]. split; [lia|].
    split; [intros i Hi; rewrite <- (Nat2Z.id i); apply wide_py; [lia|]; apply A2; lia|].
    split; [intros i Hi; rewrite <- (Nat2Z.id i); apply wide_py; [lia|]; apply B2; lia|].
    pose proof (pynth_range _ _ _ B3) as R3. rewrite wide_len in R3. split; [lia|].
    split; [intros W; apply wide_true in W; apply pynth_nat in B3; [congruence|lia]|].
    split; [intros L W; apply wide_true in W; apply pynth_nat in A3; [congruence|lia]|].
    split; [intros ->; apply wide_last in A3; rewrite A3; discriminate|].
    split.
    - intros L. assert (X : pynth wide (-1) = Ok true) by (apply A2; lia). apply wide_last in X. apply X; reflexivity.
    - intros L i. rewrite (B5 i), !(A5 L), !Nat2Z.id.
      destruct ((lo <=? Z.of_nat b) && (Z.of_nat b <? Z.of_nat a))%Z eqn:E0; [apply andb_prop in E0; destruct E0 as (_ & E0); apply Z.ltb_lt in E0; lia|].
      destruct ((lo <=? Z.of_nat i) && (Z.of_nat i <? Z.of_nat a))%Z eqn:E1; [|reflexivity].
      apply andb_prop in E1. destruct E1 as (_ & E1). apply Z.ltb_lt in E1.
      replace ((Z.of_nat b <? Z.of_nat i) && (Z.of_nat i <=? hi))%Z with false by (symmetry; apply andb_false_iff; left; apply Z.ltb_ge; lia). reflexivity.
  Qed.

  Lemma conn_open lagOpen x0 e0 outlet WL cc WL' e0' :
    connect P T pres lagOpen x0 e0 false outlet WL = Ok (cc, WL', e0') ->
    e0' = e0 /\ exists a b, In a outlet /\ In b outlet /\ (forall o, In o outlet -> (a <= o <= b)%nat) /\ stretch P T pres a b cc WL WL'.
  Proof.
    intros H. unfold connect in H. cbv zeta in H. bok H us. cbn [negb] in H. destruct outlet as [|o os]; [discriminate|]. cbn [bind] in H.
    bok H r1. destruct r1 as [lo WL1]. bok H r2. destruct r2 as [hi WL2]. bok H u. apply Ok_inj in H. injection H as <- <- <-.
    split; [reflexivity|].
    assert (MM : forall l a, In (fold_left Nat.min l a) (a :: l) /\ In (fold_left Nat.max l a) (a :: l) /\ forall x, In x (a :: l) -> (fold_left Nat.min l a <= x <= fold_left Nat.max l a)%nat).
    { clear. induction l as [|b l IH]; intros a; cbn [fold_left]; [repeat split; try (left; reflexivity); destruct H as [<-|[]]; lia|].
      destruct (IH (Nat.min a b)) as (A1 & _ & A3). destruct (IH (Nat.max a b)) as (_ & A2 & A4). split; [|split].
      - destruct A1 as [A1|A1]; [|right; right; auto]. rewrite <- A1. destruct (Nat.min_dec a b) as [->| ->]; [left|right; left]; reflexivity.
      - destruct A2 as [A2|A2]; [|right; right; auto]. rewrite <- A2. destruct (Nat.max_dec a b) as [->| ->]; [left|right; left]; reflexivity.
      - intros x Hx. pose proof (A3 _ (or_introl eq_refl)). pose proof (A4 _ (or_introl eq_refl)).
        destruct Hx as [<-|[<-|Hx]]; [lia|lia|]. pose proof (A3 _ (or_intror Hx)). pose proof (A4 _ (or_intror Hx)). lia. }
    destruct (MM os o) as (M1 & M2 & M3). exists (fold_left Nat.min os o), (fold_left Nat.max os o). split; [auto|]. split; [auto|]. split; [auto|].
    eapply search_stretch; [|exact Er1|exact Er2]. specialize (M3 o (or_introl eq_refl)). lia.
  Qed.
  Lemma conn_none lagOpen x0 e0 outlet WL cc WL' e0' : fisnan e0 = true ->
    connect P T pres lagOpen x0 e0 true outlet WL = Ok (cc, WL', e0') -> cc = None /\ WL' = WL /\ e0' = e0.
  Proof.
    intros HN H. unfold connect in H. cbv zeta in H. bok H us. cbn [negb] in H. rewrite HN in H. cbn [negb bind] in H. bok H u. apply Ok_inj in H. injection H as <- <- <-. auto.
  Qed.
  Lemma conn_closed lagOpen x0 e0 outlet WL cc WL' e0' : fisnan e0 = false ->
    connect P T pres lagOpen x0 e0 true outlet WL = Ok (cc, WL', e0') -> exists us, argmin (map (fun t => fabs (tX t - e0))%n T) = Ok us /\
    ((wideAt P T pres us /\ forall j, (Nat.min us x0 <= j <= Nat.max us x0)%nat -> nth_error lagOpen j <> Some false) -> e0' = e0 /\ stretch P T pres us us cc WL WL') /\
    (~ (wideAt P T pres us /\ forall j, (Nat.min us x0 <= j <= Nat.max us x0)%nat -> nth_error lagOpen j <> Some false) -> cc = None /\ WL' = WL /\ e0' = fnan).
  Proof.
    intros HN H. unfold connect in H. cbv zeta in H. bok H us. cbn [negb] in H. rewrite HN in H. cbn [negb] in H. exists us. split; [auto|].
    bok H r. destruct r as [c e]. bok Er w. apply ix_ok in Ew.
    assert (SL : forallb (fun b => b) (slice lagOpen (Nat.min us x0) (S (Nat.max us x0))) = true <-> forall j, (Nat.min us x0 <= j <= Nat.max us x0)%nat -> nth_error lagOpen j <> Some false).
    { rewrite forallb_forall. split.
      - intros A j Hj E. assert (X : In false (slice lagOpen (Nat.min us x0) (S (Nat.max us x0)))); [|apply A in X; discriminate].
        apply slice_In. exists j. split; [lia|exact E].
      - intros A b Hb. apply slice_In in Hb. destruct Hb as (m & Lm & Hm). destruct b; [reflexivity|]. exfalso. eapply (A m); [lia|exact Hm]. }
    assert (HW : w = true <-> wideAt P T pres us) by (rewrite <- wide_true, Ew; split; [intros ->; auto|intros X; injection X; auto]).
    destruct w; cbn [negb] in Er.
    - destruct (forallb _ _) eqn:EF in Er; cbn [negb] in Er; apply Ok_inj in Er; injection Er as <- <-.
      + bok H r1. destruct r1 as [lo WL1]. bok H r2. destruct r2 as [hi WL2]. bok H u. apply Ok_inj in H. injection H as <- <- <-. split.
        * intros _. split; [reflexivity|]. eapply search_stretch; [|exact Er1|exact Er2]. lia.
        * intros N. exfalso. apply N. split; [apply HW; auto|apply SL; exact EF].
      + bok H u. apply Ok_inj in H. injection H as <- <- <-. split; [|auto]. intros (_ & N). apply SL in N. congruence.
    - apply Ok_inj in Er. injection Er as <- <-. bok H u. apply Ok_inj in H. injection H as <- <- <-. split; [|auto]. intros (N & _). apply HW in N. discriminate.
  Qed.
  (** A channel that is wide up to the last transect. *)
  Lemma conn_edge lagOpen x0 e0 outlet WL : (exists o, In o outlet) ->
    (forall o i, In o outlet -> (o < i < length T)%nat -> wideAt P T pres i) -> forall r, connect P T pres lagOpen x0 e0 false outlet WL <> Ok r.
  Proof.
    intros (o & Ho) HW [[cc WL'] e0'] E. apply conn_open in E. destruct E as (_ & a & b & _ & Hb & _ & lo & hi & _ & _ & Lb & _ & _ & Lh & NW & _).
    apply NW. apply (HW b); [auto|]. lia.
  Qed.
  Lemma conn_fuel lagOpen x0 e0 closed outlet WL : (forall o, In o outlet -> (o < length T)%nat) -> connect P T pres lagOpen x0 e0 closed outlet WL <> Exc EFuel.
  Proof.
    intros HO. unfold connect. cbv zeta. destruct (argmin _) as [us|e] eqn:EA; cbn [bind].
    2:{ unfold argmin in EA. destruct (map _ T); [|discriminate]. congruence. }
    assert (SR : forall a b, (a < length T)%nat -> forall e, (let! (lo, WL) := searchLeft (2 * length T) wide WL (Z.of_nat a) in let! (hi, WL) := searchRight (2 * length T) wide WL (Z.of_nat b) in
                    let! _ := assert_ (negb (existsb fisnan WL)) in Ok (Some (lo, hi), WL, e : F)) <> Exc EFuel).
    { intros a b Ha e. destruct (searchLeft _ _ _ _) as [[lo W1]|x] eqn:E1; cbn [bind].
      - destruct (searchRight _ _ _ _) as [[hi W2]|x] eqn:E2; cbn [bind].
        + destruct (negb _); cbn; discriminate.
        + intros X. injection X as ->. eapply right_fuel; [| |exact E2]; rewrite ?wide_len; lia.
      - intros X. injection X as ->. eapply left_fuel; [| |exact E1]; rewrite ?wide_len; lia. }
    destruct closed; cbn [negb].
    - destruct (fisnan e0); cbn [negb bind].
      + destruct (negb _); cbn; discriminate.
      + unfold ix. destruct (nth_error wide us) as [w|] eqn:Ew; cbn [of_opt bind]; [|discriminate].
        destruct w; cbn [negb bind]; [|destruct (negb _); cbn; discriminate].
        destruct (negb (forallb _ _)); cbn [bind]; [destruct (negb _); cbn; discriminate|]. apply SR. rewrite <- wide_len. apply nth_error_Some. congruence.
    - destruct outlet as [|o os]; cbn [bind]; [discriminate|]. apply SR.
      assert (MN : forall l a, (a < length T)%nat -> (fold_left Nat.min l a < length T)%nat) by (clear; induction l as [|x l IH]; intros a Ha; cbn [fold_left]; [auto|apply IH; lia]).
      apply MN. apply HO. left; auto.
  Qed.
End Search.

Local Open Scope R_scope.
Lemma conn_closed_where (P : phys xr) T pres lagOpen x0 e0 outlet WL cc WL' e0' : length pres = length T -> finX T ->
  connect P T pres lagOpen x0 (Fin e0) true outlet WL = Ok (cc, WL', e0') -> exists us, nearest T e0 (fun i => (i < length T)%nat) us /\
  ((wideAt P T pres us /\ forall j, (Nat.min us x0 <= j <= Nat.max us x0)%nat -> nth_error lagOpen j <> Some false) -> e0' = Fin e0 /\ stretch P T pres us us cc WL WL') /\
  (~ (wideAt P T pres us /\ forall j, (Nat.min us x0 <= j <= Nat.max us x0)%nat -> nth_error lagOpen j <> Some false) -> cc = None /\ WL' = WL /\ e0' = NaN).
Proof.
  intros LP FX H. apply conn_closed in H; auto. destruct H as (us & EA & H). exists us. split; [|exact H].
  assert (EM : map (fun t => fabs (tX t - Fin e0))%n T = map Fin (map (fun t => Rabs (rv (tX t) - e0)) T)).
  { rewrite map_map. apply map_ext_in. intros t Ht. apply In_nth_error in Ht. destruct Ht as (i & Hi). destruct (FX i t Hi) as (x & ->). cbn [rv]. rewrite PRate.xsub, PRate.xabs. reflexivity. }
  rewrite EM in EA. apply argmin_spec in EA. destruct EA as (v & Hv & Hm & Hf). rewrite nth_error_map in Hv. destruct (nth_error T us) as [t|] eqn:Et; [|discriminate].
  cbn in Hv. apply Some_inj in Hv. subst v. split; [apply nth_error_Some; congruence|].
  intros i t' u Hi Ht' Hu. rewrite Et in Ht'. injection Ht' as <-. split.
  - apply (Hm i). rewrite nth_error_map, Hu. reflexivity.
  - intros LT. eapply (Hf i); [exact LT|]. rewrite nth_error_map, Hu. reflexivity.
Qed.

(** ** A coast with channel at transects 0, 1 and 4 *)
Definition joinT : list (tsect xr) := [exRow 0; exRow 1; bare 2 0; bare 3 0; exRow 4].
Definition joinP : list bool := [true; true; false; false; true].
Definition cutT : list (tsect xr) := [exRow 0; exRow 1; bare 2 0; bare 3 0; bare 4 0].
Definition cutP : list bool := [true; true; false; false; false].
Definition joinWL : list xr := [Fin 1; Fin 2; Fin 1; Fin 1; Fin 1].
Ltac near := unfold exRow, bare, withChannel; cbn [map tX]; rewrite ?PRate.xsub, ?PRate.xabs;
  repeat match goal with |- context [Rabs ?a] => first [rewrite (Rabs_pos_eq a) by lra | rewrite (Rabs_left a) by lra] end; xev; reflexivity.
Ltac joins k := unfold connect; cbv zeta;
  match goal with |- bind ?r _ = _ => assert (EU : r = Ok k) by near; rewrite EU; clear EU; cbn [bind] end; xrun.
Lemma join_open : connect ones cutT cutP [true; true; true; true; true] 2 (Fin 1) false [1%nat] joinWL = Ok (Some (0, 1)%Z, [Fin 2; Fin 2; Fin 1; Fin 1; Fin 1], Fin 1).
Proof. unfold cutT. joins 1%nat. Qed.
Lemma join_closed : connect ones cutT cutP [true; true; true; true; true] 2 (Fin 1) true [] joinWL = Ok (Some (0, 1)%Z, [Fin 2; Fin 2; Fin 1; Fin 1; Fin 1], Fin 1).
Proof. unfold cutT. joins 1%nat. Qed.
Lemma join_lost : connect ones cutT cutP [true; true; true; true; true] 2 (Fin 3) true [] joinWL = Ok (None, joinWL, NaN).
Proof. unfold cutT. joins 3%nat. Qed.
Lemma join_wrap : connect ones joinT joinP [true; true; true; true; true] 2 (Fin 1) false [1%nat] joinWL = Ok (Some (-1, 1)%Z, [Fin 2; Fin 2; Fin 1; Fin 1; Fin 2], Fin 1).
Proof. unfold joinT. joins 1%nat. Qed.
Lemma wrap_refuted : ~ (forall (P : phys xr) T pres lagOpen x0 e0 outlet WL cc WL' e0' i, length pres = length T ->
  connect P T pres lagOpen x0 e0 false outlet WL = Ok (cc, WL', e0') -> ~ joined cc i -> nth_error WL' i = nth_error WL i).
Proof.
  intros H. specialize (H ones joinT joinP _ _ _ _ _ _ _ _ 4%nat eq_refl join_wrap). cbn in H. assert (X : Some (Fin 2) = Some (Fin 1)) by (apply H; lia). injection X. lra.
Qed.
Lemma join_cases : length cutP = length cutT /\ finX cutT /\
  (exists r, connect ones cutT cutP [true; true; true; true; true] 2 (Fin 1) false [1%nat] joinWL = Ok r) /\
  (exists cc WL', connect ones cutT cutP [true; true; true; true; true] 2 (Fin 1) true [] joinWL = Ok (Some cc, WL', Fin 1)) /\
  (exists WL', connect ones cutT cutP [true; true; true; true; true] 2 (Fin 3) true [] joinWL = Ok (None, WL', NaN)) /\
  (exists r, connect ones cutT cutP [true; true; true; true; true] 2 NaN true [] joinWL = Ok r) /\
  (exists o, In o [3%nat]) /\ (forall o i, In o [3%nat] -> (o < i < length joinT)%nat -> wideAt ones joinT joinP i).
Proof.
  split; [reflexivity|]. split.
  { intros i t Ht. destruct i as [|[|[|[|[|i]]]]]; cbn in Ht; try (injection Ht as <-; eexists; reflexivity). destruct i; discriminate. }
  split; [eexists; exact join_open|]. split; [do 2 eexists; exact join_closed|]. split; [eexists; exact join_lost|].
  split; [eexists; unfold connect; cbv zeta; xrun|]. split; [exists 3%nat; left; reflexivity|].
  intros o i [<-|[]] Hi. cbn [length joinT] in Hi. assert (i = 4)%nat as -> by lia. exists (exRow 4). split; [reflexivity|]. split; [reflexivity|]. xev; reflexivity.
Qed.
