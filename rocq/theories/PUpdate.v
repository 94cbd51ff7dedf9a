(** Proofs about the creation of a breach and the whole update (mor.py:12-695). *)
From Coq Require Import ZArith List Bool Lia Reals Lra.
From Verif Require Import Base Num Xr XEval MState MCoast MRiv MMor SMor SPost PCoast PGeom PLag PCore PFill PRate PCap PPost PTrunc PBreach PBreach2.
Import ListNotations.
Local Open Scope R_scope.

(** ** A new breach *)
Section Create.
  Context {F : Type} {NF : Num F}.
  Variables (P : phys F) (T : list (tsect F)) (e0 e1 W Zend : F) (cc : option (Z * Z)).
  Lemma create_inv b T' e0' e1' W' Zend' : createBreach P T e0 e1 W Zend cc (Some b) = Ok (T', e0', e1', W', Zend') ->
    exists t, nth_error T b = Some t /\
    ((inConnected (length T) cc b = true /\ T' = T /\ e0' = e0 /\ e1' = tX t /\ W' = W /\ Zend' = Zend) \/
     (inConnected (length T) cc b = false /\ T' = upd T b (breachT P W' Zend' t) /\ e0' = tX t /\ e1' = tX t /\
      W' = breachWidth P W /\ Zend' = breachElev P Zend)).
  Proof.
    unfold createBreach. intros H. bok H t. apply ix_ok in Et. exists t. split; [auto|].
    destruct (inConnected (length T) cc b); injection H as <- <- <- <- <-; [left|right]; repeat split.
  Qed.
  Lemma create_none T' e0' e1' W' Zend' : createBreach P T e0 e1 W Zend cc None = Ok (T', e0', e1', W', Zend') ->
    T' = T /\ e0' = e0 /\ e1' = e1 /\ W' = W /\ Zend' = Zend.
  Proof. unfold createBreach. intros H. injection H as <- <- <- <- <-. repeat split. Qed.
  (** The test compares the index with truth values. *)
  Lemma in_connected n b : (2 <= b)%nat -> inConnected n cc b = false.
  Proof.
    intros H. unfold inConnected. destruct (existsb _ _) eqn:E; [exfalso|auto]. apply existsb_exists in E as (i & _ & E).
    apply Z.eqb_eq in E. unfold b2z in E. destruct (connected cc i); lia.
  Qed.
  Lemma in_connected1 n : inConnected n cc 1 = true <-> exists i, (i < n)%nat /\ joined cc i.
  Proof.
    unfold inConnected. rewrite existsb_exists. split.
    - intros (i & Hi & E). apply in_seq in Hi. apply Z.eqb_eq in E. exists i. split; [lia|]. apply connected_joined. unfold b2z in E. destruct (connected cc i); [auto|lia].
    - intros (i & Hi & E). exists i. split; [apply in_seq; lia|]. apply connected_joined in E. rewrite E. reflexivity.
  Qed.
  Lemma in_connected0 n : inConnected n cc 0 = true <-> exists i, (i < n)%nat /\ ~ joined cc i.
  Proof.
    unfold inConnected. rewrite existsb_exists. split.
    - intros (i & Hi & E). apply in_seq in Hi. apply Z.eqb_eq in E. exists i. split; [lia|]. rewrite <- connected_joined. unfold b2z in E. destruct (connected cc i); [lia|congruence].
    - intros (i & Hi & E). exists i. split; [apply in_seq; lia|]. rewrite <- connected_joined in E. destruct (connected cc i); [congruence|reflexivity].
  Qed.
  Lemma always_new b T' e0' e1' W' Zend' t : (2 <= b)%nat -> nth_error T b = Some t ->
    createBreach P T e0 e1 W Zend cc (Some b) = Ok (T', e0', e1', W', Zend') ->
    e0' = tX t /\ e1' = tX t /\ W' = breachWidth P W /\ nth_error T' b = Some (breachT P W' Zend' t).
  Proof.
    intros Hb Ht H. apply create_inv in H as (u & Hu & [[H _]|(_ & -> & -> & -> & H & _)]).
    - rewrite in_connected in H by auto. discriminate.
    - rewrite Ht in Hu. apply Some_inj in Hu. subst u. repeat split; auto. apply nth_error_upd_eq. apply nth_error_Some. congruence.
  Qed.
End Create.

Lemma breach_spec (P : phys xr) w z m s mo (t : tsect xr) x y0 y3 y4 z0 z3 :
  pMinOutletWidth P = Fin m -> pSpitWidth P = Fin s -> pMaxOutletElev P = Fin mo ->
  tX t = Fin x -> tY0 t = Fin y0 -> tY3 t = Fin y3 -> tY4 t = Fin y4 -> tZ0 t = Fin z0 -> tZ3 t = Fin z3 ->
  breachWidth P (Fin w) = Fin (Rmax w (2 * m)) /\ breachElev P (Fin z) = Fin (Rmin z mo) /\
  forall w' z', exists y1 y3' y4', breachT P (Fin w') (Fin z') t = withChannel x y0 y1 (y1 - w') y3' y4' z0 ((z' + z3) / 2) z0 z3 /\
    y1 = Rmin (y0 - s) ((y0 + y3) / 2 + w' / 2) /\ y3' < y1 - w' /\ y4' < y1 - w' /\
    (y3 < y1 - w' -> y3' = y3) /\ (y1 - w' <= y3 -> y3' = y1 - w' - 1/1000) /\
    (y4 < y1 - w' -> y4' = y4) /\ (y1 - w' <= y4 -> y4' = y1 - w' - 1/1000).
Proof.
  intros Hm Hs Hmo Hx H0 H3 H4 Hz0 Hz3. split; [|split].
  - unfold breachWidth. rewrite Hm, x2, PRate.xmul. apply pymax_fin.
  - unfold breachElev. rewrite Hmo. apply pymin_fin.
  - intros w' z'. set (y1 := Rmin (y0 - s) ((y0 + y3) / 2 + w' / 2)).
    exists y1, (if Rleb (y1 - w') y3 then y1 - w' - 1/1000 else y3), (if Rleb (y1 - w') y4 then y1 - w' - 1/1000 else y4).
    assert (E1 : pymin (Fin y0 - Fin s)%n ((Fin y0 + Fin y3) / f2 + Fin w' / f2)%n = Fin y1).
    { rewrite x2. xf. apply pymin_fin. }
    split.
    + unfold breachT, withChannel. rewrite H0, H3, H4, Hs, Hx, Hz0, Hz3. cbv zeta. rewrite E1, !xofQ. xf. rewrite !xle.
      f_equal; [| |f_equal; field]; match goal with |- (if ?c then _ else _) = _ => destruct c; reflexivity end.
    + split; [reflexivity|].
      destruct (Rleb (y1 - w') y3) eqn:A; destruct (Rleb (y1 - w') y4) eqn:B; rb; repeat split; intros; lra.
Qed.
(** The new outlet is open at the next assembly of the channel. *)
Lemma breach_open (P : phys xr) (T : list (tsect xr)) b t w z m s mo x y0 y3 y4 z0 z3 :
  pMinOutletWidth P = Fin m -> pSpitWidth P = Fin s -> pMaxOutletElev P = Fin mo -> 0 < m -> inOrder T ->
  nth_error T b = Some t ->
  tX t = Fin x -> tY0 t = Fin y0 -> tY3 t = Fin y3 -> tY4 t = Fin y4 -> tZ0 t = Fin z0 -> tZ3 t = Fin z3 ->
  let W := breachWidth P (Fin w) in
  outletPart P (upd T b (breachT P W (breachElev P (Fin z)) t)) (Fin x) (Fin x) W false = Ok ([b], [W], false).
Proof.
  intros Hm Hs Hmo Pm [FX OX] Ht Hx H0 H3 H4 Hz0 Hz3 W.
  destruct (breach_spec P w z m s mo t x y0 y3 y4 z0 z3 Hm Hs Hmo Hx H0 H3 H4 Hz0 Hz3) as (HW & HZ & HB).
  unfold W. rewrite HW, HZ. set (w' := Rmax w (2 * m)). set (z' := Rmin z mo).
  destruct (HB w' z') as (y1 & y3' & y4' & EB & _). clear HB.
  set (T' := upd T b _).
  assert (Lb : (b < length T)%nat) by (apply nth_error_Some; congruence).
  assert (Hb : nth_error T' b = Some (breachT P (Fin w') (Fin z') t)) by (unfold T'; apply nth_error_upd_eq; auto).
  assert (HI : where_ (fun t => (Fin x <=? tX t) && (tX t <=? Fin x))%n T' = [b]).
  { assert (S : forall i, In i (where_ (fun t => (Fin x <=? tX t) && (tX t <=? Fin x))%n T') <-> i = b).
    { intros i. rewrite where_spec. split.
      - intros (u & Hu & E). destruct (Nat.eq_dec i b) as [|N]; [auto|exfalso].
        unfold T' in Hu. rewrite nth_error_upd_ne in Hu by auto. destruct (FX _ _ Hu) as (v & Hv). rewrite Hv, !xle in E.
        apply andb_true_iff in E as [E1 E2]. rb.
        destruct (Nat.lt_trichotomy i b) as [Q|[Q|Q]]; [pose proof (OX _ _ _ _ Hu Ht Q) as K|lia|pose proof (OX _ _ _ _ Ht Hu Q) as K];
          rewrite Hv, Hx in K; cbn in K; lra.
      - intros ->. eexists. split; [exact Hb|]. rewrite EB. unfold withChannel. fl. rewrite xle.
        replace (Rleb x x) with true by (symmetry; apply Rleb_true; lra). reflexivity. }
    pose proof (where_lists (fun t => (Fin x <=? tX t) && (tX t <=? Fin x))%n T') as [_ O].
    destruct (where_ _ T') as [|a l] eqn:E.
    - exfalso. apply (proj2 (S b) eq_refl).
    - assert (a = b) as -> by (apply S; left; auto). destruct l as [|c l]; [auto|exfalso].
      assert (c = b) by (apply S; right; left; auto). pose proof (O 0%nat 1%nat b c eq_refl eq_refl ltac:(lia)). cbn in H1. lia. }
  assert (M : m < w').
  { unfold w'. apply Rlt_le_trans with (2 * m); [lra|apply Rmax_r]. }
  unfold outletPart, outletIx, ixRL. rewrite xlt. replace (Rltb x x) with false by (symmetry; apply Rltb_false; lra).
  rewrite HI. cbn [rev app gather]. unfold ix. rewrite Hb. cbn [of_opt bind map existsb].
  assert (OW : outletWidth (breachT P (Fin w') (Fin z') t) = Fin w').
  { rewrite EB. unfold outletWidth, withChannel. fl. rewrite PRate.xsub. change (fisnan (Fin (y1 - (y1 - w')))) with false. cbv iota zeta. f_equal. lra. }
  rewrite OW, Hm, xle. replace (Rleb w' m) with false by (symmetry; apply Rleb_false; lra). reflexivity.
Qed.

(** ** Positions and lengths *)
Definition sameX {F} (T T' : list (tsect F)) : Prop := map tX T' = map tX T.
Lemma sameX_nth {F} (T T' : list (tsect F)) : length T' = length T ->
  (forall i t t', nth_error T i = Some t -> nth_error T' i = Some t' -> tX t' = tX t) -> sameX T T'.
Proof.
  revert T'; induction T as [|t T IH]; intros [|t' T'] L H; cbn in L; try discriminate; [reflexivity|].
  unfold sameX. cbn [map]. rewrite (H 0%nat t t' eq_refl eq_refl). f_equal. apply IH; [lia|]. intros i a b Ha Hb. exact (H (S i) a b Ha Hb).
Qed.
Lemma sameX_len {F} (T T' : list (tsect F)) : sameX T T' -> length T' = length T.
Proof. intros H. rewrite <- (map_length tX T'), H. apply map_length. Qed.
Lemma sameX_refl {F} (T : list (tsect F)) : sameX T T. Proof. reflexivity. Qed.
Lemma sameX_trans {F} (A B C : list (tsect F)) : sameX A B -> sameX B C -> sameX A C.
Proof. unfold sameX. congruence. Qed.
Lemma sameX_map {F} (f : tsect F -> tsect F) T : (forall t, tX (f t) = tX t) -> sameX T (map f T).
Proof. intros H. unfold sameX. rewrite map_map. apply map_ext. auto. Qed.
Lemma sameX_mapi {F} (f : nat -> tsect F -> tsect F) T : (forall i t, tX (f i t) = tX t) -> sameX T (mapi f T).
Proof.
  intros H. apply sameX_nth; [apply mapi_length|]. intros i t t' Ht Ht'. rewrite nth_error_mapi, Ht in Ht'. cbn in Ht'. apply Some_inj in Ht'. subst. auto.
Qed.
Lemma sameX_map2 {F A} (f : A -> tsect F -> tsect F) l T : length l = length T -> (forall a t, tX (f a t) = tX t) -> sameX T (map2 f l T).
Proof.
  intros L H. apply sameX_nth; [rewrite map2_length; lia|]. intros i t t' Ht Ht'. rewrite nth_error_map2, Ht in Ht'.
  destruct (nth_error l i); [|discriminate]. apply Some_inj in Ht'. subst. auto.
Qed.
Lemma sameX_upd {F} T i (t u : tsect F) : nth_error T i = Some t -> tX u = tX t -> sameX T (upd T i u).
Proof.
  intros Ht Hu. apply sameX_nth; [apply upd_length|]. intros j a b Ha Hb. destruct (Nat.eq_dec i j) as [->|N].
  - rewrite nth_error_upd_eq in Hb by (apply nth_error_Some; congruence). congruence.
  - rewrite nth_error_upd_ne in Hb by auto. congruence.
Qed.
Lemma sameX_upd_with {F} T i (f : tsect F -> tsect F) : (forall t, tX (f t) = tX t) -> sameX T (upd_with T i f).
Proof. intros H. unfold upd_with. destruct (nth_error T i) eqn:E; [|reflexivity]. eapply sameX_upd; eauto. Qed.

Section Update.
  Context {F : Type} {NF : Num F}.
  Lemma rates_len (P : phys F) Dx T e0 e1 W Zend online outlet CW CD fl closed LST q CST OW RR :
    ratesFor P Dx T e0 e1 W Zend online outlet CW CD fl closed LST q CST OW = Ok RR -> length (rT RR) = length T.
  Proof.
    unfold ratesFor. intros H. bok H rbq. unfold changeRates in H. cbv zeta in H. destruct (negb _) in H; [discriminate|].
    bok H a. bok H b. bok H sp. apply bind_ok in H as ([[wd ag] mv] & _ & H). apply Ok_inj in H. subst RR. cbn [rT]. apply mapi_length.
  Qed.
  Lemma limit_len (N : nump F) TP rate dt R R' : limitRates N TP rate dt R = Ok R' -> length (rT R') = length (rT R) /\ length (rRiv R') = length (rRiv R).
  Proof.
    unfold limitRates. destruct (_ <? _)%n; [|intros H; apply Ok_inj in H; subst; auto]. intros H. bok H u.
    destruct (_ =? _)%Z; [discriminate|]. apply Ok_inj in H. subst. cbn [rT rRiv clipRates]. rewrite !map_length. auto.
  Qed.
  Lemma apply_sameX fuel (P : phys F) N TP T e0 e1 W Zend RiverElev online outlet LagoonWL OutletDep CW CD fl closed LST q CST OW dt0 a :
    morApply fuel P N TP T e0 e1 W Zend RiverElev online outlet LagoonWL OutletDep CW CD fl closed LST q CST OW dt0 = Ok a ->
    sameX T (aT a) /\ length (aRiver a) = length RiverElev /\ x0Ix T = Ok (aX0 a) /\ (forall i, nth_error T i <> None ->
      exists t t', nth_error T i = Some t /\ nth_error (aT a) i = Some t' /\ exists r, tY1 t' = (tY1 t + r)%n).
  Proof.
    intros H. destruct (apply_inv _ _ _ _ _ _ _ _ _ _ _ _ _ _ _ _ _ _ _ _ _ _ _ _ H) as (rbq & RR & rate & R' & _ & HR & _ & _ & HL & HV & HT & _).
    pose proof (rates_len _ _ _ _ _ _ _ _ _ _ _ _ _ _ _ _ _ _ HR) as L1. pose proof (limit_len _ _ _ _ _ _ HL) as [L2 _].
    assert (K : sameX T match rbq with Some (rb, v) => if (f0 <? v)%n then T else upd_with T (prevIx (length T) rb) (fun t => setY0 (tY0 t + v / (shorefaceHeight P t * nDx N))%n t) | None => T end).
    { destruct rbq as [[rb v]|]; [|reflexivity]. destruct (f0 <? v)%n; [reflexivity|]. apply sameX_upd_with. reflexivity. }
    assert (KY : forall i t, nth_error T i = Some t -> exists u, nth_error match rbq with Some (rb, v) => if (f0 <? v)%n then T else upd_with T (prevIx (length T) rb) (fun t => setY0 (tY0 t + v / (shorefaceHeight P t * nDx N))%n t) | None => T end i = Some u /\ tY1 u = tY1 t).
    { intros i t Ht. destruct rbq as [[rb v]|]; [|eauto]. destruct (f0 <? v)%n; [eauto|].
      destruct (Nat.eq_dec (prevIx (length T) rb) i) as [E|E].
      - subst i. rewrite nth_error_upd_with_eq, Ht. cbn. eexists. split; reflexivity.
      - rewrite nth_error_upd_with_ne by auto. eauto. }
    revert K KY HT. set (T1 := match rbq with Some _ => _ | None => _ end). intros K KY HT.
    pose proof (sameX_len _ _ K) as LK.
    split; [|split; [|split]].
    - rewrite HT. apply (sameX_trans _ T1); [exact K|].
      apply sameX_nth; [rewrite map2_length; lia|]. intros i t t' Ht Ht'. rewrite nth_error_map2, Ht in Ht'.
      destruct (nth_error (rT R') i); [|discriminate]. apply Some_inj in Ht'. subst. reflexivity.
    - unfold applyRiver in HV. destruct RiverElev as [|z zs].
      + destruct (Nat.eqb _ 0); [|discriminate]. apply Ok_inj in HV. rewrite <- HV. reflexivity.
      + destruct (Nat.eqb _ _) eqn:E; [|discriminate]. apply Nat.eqb_eq in E. apply Ok_inj in HV. rewrite <- HV. cbn [length]. rewrite map2_length. lia.
    - unfold morApply in H. bok H x0. bok H rb. bok H WL. bok H u. bok H R0. bok H r0. bok H d0. bok H R1. bok H riv.
      destruct closed; apply Ok_inj in H; subst a; exact Ex0.
    - intros i Hi. destruct (nth_error T i) as [t|] eqn:Ht; [|congruence]. destruct (KY i t Ht) as (u & Hu & Eu).
      assert (Li : (i < length (rT R'))%nat) by (rewrite L2, L1; apply nth_error_Some; congruence).
      destruct (nth_error (rT R') i) as [r|] eqn:Er; [|apply nth_error_None in Er; lia].
      exists t, (applyRow (fofZ (seconds (aDt a))) u r). split; [auto|]. split; [rewrite HT, nth_error_map2, Hu, Er; reflexivity|].
      eexists. unfold applyRow. fl. rewrite Eu. reflexivity.
  Qed.
  Lemma neg_sameX pres (T0 T T' : list (tsect F)) pres' : negWidthStep pres T0 T = Ok (T', pres') -> length pres = length T0 -> length T0 = length T ->
    sameX T T' /\ length pres' = length T.
  Proof.
    intros H L1 L2. destruct (neg_step _ _ _ _ _ H L1 L2) as [L HN]. split.
    - apply sameX_nth; [auto|]. intros i t t' Ht Ht'.
      assert (Li : (i < length T)%nat) by (apply nth_error_Some; congruence).
      destruct (nth_error pres i) as [p|] eqn:Ep; [|apply nth_error_None in Ep; lia].
      destruct (nth_error T0 i) as [t0|] eqn:Et; [|apply nth_error_None in Et; lia].
      destruct (HN _ _ _ _ Ep Et Ht) as (u & lev & Hu & HW). rewrite Ht' in Hu. apply Some_inj in Hu. subst u.
      unfold negWidth in HW. destruct (p && _) in HW; [|apply Ok_inj in HW; congruence]. cbv zeta in HW. bok HW v. bok HW w.
      repeat match type of HW with (if ?c then _ else _) = _ => destruct c end; apply Ok_inj in HW; pose proof (f_equal (fun q => tX (fst q)) HW) as HX; exact (eq_sym HX).
    - unfold negWidthStep in H. bok H r. apply Ok_inj in H. pose proof (f_equal snd H) as H2. pose proof (f_equal fst H) as H1. cbn [fst snd] in H1, H2.
      subst pres'. destruct (existsb snd r); [|lia]. rewrite map_length, H1. lia.
  Qed.
  Lemma map2_length_eq {A B C} (f : A -> B -> C) l m : length l = length m -> length (map2 f l m) = length l.
  Proof. intros H. rewrite map2_length. lia. Qed.
  Lemma correct_sameX (P : phys F) Dx T0 T e0 e1 W Zend outlet closed T' pres' e0' e1' outlet' :
    morCorrect P Dx T0 T e0 e1 W Zend outlet closed = Ok (T', pres', e0', e1', outlet') -> length T0 = length T ->
    sameX T T' /\ length pres' = length T'.
  Proof.
    intros H L. unfold morCorrect in H. bok H d. apply bind_ok in H as ([TA pA] & EA & H). apply bind_ok in H as ([TB oB] & EB & H).
    apply bind_ok in H as (TC & EC & H). apply bind_ok in H as ([[[TD pD] eD] oD] & ED & H). apply bind_ok in H as ([eE oE] & EE & H).
    apply bind_ok in H as (TF & EF & H). injection H as <- <- <- <- <-.
    assert (S1 : sameX T (map2 (fun t0 t => cliffCollision P (shorefaceHeight P t0) t) T0 T)).
    { apply sameX_map2; [auto|]. intros a t. unfold cliffCollision. destruct (_ <=? _)%n; reflexivity. }
    apply neg_sameX in EA as [S2 LA]; [|apply map_length|symmetry; rewrite (sameX_len _ _ S1); auto].
    assert (S3 : sameX TA TB).
    { destruct closed; [injection EB as <- _; reflexivity|]. unfold extendStep in EB. bok EB il. bok EB tl_.
      assert (KK : forall m, (if existsb m TA then Ok (map (fun t => if m t then extendT P W Zend t else t) TA, outletIx (map (fun t => if m t then extendT P W Zend t else t) TA) e0 d) else Exc EIndex) = Ok (TB, oB) -> sameX TA TB).
      { intros m K. destruct (existsb m TA); [|discriminate]. injection K as <- _. apply sameX_map. intros t. destruct (m t); reflexivity. }
      destruct (e0 <? d)%n; bok EB nx; (destruct (_ <=? _)%n; [eapply KK; exact EB|injection EB as <- _; reflexivity]). }
    assert (S4 : sameX TB TC).
    { destruct closed; [apply Ok_inj in EC; subst; reflexivity|]. apply seaward_step in EC as (i & t & Hi & Ht & Ht' & LL & HO).
      apply sameX_nth; [auto|]. intros j a b Ha Hb. destruct (Nat.eq_dec j i) as [->|N].
      - rewrite Ht in Ha. rewrite Ht' in Hb. apply Some_inj in Ha, Hb. subst. unfold seawardFirst. destruct (_ <=? _)%n; reflexivity.
      - rewrite (HO j N) in Hb. congruence. }
    assert (S5 : sameX TC TD /\ length pD = length pA).
    { unfold lagoonTrunc in ED. destruct (Nat.ltb 1 _); [|injection ED as <- <- _ _; split; reflexivity]. bok ED ts.
      destruct (filter2 _ _) as [|k r]; [injection ED as <- <- _ _; split; reflexivity|]. bok ED nx. bok ED u. bok ED tk.
      destruct (_ <=? _)%n; [|injection ED as <- <- _ _; split; reflexivity]. bok ED ext. injection ED as <- <- _ _.
      split; [apply sameX_mapi; intros i t; destruct (memb i ext); reflexivity|apply mapi_length]. }
    destruct S5 as [S5 LP].
    assert (S6 : sameX TD TF).
    { destruct closed; [apply Ok_inj in EF; subst; reflexivity|]. unfold lagoonLastStep in EF. bok EF i. bok EF t. apply Ok_inj in EF. subst TF.
      apply ix_ok in Et. eapply sameX_upd; [exact Et|]. unfold lagoonLast. destruct (_ <=? _)%n; [|reflexivity]. cbv zeta. destruct (_ <? _)%n; reflexivity. }
    assert (SS : sameX T TF) by (repeat (eapply sameX_trans; [eassumption|]); apply sameX_refl).
    split; [exact SS|]. rewrite LP, LA, (sameX_len _ _ SS), (sameX_len _ _ S1). reflexivity.
  Qed.

  (** What the stages after the corrections leave behind. *)
  Record stages (P : phys F) (junk1 junk2 : nat -> bool) (T0 T : list (tsect F)) (pres : list bool) (x0 : nat) (e0 e1 W Zend : F)
    (outlet : list nat) (Closed : bool) (WL : list F) (T' : list (tsect F)) (e0' e1' W' Zend' : F) (br : bool) : Type := mkStages {
    gCC : option (Z * Z); gWL : list F; gE0 : F; gT1 : list (tsect F); gP1 : list bool; gB1 : option nat;
    gT2 : list (tsect F); gB2 : option nat; gT3 : list (tsect F); gB3 : option nat; gT4 : list (tsect F);
    s1 : connect P (dissolveStep junk1 T) pres (map (lagoonOpen P) T0) x0 e0 Closed outlet WL = Ok (gCC, gWL, gE0);
    s2 : shoreFill P junk2 (dissolveStep junk1 T) pres gE0 Closed gCC = Ok (gT1, gP1, gB1);
    s3 : erosionBreach P T0 gT1 (map (lagoonOpen P) T0) x0 gE0 Closed gB1 = Ok (gT2, gB2);
    s4 : raiseCrests gP1 gT2 = Ok gT3;
    s5 : spillBreach P gT3 x0 Closed gCC gWL gB2 = Ok gB3;
    s6 : createBreach P gT3 gE0 e1 W Zend gCC gB3 = Ok (gT4, e0', e1', W', Zend');
    s7 : T' = upd_with gT4 x0 (keepLagoon P);
    s8 : forallb rowOk T' = true;
    s9 : br = match gB3 with Some _ => true | None => false end }.
  Lemma breach_inv P j1 j2 T0 T pres x0 e0 e1 W Zend outlet Closed WL T' e0' e1' W' Zend' br :
    morBreach P j1 j2 T0 T pres x0 e0 e1 W Zend outlet Closed WL = Ok (T', e0', e1', W', Zend', br) ->
    inhabited (stages P j1 j2 T0 T pres x0 e0 e1 W Zend outlet Closed WL T' e0' e1' W' Zend' br).
  Proof.
    unfold morBreach. intros H. cbv zeta in H.
    apply bind_ok in H as ([[cc WL1] eA] & E1 & H). apply bind_ok in H as ([[T1 P1] b1] & E2 & H). apply bind_ok in H as ([T2 b2] & E3 & H).
    apply bind_ok in H as (T3 & E4 & H). apply bind_ok in H as (b3 & E5 & H). apply bind_ok in H as ([[[[T4 eB] eC] WB] ZB] & E6 & H).
    apply bind_ok in H as (u & Eu & H). apply assert_ok in Eu. injection H as <- <- <- <- <- <-. constructor.
    eapply mkStages; eauto.
  Qed.
  Arguments gCC {_ _ _ _ _ _ _ _ _ _ _ _ _ _ _ _ _ _ _ _}. Arguments gWL {_ _ _ _ _ _ _ _ _ _ _ _ _ _ _ _ _ _ _ _}.
  Arguments gE0 {_ _ _ _ _ _ _ _ _ _ _ _ _ _ _ _ _ _ _ _}. Arguments gT1 {_ _ _ _ _ _ _ _ _ _ _ _ _ _ _ _ _ _ _ _}.
  Arguments gP1 {_ _ _ _ _ _ _ _ _ _ _ _ _ _ _ _ _ _ _ _}. Arguments gB1 {_ _ _ _ _ _ _ _ _ _ _ _ _ _ _ _ _ _ _ _}.
  Arguments gT2 {_ _ _ _ _ _ _ _ _ _ _ _ _ _ _ _ _ _ _ _}. Arguments gB2 {_ _ _ _ _ _ _ _ _ _ _ _ _ _ _ _ _ _ _ _}.
  Arguments gT3 {_ _ _ _ _ _ _ _ _ _ _ _ _ _ _ _ _ _ _ _}. Arguments gB3 {_ _ _ _ _ _ _ _ _ _ _ _ _ _ _ _ _ _ _ _}.
  Arguments gT4 {_ _ _ _ _ _ _ _ _ _ _ _ _ _ _ _ _ _ _ _}.
  Section Stages.
    Context {P : phys F} {j1 j2 : nat -> bool} {T0 T : list (tsect F)} {pres : list bool} {x0 : nat} {e0 e1 W Zend : F} {outlet : list nat}
      {Closed : bool} {WL : list F} {T' : list (tsect F)} {e0' e1' W' Zend' : F} {br : bool}.
    Variable g : stages P j1 j2 T0 T pres x0 e0 e1 W Zend outlet Closed WL T' e0' e1' W' Zend' br.
    Hypothesis (L0 : length T0 = length T) (LP : length pres = length T).
    Lemma len1 : length (gT1 g) = length T /\ length (gP1 g) = length T.
    Proof.
      pose proof (shore_nth _ _ _ _ _ _ _ _ _ _ (s2 _ _ _ _ _ _ _ _ _ _ _ _ _ _ _ _ _ _ _ _ g)) as [A _].
      pose proof (shore_pres _ _ _ _ _ _ _ _ _ _ (s2 _ _ _ _ _ _ _ _ _ _ _ _ _ _ _ _ _ _ _ _ g)) as B.
      assert (LD : length (dissolveStep j1 T) = length T) by apply mapi_length. destruct B as [B _]; [rewrite LD; auto|]. split; [rewrite A; auto|rewrite B; auto].
    Qed.
    Lemma len2 : length (gT2 g) = length T.
    Proof.
      destruct len1 as [A _]. destruct (erosion_nth _ _ _ _ _ _ _ _ _ _ (s3 _ _ _ _ _ _ _ _ _ _ _ _ _ _ _ _ _ _ _ _ g)) as [B _]; [congruence|]. congruence.
    Qed.
    Lemma len3 : length (gT3 g) = length T.
    Proof.
      pose proof len2 as A. destruct len1 as [_ B]. destruct (raise_nth _ _ _ (s4 _ _ _ _ _ _ _ _ _ _ _ _ _ _ _ _ _ _ _ _ g)) as [C _]; congruence.
    Qed.
    (** The rows of the stages, transect by transect. *)
    Lemma rows i t : nth_error T i = Some t ->
      let d := if lagoonIntersect j1 i t then dissolve t else t in
      let f := if shoreIntersect j2 i d then fillT P d else d in
      exists t0 p f' c q t', nth_error T0 i = Some t0 /\ nth_error pres i = Some p /\
        nth_error (gT1 g) i = Some f /\
        f' = (if eroded f && negb (match gB1 g, gB2 g with None, Some b => Nat.eqb i b | _, _ => false end) then restoreT (shorefaceHeight P t0) f else f) /\
        c = (if negb (shoreIntersect j2 i d) && p then setZ0 (fmaximum (tZ0 f') (tZ2 f')) f' else f') /\ nth_error (gT3 g) i = Some c /\
        nth_error (gT4 g) i = Some q /\
        (q = c \/ (gB3 g = Some i /\ q = breachT P W' Zend' c)) /\
        t' = (if Nat.eqb i x0 then keepLagoon P q else q) /\ nth_error T' i = Some t'.
    Proof.
      intros Ht d f.
      assert (Li : (i < length T)%nat) by (apply nth_error_Some; congruence).
      destruct (nth_error T0 i) as [t0|] eqn:Et0; [|apply nth_error_None in Et0; lia].
      destruct (nth_error pres i) as [p|] eqn:Ep; [|apply nth_error_None in Ep; lia].
      destruct len1 as [A1 A2]. pose proof len2 as A3. pose proof len3 as A4.
      assert (Hd : nth_error (dissolveStep j1 T) i = Some d) by (rewrite dissolve_nth, Ht; reflexivity).
      pose proof (shore_nth _ _ _ _ _ _ _ _ _ _ (s2 _ _ _ _ _ _ _ _ _ _ _ _ _ _ _ _ _ _ _ _ g)) as [_ N1].
      pose proof (shore_pres _ _ _ _ _ _ _ _ _ _ (s2 _ _ _ _ _ _ _ _ _ _ _ _ _ _ _ _ _ _ _ _ g)) as B.
      assert (LD : length (dissolveStep j1 T) = length T) by apply mapi_length. destruct B as [_ N2]; [rewrite LD; auto|].
      specialize (N1 i d Hd). specialize (N2 i d p Hd Ep).
      destruct (erosion_nth _ _ _ _ _ _ _ _ _ _ (s3 _ _ _ _ _ _ _ _ _ _ _ _ _ _ _ _ _ _ _ _ g)) as [_ N3]; [congruence|].
      specialize (N3 i t0 f Et0 N1). set (f' := if eroded f && _ then _ else f) in N3.
      destruct (raise_nth _ _ _ (s4 _ _ _ _ _ _ _ _ _ _ _ _ _ _ _ _ _ _ _ _ g)) as [_ N4]; [congruence|].
      specialize (N4 i _ f' N2 N3). destruct N4 as [N4 _]. set (c := if negb (shoreIntersect j2 i d) && p then _ else _) in N4.
      assert (N5 : exists q, nth_error (gT4 g) i = Some q /\ (q = c \/ (gB3 g = Some i /\ q = breachT P W' Zend' c))).
      { pose proof (s6 _ _ _ _ _ _ _ _ _ _ _ _ _ _ _ _ _ _ _ _ g) as C. destruct (gB3 g) as [b|] eqn:EB.
        - apply create_inv in C as (u & Hu & [(_ & E & _)|(_ & E & _)]); rewrite E; [eauto|].
          destruct (Nat.eq_dec b i) as [->|N].
          + rewrite N4 in Hu. apply Some_inj in Hu. subst u. eexists. rewrite nth_error_upd_eq by (rewrite A4; auto). split; [reflexivity|]. right. auto.
          + rewrite nth_error_upd_ne by auto. eauto.
        - apply create_none in C as (E & _). rewrite E. eauto. }
      destruct N5 as (q & N5 & Hq).
      exists t0, p, f', c, q, (if Nat.eqb i x0 then keepLagoon P q else q). do 3 (split; [auto|]). split; [reflexivity|]. split; [reflexivity|].
      split; [exact N4|]. split; [exact N5|]. split; [exact Hq|]. split; [reflexivity|].
      rewrite (s7 _ _ _ _ _ _ _ _ _ _ _ _ _ _ _ _ _ _ _ _ g). destruct (Nat.eqb i x0) eqn:E.
      - apply Nat.eqb_eq in E. subst. rewrite nth_error_upd_with_eq, N5. reflexivity.
      - apply Nat.eqb_neq in E. rewrite nth_error_upd_with_ne by auto. exact N5.
    Qed.
    Lemma len5 : length T' = length T.
    Proof.
      rewrite (s7 _ _ _ _ _ _ _ _ _ _ _ _ _ _ _ _ _ _ _ _ g), upd_with_length.
      pose proof (s6 _ _ _ _ _ _ _ _ _ _ _ _ _ _ _ _ _ _ _ _ g) as C. pose proof len3 as A. destruct (gB3 g) as [b|].
      - apply create_inv in C as (u & Hu & [(_ & E & _)|(_ & E & _)]); rewrite E; [auto|]. rewrite upd_length. auto.
      - apply create_none in C as (E & _). rewrite E. auto.
    Qed.
    Lemma breach_sameX : sameX T T'.
    Proof.
      apply sameX_nth; [apply len5|]. intros i t t' Ht Ht'. destruct (rows i t Ht) as (t0 & p & f' & c & q & u & _ & _ & Hf & Ef & Ec & _ & _ & Hq & Eu & Hu).
      rewrite Ht' in Hu. apply Some_inj in Hu.
      assert (X1 : tX t' = tX q) by (rewrite Hu, Eu; destruct (Nat.eqb i x0); [|reflexivity]; unfold keepLagoon; destruct (_ <? _)%n; reflexivity).
      assert (X2 : tX q = tX c) by (destruct Hq as [->|[_ ->]]; reflexivity).
      assert (X3 : tX c = tX f') by (rewrite Ec; match goal with |- tX (if ?v then _ else _) = _ => destruct v end; reflexivity).
      rewrite X1, X2, X3, Ef. clear.
      set (d := if lagoonIntersect j1 i t then dissolve t else t). set (f := if shoreIntersect j2 i d then fillT P d else d).
      assert (A : tX d = tX t) by (unfold d; destruct (lagoonIntersect _ _ _); reflexivity).
      assert (B : tX f = tX d) by (unfold f; destruct (shoreIntersect _ _ _); reflexivity).
      rewrite <- A, <- B. match goal with |- tX (if ?v then _ else _) = _ => destruct v end; reflexivity.
    Qed.
  End Stages.
  Lemma forallb_nth {A} (p : A -> bool) l i x : forallb p l = true -> nth_error l i = Some x -> p x = true.
  Proof. intros H Hi. rewrite forallb_forall in H. apply H. eapply nth_error_In; eauto. Qed.

  Section Whole.
    Variables (fuel : nat) (junk1 junk2 : nat -> bool) (P : phys F) (N : nump F) (TP : timep)
             (T : list (tsect F)) (e0 e1 W Zend : F) (RiverElev : list F) (online outlet : list nat)
             (LagoonWL OutletDep ChanWidth ChanDep : list F) (ChanFlag : list nat) (Closed : bool)
             (LST Bedload CST : list F) (OW : list bool) (MorDt : Z) (m : morOut F).
    Hypothesis H : updateMorphology fuel junk1 junk2 P N TP T e0 e1 W Zend RiverElev online outlet LagoonWL OutletDep
                       ChanWidth ChanDep ChanFlag Closed LST Bedload CST OW MorDt = Ok m.
    Lemma update_inv : exists a T1 pres e0A e1A o1,
      morApply fuel P N TP T e0 e1 W Zend RiverElev online outlet LagoonWL OutletDep
                       ChanWidth ChanDep ChanFlag Closed LST Bedload CST OW MorDt = Ok a /\
      morCorrect P (nDx N) T (aT a) e0 (aE1 a) (aW a) (aZ a) outlet Closed = Ok (T1, pres, e0A, e1A, o1) /\
      morBreach P junk1 junk2 T T1 pres (aX0 a) e0A e1A (aW a) (aZ a) o1 Closed (aWL a) = Ok (oT m, oE0 m, oE1 m, oW m, oZ m, oBreach m) /\
      oRiver m = aRiver a /\ oDt m = aDt a /\ length T1 = length T /\ length pres = length T1 /\ sameX T T1 /\ x0Ix T = Ok (aX0 a).
    Proof.
      pose proof H as G. unfold updateMorphology in G. bok G a. apply bind_ok in G as ([[[[T1 pres] eA] eB] o1] & EC & G).
      apply bind_ok in G as ([[[[[T2 eC] eD] W2] Z2] br] & EB & G). apply Ok_inj in G. subst m. cbn [oT oE0 oE1 oW oZ oBreach oRiver oDt].
      pose proof (apply_sameX _ _ _ _ _ _ _ _ _ _ _ _ _ _ _ _ _ _ _ _ _ _ _ _ Ea) as (SA & _ & SX & _).
      destruct (correct_sameX _ _ _ _ _ _ _ _ _ _ _ _ _ _ _ EC) as [SC LC]; [symmetry; apply sameX_len; auto|].
      exists a, T1, pres, eA, eB, o1. repeat split; auto.
      - rewrite (sameX_len _ _ SC), (sameX_len _ _ SA). reflexivity.
      - eapply sameX_trans; eauto.
    Qed.
    Lemma update_shape : map tX (oT m) = map tX T /\ length (oT m) = length T /\ length (oRiver m) = length RiverElev /\
      forall i t, nth_error (oT m) i = Some t -> fisnan (tY0 t) = false /\ fisnan (tY3 t) = false /\ fisnan (tY4 t) = false.
    Proof.
      destruct update_inv as (a & T1 & pres & eA & eB & o1 & EA & EC & EB & HR & _ & L1 & LP & SX & _).
      destruct (breach_inv _ _ _ _ _ _ _ _ _ _ _ _ _ _ _ _ _ _ _ _ EB) as [g].
      pose proof (breach_sameX g) as SB. specialize (SB (eq_sym L1) LP).
      assert (SS : sameX T (oT m)) by (eapply sameX_trans; eauto).
      split; [exact SS|]. split; [apply sameX_len; auto|]. split.
      - rewrite HR. apply (apply_sameX _ _ _ _ _ _ _ _ _ _ _ _ _ _ _ _ _ _ _ _ _ _ _ _ EA).
      - intros i t Ht. pose proof (forallb_nth _ _ _ _ (s8 _ _ _ _ _ _ _ _ _ _ _ _ _ _ _ _ _ _ _ _ g) Ht) as R. unfold rowOk in R.
        apply andb_true_iff in R as [R R3]. apply andb_true_iff in R as [R1 R2]. rewrite negb_true_iff in *. auto.
    Qed.
    Lemma update_row0 : exists x0 q, x0Ix T = Ok x0 /\ nth_error (oT m) x0 = Some (keepLagoon P q).
    Proof.
      destruct update_inv as (a & T1 & pres & eA & eB & o1 & EA & EC & EB & HR & _ & L1 & LP & SX & X0).
      destruct (breach_inv _ _ _ _ _ _ _ _ _ _ _ _ _ _ _ _ _ _ _ _ EB) as [g].
      assert (Hx : exists t, nth_error T1 (aX0 a) = Some t).
      { assert (aX0 a < length T)%nat.
        { unfold x0Ix in X0. destruct (first_where _ T) eqn:E; [|discriminate]. cbn in X0. apply Ok_inj in X0. subst n.
          apply first_where_Some in E as [(t & Ht & _) _]. apply nth_error_Some. congruence. }
        destruct (nth_error T1 (aX0 a)) as [t|] eqn:Q; [eauto|]. apply nth_error_None in Q. lia. }
      destruct Hx as (t & Ht).
      destruct (rows g (eq_sym L1) LP _ t Ht) as (t0 & p & f' & c & q & u & _ & _ & _ & _ & _ & _ & _ & _ & Eu & Hu).
      rewrite Nat.eqb_refl in Eu. subst u. exists (aX0 a), q. auto.
    Qed.
  End Whole.
End Update.
