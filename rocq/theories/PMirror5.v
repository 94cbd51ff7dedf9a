(** Left and right exchanged: corrections without breach, and a pass with a closed outlet. *)
From Coq Require Import ZArith List Bool Reals Lra Lia.
From Verif Require Import Base Num Xr MState MCoast MRiv MMor MOut MCore STouch SShift SMirror PShift PCore PLag PUpdate PThrough PMirror PMirror2 PMirror3 PMirror4.
Import ListNotations.

Section Closed.
  Local Open Scope num_scope.
  Notation below n := (Forall (fun i => (i < n)%nat)).
  Notation mir := (@acrossT xr xr_num).
  Lemma slice_rev {A} (l : list A) a b : (a <= b)%nat -> (b <= length l)%nat -> slice (rev l) a b = rev (slice l (length l - b) (length l - a)).
  Proof.
    intros H1 H2. unfold slice. rewrite skipn_rev, firstn_rev, firstn_length. f_equal. rewrite Nat.min_l by lia.
    replace (length l - a - (b - a))%nat with (length l - b)%nat by lia. rewrite skipn_firstn_comm. reflexivity.
  Qed.
  Lemma reachable_across lo x0 i : (x0 < length lo)%nat -> (i < length lo)%nat -> reachable (rev lo) (fromEnd (length lo) x0) (fromEnd (length lo) i) = reachable lo x0 i.
  Proof.
    intros H1 H2. unfold reachable, fromEnd. set (n := length lo) in *.
    destruct (Nat.ltb_spec x0 i), (Nat.ltb_spec i x0); try lia.
    - destruct (Nat.ltb_spec (n - 1 - x0) (n - 1 - i)); [lia|]. destruct (Nat.ltb_spec (n - 1 - i) (n - 1 - x0)); [|lia].
      rewrite slice_rev by (fold n; lia). fold n. rewrite forallb_rev. f_equal. f_equal; lia.
    - destruct (Nat.ltb_spec (n - 1 - x0) (n - 1 - i)); [|lia]. rewrite slice_rev by (fold n; lia). fold n. rewrite forallb_rev. f_equal. f_equal; lia.
    - destruct (Nat.ltb_spec (n - 1 - x0) (n - 1 - i)); [lia|]. destruct (Nat.ltb_spec (n - 1 - i) (n - 1 - x0)); [lia|]. reflexivity.
  Qed.
  Lemma map2_across {A} (f : tsect xr -> tsect xr -> A) (g : tsect xr -> tsect xr -> A) (T0 T : list (tsect xr)) : length T0 = length T -> (forall a b, g (mir a) (mir b) = f a b) ->
    map2 g (across T0) (across T) = rev (map2 f T0 T).
  Proof.
    intros L H. unfold across. rewrite map2_rev by (rewrite !map_length; exact L). f_equal. clear L. revert T. induction T0 as [|a T0 IH]; intros [|b T]; try reflexivity. cbn [map map2]. rewrite H, IH. reflexivity.
  Qed.
  Lemma map2_mir {A B} (h : tsect xr -> tsect xr) (f : A -> B -> tsect xr) : forall l m, map h (map2 f l m) = map2 (fun a b => h (f a b)) l m.
  Proof. induction l as [|a l IH]; intros [|b m]; try reflexivity. cbn [map2 map]. rewrite IH. reflexivity. Qed.
  Lemma map2_across_T (f : tsect xr -> tsect xr -> tsect xr) (T0 T : list (tsect xr)) : length T0 = length T -> (forall a b, f (mir a) (mir b) = mir (f a b)) ->
    map2 f (across T0) (across T) = across (map2 f T0 T).
  Proof. intros L H. rewrite (map2_across (fun a b => mir (f a b)) f) by assumption. unfold across. rewrite map2_mir. reflexivity. Qed.
  Lemma none_across (T : list (tsect xr)) : none T -> none (across T).
  Proof. intros H t Ht. unfold across in Ht. apply in_rev in Ht. apply in_map_iff in Ht as (u & <- & Hu). exact (H u Hu). Qed.
  Lemma upd_across (T : list (tsect xr)) x0 f : (x0 < length T)%nat -> (forall t, f (mir t) = mir (f t)) ->
    upd_with (across T) (fromEnd (length T) x0) f = across (upd_with T x0 f).
  Proof.
    intros Hx Hf. apply nth_ext_len; [rewrite upd_with_length, !across_length, upd_with_length; reflexivity|]. rewrite upd_with_length, across_length. intros i Hi.
    assert (Q : forall U : list (tsect xr), length U = length T -> nth_error (across U) i = option_map mir (nth_error U (fromEnd (length T) i))).
    { intros U LU. unfold across. rewrite <- nth_error_map. rewrite <- (nth_fromEnd (map mir U) (fromEnd (length T) i)) by (rewrite map_length, LU; apply fromEnd_lt; exact Hi).
      rewrite map_length, LU, fromEnd_twice by exact Hi. reflexivity. }
    rewrite (Q (upd_with T x0 f)) by apply upd_with_length.
    destruct (Nat.eq_dec i (fromEnd (length T) x0)) as [->|Ne].
    - rewrite nth_error_upd_with_eq, (Q T) by reflexivity. rewrite fromEnd_twice by exact Hx. rewrite nth_error_upd_with_eq. destruct (nth_error T x0); cbn [option_map]; [rewrite Hf; reflexivity|reflexivity].
    - rewrite nth_error_upd_with_ne by congruence. rewrite (Q T) by reflexivity. rewrite nth_error_upd_with_ne; [reflexivity|]. intros E. apply Ne. rewrite E, fromEnd_twice by exact Hi. reflexivity.
  Qed.
  Lemma forall_across (p : tsect xr -> bool) T : (forall t, p (mir t) = p t) -> forallb p (across T) = forallb p T.
  Proof. intros H. unfold across. rewrite forallb_rev. apply (forallb_map mir). exact H. Qed.
  Lemma exists_rev {A} (p : A -> bool) l : existsb p (rev l) = existsb p l.
  Proof. apply eq_true_iff_eq. rewrite !existsb_exists. split; intros (x & Hx & Hy); exists x; (split; [|exact Hy]); [apply in_rev|apply -> in_rev]; exact Hx. Qed.

  (** The pieces of [morBreach] when nothing breaches. *)
  Definition restored (P : phys xr) (T0 T : list (tsect xr)) := map2 (fun t0 t => if eroded t then restoreT (shorefaceHeight P t0) t else t) T0 T.
  Lemma restored_eq P (T0 T : list (tsect xr)) : length T0 = length T ->
    mapi (fun i p => if memb i (where_ eroded T) then restoreT (shorefaceHeight P (fst p)) (snd p) else snd p) (combine T0 T) = restored P T0 T.
  Proof.
    intros L. apply nth_error_ext. intros i. unfold restored. rewrite nth_error_mapi, nth_error_map2.
    destruct (nth_error T0 i) as [t0|] eqn:E0; destruct (nth_error T i) as [t|] eqn:E1.
    - rewrite (nth_error_combine2 _ _ _ _ _ E0 E1). cbn [option_map fst snd]. f_equal.
      assert (M : memb i (where_ eroded T) = eroded t).
      { apply eq_true_iff_eq. rewrite memb_In, where_spec. split; [intros (x & Hx & He); rewrite E1 in Hx; apply Some_inj in Hx; subst x; exact He|intros He; exists t; auto]. }
      rewrite M. reflexivity.
    - apply nth_error_None in E1. assert (i < length T0)%nat by (apply nth_error_Some; congruence). lia.
    - apply nth_error_None in E0. assert (i < length T)%nat by (apply nth_error_Some; congruence). lia.
    - assert (X : nth_error (combine T0 T) i = None) by (apply nth_error_None in E0; apply nth_error_None; rewrite combine_length; lia). rewrite X. reflexivity.
  Qed.
  Definition noneOf (p : nat -> bool) (l : list nat) : Prop := forall i, In i l -> p i = false.
  Lemma filter_none (p : nat -> bool) l : filter p l = [] <-> noneOf p l.
  Proof.
    split.
    - intros H i Hi. destruct (p i) eqn:E; [|reflexivity]. assert (X : In i (filter p l)) by (apply filter_In; auto). rewrite H in X. destruct X.
    - intros H. destruct (filter p l) as [|x m] eqn:E; [reflexivity|]. assert (X : In x (filter p l)) by (rewrite E; left; reflexivity). apply filter_In in X as [X1 X2]. rewrite (H x X1) in X2. discriminate.
  Qed.
  Lemma erosion_keep P (T0 T : list (tsect xr)) lo x0 e0 : length T0 = length T -> noneOf (reachable lo x0) (where_ eroded T) -> erosionBreach P T0 T lo x0 e0 true None = Ok (restored P T0 T, None).
  Proof. intros L H. unfold erosionBreach. cbv zeta. rewrite (proj2 (filter_none _ _) H). cbn [bind]. rewrite restored_eq by exact L. reflexivity. Qed.
  Lemma erosion_inv P (T0 T : list (tsect xr)) lo x0 e0 E : length T0 = length T -> erosionBreach P T0 T lo x0 e0 true None = Ok (E, None) -> noneOf (reachable lo x0) (where_ eroded T) /\ E = restored P T0 T.
  Proof.
    intros L H. unfold erosionBreach in H. cbv zeta in H. destruct (filter (reachable lo x0) (where_ eroded T)) as [|p ps] eqn:F.
    - cbn [bind] in H. rewrite restored_eq in H by exact L. apply Ok_inj in H. injection H as <-. split; [apply filter_none; exact F|reflexivity].
    - bok H b. bok Eb ts. bok Eb k. bok Eb bi. apply Ok_inj in Eb. subst b. apply Ok_inj in H. discriminate H.
  Qed.
  Lemma raise_eq (pres : list bool) (E : list (tsect xr)) : (forall p, In p pres -> p = false) -> length pres = length E ->
    raiseCrests pres E = (let! _ := assert_ (negb (existsb (fun t => fisnan (tZ0 t)) E)) in Ok E).
  Proof.
    intros HP LP. unfold raiseCrests. cbv zeta. assert (map2 raiseCrest pres E = E) as ->; [|reflexivity].
    apply nth_error_ext. intros i. rewrite nth_error_map2. destruct (nth_error pres i) as [p|] eqn:Ep.
    - rewrite (HP p (nth_error_In _ _ Ep)). destruct (nth_error E i); reflexivity.
    - apply nth_error_None in Ep. symmetry. apply nth_error_None. lia.
  Qed.
  Definition spilled (E : list (tsect xr)) (WL : list xr) : list nat := where_ (fun b : bool => b) (map2 (fun t w => tZ0 t <? w) E WL).
  Lemma poss_none (p : nat -> bool) l : concat (map (fun i => (if connected None i then [i] else []) ++ (if p i then [i] else [])) l) = [] <-> noneOf p l.
  Proof.
    induction l as [|i l IH]; [split; [intros _ j []|reflexivity]|]. cbn [map concat connected app]. split.
    - intros H j [<-|Hj]; destruct (p i) eqn:E; try discriminate; [reflexivity|]. apply IH; [exact H|exact Hj].
    - intros H. rewrite (H i (or_introl eq_refl)). apply IH. intros j Hj. apply H. right. exact Hj.
  Qed.
  Lemma spill_keep P (E : list (tsect xr)) x0 WL : noneOf (reachable (map (lagoonOpen P) E) x0) (spilled E WL) -> spillBreach P E x0 true None WL None = Ok None.
  Proof.
    intros H. unfold spillBreach. cbv zeta. fold (spilled E WL). apply poss_none in H. destruct (spilled E WL) as [|i l]; [reflexivity|]. rewrite H. reflexivity.
  Qed.
  Lemma spill_inv P (E : list (tsect xr)) x0 WL : spillBreach P E x0 true None WL None = Ok None -> noneOf (reachable (map (lagoonOpen P) E) x0) (spilled E WL).
  Proof.
    intros H. unfold spillBreach in H. cbv zeta in H. fold (spilled E WL) in H. destruct (spilled E WL) as [|i l] eqn:S0; [intros j []|]. apply poss_none.
    destruct (concat _) as [|p ps]; [reflexivity|]. bok H ts. bok H ws. bok H k. bok H bi. apply Ok_inj in H. discriminate H.
  Qed.
  Lemma none_from_end (p q : nat -> bool) n l : below n l -> (forall i, (i < n)%nat -> q (fromEnd n i) = p i) -> noneOf p l -> noneOf q (rev (map (fromEnd n) l)).
  Proof.
    intros B Q H i Hi. apply in_rev in Hi. apply in_map_iff in Hi as (j & <- & Hj). rewrite Forall_forall in B. rewrite Q by (apply B; exact Hj). apply H. exact Hj.
  Qed.
  Lemma connect_eq P (T : list (tsect xr)) pres lo x0 e0 out WL : none T -> (0 < length T)%nat -> (forall p, In p pres -> p = false) -> length pres = length T ->
    connect P T pres lo x0 e0 true out WL = (let! _ := assert_ (negb (existsb fisnan WL)) in Ok (None, WL, NaN)).
  Proof.
    intros HN L1 HP LP. unfold connect. cbv zeta. destruct (argmin_in (map (fun t => fabs (tX t - e0)) T)) as (us & -> & B); [destruct T; [cbn in L1; lia|discriminate]|].
    rewrite map_length in B. cbn [bind negb]. destruct (fisnan e0) eqn:E; cbn [negb bind].
    - destruct e0; try discriminate E. reflexivity.
    - destruct (PThrough.ix_in (map2 (wideEnough P) pres T) us) as (w & -> & Hw); [rewrite map2_length; lia|]. cbn [bind]. rewrite nth_error_map2 in Hw.
      destruct (nth_error pres us) as [p|] eqn:Ep; [|discriminate]. destruct (nth_error T us) as [t|]; [|discriminate]. apply Some_inj in Hw. subst w.
      unfold wideEnough. rewrite (HP p (nth_error_In _ _ Ep)). reflexivity.
  Qed.
  Lemma rebreach P j1 j2 (T0 T : list (tsect xr)) pres pres' x0 e0 e1 f0' f1' W Z WL T' e0' e1' W' Z' :
    (forall i, j1 i = true) -> (forall i, j2 i = true) -> none T -> (forall p, In p pres -> p = false) -> (forall p, In p pres' -> p = false) ->
    length pres = length T -> length pres' = length T -> length T0 = length T -> length WL = length T -> (x0 < length T)%nat ->
    morBreach P j1 j2 T0 T pres x0 e0 e1 W Z [] true WL = Ok (T', e0', e1', W', Z', false) ->
    e0' = NaN /\ W' = W /\ Z' = Z /\
    morBreach P j1 j2 (across T0) (across T) pres' (fromEnd (length T) x0) f0' f1' W Z [] true (rev WL) = Ok (across T', NaN, f1', W, Z, false).
  Proof.
    intros J1 J2 HN HP HP' LP LP' L0 LW Hx H. unfold morBreach in *. cbv zeta in *.
    rewrite (dissolve_none HN j1 J1) in H. rewrite (dissolve_none (none_across T HN) j1 J1).
    rewrite connect_eq in H by (assumption || lia). rewrite connect_eq; [|apply none_across; exact HN|rewrite across_length; lia|exact HP'|rewrite across_length; exact LP'].
    rewrite exists_rev. destruct (assert_ (negb (existsb fisnan WL))); cbn [bind] in H |- *; [|discriminate H].
    rewrite (fill_none (P := P) HN j2 _ _ None J2) in H. rewrite (fill_none (P := P) (none_across T HN) j2 _ _ None J2). cbn [bind] in H |- *.
    bok H eb. destruct eb as [E b]. destruct b as [b|].
    { exfalso. bok H E2. cbn [spillBreach bind] in H. bok H cb. destruct cb as [[[[T4 g0] g1] w] z]. bok H u. apply Ok_inj in H. discriminate H. }
    apply erosion_inv in Eeb; [|exact L0]. destruct Eeb as [NR ->]. set (E := restored P T0 T) in *.
    assert (LE : length E = length T) by (unfold E, restored; rewrite map2_length; lia).
    assert (REs : restored P (across T0) (across T) = across E) by (apply map2_across_T; [exact L0|]; intros x y; change (eroded (mir y)) with (eroded y); destruct (eroded y); reflexivity).
    assert (LO : map (lagoonOpen P) (across T0) = rev (map (lagoonOpen P) T0)) by (unfold across; rewrite map_rev, map_map; reflexivity).
    rewrite LO. rewrite erosion_keep; [|rewrite !across_length; exact L0|].
    2:{ rewrite (where_across eroded eroded) by reflexivity. eapply none_from_end; [|intros i Hi|exact NR].
        - apply Forall_forall. intros i Hi. eapply where_lt. exact Hi.
        - rewrite <- L0, <- (map_length (lagoonOpen P) T0). apply reachable_across; rewrite map_length, L0; assumption. }
    rewrite REs. cbn [bind].
    rewrite raise_eq in H by (assumption || lia). rewrite raise_eq; [|exact HP'|rewrite across_length; lia].
    assert (EN : existsb (fun t => fisnan (tZ0 t)) (across E) = existsb (fun t => fisnan (tZ0 t)) E).
    { unfold across. rewrite exists_rev. clear. induction E as [|t l IH]; [reflexivity|]. cbn [map existsb]. rewrite IH. reflexivity. }
    rewrite EN. destruct (assert_ (negb (existsb (fun t => fisnan (tZ0 t)) E))); cbn [bind] in H |- *; [|discriminate H].
    bok H sb. destruct sb as [b|].
    { exfalso. bok H cb. destruct cb as [[[[T4 g0] g1] w] z]. bok H u. apply Ok_inj in H. discriminate H. }
    apply spill_inv in Esb. rewrite spill_keep.
    2:{ assert (LE2 : map (lagoonOpen P) (across E) = rev (map (lagoonOpen P) E)) by (unfold across; rewrite map_rev, map_map; reflexivity). rewrite LE2.
        assert (SE : spilled (across E) (rev WL) = rev (map (fromEnd (length T)) (spilled E WL))).
        { unfold spilled. assert (Q : map2 (fun (t : tsect xr) w => tZ0 t <? w) (across E) (rev WL) = rev (map2 (fun (t : tsect xr) w => tZ0 t <? w) E WL)).
          { unfold across. rewrite map2_rev by (rewrite map_length; lia). f_equal. clear. revert WL. induction E as [|t l IH]; intros [|w WL]; try reflexivity. cbn [map map2]. rewrite IH. reflexivity. }
          rewrite Q, where_rev, map2_length. replace (Nat.min (length E) (length WL)) with (length T) by lia. reflexivity. }
        rewrite SE. eapply none_from_end; [|intros i Hi|exact Esb].
        - apply Forall_forall. intros i Hi. apply where_lt in Hi. rewrite map2_length in Hi. lia.
        - rewrite <- LE, <- (map_length (lagoonOpen P) E). apply reachable_across; rewrite map_length, LE; assumption. }
    cbn [bind createBreach] in H |- *.
    rewrite <- LE. rewrite upd_across by (try reflexivity; lia || (intros t; unfold keepLagoon; change (lagoonWidth (mir t)) with (lagoonWidth t); destruct (_ <? _); reflexivity)).
    rewrite forall_across by reflexivity. destruct (assert_ (forallb rowOk (upd_with E x0 (keepLagoon P)))); cbn [bind] in H |- *; [|discriminate H].
    apply Ok_inj in H. injection H as <- <- <- <- <-. auto.
  Qed.

  (** An update. *)
  Lemma apply_shape fuel P N TP (T : list (tsect xr)) e0 e1 W Z RE on LWL OD CW CD fl LST q CST OW dt a : none T ->
    morApply fuel P N TP T e0 e1 W Z RE on [] LWL OD CW CD fl true LST q CST OW dt = Ok a ->
    none (aT a) /\ length (aT a) = length T /\ length (aWL a) = length T /\ (aX0 a < length T)%nat /\ aW a = W /\ aZ a = Z.
  Proof.
    intros HN H. unfold morApply in H. cbv zeta in H. bok H x0. cbn [bind] in H. bok H WL. bok H u. bok H RR. bok H rate. bok H dt'. bok H R2. bok H river. apply Ok_inj in H. subst a.
    cbn [aT aWL aX0 aW aZ]. pose proof (x0_lt _ _ Ex0) as Hx.
    assert (LR : length (rT R2) = length T).
    { assert (L2 : length (rT R2) = length (rT RR)).
      { unfold limitRates in ER2. destruct (_ <? _) in ER2; [|apply Ok_inj in ER2; subst R2; reflexivity]. bok ER2 u2. destruct (_ =? _)%Z in ER2; [discriminate|]. apply Ok_inj in ER2. subst R2.
        unfold clipRates. cbn [rT]. apply map_length. }
      rewrite L2. unfold changeRates in ERR. cbv zeta in ERR. destruct (negb _) in ERR; [discriminate|]. bok ERR g1. bok ERR g2. cbn [bind] in ERR. apply Ok_inj in ERR. subst RR. cbn [rT]. apply mapi_length. }
    split; [|split; [rewrite map2_length; lia|split; [|split; [exact Hx|auto]]]].
    - intros t Ht. apply In_nth_error in Ht as (i & Hi). rewrite nth_error_map2 in Hi. destruct (nth_error T i) as [t0|] eqn:E0; [|discriminate]. destruct (nth_error (rT R2) i); [|discriminate]. apply Some_inj in Hi. subst t.
      pose proof (HN t0 (nth_error_In _ _ E0)) as K. unfold hasChannel in *. apply negb_false_iff in K. apply negb_false_iff. unfold applyRow. cbn [tY1]. destruct (tY1 t0); try discriminate K. reflexivity.
    - unfold waterLevel in EWL. destruct (Nat.eqb (length LWL) (length T)) eqn:L; cbn [negb] in EWL; [|discriminate]. apply Nat.eqb_eq in L. cbn [bind] in EWL. bok EWL u3. apply Ok_inj in EWL. subst WL. rewrite map2_length. lia.
  Qed.
  Lemma none_cliff P (T0 T : list (tsect xr)) : none T -> none (map2 (fun t0 t => cliffCollision P (shorefaceHeight P t0) t) T0 T).
  Proof.
    intros HN t Ht. apply In_nth_error in Ht as (i & Hi). rewrite nth_error_map2 in Hi. destruct (nth_error T0 i); [|discriminate]. destruct (nth_error T i) as [u|] eqn:E; [|discriminate]. apply Some_inj in Hi. subst t.
    pose proof (HN u (nth_error_In _ _ E)) as K. unfold cliffCollision. destruct (_ <=? _); exact K.
  Qed.
  Lemma update_across fuel j1 j2 P N TP (T : list (tsect xr)) e0 e1 f0' f1' W Z RE on LWL OD OD' CW CD fl LST q CST OW dt m :
    NoDup (map tX T) -> none T -> below (length T) on -> (forall i, j1 i = true) -> (forall i, j2 i = true) ->
    updateMorphology fuel j1 j2 P N TP T e0 e1 W Z RE on [] LWL OD CW CD fl true LST q CST OW dt = Ok m -> oBreach m = false ->
    exists m', updateMorphology fuel j1 j2 P N TP (across T) f0' f1' W Z RE (map (fromEnd (length T)) on) [] (rev LWL) OD' CW CD fl true (rev (map xopp LST)) q (rev CST) (rev OW) dt = Ok m' /\
      oT m' = across (oT m) /\ oRiver m' = oRiver m /\ oDt m' = oDt m /\ oW m' = oW m /\ oZ m' = oZ m /\ oBreach m' = false /\ oE0 m = NaN /\ oE0 m' = NaN.
  Proof.
    intros ND HN B J1 J2 H NB. unfold updateMorphology in *. rewrite (apply_across fuel P N TP T e0 e1 f0' f1' W Z RE on [] [] LWL OD OD') by assumption.
    bok H a. rewrite Ea. cbn [thenDo bind]. destruct (apply_shape _ _ _ _ _ _ _ _ _ _ _ _ _ _ _ _ _ _ _ _ _ _ HN Ea) as (NA & LA & LW & Hx & EW & EZ). clear Ea.
    unfold acrossApp. cbn [aT aE1 aW aZ aRiver aDt aWL aX0].
    bok H r. assert (L2 : (2 <= length (aT a))%nat).
    { unfold morCorrect in Er. bok Er e. unfold domainCheck in Ee. bok Ee t1. unfold ix in Et1. destruct (nth_error (aT a) 1) eqn:X; [|discriminate]. assert (1 < length (aT a))%nat by (apply nth_error_Some; congruence). lia. }
    destruct (correct_none P (nDx N) T (aT a) e0 (aE1 a) (aW a) (aZ a) HN) as (e & EC); [lia|exact L2|]. rewrite EC in Er. apply Ok_inj in Er. subst r.
    destruct (correct_none P (nDx N) (across T) (across (aT a)) f0' f1' (aW a) (aZ a)) as (e' & EC'); [apply none_across; exact HN|rewrite !across_length; lia|rewrite across_length; exact L2|]. rewrite EC'. cbn [bind].
    set (C := map2 (fun t0 t => cliffCollision P (shorefaceHeight P t0) t) T (aT a)) in *.
    assert (CA : map2 (fun t0 t => cliffCollision P (shorefaceHeight P t0) t) (across T) (across (aT a)) = across C).
    { apply map2_across_T; [lia|]. intros x y. unfold cliffCollision. change (tY0 (mir y)) with (tY0 y). change (tY4 (mir y)) with (tY4 y). destruct (_ <=? _); reflexivity. }
    rewrite CA. assert (LC : length C = length T) by (unfold C; rewrite map2_length; lia).
    bok H r. destruct r as [[[[[T2 g0] g1] w] z] br]. apply Ok_inj in H. subst m. cbn [oBreach] in NB. subst br.
    apply rebreach with (pres' := map outletPresent (across T)) (f0' := f0') (f1' := e') in Er; try assumption; try lia.
    - destruct Er as (-> & -> & -> & E). rewrite LC in E. rewrite E. cbn [bind]. eexists. split; [reflexivity|]. cbn [oT oRiver oDt oW oZ oBreach oE0]. repeat split.
    - apply none_cliff. exact NA.
    - apply none_pres. exact HN.
    - apply none_pres. apply none_across. exact HN.
    - rewrite map_length. lia.
    - rewrite map_length, across_length. lia.
  Qed.
End Closed.
