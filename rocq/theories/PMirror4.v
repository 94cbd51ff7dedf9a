(** Left and right exchanged: an update of a coast without outlet and channels. *)
From Coq Require Import ZArith List Bool Reals Lra Lia Permutation.
From Verif Require Import Base Num Xr MState MCoast MRiv MMor MOut MCore STouch SShift SMirror PShift PCore PLag PUpdate PThrough PMirror PMirror2 PMirror3.
From Verif Require PRate.
Import ListNotations.

Section Rates.
  Local Open Scope num_scope.
  Notation below n := (Forall (fun i => (i < n)%nat)).
  Notation mir := (@acrossT xr xr_num).
  Lemma max_comm (a b : xr) : fmaximum a b = fmaximum b a.
  Proof.
    destruct a as [a| | |], b as [b| | |]; try reflexivity. rewrite !PRate.xmax, Rmax_comm. reflexivity.
  Qed.
  Lemma maxN (a : xr) : fmaximum a NInf = a. Proof. destruct a; reflexivity. Qed.
  Lemma Nmax (a : xr) : fmaximum NInf a = a. Proof. destruct a; reflexivity. Qed.
  Lemma maxP a : fmaximum (Fin a) PInf = PInf. Proof. reflexivity. Qed.
  Lemma Pmax a : fmaximum PInf (Fin a) = PInf. Proof. reflexivity. Qed.
  Lemma maxQ (a : xr) : fmaximum a NaN = NaN. Proof. destruct a; reflexivity. Qed.
  Lemma Qmax (a : xr) : fmaximum NaN a = NaN. Proof. destruct a; reflexivity. Qed.
  Lemma max_assoc (a b c : xr) : fmaximum (fmaximum a b) c = fmaximum a (fmaximum b c).
  Proof.
    destruct a as [a| | |], b as [b| | |], c as [c| | |]; 
      rewrite ?maxN, ?Nmax, ?maxP, ?Pmax, ?maxQ, ?Qmax, ?PRate.xmax, ?maxN, ?Nmax, ?maxP, ?Pmax, ?maxQ, ?Qmax, ?PRate.xmax; try reflexivity. rewrite Rmax_assoc. reflexivity.
  Qed.
  Lemma fold_max_perm (l m : list xr) : Permutation l m -> forall a, fold_left fmaximum l a = fold_left fmaximum m a.
  Proof.
    induction 1; intros a; cbn [fold_left]; [reflexivity|apply IHPermutation| |rewrite IHPermutation1; apply IHPermutation2].
    f_equal. rewrite !max_assoc, (max_comm y x). reflexivity.
  Qed.
  Lemma maxl_perm (l m : list xr) : Permutation l m -> fmaxl l = fmaxl m.
  Proof.
    induction 1; [reflexivity|cbn [fmaxl]; rewrite (fold_max_perm _ _ H); reflexivity|cbn [fmaxl fold_left]; rewrite max_comm; reflexivity|congruence].
  Qed.
  Lemma concat_perm {A B} (f : A -> list B) l m : Permutation l m -> Permutation (concat (map f l)) (concat (map f m)).
  Proof.
    induction 1; cbn [map concat]; [apply perm_nil|apply Permutation_app_head; exact IHPermutation| |eapply perm_trans; eassumption].
    rewrite !app_assoc. apply Permutation_app_tail. apply Permutation_app_comm.
  Qed.
  Definition acrossRates (RR : rates xr) : rates xr := mkRates (rRiv RR) (rev (rT RR)) (rWiden RR) (rAgg RR) (rMove RR).
  Lemma maxRate_across RR : maxRate (acrossRates RR) = maxRate RR.
  Proof.
    unfold maxRate, acrossRates. cbn [rRiv rT rWiden rAgg rMove].
    rewrite (maxl_perm _ _ (concat_perm rowMax _ _ (Permutation_sym (Permutation_rev (rT RR))))), (maxl_perm _ _ (concat_perm rowMaxZ _ _ (Permutation_sym (Permutation_rev (rT RR))))). reflexivity.
  Qed.
  Lemma limit_across N TP rate dt RR : limitRates N TP rate dt (acrossRates RR) = thenDo acrossRates (limitRates N TP rate dt RR).
  Proof.
    unfold limitRates. destruct (_ <? _); [|reflexivity]. destruct (assert_ _); cbn [bind thenDo]; [|reflexivity]. destruct (_ =? _)%Z; [reflexivity|].
    cbn [thenDo]. unfold clipRates, acrossRates. cbn [rRiv rT rWiden rAgg rMove]. rewrite map_rev. reflexivity.
  Qed.
  Lemma level_across (T : list (tsect xr)) LWL OD OD' out out' : waterLevel (across T) (rev LWL) OD' out' true = thenDo (@rev xr) (waterLevel T LWL OD out true).
  Proof.
    unfold waterLevel. rewrite rev_length, across_length. destruct (Nat.eqb (length LWL) (length T)) eqn:L; cbn [negb]; [|reflexivity]. apply Nat.eqb_eq in L. cbn [bind].
    unfold across. rewrite map2_rev by (rewrite map_length; symmetry; exact L).
    assert (E : map2 (fun t w => if lagoonPresent t then w else fofQ (-99999) 10) (map mir T) LWL = map2 (fun t w => if lagoonPresent t then w else fofQ (-99999) 10) T LWL).
    { clear L. revert LWL. induction T as [|t T IH]; intros [|w LWL]; try reflexivity. cbn [map map2]. rewrite IH. reflexivity. }
    rewrite E. set (wl := map2 _ T LWL). assert (X : existsb fisnan (rev wl) = existsb fisnan wl).
    { apply eq_true_iff_eq. rewrite !existsb_exists. split; intros (x & Hx & Hy); exists x; (split; [|exact Hy]); [apply in_rev|apply -> in_rev]; exact Hx. }
    rewrite X. destruct (assert_ _); reflexivity.
  Qed.
  Lemma sub_opps (a b : xr) : (xopp b - xopp a = a - b).
  Proof. rewrite opp_sub. symmetry. apply sub_flip. Qed.
  Lemma nth_rev_out {A} (l : list A) i : (length l <= i)%nat -> nth_error (rev l) i = None.
  Proof. intros H. apply nth_error_None. rewrite rev_length. exact H. Qed.
  Lemma gather_ok {A} (l : list A) idx : below (length l) idx -> exists xs, gather l idx = Ok xs.
  Proof. intros H. destruct (gather_in l idx) as (xs & E & _); [apply Forall_forall; exact H|]. eauto. Qed.
  Lemma rates_across P Dx (T : list (tsect xr)) e0 e1 f0' f1' W Z on out out' CW CD fl LST q CST OW : below (length T) on ->
    changeRates P Dx (across T) f0' f1' W Z (map (fromEnd (length T)) on) out' CW CD fl None (rev (map xopp LST)) q (rev CST) (rev OW) =
    thenDo acrossRates (changeRates P Dx T e0 e1 W Z on out CW CD fl None LST q CST OW).
  Proof.
    intros B. unfold changeRates. cbv zeta. rewrite !rev_length, !map_length, across_length.
    destruct (negb _) eqn:L; [reflexivity|]. apply negb_false_iff in L. rewrite !andb_true_iff, !Nat.eqb_eq in L. destruct L as ((((L1 & L2) & L3) & L4) & L5).
    rewrite gather_across by exact B. destruct (gather_ok T on B) as (ts & ->). cbn [thenDo bind gather]. unfold acrossRates. cbn [rRiv rT rWiden rAgg rMove]. f_equal. f_equal.
    set (n := length T) in *. unfold across.
    match goal with |- mapi ?g _ = rev (mapi ?f _) => set (G := g); set (F := f) end.
    assert (E : mapi F T = mapi F (map mir T)).
    { apply nth_error_ext. intros i. rewrite !nth_error_mapi, nth_error_map. destruct (nth_error T i) as [t|]; reflexivity. }
    rewrite E. clear E. apply mapi_rev. intros i x Hi. rewrite map_length in Hi |- *. fold n in Hi |- *. unfold G, F. rewrite scat_fromEnd by assumption.
    assert (ELst : match fromEnd n i with O => None | S k => match nth_error (rev (map xopp LST)) k, nth_error (rev (map xopp LST)) (fromEnd n i) with Some a, Some b => Some (a, b) | _, _ => None end end =
      match match i with O => None | S k => match nth_error LST k, nth_error LST i with Some a, Some b => Some (a, b) | _, _ => None end end with Some (a, b) => Some (xopp b, xopp a) | None => None end).
    { assert (LL : length (map xopp LST) = (n - 1)%nat) by (rewrite map_length; lia).
      assert (NF : forall k, (k < n - 1)%nat -> nth_error (rev (map xopp LST)) k = option_map xopp (nth_error LST (n - 2 - k))).
      { intros k Hk. rewrite <- nth_error_map. rewrite <- (nth_fromEnd (map xopp LST) (n - 2 - k)) by lia. f_equal. unfold fromEnd. rewrite LL. lia. }
      unfold fromEnd. destruct (n - 1 - i)%nat as [|k] eqn:K.
      - destruct i as [|i]; [reflexivity|]. destruct (nth_error LST i); [|reflexivity]. assert (X : nth_error LST (S i) = None) by (apply nth_error_None; rewrite map_length in LL; lia). rewrite X. reflexivity.
      - destruct i as [|i].
        + rewrite (NF k) by lia. rewrite (nth_rev_out _ (S k)) by lia. destruct (option_map _ _); reflexivity.
        + rewrite (NF k), (NF (S k)) by lia. replace (n - 2 - k)%nat with (S i) by lia. replace (n - 2 - S k)%nat with i by lia.
          destruct (nth_error LST i), (nth_error LST (S i)); reflexivity. }
    rewrite ELst. clear ELst.
    assert (Ec : forall (A : Type) (d : A) l, length l = n -> nth (fromEnd n i) (rev l) d = nth i l d).
    { intros A d l Hl. rewrite <- Hl. rewrite rev_nth by (unfold fromEnd; lia). f_equal. unfold fromEnd. lia. }
    rewrite !Ec by assumption. destruct (match i with O => None | S k => _ end) as [[a b]|]; [|reflexivity].
    unfold rateY0. rewrite sub_opps. reflexivity.
  Qed.
  Definition acrossApp (n : nat) (a : applied xr) (e : xr) : applied xr := mkApp (across (aT a)) e (aW a) (aZ a) (aRiver a) (aDt a) (rev (aWL a)) (fromEnd n (aX0 a)).
  Lemma apply_across fuel P N TP (T : list (tsect xr)) e0 e1 f0' f1' W Z RE on out out' LWL OD OD' CW CD fl LST q CST OW dt : NoDup (map tX T) -> below (length T) on ->
    morApply fuel P N TP (across T) f0' f1' W Z RE (map (fromEnd (length T)) on) out' (rev LWL) OD' CW CD fl true (rev (map xopp LST)) q (rev CST) (rev OW) dt =
    thenDo (fun a => acrossApp (length T) a f1') (morApply fuel P N TP T e0 e1 W Z RE on out LWL OD CW CD fl true LST q CST OW dt).
  Proof.
    intros ND B. unfold morApply. cbv zeta. rewrite x0_across by exact ND. destruct (x0Ix T) as [x0|]; cbn [thenDo bind]; [|reflexivity].
    rewrite (level_across T LWL OD OD' out out'). destruct (waterLevel T LWL OD out true) as [WL|]; cbn [thenDo bind]; [|reflexivity].
    replace (forallb (fun t => f0 <? crestWidth t) (across T)) with (forallb (fun t => f0 <? crestWidth t) T)
      by (unfold across; rewrite forallb_rev; symmetry; apply (forallb_map mir); reflexivity).
    destruct (assert_ _); cbn [thenDo bind]; [|reflexivity].
    rewrite (rates_across P (nDx N) T e0 e1 f0' f1' W Z on out out') by exact B. destruct (changeRates _ _ _ _ _ _ _ _ _ _ _ _ _ _ _ _ _) as [RR|] eqn:ER; cbn [thenDo bind]; [|reflexivity].
    rewrite maxRate_across. destruct (maxRate RR) as [rate|]; cbn [thenDo bind]; [|reflexivity].
    destruct (adaptStep fuel N TP rate dt) as [dt'|]; cbn [thenDo bind]; [|reflexivity]. rewrite limit_across. destruct (limitRates N TP rate dt' RR) as [R2|] eqn:EL; cbn [thenDo bind]; [|reflexivity].
    change (rRiv (acrossRates R2)) with (rRiv R2). destruct (applyRiver _ RE (rRiv R2)) as [river|]; cbn [thenDo bind]; [|reflexivity].
    unfold acrossApp. cbn [aT aW aZ aRiver aDt aWL aX0]. f_equal. f_equal. change (rT (acrossRates R2)) with (rev (rT R2)).
    assert (LR : length (rT R2) = length T).
    { assert (L2 : length (rT R2) = length (rT RR)).
      { unfold limitRates in EL. destruct (_ <? _) in EL; [|apply Ok_inj in EL; subst R2; reflexivity]. bok EL u. destruct (_ =? _)%Z in EL; [discriminate|]. apply Ok_inj in EL. subst R2.
        unfold clipRates. cbn [rT]. apply map_length. }
      rewrite L2. unfold changeRates in ER. cbv zeta in ER. destruct (negb _) in ER; [discriminate|]. bok ER g1. bok ER g2. cbn [bind] in ER. apply Ok_inj in ER. subst RR. cbn [rT]. apply mapi_length. }
    unfold across. rewrite map2_rev by (rewrite map_length; symmetry; exact LR). f_equal. clear - LR. revert LR. generalize (rT R2). induction T as [|t T IH]; intros [|r R3] L; try reflexivity.
    cbn [map map2]. rewrite IH by (cbn in L; lia). reflexivity.
  Qed.
End Rates.
