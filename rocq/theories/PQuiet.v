(** Updates in which nothing collides, opens or closes (mor.py:217-692), exact arithmetic. *)
From Coq Require Import ZArith List Bool Lia Reals Lra.
From Verif Require Import Base Num Xr MState MCoast MRiv MMor SMor SVol PCoast PLag PCore PRate PBudget PShore PRateEx PCap PVol PLevel PUpdate PUpdate2.
Import ListNotations.
Local Open Scope R_scope.

Lemma ltb_fin a b : (Fin a <? Fin b)%n = Rltb a b. Proof. reflexivity. Qed.
Lemma leb_fin a b : (Fin a <=? Fin b)%n = Rleb a b. Proof. reflexivity. Qed.
Lemma leb_nan_r a : (a <=? NaN)%n = false. Proof. destruct a; reflexivity. Qed.
Lemma leb_nan_l a : (NaN <=? a)%n = false. Proof. destruct a; reflexivity. Qed.
Lemma ltb_nan_r a : (a <? NaN)%n = false. Proof. destruct a; reflexivity. Qed.
Lemma ltb_nan_l a : (NaN <? a)%n = false. Proof. destruct a; reflexivity. Qed.
Lemma absent t : outletPresent t = false -> tY1 t = NaN.
Proof. unfold outletPresent. destruct (tY1 t); cbn; try discriminate. reflexivity. Qed.

Section Clear.
  Variable (g : tsect xr).
  Hypothesis C : clear g.
  Lemma clear_cliff : (tY0 g <=? tY4 g)%n = false.
  Proof. destruct C as ((a & A) & _ & (b & B) & _ & H & _). rewrite A, B in *. rewrite leb_fin. apply Rleb_false. exact H. Qed.
  Lemma clear_width : (tY1 g <? tY2 g)%n = false.
  Proof.
    destruct C as (_ & _ & _ & _ & _ & _ & H). destruct (outletPresent g) eqn:E.
    - destruct H as ((a & A) & (b & B) & _ & H & _). rewrite A, B in *. rewrite ltb_fin. apply Rltb_false. apply H.
    - rewrite (absent _ E). apply ltb_nan_l.
  Qed.
  Lemma clear_sea : (tY0 g <=? tY1 g)%n = false.
  Proof.
    destruct C as ((y & Y) & _ & _ & _ & _ & _ & H). destruct (outletPresent g) eqn:E.
    - destruct H as ((a & A) & _ & _ & _ & H). rewrite A, Y in *. rewrite leb_fin. apply Rleb_false. exact H.
    - rewrite (absent _ E). apply leb_nan_r.
  Qed.
  Lemma clear_lag : (tY2 g <=? tY3 g)%n = false.
  Proof.
    destruct C as (_ & (y & Y) & _ & _ & _ & _ & H). destruct (outletPresent g) eqn:E.
    - destruct H as (_ & (a & A) & _ & H & _). rewrite A, Y in *. rewrite leb_fin. apply Rleb_false. apply H.
    - rewrite H. apply leb_nan_l.
  Qed.
  Lemma clear_lag2 : outletPresent g = true -> (tY3 g <? tY2 g)%n = true.
  Proof.
    intros E. destruct C as (_ & (y & Y) & _ & _ & _ & _ & H). rewrite E in H.
    destruct H as (_ & (a & A) & _ & H & _). rewrite A, Y in *. rewrite ltb_fin. apply Rltb_true. apply H.
  Qed.
  Lemma clear_sea2 : outletPresent g = true -> (tY1 g <? tY0 g)%n = true.
  Proof.
    intros E. destruct C as ((y & Y) & _ & _ & _ & _ & _ & H). rewrite E in H.
    destruct H as ((a & A) & _ & _ & _ & H). rewrite A, Y in *. rewrite ltb_fin. apply Rltb_true. exact H.
  Qed.
  Lemma clear_ero : eroded g = false.
  Proof.
    destruct C as ((y & Y) & (z & Z) & (w & W) & _ & _ & H & _). unfold eroded. rewrite Y, Z, W in *. cbn [rv] in H. rewrite leb_fin, ltb_fin.
    destruct H as [H|H]; [rewrite (proj2 (Rltb_false w z)) by lra; apply andb_false_r|rewrite (proj2 (Rleb_false y z)) by lra; reflexivity].
  Qed.
End Clear.

Lemma map2_same {A B} (f : B -> A -> A) (l : list B) (m : list A) : length l = length m -> (forall x y, In y m -> f x y = y) -> map2 f l m = m.
Proof.
  revert m; induction l as [|x l IH]; intros [|y m] L H; try discriminate; [reflexivity|]. cbn [map2]. rewrite H by (left; auto). f_equal.
  apply IH; [cbn in L; lia|]. intros; apply H; right; auto.
Qed.
Lemma mapi_same {A} (f : nat -> A -> A) (m : list A) : (forall i y, nth_error m i = Some y -> f i y = y) -> mapi f m = m.
Proof.
  intros H. apply nth_error_ext. intros i. rewrite nth_error_mapi. destruct (nth_error m i) as [y|] eqn:E; [|reflexivity]. cbn. rewrite (H i y E). reflexivity.
Qed.
Lemma upd_same {A} (T : list A) i t : nth_error T i = Some t -> upd T i t = T.
Proof. revert i; induction T as [|x T IH]; intros [|i] H; try discriminate; cbn in *; [injection H as ->; auto|]. f_equal. auto. Qed.
Lemma filter2_none {A B} (f : A -> bool) (ts : list A) (l : list B) : Forall (fun t => f t = false) ts -> filter2 (map f ts) l = [].
Proof. intros H. revert l. induction H as [|t ts Ht _ IH]; intros [|x l]; cbn; auto. rewrite Ht. apply IH. Qed.

Lemma negWidths_quiet : forall pres T0 T r, length pres = length T -> length T0 = length T -> Forall clear T ->
  negWidths pres T0 T = Ok r -> r = map (fun t => (t, false)) T.
Proof.
  induction pres as [|p pres IH]; intros [|t0 T0] [|t T] r L1 L2 H E; try discriminate.
  - cbn in E. apply Ok_inj in E. subst. reflexivity.
  - inversion H as [|? ? H1 H2]; subst. cbn [negWidths] in E. unfold negWidth in E. rewrite (clear_width t H1) in E. rewrite andb_false_r in E. cbn [bind] in E.
    bok E rs. apply Ok_inj in E. subst r. cbn [map]. f_equal. apply (IH T0 T rs); auto.
Qed.

Section Quiet.
  Variables (P : phys xr) (Dx : xr) (T0 G : list (tsect xr)) (e0 e1 W Zend : xr) (outlet : list nat) (closed : bool).
  Hypothesis LG : length T0 = length G.
  Hypothesis CG : Forall clear G.
  Hypothesis IG : inside G e1.
  Hypothesis UG : closed = false -> unreached G e0 e1 outlet.

  Lemma clear_In t : In t G -> clear t.
  Proof. intros H. rewrite Forall_forall in CG. auto. Qed.
  Lemma clear_nth i t : nth_error G i = Some t -> clear t.
  Proof. intros H. apply clear_In. eapply nth_error_In; eauto. Qed.

  Lemma domain_quiet e : domainCheck G e1 = Ok e -> e = e1.
  Proof.
    unfold domainCheck. intros H. bok H t1. apply ix_ok in Et1. destruct IG as (I1 & I2).
    destruct (I1 _ Et1) as (x & e' & X & E & L). rewrite X, E in H. rewrite ltb_fin, (proj2 (Rltb_false e' x)) in H by lra.
    bok H tn. apply Ok_inj in H. rewrite <- H.
    assert (N2 : (2 <= length G)%nat) by (apply nth_error_Some; congruence).
    unfold pynth in Etn. unfold pyix in Etn.
    assert (EI : nth_error G (length G - 2) = Some tn).
    { cbn [Z.ltb Z.compare] in Etn. destruct (_ <=? _)%Z eqn:EB in Etn; [|discriminate]. apply ix_ok in Etn.
      apply Z.leb_le in EB. replace (Z.to_nat _) with (length G - 2)%nat in Etn by lia. exact Etn. }
    destruct (I2 _ EI) as (x2 & e2 & X2 & E2 & L2). rewrite E in E2. injection E2 as <-. rewrite X2, ltb_fin, (proj2 (Rltb_false x2 e')) by lra. auto.
  Qed.

  Lemma correct_quiet T1 pres f0' f1' out' :
    morCorrect P Dx T0 G e0 e1 W Zend outlet closed = Ok (T1, pres, f0', f1', out') ->
    T1 = G /\ pres = map outletPresent T0 /\ f0' = e0 /\ f1' = e1 /\ out' = outlet.
  Proof.
    intros H. unfold morCorrect in H. bok H e. apply domain_quiet in Ee. subst e.
    rewrite (map2_same _ T0 G) in H; auto.
    2:{ intros x y Hy. unfold cliffCollision. rewrite (clear_cliff y) by (apply clear_In; auto). reflexivity. }
    bok H nw. destruct nw as [T2 pr]. unfold negWidthStep in Enw. bok Enw r. apply negWidths_quiet in Er; [|rewrite map_length; auto|auto|auto].
    subst r. apply Ok_inj in Enw. rewrite map_map in Enw. cbn [fst] in Enw. rewrite map_id in Enw.
    assert (EX : existsb snd (map (fun t : tsect xr => (t, false)) G) = false) by (clear; induction G; cbn; auto).
    rewrite EX in Enw. injection Enw as <- <-.
    bok H ex. destruct ex as [T3 o3].
    assert (Q1 : T3 = G /\ o3 = outlet).
    { destruct closed; [apply Ok_inj in Eex; injection Eex as <- <-; auto|]. unfold extendStep in Eex. bok Eex il. bok Eex tl_.
      assert (IL : nth_error outlet (length outlet - 1) = Some il).
      { unfold last_ in Eil. destruct outlet as [|y ys _] using rev_ind; [discriminate|]. rewrite rev_app_distr in Eil. cbn in Eil. apply Ok_inj in Eil. subst.
        rewrite app_length. cbn [length]. rewrite nth_error_app2 by lia. replace (length ys + 1 - 1 - length ys)%nat with 0%nat by lia. reflexivity. }
      specialize (UG eq_refl il IL). destruct (e0 <? e1)%n.
      - bok Eex nx. apply ix_ok in Enx. rewrite (UG _ Enx) in Eex. apply Ok_inj in Eex. injection Eex as <- <-. auto.
      - destruct UG as (U1 & U2). bok Eex nx.
        assert (NX : nth_error G (il - 1) = Some nx).
        { unfold pynth, pyix in Enx. destruct (_ <? 0)%Z eqn:EB in Enx; [apply Z.ltb_lt in EB; lia|].
          destruct (_ <? _)%Z eqn:EB2 in Enx; [|discriminate]. apply ix_ok in Enx. replace (Z.to_nat _) with (il - 1)%nat in Enx by lia. exact Enx. }
        rewrite (U2 _ NX) in Eex. apply Ok_inj in Eex. injection Eex as <- <-. auto. }
    destruct Q1 as (-> & ->). bok H T4.
    assert (T4 = G) as ->.
    { destruct closed; [apply Ok_inj in ET4; auto|]. unfold seawardFirstStep in ET4. bok ET4 i. bok ET4 t. apply Ok_inj in ET4. apply ix_ok in Et.
      unfold seawardFirst in ET4. rewrite (clear_sea t) in ET4 by (eapply clear_nth; eauto). rewrite upd_same in ET4; auto. }
    bok H lt. destruct lt as [[[T5 p5] e5] o5].
    assert (Q : T5 = G /\ p5 = map outletPresent T0 /\ e5 = e0 /\ o5 = outlet).
    { unfold lagoonTrunc in Elt. destruct (Nat.ltb _ _); [|apply Ok_inj in Elt; injection Elt as <- <- <- <-; auto].
      bok Elt ts. apply gather_ok in Ets.
      rewrite filter2_none in Elt; [apply Ok_inj in Elt; injection Elt as <- <- <- <-; auto|].
      clear - Ets CG. induction Ets as [|i t is ts Ht _ IH]; constructor; auto. unfold merged. apply clear_lag. eapply Forall_forall; [exact CG|]. eapply nth_error_In; eauto. }
    destruct Q as (-> & -> & -> & ->). bok H st. destruct st as [e6 o6].
    assert (Q : e6 = e1 /\ o6 = outlet).
    { unfold seaTrunc in Est. destruct (Nat.ltb _ _); [|apply Ok_inj in Est; injection Est as <- <-; auto].
      bok Est ts. apply gather_ok in Ets.
      assert (SE : Forall (fun t => atSea t = false) ts).
      { clear - Ets CG. induction Ets as [|i t is ts Ht _ IH]; constructor; auto. unfold atSea. apply clear_sea. eapply Forall_forall; [exact CG|]. eapply nth_error_In; eauto. }
      assert (SX : existsb atSea (tl ts) = false).
      { destruct ts as [|t ts]; [reflexivity|]. inversion SE as [|? ? _ SE']; subst. cbn [tl]. clear - SE'. induction SE' as [|t ts A _ IH]; cbn [existsb]; auto. unfold atSea in *. rewrite A. exact IH. }
      rewrite SX in Est. apply Ok_inj in Est. injection Est as <- <-. auto. }
    destruct Q as (-> & ->). bok H T7.
    assert (T7 = G) as ->.
    { destruct closed; [apply Ok_inj in ET7; auto|]. unfold lagoonLastStep in ET7. bok ET7 i. bok ET7 t. apply Ok_inj in ET7. apply ix_ok in Et.
      unfold lagoonLast in ET7. rewrite (clear_lag t) in ET7 by (eapply clear_nth; eauto). rewrite upd_same in ET7; auto. }
    apply Ok_inj in H. injection H as <- <- <- <- <-. auto 10.
  Qed.
End Quiet.

Lemma where_none {A} (p : A -> bool) l : Forall (fun x => p x = false) l -> where_ p l = [].
Proof.
  intros H. destruct (where_ p l) as [|i w] eqn:E; [reflexivity|]. assert (X : In i (where_ p l)) by (rewrite E; left; auto).
  apply where_from_spec in X. destruct X as (_ & x & Hx & Hp). rewrite Forall_forall in H. rewrite (H x) in Hp; [discriminate|]. eapply nth_error_In; eauto.
Qed.
Lemma present_nan {F} {NF : Num F} (t : tsect F) : negb (fisnan (tY1 t)) = outletPresent t.
Proof. reflexivity. Qed.
Lemma fmax_fin a b : fmaximum (Fin a) (Fin b) = Fin (Rmax a b).
Proof. unfold fmaximum. cbn. destruct (Rltb a b) eqn:E; [apply Rltb_true in E; rewrite Rmax_right by lra|apply Rltb_false in E; rewrite Rmax_left by lra]; reflexivity. Qed.

Section Quiet2.
  Variables (P : phys xr) (j1 j2 : nat -> bool) (T0 G : list (tsect xr)) (e0 e1 W Zend : xr) (outlet : list nat) (closed : bool) (WL : list xr) (x0 : nat).
  Hypothesis LG : length T0 = length G.
  Hypothesis CG : Forall clear G.
  Hypothesis PG : map outletPresent G = map outletPresent T0.
  Hypothesis JG : forall i g, nth_error G i = Some g -> outletPresent g = false -> j1 i = true /\ j2 i = true.
  Hypothesis WG : forall w g, In w WL -> In g G -> exists r, w = Fin r /\ r <= rv (tZ0 g).
  Hypothesis XG : forall g, nth_error G x0 = Some g -> is_fin (pMinOutletWidth P) /\ rv (pMinOutletWidth P) <= rv (tY3 g) - rv (tY4 g).

  Lemma breach_quiet T2 f0' f1' W' Z' br :
    morBreach P j1 j2 T0 G (map outletPresent T0) x0 e0 e1 W Zend outlet closed WL = Ok (T2, f0', f1', W', Z', br) ->
    T2 = map levelled G /\ (f0' = e0 \/ (closed = true /\ f0' = NaN)) /\ f1' = e1 /\ W' = W /\ Z' = Zend /\ br = false.
  Proof.
    intros H. unfold morBreach in H. cbv zeta in H.
    assert (cn : forall i t, nth_error G i = Some t -> clear t) by (intros i t Ht; rewrite Forall_forall in CG; apply CG; eapply nth_error_In; eauto).
    assert (E1 : dissolveStep j1 G = G).
    { unfold dissolveStep. apply mapi_same. intros i t Ht. unfold lagoonIntersect. rewrite present_nan. destruct (outletPresent t) eqn:E.
      - rewrite (clear_lag2 t (cn _ _ Ht) E). reflexivity.
      - destruct (JG i t Ht E) as (-> & _). reflexivity. }
    rewrite E1 in H. bok H cw. destruct cw as [[cc WL'] e0']. apply connect_from in Ecw. destruct Ecw as (LW & IW & HE & _).
    bok H sf. destruct sf as [[T3 p3] b3].
    assert (Q : T3 = G /\ p3 = map outletPresent T0 /\ b3 = None).
    { unfold shoreFill in Esf. cbv zeta in Esf. destruct (existsb _ _) eqn:E in Esf; [|apply Ok_inj in Esf; injection Esf as <- <- <-; auto].
      exfalso. apply existsb_exists in E. destruct E as (b & Hb & Eb). subst b. apply In_nth_error in Hb. destruct Hb as (i & Hi). rewrite nth_error_mapi in Hi.
      destruct (nth_error G i) as [t|] eqn:Ht; [|discriminate]. cbn in Hi. apply Some_inj in Hi. unfold shoreIntersect in Hi. rewrite present_nan in Hi.
      destruct (outletPresent t) eqn:E.
      - rewrite (clear_sea2 t (cn _ _ Ht) E) in Hi. discriminate.
      - destruct (JG i t Ht E) as (_ & X). rewrite X in Hi. discriminate. }
    destruct Q as (-> & -> & ->). bok H eb. destruct eb as [T4 b4].
    assert (Q : T4 = G /\ b4 = None).
    { unfold erosionBreach in Eeb. cbv zeta in Eeb.
      rewrite (where_none eroded G) in Eeb. 2:{ eapply Forall_impl; [|exact CG]. intros t Ht. apply clear_ero; auto. }
      cbn [filter bind] in Eeb. apply Ok_inj in Eeb. injection Eeb as <- <-. split; [|reflexivity].
      clear - LG. unfold mapi. generalize 0%nat. revert G LG. induction T0 as [|t l IH]; intros [|g m] L k; try discriminate; [reflexivity|]. cbn [combine mapi_from].
      cbn [memb existsb]. f_equal. apply IH. cbn in L. lia. }
    destruct Q as (-> & ->). bok H T5.
    assert (E5 : T5 = map levelled G).
    { unfold raiseCrests in ET5. cbv zeta in ET5. bok ET5 u. apply Ok_inj in ET5. rewrite <- ET5. rewrite <- PG. clear - CG. induction CG as [|g l C _ IH]; [reflexivity|]. cbn [map map2].
      f_equal; [|apply IH; inversion CG; auto]. unfold raiseCrest, levelled. destruct (outletPresent g) eqn:E; [|reflexivity].
      destruct C as (_ & _ & _ & (z & Z) & _ & _ & C). rewrite E in C. destruct C as (_ & _ & (z2 & Z2) & _). rewrite Z, Z2, fmax_fin. reflexivity. }
    subst T5. bok H b5.
    assert (b5 = None) as ->.
    { unfold spillBreach in Eb5. cbv zeta in Eb5.
      rewrite (where_none (fun b => b)) in Eb5; [apply Ok_inj in Eb5; auto|]. apply Forall_forall. intros b Hb.
      assert (X : forall l w, (forall x, In x w -> In x WL) -> (forall g, In g l -> In g G) -> In b (map2 (fun t v => (tZ0 t <? v)%n) (map levelled l) w) -> b = false).
      { clear - WG CG. induction l as [|g l IH]; intros [|v w] Hw Hg HI; try (destruct HI; fail). cbn [map map2] in HI. destruct HI as [<-|HI].
        - destruct (WG v g) as (r & -> & Hr); [apply Hw; left; auto|apply Hg; left; auto|].
          rewrite Forall_forall in CG. destruct (CG g (Hg _ (or_introl eq_refl))) as (_ & _ & _ & (z & Z) & _ & _ & _).
          rewrite Z in Hr. cbn [rv] in Hr. unfold levelled. destruct (outletPresent g).
          + cbn [setZ0 tZ0]. rewrite Z, ltb_fin. apply Rltb_false. cbn [rv]. pose proof (Rmax_l z (rv (tZ2 g))). lra.
          + rewrite Z, ltb_fin. apply Rltb_false. lra.
        - eapply IH; [| |exact HI]; intros; [apply Hw|apply Hg]; right; auto. }
      eapply X; [| |exact Hb]; auto. }
    cbn [createBreach bind] in H. bok H u. apply Ok_inj in H. injection H as <- <- <- <- <- <-.
    split; [|auto 10]. unfold upd_with.
    destruct (nth_error (map levelled G) x0) as [g'|] eqn:Eg; [|reflexivity]. rewrite nth_error_map in Eg. destruct (nth_error G x0) as [g|] eqn:Eg2; [|discriminate].
    cbn in Eg. apply Some_inj in Eg. subst g'. destruct (XG g eq_refl) as ((m & M) & L).
    assert (K : keepLagoon P (levelled g) = levelled g).
    { unfold keepLagoon. destruct (cn _ _ Eg2) as (_ & (y3 & Y3) & (y4 & Y4) & _). rewrite Y3, Y4, M in L. cbn [rv] in L.
      assert (A3 : tY3 (levelled g) = Fin y3) by (unfold levelled; destruct (outletPresent g); exact Y3).
      assert (A4 : tY4 (levelled g) = Fin y4) by (unfold levelled; destruct (outletPresent g); exact Y4).
      rewrite A3, A4, M. replace (Fin y3 - Fin y4)%n with (Fin (y3 - y4)) by (cbn; f_equal; lra). rewrite ltb_fin, (proj2 (Rltb_false _ _)) by lra. reflexivity. }
    rewrite K. apply upd_same. rewrite nth_error_map, Eg2. reflexivity.
  Qed.
End Quiet2.

(** An update in which nothing happens but movement. *)
Lemma update_quiet fuel j1 j2 (P : phys xr) N TP T e0 e1 W Zend RiverElev online outlet LagoonWL OutletDep CW CD fl closed LST q CST OW dt0 o a :
  updateMorphology fuel j1 j2 P N TP T e0 e1 W Zend RiverElev online outlet LagoonWL OutletDep CW CD fl closed LST q CST OW dt0 = Ok o ->
  morApply fuel P N TP T e0 e1 W Zend RiverElev online outlet LagoonWL OutletDep CW CD fl closed LST q CST OW dt0 = Ok a ->
  calm P j1 j2 T (aT a) e0 (aE1 a) outlet closed LagoonWL OutletDep ->
  oT o = map levelled (aT a) /\ oE1 o = aE1 a /\ oW o = aW a /\ oZ o = aZ a /\ oRiver o = aRiver a /\ oDt o = aDt a /\
  oBreach o = false /\ (oE0 o = e0 \/ (closed = true /\ oE0 o = NaN)).
Proof.
  intros H HA (C1 & C2 & C3 & C4 & (h & D1 & D2 & D3 & D4) & C6 & C7). unfold updateMorphology in H. rewrite HA in H. cbn [bind] in H.
  pose proof (apply_sameX _ _ _ _ _ _ _ _ _ _ _ _ _ _ _ _ _ _ _ _ _ _ _ _ HA) as (SX & _ & HX & _).
  pose proof (sameX_len _ _ SX) as LG. symmetry in LG.
  pose proof (apply_level _ _ _ _ _ _ _ _ _ _ _ _ _ _ _ _ _ _ _ _ _ _ _ _ HA) as (LW & LL & _ & LV).
  bok H c. destruct c as [[[[T1 pres] f0'] f1'] out'].
  destruct (correct_quiet P (nDx N) T (aT a) e0 (aE1 a) (aW a) (aZ a) outlet closed LG C1 C3 C4 _ _ _ _ _ Ec) as (-> & -> & -> & -> & ->).
  bok H b. destruct b as [[[[[T2 g0] g1] W'] Z'] br]. apply breach_quiet in Eb; auto.
  - destruct Eb as (-> & B1 & -> & -> & -> & ->). apply Ok_inj in H. subst o. cbn [oT oE0 oE1 oW oZ oRiver oDt oBreach]. auto 12.
  - intros w g Hw Hg. apply In_nth_error in Hw. destruct Hw as (i & Hi).
    assert (exists t, nth_error T i = Some t) as (t & Ht).
    { destruct (nth_error T i) eqn:E; [eauto|]. apply nth_error_None in E. rewrite <- LW in E. apply nth_error_None in E. congruence. }
    specialize (D4 g Hg). destruct (LV i t Ht) as (V1 & V2).
    assert (exists r, w = Fin r /\ r <= h) as (r & -> & Hr); [|exists r; split; [reflexivity|lra]].
    assert (DC : (closed = false /\ In i outlet) \/ (closed = true \/ ~ In i outlet)) by (destruct closed; [auto|]; destruct (in_dec Nat.eq_dec i outlet); auto).
    destruct DC as [(HC & HI)|HC].
    + destruct (V1 HC HI) as (dd & O1 & O2). rewrite Hi in O2. apply Some_inj in O2. subst w. eapply D3; eauto.
    + specialize (V2 HC). rewrite Hi in V2. destruct (tY4 t <? tY3 t)%n eqn:EL.
      * symmetry in V2. eapply D2; eauto.
      * apply Some_inj in V2. subst w. exists (-99999 / 10). split; [reflexivity|]. lra.
  - intros g Hg. unfold x0Ix in HX. destruct (first_where _ _) as [x|] eqn:E in HX; [|discriminate]. apply Ok_inj in HX. subst x.
    apply first_where_Some in E. destruct E as ((t & Ht & Hz) & _).
    apply (C7 g); [eapply nth_error_In; eauto|].
    assert (EX : tX g = tX t). { unfold sameX in SX. assert (Y : nth_error (map tX (aT a)) (aX0 a) = nth_error (map tX T) (aX0 a)) by (rewrite SX; auto). rewrite !nth_error_map, Hg, Ht in Y. cbn in Y. injection Y; auto. }
    rewrite EX. cbn in Hz. destruct (tX t); try discriminate. cbn in Hz. apply Reqb_true in Hz. subst. reflexivity.
Qed.

(** ** Sediment over such an update *)
Lemma vol_cons P d t T : volume P d (t :: T) = d * section P t + volume P d T.
Proof.
  unfold volume, total. assert (X : forall k, mapi_from k (fun (_ : nat) t => d * section P t) T = map (fun t => d * section P t) T) by (clear; induction T; intros k; cbn; f_equal; auto).
  unfold mapi. cbn [mapi_from]. rewrite !X. reflexivity.
Qed.
Lemma raised_cons d g G : raised d (g :: G) = (if outletPresent g then d * (Rmax (rv (tZ2 g) - rv (tZ0 g)) 0 * (rv (tY0 g) - rv (tY1 g))) else 0) + raised d G.
Proof.
  unfold raised, total.
  set (f := fun (_ : nat) (g : tsect xr) => if outletPresent g then d * (Rmax (rv (tZ2 g) - rv (tZ0 g)) 0 * (rv (tY0 g) - rv (tY1 g))) else 0).
  assert (X : forall k, mapi_from k f G = map (f 0%nat) G) by (clear; induction G; intros k; cbn; f_equal; auto).
  unfold mapi. cbn [mapi_from]. rewrite !X. reflexivity.
Qed.
Lemma level_section P g : section P (levelled g) = section P g + (if outletPresent g then Rmax (rv (tZ2 g) - rv (tZ0 g)) 0 * (rv (tY0 g) - rv (tY1 g)) else 0).
Proof.
  unfold section, levelled. destruct (outletPresent g) eqn:E; [|rewrite E; lra].
  change (outletPresent (setZ0 (Fin (Rmax (rv (tZ0 g)) (rv (tZ2 g)))) g)) with (outletPresent g). rewrite E. cbn [setZ0 tX tY0 tY1 tY2 tY3 tY4 tZ0 tZ1 tZ2 tZ3 rv].
  assert (M : Rmax (rv (tZ0 g)) (rv (tZ2 g)) = rv (tZ0 g) + Rmax (rv (tZ2 g) - rv (tZ0 g)) 0) by (unfold Rmax; destruct (Rle_dec _ _), (Rle_dec _ _); lra).
  rewrite M. ring.
Qed.
Lemma level_volume P d G : volume P d (map levelled G) = volume P d G + raised d G.
Proof.
  induction G as [|g G IH]; [unfold raised, volume, total; cbn; lra|]. cbn [map]. rewrite !vol_cons, raised_cons, level_section, IH. destruct (outletPresent g); ring.
Qed.
Lemma vol_upd P d s f : forall T k rs t r, nth_error T k = Some t -> nth_error rs k = Some r ->
  volume P d (map2 (shifted s) (upd_with T k f) rs) = volume P d (map2 (shifted s) T rs) + d * (section P (shifted s (f t) r) - section P (shifted s t r)).
Proof.
  induction T as [|u T IH]; intros [|k] [|r' rs] t r Ht Hr; try discriminate; cbn in Ht, Hr.
  - injection Ht as ->. injection Hr as ->. cbn [upd_with upd nth_error map2]. rewrite !vol_cons. ring.
  - assert (E : upd_with (u :: T) (S k) f = u :: upd_with T k f) by (unfold upd_with; cbn [nth_error]; destruct (nth_error T k); reflexivity).
    rewrite E. cbn [map2]. rewrite !vol_cons, (IH k rs t r Ht Hr). ring.
Qed.
Lemma dump_section P d v s t r : soundPars P -> d <> 0 -> soundT P t -> finR r ->
  d * (section P (shifted s (setY0 (tY0 t + Fin v / (shorefaceHeight P t * Fin d))%n t) r) - section P (shifted s t r))
  = v * height P (shifted s t r) / height P t.
Proof.
  intros ((c & HC) & _) Hd (_ & (y0 & Y0) & _ & _ & (z0 & Z0) & _ & _ & HH & _) ((a0 & A0) & _ & _ & _ & _ & (b0 & B0) & _).
  unfold section. change (outletPresent (shifted s (setY0 (tY0 t + Fin v / (shorefaceHeight P t * Fin d))%n t) r)) with (outletPresent (shifted s t r)).
  unfold height, shorefaceHeight, shifted. cbn [setY0 tX tY0 tY1 tY2 tY3 tY4 tZ0 tZ1 tZ2 tZ3]. rewrite HC, Z0 in HH. cbn [rv] in HH.
  rewrite Y0, Z0, A0, B0, HC.
  assert (E : (Fin y0 + Fin v / ((Fin c + Fin z0) * Fin d) + Fin a0 * Fin s)%n = Fin (y0 + v / ((c + z0) * d) + a0 * s)) by (xf; reflexivity).
  rewrite E. replace (Fin y0 + Fin a0 * Fin s)%n with (Fin (y0 + a0 * s)) by reflexivity. replace (Fin z0 + Fin b0 * Fin s)%n with (Fin (z0 + b0 * s)) by reflexivity.
  cbn [rv]. destruct (outletPresent _); field; auto.
Qed.
Lemma river_volume P d s : forall zs rs, length rs = length zs -> Forall is_fin zs -> Forall is_fin rs ->
  riverVolume P d (map2 (fun a r => a + r * Fin s)%n zs rs) - riverVolume P d zs = s * rsum (map (fun v => rv v * (rv (pRiverWidth P) * d)) rs).
Proof.
  intros zs rs L HZ HR. revert rs L HR. induction HZ as [|z zs (a & ->) _ IH]; intros [|r rs] L HR; try discriminate; [unfold riverVolume; cbn; lra|].
  inversion HR as [|? ? (b & ->) HR']; subst. specialize (IH rs ltac:(cbn in L; lia) HR'). unfold riverVolume in *. cbn [map2 map rsum fold_right] in *.
  replace (Fin a + Fin b * Fin s)%n with (Fin (a + b * s)) by reflexivity. cbn [rv] in *. unfold rsum in IH. lra.
Qed.

Section QuietVol.
  Variables (fuel : nat) (j1 j2 : nat -> bool) (P : phys xr) (N : nump xr) (TP : timep) (T : list (tsect xr)) (e0 e1 W Zend : xr) (RiverElev : list xr)
            (online outlet : list nat) (LagoonWL OutletDep CW CD : list xr) (fl : list nat) (closed : bool) (l q c : list R) (OW : list bool)
            (dt0 : Z) (o : morOut xr) (a : applied xr) (d : R).
  Hypothesis HD : nDx N = Fin d.
  Hypothesis SI : soundInputs P d T e1 W Zend online outlet CW CD fl closed (length q).
  Hypothesis FZ : Forall is_fin RiverElev.
  Hypothesis HU : updateMorphology fuel j1 j2 P N TP T e0 e1 W Zend RiverElev online outlet LagoonWL OutletDep CW CD fl closed (map Fin l) (map Fin q) (map Fin c) OW dt0 = Ok o.
  Hypothesis HA : morApply fuel P N TP T e0 e1 W Zend RiverElev online outlet LagoonWL OutletDep CW CD fl closed (map Fin l) (map Fin q) (map Fin c) OW dt0 = Ok a.
  Hypothesis HC : calm P j1 j2 T (aT a) e0 (aE1 a) outlet closed LagoonWL OutletDep.
  Hypothesis HM : is_fin (nMaxMorChange N) /\ 0 <= rv (nMaxMorChange N).
  Hypothesis HS : (seconds (tMorDtMin TP) < seconds (aDt a))%Z.
  Hypothesis HF : forall j, In j (seq 1 (length fl - (if closed then 1 else 2))) -> (nth j fl 9 <= (if closed then 1 else 3))%nat.
  Variables (k : nat) (tk gk : tsect xr).
  Hypothesis HK : closed = false -> firstRight T e1 (S k) /\ nth_error T k = Some tk /\ nth_error (aT a) k = Some gk.

  Lemma quiet_balance : exists RR,
    ratesFor P (Fin d) T e0 e1 W Zend online outlet CW CD fl closed (map Fin l) (map Fin q) (map Fin c) OW = Ok RR /\
    let s := IZR (seconds (oDt o)) in
    volume P d (oT o) - volume P d T + (riverVolume P d (oRiver o) - riverVolume P d RiverElev)
    + (if closed then 0 else (rv (oZ o) - rv Zend) * (rv W * d) - (rv (oW o) - rv W) * ((rv (pBeachTopElev P) - rv Zend) * rv (pSpitWidth P))) =
    s * (nth 0 q 0 - (if closed then 0 else nth (length q - 1) q 0) + (nth 0 l 0 - nth (length l - 1) l 0) + endsGain P d c T
         + (if closed then 0 else landed P d (nth (length q - 1) q 0) e1 T + Rabs (nth k l 0) - (if (S (S k) <? length T)%nat then Rmax (nth k l 0) 0 else 0)))
    + s * s * crossed d T (rT RR) + raised d (aT a)
    + (if closed then 0 else Rmin (nth k l 0) 0 * height P gk / height P tk).
  Proof.
    destruct HM as ((cap & HM1) & HM2). rewrite HM1 in HM2. cbn [rv] in HM2.
    destruct (update_quiet _ _ _ _ _ _ _ _ _ _ _ _ _ _ _ _ _ _ _ _ _ _ _ _ _ _ _ HU HA HC) as (Q1 & _ & Q3 & Q4 & Q5 & Q6 & _).
    destruct (cap_main fuel P N TP T e0 e1 W Zend RiverElev online outlet LagoonWL OutletDep CW CD fl closed l q c OW dt0 a d cap HD HM1 HM2 SI HA) as (RR & M' & R' & A1 & AL & A2 & A3 & A4 & A5 & (rbq & A6 & A7) & A8).
    destruct A4 as [->|A4]; [|lia]. exists RR. split; [exact A1|]. cbv zeta. rewrite Q1, Q3, Q4, Q5, Q6. set (s := IZR (seconds (aDt a))) in *.
    pose proof (rates_finite _ _ _ _ _ _ _ _ _ _ _ _ _ _ _ _ _ _ SI A1) as (FR & FT & (wd & FW) & (ag & FA) & _).
    pose proof (balance P d T e0 e1 W Zend online outlet CW CD fl closed l q c OW RR SI A1 s k (fun E => proj1 (HK E)) HF) as B.
    pose proof SI as (SP & Hd & ST & _ & ((w & EW & _) & (z & EZ & _)) & _).
    assert (BR : riverVolume P d (aRiver a) - riverVolume P d RiverElev = s * riverGain P d RR).
    { unfold applyRiver in A5. destruct RiverElev as [|r0 rs] eqn:ER.
      - destruct (Nat.eqb_spec (length (rRiv RR)) 0) as [E|E]; [|discriminate]. apply Ok_inj in A5. rewrite <- A5. unfold riverGain. destruct (rRiv RR); [|discriminate]. unfold riverVolume. cbn. lra.
      - destruct (Nat.eqb_spec (length (rRiv RR)) (length rs)) as [E|E]; [|discriminate]. apply Ok_inj in A5. rewrite <- A5. inversion FZ as [|? ? _ FZ']; subst.
        pose proof (river_volume P d s rs (rRiv RR) E FZ' FR) as V. unfold riverGain. rewrite <- V. unfold riverVolume. unfold rsum. cbn [map fold_right]. lra. }
    assert (BV : volume P d (aT a) = volume P d (map2 (shifted s) T (rT RR)) + (if closed then 0 else Rmin (nth k l 0) 0 * height P gk / height P tk)).
    { rewrite A7. case_eq closed; intros EC; rewrite EC in A6.
      - subst rbq. change (applyRow (Fin s)) with (shifted s). lra.
      - destruct A6 as (rb & v & B1 & B2 & ->). destruct (HK EC) as (K1 & K2 & K3). apply firstRight_Rb in K1. rewrite K1 in B1. apply Ok_inj in B1. subst rb.
        cbn [prevIx] in *. rewrite (nth_error_nth _ _ 0 B2). change (f0 <? Fin v)%n with (Rltb 0 v). change (f0 <? Fin v)%n with (Rltb 0 v) in A7. destruct (Rltb 0 v) eqn:EV.
        + apply Rltb_true in EV. rewrite Rmin_right by lra. change (applyRow (Fin s)) with (shifted s). lra.
        + apply Rltb_false in EV. rewrite Rmin_left by lra. change (applyRow (Fin s)) with (shifted s) in *.
          assert (exists r, nth_error (rT RR) k = Some r) as (r & Hr).
          { destruct (nth_error (rT RR) k) eqn:E; [eauto|]. apply nth_error_None in E. rewrite AL in E. apply nth_error_None in E. congruence. }
          rewrite Forall_forall in ST, FT. pose proof (ST _ (nth_error_In _ _ K2)) as TS. pose proof (FT _ (nth_error_In _ _ Hr)) as TR.
          rewrite (vol_upd P d s _ T k (rT RR) tk r K2 Hr). rewrite dump_section by auto.
          rewrite A7, (map2_nth _ _ _ k (setY0 (tY0 tk + Fin v / (shorefaceHeight P tk * Fin d))%n tk) r) in K3; [|rewrite nth_error_upd_with_eq, K2; reflexivity|exact Hr].
          apply Some_inj in K3. rewrite <- K3. reflexivity. }
    rewrite level_volume, BV, BR.
    destruct closed; [nra|]. destruct A8 as (_ & -> & ->). rewrite FW, FA, EW, EZ in *. unfold endGain in B. rewrite FW, FA in B.
    replace (Fin w + Fin wd * Fin s)%n with (Fin (w + wd * s)) by reflexivity. replace (Fin z + Fin ag * Fin s)%n with (Fin (z + ag * s)) by reflexivity. cbn [rv] in *. nra.
  Qed.
End QuietVol.
