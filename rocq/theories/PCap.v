(** The cap on the change per step (mor.py:174-215). *)
From Coq Require Import ZArith List Bool Lia Reals Lra.
From Verif Require Import Base Num Xr MState MCoast MRiv MMor SMor PCoast PLag PCore PRate PBudget PShore PRateEx.
Import ListNotations.
Local Open Scope R_scope.

Definition finR (r : trate xr) : Prop :=
  is_fin (rY0 r) /\ is_fin (rY1 r) /\ is_fin (rY2 r) /\ is_fin (rY3 r) /\ is_fin (rY4 r) /\
  is_fin (rZ0 r) /\ is_fin (rZ1 r) /\ is_fin (rZ2 r) /\ is_fin (rZ3 r).
Definition finRates (RR : rates xr) : Prop :=
  Forall is_fin (rRiv RR) /\ Forall finR (rT RR) /\ is_fin (rWiden RR) /\ is_fin (rAgg RR) /\ is_fin (rMove RR).

Lemma rates_finite P d T e0 e1 W Zend online outlet CW CD fl closed (l q c : list R) OW (RR : rates xr) :
  soundInputs P d T e1 W Zend online outlet CW CD fl closed (length q) ->
  ratesFor P (Fin d) T e0 e1 W Zend online outlet CW CD fl closed (map Fin l) (map Fin q) (map Fin c) OW = Ok RR ->
  finRates RR.
Proof.
  intros SI H. pose proof (real _ _ _ _ _ _ _ _ _ _ _ _ _ _ _ _ _ _ SI H) as G. pose proof SI as (SP & Hd & ST & _ & ((w & HW & Nw) & (z & HZ & Nz)) & _).
  split; [|split].
  - rewrite (rf_riv _ _ _ _ _ _ _ _ _ _ _ _ _ _ _ _ _ _ G). apply Forall_forall. intros x Hx. apply in_map_iff in Hx. destruct Hx as (j & <- & _). eexists; reflexivity.
  - apply Forall_forall. intros r Hr. apply In_nth_error in Hr. destruct Hr as (i & Hr).
    assert (exists t, nth_error T i = Some t) as (t & Ht).
    { destruct (nth_error T i) eqn:E; eauto. apply nth_error_None in E. rewrite <- (rf_len _ _ _ _ _ _ _ _ _ _ _ _ _ _ _ _ _ _ G) in E. apply nth_error_None in E. congruence. }
    destruct (row_val SP Hd ST G i t r Ht Hr) as (_ & _ & y & E & _). subst r. unfold finR. cbn [rY0 rY1 rY2 rY3 rY4 rZ0 rZ1 rZ2 rZ3]. repeat split; eexists; reflexivity.
  - pose proof (rf_end _ _ _ _ _ _ _ _ _ _ _ _ _ _ _ _ _ _ G) as A. destruct closed.
    + destruct A as (-> & -> & ->). repeat split; eexists; reflexivity.
    + destruct A as (rb & v & j1 & A1 & A2 & A3 & A4).
      destruct SP as (_ & _ & (bt & Hbt) & (bf & Hbf) & _ & _ & (sw & Hsw & Nsw) & _).
      unfold endRates in A4. rewrite HW, HZ, Hbt, Hbf, Hsw in *. cbn [rv] in *.
      cbn [toX xDep xBed xBank xEro xd xb xk xe] in A4. set (x := rxJ P CW CD q j1) in *. cbv zeta in A4.
      set (mv := if (e0 <? e1)%n then _ else _) in A4.
      assert (MV : exists m, mv = Fin m). { unfold mv. destruct (e0 <? e1)%n, (e1 <? e0)%n; xf; eexists; reflexivity. }
      destruct MV as (m & M1). rewrite M1 in A4.
      destruct (f0 <? Fin v)%n;
      pose proof (f_equal (fun p => fst (fst p)) A4) as A5; pose proof (f_equal (fun p => snd (fst p)) A4) as A6; pose proof (f_equal snd A4) as A7;
      cbn [fst snd] in A5, A6, A7; rewrite A5, A6, A7; xf; repeat split; eexists; reflexivity.
Qed.

(** ** The largest rate *)
Lemma fold_max (l : list xr) : forall (a : R) m, Forall is_fin l -> fold_left fmaximum l (Fin a) = m ->
  exists M, m = Fin M /\ a <= M /\ forall x, In (Fin x) l -> x <= M.
Proof.
  induction l as [|x l IH]; intros a m HF H; cbn [fold_left] in H.
  - exists a. subst. split; [reflexivity|]. split; [lra|]. intros x [].
  - inversion HF as [|? ? (r & ->) HF']; subst. rewrite xmax in *. destruct (IH (Rmax a r) _ HF' eq_refl) as (M & E & B & C).
    exists M. split; [exact E|]. pose proof (Rmax_l a r). pose proof (Rmax_r a r). split; [lra|].
    intros y [Hy|Hy]; [injection Hy as <-; lra|auto].
Qed.
Lemma maxl_bound (l : list xr) m : Forall is_fin l -> fmaxl l = Ok m -> exists M, m = Fin M /\ forall x, In (Fin x) l -> x <= M.
Proof.
  destruct l as [|x l]; [discriminate|]. intros HF H. inversion HF as [|? ? (r & ->) HF']; subst. unfold fmaxl in H. apply Ok_inj in H.
  destruct (fold_max l r m HF' H) as (M & E & A & B). exists M. split; [exact E|]. intros y [Hy|Hy]; [injection Hy as <-; auto|auto].
Qed.
Lemma pmax a b : pymax (Fin a) (Fin b) = Fin (Rmax a b).
Proof.
  unfold pymax. change (Fin a <? Fin b)%n with (Rltb a b). destruct (Rltb a b) eqn:E.
  - apply Rltb_true in E. rewrite Rmax_right by lra. auto.
  - apply Rltb_false in E. rewrite Rmax_left by lra. auto.
Qed.
Lemma pmin a b : pymin (Fin a) (Fin b) = Fin (Rmin a b).
Proof.
  unfold pymin. change (Fin b <? Fin a)%n with (Rltb b a). destruct (Rltb b a) eqn:E.
  - apply Rltb_true in E. rewrite Rmin_right by lra. auto.
  - apply Rltb_false in E. rewrite Rmin_left by lra. auto.
Qed.
Definition bnd (M : R) (x : xr) : Prop := exists r, x = Fin r /\ Rabs r <= M.
Definition bndR (M : R) (r : trate xr) : Prop :=
  bnd M (rY0 r) /\ bnd M (rY1 r) /\ bnd M (rY2 r) /\ bnd M (rY3 r) /\ bnd M (rY4 r) /\
  bnd M (rZ0 r) /\ bnd M (rZ1 r) /\ bnd M (rZ2 r) /\ bnd M (rZ3 r).
Definition bndRates (M : R) (RR : rates xr) : Prop :=
  Forall (bnd M) (rRiv RR) /\ Forall (bndR M) (rT RR) /\ bnd M (rWiden RR) /\ bnd M (rAgg RR) /\ bnd M (rMove RR).
Lemma abs_fin x : is_fin x -> fabs x = Fin (Rabs (rv x)).
Proof. intros (r & ->). reflexivity. Qed.
Lemma fin_bnd x M : is_fin x -> Rabs (rv x) <= M -> bnd M x.
Proof. intros (r & ->) H. exists r. auto. Qed.

Lemma max_bound (RR : rates xr) m : finRates RR -> maxRate RR = Ok m -> exists M, m = Fin M /\ bndRates M RR.
Proof.
  intros (F1 & F2 & Fw & Fa & Fm) H. unfold maxRate in H. bok H a. bok H b. bok H c. apply Ok_inj in H.
  apply maxl_bound in Ea; [|apply Forall_forall; intros x Hx; apply in_map_iff in Hx; destruct Hx as (y & <- & Hy); rewrite Forall_forall in F1; destruct (F1 y Hy) as (r & ->); eexists; reflexivity].
  assert (FF : forall r, In r (rT RR) -> finR r) by (apply Forall_forall; auto).
  apply maxl_bound in Eb.
  2:{ apply Forall_forall. intros x Hx. apply in_concat in Hx. destruct Hx as (l & Hl & Hx). apply in_map_iff in Hl. destruct Hl as (r & <- & Hr).
      destruct (FF r Hr) as (A0 & A1 & A2 & A3 & A4 & _). unfold rowMax in Hx. cbn [map In] in Hx.
      destruct Hx as [<-|[<-|[<-|[<-|[<-|[]]]]]]; rewrite abs_fin by auto; eexists; reflexivity. }
  apply maxl_bound in Ec.
  2:{ apply Forall_forall. intros x Hx. apply in_concat in Hx. destruct Hx as (l & Hl & Hx). apply in_map_iff in Hl. destruct Hl as (r & <- & Hr).
      destruct (FF r Hr) as (_ & _ & _ & _ & _ & A0 & A1 & A2 & A3). unfold rowMaxZ in Hx. cbn [map In] in Hx.
      destruct Hx as [<-|[<-|[<-|[<-|[]]]]]; rewrite abs_fin by auto; eexists; reflexivity. }
  destruct Ea as (A & -> & HA). destruct Eb as (B & -> & HB). destruct Ec as (C & -> & HC).
  rewrite !abs_fin in H by auto. cbn [fold_left] in H. rewrite !pmax in H.
  set (M := Rmax _ _) in H. exists M. split; [auto|].
  assert (MA : A <= M /\ B <= M /\ C <= M /\ Rabs (rv (rWiden RR)) <= M /\ Rabs (rv (rAgg RR)) <= M /\ Rabs (rv (rMove RR)) <= M).
  { unfold M. rewrite !Rmax_Rle. pose proof (Rle_refl A). pose proof (Rle_refl B). pose proof (Rle_refl C). repeat split; auto 10 using Rle_refl. }
  destruct MA as (M1 & M2 & M3 & M4 & M5 & M6).
  split; [|split; [|split; [|split]]].
  - apply Forall_forall. intros x Hx. rewrite Forall_forall in F1. apply fin_bnd; auto. apply Rle_trans with A; auto. apply HA. rewrite <- abs_fin by auto. apply in_map. auto.
  - apply Forall_forall. intros r Hr. destruct (FF r Hr) as (A0 & A1 & A2 & A3 & A4 & A5 & A6 & A7 & A8).
    assert (Y : forall x, In x [rY0 r; rY1 r; rY2 r; rY3 r; rY4 r] -> is_fin x -> bnd M x).
    { intros x Hx Fx. apply fin_bnd; auto. apply Rle_trans with B; auto. apply HB. rewrite <- abs_fin by auto. apply in_concat. exists (rowMax r). split; [apply in_map; auto|]. unfold rowMax. apply in_map. auto. }
    assert (Z : forall x, In x [rZ0 r; rZ1 r; rZ2 r; rZ3 r] -> is_fin x -> bnd M x).
    { intros x Hx Fx. apply fin_bnd; auto. apply Rle_trans with C; auto. apply HC. rewrite <- abs_fin by auto. apply in_concat. exists (rowMaxZ r). split; [apply in_map; auto|]. unfold rowMaxZ. apply in_map. auto. }
    unfold bndR. repeat split; first [solve [apply Y; [cbn; auto 10|auto]] | solve [apply Z; [cbn; auto 10|auto]]].
  - apply fin_bnd; auto.
  - apply fin_bnd; auto.
  - apply fin_bnd; auto.
Qed.

(** ** Clipping *)
Lemma clip_bnd L x : 0 <= L -> is_fin x -> bnd L (clipF (Fin L) x) /\ bnd L (clipPy (Fin L) x).
Proof.
  intros HL (r & ->). unfold clipF, clipPy. rewrite xopp, xmax, xmin, pmax, pmin.
  assert (Rabs (Rmin (Rmax r (- L)) L) <= L).
  { apply Rabs_le. split; [apply Rmin_glb; [|lra]; apply Rmax_r|apply Rmin_r]. }
  split; eexists; split; try reflexivity; auto.
Qed.
Lemma fin_of_bnd M x : bnd M x -> is_fin x. Proof. intros (r & -> & _). eexists; reflexivity. Qed.
Lemma limit_bound (N : nump xr) TP M dt (RR R' : rates xr) cap : nMaxMorChange N = Fin cap -> 0 <= cap -> 
  finRates RR -> bndRates M RR -> limitRates N TP (Fin M) dt RR = Ok R' ->
  exists M', bndRates M' R' /\ M' * IZR (seconds dt) <= cap /\ (R' = RR \/ (seconds dt <= seconds (tMorDtMin TP))%Z).
Proof.
  intros HN Hc HF HB H. unfold limitRates in H. rewrite HN in H.
  change (Fin cap <? Fin M * fofZ (seconds dt))%n with (Rltb cap (M * IZR (seconds dt))) in H.
  destruct (Rltb cap (M * IZR (seconds dt))) eqn:E.
  - bok H u. apply assert_ok in Eu. destruct (seconds dt =? 0)%Z eqn:E0; [discriminate|]. apply Z.eqb_neq in E0. apply Ok_inj in H. subst R'.
    assert (S0 : (0 <= seconds dt)%Z) by (unfold seconds; apply Z.mod_pos_bound; lia).
    assert (S1 : 0 < IZR (seconds dt)) by (apply IZR_lt; lia).
    rewrite xofZ, xdivf by lra. exists (cap / IZR (seconds dt)).
    assert (HL : 0 <= cap / IZR (seconds dt)) by (apply Rmult_le_pos; [auto|left; apply Rinv_0_lt_compat; auto]).
    split; [|split].
    + destruct HF as (F1 & F2 & F3 & F4 & F5). split; [|split; [|split; [|split]]]; cbn [clipRates rRiv rT rWiden rAgg rMove].
      * apply Forall_forall. intros x Hx. apply in_map_iff in Hx. destruct Hx as (y & <- & Hy). rewrite Forall_forall in F1. apply clip_bnd; auto.
      * apply Forall_forall. intros x Hx. apply in_map_iff in Hx. destruct Hx as (y & <- & Hy). rewrite Forall_forall in F2. destruct (F2 y Hy) as (A0 & A1 & A2 & A3 & A4 & A5 & A6 & A7 & A8).
        unfold bndR, clipRow. cbn [rY0 rY1 rY2 rY3 rY4 rZ0 rZ1 rZ2 rZ3]. repeat split; apply clip_bnd; auto.
      * apply clip_bnd; auto.
      * apply clip_bnd; auto.
      * apply clip_bnd; auto.
    + apply Req_le. field. lra.
    + right. apply Z.leb_le. destruct u. auto.
  - apply Rltb_false in E. apply Ok_inj in H. subst R'. exists M. split; [auto|]. split; [lra|auto].
Qed.

(** ** The step *)
Lemma bnd_moved M s cap x r : 0 <= s -> M * s <= cap -> bnd M r -> moved cap x (x + r * Fin s)%n.
Proof.
  intros Hs HM (v & -> & Hv). exists (v * s). rewrite xmul. split; [|reflexivity].
  rewrite Rabs_mult, (Rabs_right s) by lra. apply Rle_trans with (M * s); [|auto]. apply Rmult_le_compat_r; auto.
Qed.
Section Apply.
  Context {F} {NF : Num F}.
  Lemma apply_inv fuel (P : phys F) N TP T e0 e1 W Zend RiverElev online outlet LagoonWL OutletDep CW CD fl closed LST q CST OW dt0 a :
    morApply fuel P N TP T e0 e1 W Zend RiverElev online outlet LagoonWL OutletDep CW CD fl closed LST q CST OW dt0 = Ok a ->
    exists rbq RR rate R',
      (if closed then rbq = None else exists rb v, outletRb T e1 = Ok rb /\ nth_error LST (prevIx (length LST) rb) = Some v /\ rbq = Some (rb, v)) /\
      ratesFor P (nDx N) T e0 e1 W Zend online outlet CW CD fl closed LST q CST OW = Ok RR /\
      maxRate RR = Ok rate /\ adaptStep fuel N TP rate dt0 = Ok (aDt a) /\ limitRates N TP rate (aDt a) RR = Ok R' /\
      applyRiver (fofZ (seconds (aDt a))) RiverElev (rRiv R') = Ok (aRiver a) /\
      aT a = map2 (applyRow (fofZ (seconds (aDt a))))
        (match rbq with Some (rb, v) => if (f0 <? v)%n then T else upd_with T (prevIx (length T) rb) (fun t => setY0 (tY0 t + v / (shorefaceHeight P t * nDx N))%n t) | None => T end) (rT R') /\
      (if closed then aE1 a = e1 /\ aW a = W /\ aZ a = Zend
       else aE1 a = (e1 + rMove R' * fofZ (seconds (aDt a)))%n /\ aW a = (W + rWiden R' * fofZ (seconds (aDt a)))%n /\ aZ a = (Zend + rAgg R' * fofZ (seconds (aDt a)))%n).
  Proof.
    intros H. unfold morApply in H. bok H x0. bok H rbq. bok H WL. bok H as0. bok H RR. bok H rate. bok H dt. bok H R'. bok H riv.
    exists rbq, RR, rate, R'.
    split.
    { destruct closed; [apply Ok_inj in Erbq; auto|]. bok Erbq rb. bok Erbq v. apply Ok_inj in Erbq. apply ix_ok in Ev. exists rb, v. auto. }
    split; [unfold ratesFor; rewrite Erbq; exact ERR|].
    destruct closed; apply Ok_inj in H; subst a; cbn [aT aE1 aW aZ aRiver aDt]; repeat split; auto.
  Qed.
End Apply.

Lemma map2_nth {A B C} (f : A -> B -> C) l m i x y : nth_error l i = Some x -> nth_error m i = Some y -> nth_error (map2 f l m) i = Some (f x y).
Proof. intros H1 H2. rewrite nth_error_map2, H1, H2. reflexivity. Qed.

Lemma river_moved M s cap rs : 0 <= s -> M * s <= cap -> Forall (bnd M) rs -> forall zs, length rs = length zs ->
  Forall2 (moved cap) zs (map2 (fun a r => a + r * Fin s)%n zs rs).
Proof.
  intros Hs HM FR. induction FR as [|r rs Hr _ IH]; intros [|z' zs] E; try discriminate; cbn [map2]; constructor; [eapply bnd_moved; eauto|].
  apply IH. cbn in E. lia.
Qed.
Section Cap.
  Variables (fuel : nat) (P : phys xr) (N : nump xr) (TP : timep) (T : list (tsect xr)) (e0 e1 W Zend : xr) (RiverElev : list xr)
            (online outlet : list nat) (LagoonWL OutletDep CW CD : list xr) (fl : list nat) (closed : bool) (LST q CST : list R) (OW : list bool)
            (dt0 : Z) (a : applied xr) (d cap : R).
  Hypothesis HD : nDx N = Fin d.
  Hypothesis HM : nMaxMorChange N = Fin cap.
  Hypothesis Hcap : 0 <= cap.
  Hypothesis SI : soundInputs P d T e1 W Zend online outlet CW CD fl closed (length q).
  Hypothesis H : morApply fuel P N TP T e0 e1 W Zend RiverElev online outlet LagoonWL OutletDep CW CD fl closed
                   (map Fin LST) (map Fin q) (map Fin CST) OW dt0 = Ok a.

  Lemma cap_main : exists RR M' R',
    ratesFor P (Fin d) T e0 e1 W Zend online outlet CW CD fl closed (map Fin LST) (map Fin q) (map Fin CST) OW = Ok RR /\
    length (rT R') = length T /\
    bndRates M' R' /\ M' * IZR (seconds (aDt a)) <= cap /\ (R' = RR \/ (seconds (aDt a) <= seconds (tMorDtMin TP))%Z) /\
      applyRiver (Fin (IZR (seconds (aDt a)))) RiverElev (rRiv R') = Ok (aRiver a) /\
      (exists rbq, (if closed then rbq = None else exists rb v, outletRb T e1 = Ok rb /\ nth_error LST (prevIx (length LST) rb) = Some v /\ rbq = Some (rb, Fin v)) /\
      aT a = map2 (applyRow (Fin (IZR (seconds (aDt a)))))
        (match rbq with Some (rb, v) => if (f0 <? v)%n then T else upd_with T (prevIx (length T) rb) (fun t => setY0 (tY0 t + v / (shorefaceHeight P t * Fin d))%n t) | None => T end) (rT R')) /\
      (if closed then aE1 a = e1 /\ aW a = W /\ aZ a = Zend
       else aE1 a = (e1 + rMove R' * Fin (IZR (seconds (aDt a))))%n /\ aW a = (W + rWiden R' * Fin (IZR (seconds (aDt a))))%n /\ aZ a = (Zend + rAgg R' * Fin (IZR (seconds (aDt a))))%n).
  Proof.
    destruct (apply_inv _ _ _ _ _ _ _ _ _ _ _ _ _ _ _ _ _ _ _ _ _ _ _ _ H) as (rbq & RR & rate & R' & A1 & A2 & A3 & A4 & A5 & A6 & A7 & A8).
    rewrite HD in *. pose proof (rates_finite _ _ _ _ _ _ _ _ _ _ _ _ _ _ _ _ _ _ SI A2) as FR.
    destruct (max_bound _ _ FR A3) as (M & -> & HB).
    destruct (limit_bound _ _ _ _ _ _ _ HM Hcap FR HB A5) as (M' & B1 & B2 & B3).
    exists RR, M', R'. split; [exact A2|]. split.
    { pose proof (rf_len _ _ _ _ _ _ _ _ _ _ _ _ _ _ _ _ _ _ (real _ _ _ _ _ _ _ _ _ _ _ _ _ _ _ _ _ _ SI A2)) as LL.
      unfold limitRates in A5. destruct (_ <? _)%n in A5; [|apply Ok_inj in A5; subst; auto].
      bok A5 u. destruct (_ =? _)%Z in A5; [discriminate|]. apply Ok_inj in A5. subst R'. cbn [clipRates rT]. rewrite map_length. auto. }
    split; [exact B1|]. split; [exact B2|]. split; [exact B3|]. split; [exact A6|]. split; [|exact A8].
    exists rbq. split; [|exact A7]. destruct closed; [exact A1|]. destruct A1 as (rb & v & C1 & C2 & C3). rewrite nth_error_map, map_length in C2.
    destruct (nth_error LST _) as [v'|] eqn:E; [|discriminate]. cbn in C2. apply Some_inj in C2. subst v. exists rb, v'. auto.
  Qed.
  Lemma s_pos : 0 <= IZR (seconds (aDt a)).
  Proof. apply IZR_le. unfold seconds. apply Z.mod_pos_bound. lia. Qed.

  Lemma cap_transects k v : (closed = false -> firstRight T e1 (S k) /\ nth_error LST k = Some v) ->
    length (aT a) = length T /\
    forall i t t', nth_error T i = Some t -> nth_error (aT a) i = Some t' -> movedT cap (supplied P d closed k v i t) t t'.
  Proof.
    intros HR. destruct cap_main as (RR & M' & R' & A1 & AL & A2 & A3 & A4 & A5 & (rbq & A6 & A7) & A8).
    set (T1 := match rbq with Some (rb, v) => _ | None => T end) in A7.
    assert (LT : length T1 = length T) by (unfold T1; destruct rbq as [[rb w]|]; [destruct (f0 <? w)%n; [|rewrite upd_with_length]|]; reflexivity).
    assert (T1at : forall i t, nth_error T i = Some t -> nth_error T1 i = Some (setY0 (supplied P d closed k v i t) t)).
    { intros i t Ht. unfold T1, supplied. destruct closed.
      - subst rbq. cbn [negb andb]. rewrite Ht. destruct t; reflexivity.
      - destruct A6 as (rb & w & B1 & B2 & ->). destruct (HR eq_refl) as (B3 & B4). apply firstRight_Rb in B3. rewrite B3 in B1. apply Ok_inj in B1. subst rb.
        cbn [prevIx] in *. rewrite B4 in B2. apply Some_inj in B2. subst w. cbn [negb andb].
        change (f0 <? Fin v)%n with (Rltb 0 v). destruct (Rltb 0 v) eqn:E.
        + apply Rltb_true in E. rewrite (proj2 (Rleb_false v 0)) by lra. rewrite andb_false_r. rewrite Ht. destruct t; reflexivity.
        + apply Rltb_false in E. rewrite (proj2 (Rleb_true v 0)) by lra. rewrite andb_true_r.
          destruct (Nat.eqb_spec i k) as [->|NE].
          * rewrite nth_error_upd_with_eq, Ht. cbn [option_map]. f_equal.
            destruct SI as (((cd & Hcd) & _) & Hd & ST & _). rewrite Forall_forall in ST.
            destruct (ST t (nth_error_In _ _ Ht)) as (_ & _ & _ & _ & (z & Hz) & _ & _ & Hh & _).
            unfold shorefaceHeight. rewrite Hcd, Hz in *. cbn [rv] in *. xf. reflexivity.
          * rewrite nth_error_upd_with_ne by auto. rewrite Ht. destruct t; reflexivity. }
    split; [rewrite A7, map2_length; lia|].
    intros i t t' Ht Ht'. rewrite A7 in Ht'. rewrite nth_error_map2, (T1at i t Ht) in Ht'.
    destruct (nth_error (rT R') i) as [r|] eqn:Er; [|discriminate]. apply Some_inj in Ht'. subst t'.
    destruct A2 as (_ & FR & _). rewrite Forall_forall in FR. destruct (FR r (nth_error_In _ _ Er)) as (C0 & C1 & C2 & C3 & C4 & C5 & C6 & C7 & C8).
    pose proof s_pos. unfold movedT, applyRow. destruct t as [x y0 y1 y2 y3 y4 z0 z1 z2 z3]. cbn [setY0 tX tY0 tY1 tY2 tY3 tY4 tZ0 tZ1 tZ2 tZ3].
    repeat split; eapply bnd_moved; eauto.
  Qed.
  Lemma supply_moves k v t t' : closed = false -> firstRight T e1 (S k) -> nth_error LST k = Some v -> v <= 0 ->
    nth_error T k = Some t -> nth_error (aT a) k = Some t' ->
    moved cap (tY0 t + Fin (v / ((rv (pClosureDepth P) + rv (tZ0 t)) * d)))%n (tY0 t').
  Proof.
    intros HC HR Hv Hn Ht Ht'. destruct (cap_transects k v) as (_ & C); [auto|]. destruct (C k t t' Ht Ht') as (_ & M & _).
    unfold supplied in M. rewrite HC, Nat.eqb_refl, (proj2 (Rleb_true v 0)) in M by lra. exact M.
  Qed.
  Lemma cap_river : match RiverElev with
    | [] => aRiver a = []
    | z :: zs => exists zs', aRiver a = z :: zs' /\ Forall2 (moved cap) zs zs'
    end.
  Proof.
    destruct cap_main as (RR & M' & R' & A1 & AL & A2 & A3 & A4 & A5 & _). destruct A2 as (FR & _). pose proof s_pos as Hs.
    unfold applyRiver in A5. destruct RiverElev as [|z zs]; [destruct (Nat.eqb _ _) in A5; [apply Ok_inj in A5; auto|discriminate]|].
    destruct (Nat.eqb _ _) eqn:E in A5; [|discriminate]. apply Nat.eqb_eq in E. apply Ok_inj in A5. eexists. split; [symmetry; exact A5|].
    eapply river_moved; eauto.
  Qed.
  Lemma cap_end : if closed then aE1 a = e1 /\ aW a = W /\ aZ a = Zend
    else moved cap e1 (aE1 a) /\ moved cap W (aW a) /\ moved cap Zend (aZ a).
  Proof.
    destruct cap_main as (RR & M' & R' & A1 & AL & (_ & _ & B1 & B2 & B3) & A3 & A4 & A5 & _ & A8). pose proof s_pos as Hs.
    destruct closed; [exact A8|]. destruct A8 as (-> & -> & ->). repeat split; eapply bnd_moved; eauto.
  Qed.
  (** Beyond the minimum step nothing is clipped. *)
  Lemma uncapped k v : (closed = false -> firstRight T e1 (S k) /\ nth_error LST k = Some v) ->
    (seconds (tMorDtMin TP) < seconds (aDt a))%Z -> exists RR,
    ratesFor P (Fin d) T e0 e1 W Zend online outlet CW CD fl closed (map Fin LST) (map Fin q) (map Fin CST) OW = Ok RR /\
    forall i t t' r, nth_error T i = Some t -> nth_error (aT a) i = Some t' -> nth_error (rT RR) i = Some r -> (closed = false -> i <> k) ->
    let s := Fin (IZR (seconds (aDt a))) in
    t' = mkT (tX t) (tY0 t + rY0 r * s)%n (tY1 t + rY1 r * s)%n (tY2 t + rY2 r * s)%n (tY3 t + rY3 r * s)%n (tY4 t + rY4 r * s)%n
             (tZ0 t + rZ0 r * s)%n (tZ1 t + rZ1 r * s)%n (tZ2 t + rZ2 r * s)%n (tZ3 t + rZ3 r * s)%n.
  Proof.
    intros HR HS. destruct cap_main as (RR & M' & R' & A1 & AL & A2 & A3 & A4 & A5 & (rbq & A6 & A7) & A8).
    destruct A4 as [->|A4]; [|lia]. exists RR. split; [exact A1|]. intros i t t' r Ht Ht' Hr HX. cbv zeta.
    rewrite A7, nth_error_map2, Hr in Ht'.
    match type of Ht' with match nth_error ?l i with _ => _ end = _ => assert (E : nth_error l i = Some t) end.
    { destruct closed; [subst rbq; exact Ht|]. destruct A6 as (rb & w & B1 & B2 & ->). destruct (HR eq_refl) as (B3 & B4).
      apply firstRight_Rb in B3. rewrite B3 in B1. apply Ok_inj in B1. subst rb. cbn [prevIx]. destruct (f0 <? Fin w)%n; [exact Ht|].
      rewrite nth_error_upd_with_ne; auto. intros ->. apply HX; reflexivity. }
    rewrite E in Ht'. apply Some_inj in Ht'. symmetry. exact Ht'.
  Qed.
End Cap.
