(** Sediment in the whole domain during the movement of one update (mor.py:70-215), exact arithmetic. *)
From Coq Require Import ZArith List Bool Lia Reals Lra.
From Verif Require Import Base Num Xr MState MCoast MRiv MMor SMor SVol PCoast PLag PCore PRate PBudget PShore PRateEx PCap.
Import ListNotations.
Local Open Scope R_scope.

(** ** One transect *)
Definition slope (P : phys xr) (t : tsect xr) (r : trate xr) : R :=
  rv (rY0 r) * (rv (pClosureDepth P) + rv (tZ0 t))
  + (if outletPresent t
     then rv (rZ0 r) * (rv (tY0 t) - rv (tY1 t)) - rv (rY1 r) * (rv (tZ0 t) - rv (tZ1 t)) + rv (rZ1 r) * (rv (tY1 t) - rv (tY2 t))
          + rv (rY2 r) * (rv (tZ2 t) - rv (tZ1 t)) + rv (rZ2 r) * (rv (tY2 t) - rv (tY3 t)) - rv (rY3 r) * (rv (tZ2 t) - rv (tZ3 t))
     else rv (rZ0 r) * (rv (tY0 t) - rv (tY3 t)) - rv (rY3 r) * (rv (tZ0 t) - rv (tZ3 t)))
  + rv (rZ3 r) * (rv (tY3 t) - rv (tY4 t)) + rv (rY4 r) * (rv (pBackshoreElev P) - rv (tZ3 t)).

Lemma shifted_present s t r : is_fin (rY1 r) -> outletPresent (shifted s t r) = outletPresent t.
Proof. intros (a & E). unfold outletPresent, shifted. cbn [tY1]. rewrite E. destruct (tY1 t); reflexivity. Qed.

Lemma shift_section P s t r : soundT P t -> finR r ->
  section P (shifted s t r) - section P t = s * slope P t r + s * s * mixed t r.
Proof.
  intros ST FR. pose proof FR as (_ & F1 & _). unfold section. rewrite shifted_present by auto.
  destruct t as [x y0 y1 y2 y3 y4 z0 z1 z2 z3], r as [a0 a1 a2 a3 a4 b0 b1 b2 b3].
  destruct ST as ((rx & Ex) & (r0 & E0) & (r3 & E3) & (r4 & E4) & (s0 & F0) & (s3 & F3) & HP & _).
  destruct FR as ((g0 & G0) & (g1 & G1) & (g2 & G2) & (g3 & G3) & (g4 & G4) & (h0 & H0) & (h1 & H1) & (h2 & H2) & (h3 & H3)).
  cbn [tX tY0 tY1 tY2 tY3 tY4 tZ0 tZ1 tZ2 tZ3 rY0 rY1 rY2 rY3 rY4 rZ0 rZ1 rZ2 rZ3] in *. subst.
  unfold slope, mixed, shifted. cbn [tX tY0 tY1 tY2 tY3 tY4 tZ0 tZ1 tZ2 tZ3 rY0 rY1 rY2 rY3 rY4 rZ0 rZ1 rZ2 rZ3] in *.
  destruct (outletPresent _) eqn:OP.
  - destruct (HP eq_refl) as ((r1 & ->) & (r2 & ->) & (s1 & ->) & (s2 & ->)). xf. cbn [rv]. ring.
  - xf. cbn [rv]. ring.
Qed.

Lemma gainAt_scat q : forall idx js i, NoDup idx -> length idx = length js ->
  gainAt q idx js i = match scat idx js i with Some j => gain q j | None => 0 end.
Proof.
  unfold gainAt, rsum. induction idx as [|a idx IH]; intros [|j js] i N L; try discriminate; [reflexivity|].
  inversion N as [|? ? N1 N2]; subst. cbn [map2 fold_right scat]. rewrite IH by (cbn in L; auto; lia).
  destruct (Nat.eqb_spec a i) as [->|X]; [|lra].
  destruct (scat idx js i) eqn:E; [|lra]. apply scat_In in E. contradiction.
Qed.

(** ** Sums *)
Lemma rsum_map_plus {A} (f g : A -> R) m : rsum (map (fun x => f x + g x) m) = rsum (map f m) + rsum (map g m).
Proof. unfold rsum. induction m as [|x m IH]; cbn [map fold_right]; [lra|]. rewrite IH. lra. Qed.
Lemma total_seq (f : nat -> tsect xr -> R) (g : nat -> R) T :
  (forall i t, nth_error T i = Some t -> f i t = g i) -> total f T = rsum (map g (seq 0 (length T))).
Proof.
  intros H. unfold total. f_equal. apply nth_error_ext. intros i. rewrite nth_error_mapi, nth_error_map.
  destruct (nth_error T i) as [t|] eqn:E.
  - assert (i < length T)%nat by (apply nth_error_Some; congruence).
    rewrite (proj2 (nth_error_seq 0 (length T) i i)) by (split; lia). cbn. rewrite (H i t E). reflexivity.
  - apply nth_error_None in E. rewrite (proj2 (nth_error_None (seq 0 (length T)) i)) by (rewrite seq_length; lia). reflexivity.
Qed.
Lemma total_ext (f g : nat -> tsect xr -> R) T : (forall i t, nth_error T i = Some t -> f i t = g i t) -> total f T = total g T.
Proof.
  intros H. unfold total. f_equal. apply nth_error_ext. intros i. rewrite !nth_error_mapi.
  destruct (nth_error T i) as [t|] eqn:E; [|reflexivity]. cbn. rewrite (H i t E). reflexivity.
Qed.
Lemma total_plus (f g : nat -> tsect xr -> R) T : total (fun i t => f i t + g i t) T = total f T + total g T.
Proof.
  unfold total, mapi. generalize 0%nat. induction T as [|t T IH]; intros a; cbn; [lra|]. unfold rsum in *. cbn [fold_right]. rewrite IH. lra.
Qed.
Lemma gains_all q n : forall idx js, length idx = length js -> (forall i, In i idx -> (i < n)%nat) ->
  rsum (map (gainAt q idx js) (seq 0 n)) = rsum (map (gain q) js).
Proof.
  induction idx as [|a idx IH]; intros [|j js] L H; try discriminate.
  - unfold gainAt, rsum. cbn. induction (seq 0 n); cbn [map fold_right]; lra.
  - transitivity (rsum (map (fun i => (if Nat.eqb i a then gain q j else 0) + gainAt q idx js i) (seq 0 n))).
    + f_equal. apply map_ext. intros i. unfold gainAt, rsum. cbn [map2 fold_right]. rewrite Nat.eqb_sym. reflexivity.
    + rewrite rsum_map_plus, rsum_single, IH by (cbn in L; try lia; intros; apply H; right; auto).
      specialize (H a (or_introl eq_refl)). destruct (Nat.leb_spec 0 a), (Nat.ltb_spec a (0 + n)); try lia. cbn [andb]. reflexivity.
Qed.

Lemma total_zero (f : nat -> tsect xr -> R) T : (forall i t, f i t = 0) -> total f T = 0.
Proof.
  intros H. unfold total, mapi. generalize 0%nat. induction T as [|t T IH]; intros a; cbn; [reflexivity|].
  unfold rsum in *. cbn [fold_right]. rewrite IH, H. lra.
Qed.
Lemma vol_core P d s : forall (T : list (tsect xr)) rs f a, Forall finR rs -> length rs = length T -> Forall (soundT P) T ->
  (forall i t r, nth_error T i = Some t -> nth_error rs i = Some r -> d * slope P t r = f (a + i)%nat t) ->
  rsum (mapi_from a (fun _ t => d * section P t) (map2 (shifted s) T rs)) - rsum (mapi_from a (fun _ t => d * section P t) T) =
  s * rsum (mapi_from a f T) + s * s * rsum (map2 (fun t r => d * mixed t r) T rs).
Proof.
  induction T as [|t T' IH]; intros [|r rs] f a FR LT ST A; try discriminate.
  - cbn. lra.
  - inversion FR as [|? ? FR1 FR2]. inversion ST as [|? ? ST1 ST2]. subst.
    assert (A' : forall i t r, nth_error T' i = Some t -> nth_error rs i = Some r -> d * slope P t r = f (S a + i)%nat t).
    { intros i t' r' H1 H2. specialize (A (S i) t' r' H1 H2). rewrite A. f_equal. lia. }
    specialize (IH rs f (S a) FR2 ltac:(cbn in LT; lia) ST2 A'). specialize (A 0%nat t r eq_refl eq_refl). rewrite Nat.add_0_r in A.
    pose proof (shift_section P s t r ST1 FR1) as SS. unfold rsum in *. cbn [map2 mapi_from fold_right] in *.
    assert (SD : d * section P (shifted s t r) - d * section P t = s * (d * slope P t r) + s * s * (d * mixed t r)) by (rewrite <- Rmult_minus_distr_l, SS; ring).
    rewrite A in SD. lra.
Qed.

Section Vol.
  Variables (P : phys xr) (d : R) (T : list (tsect xr)) (e0 e1 W Zend : xr) (online outlet : list nat)
            (CW CD : list xr) (fl : list nat) (closed : bool) (l q c : list R) (OW : list bool)
            (RR : rates xr).
  Hypothesis SI : soundInputs P d T e1 W Zend online outlet CW CD fl closed (length q).
  Hypothesis HR : ratesFor P (Fin d) T e0 e1 W Zend online outlet CW CD fl closed (map Fin l) (map Fin q) (map Fin c) OW = Ok RR.
  Let FM : realForm P d T e0 e1 W Zend online outlet CW CD fl closed l q c OW RR := real _ _ _ _ _ _ _ _ _ _ _ _ _ _ _ _ _ _ SI HR.

  Lemma slope_val k i t r : (closed = false -> firstRight T e1 (S k)) ->
    nth_error T i = Some t -> nth_error (rT RR) i = Some r ->
    d * slope P t r = received P d (length T) e1 online outlet fl closed l q c k i t.
  Proof.
    intros HK Ht Hr. pose proof SI as (SP & Hd & ST & He & SE & N1 & N2 & SL & SO & _).
    assert (TS : soundT P t) by (rewrite Forall_forall in ST; apply ST; eapply nth_error_In; eauto).
    destruct (row_val SP Hd ST FM i t r Ht Hr) as (L & O & y & E & sp & rbv & B & Y).
    pose proof (rf_lst _ _ _ _ _ _ _ _ _ _ _ _ _ _ _ _ _ _ FM) as LL.
    pose proof (rf_online _ _ _ _ _ _ _ _ _ _ _ _ _ _ _ _ _ _ FM) as LN.
    pose proof (rf_outlet _ _ _ _ _ _ _ _ _ _ _ _ _ _ _ _ _ _ FM) as LO.
    assert (Li : (i < length T)%nat) by (apply nth_error_Some; congruence).
    unfold received. rewrite gainAt_scat by auto.
    assert (GO : (if closed then 0 else gainAt q outlet (flagged closed fl 2) i) =
                 match scat (if closed then [] else outlet) (if closed then [] else flagged closed fl 2) i with Some j => gain q j | None => 0 end).
    { destruct closed; [reflexivity|]. apply gainAt_scat; auto. symmetry; auto. }
    rewrite GO. clear GO.
    set (lag := scat online (flagged closed fl 1) i) in *.
    set (out := scat (if closed then [] else outlet) (if closed then [] else flagged closed fl 2) i) in *.
    assert (YY : y * ((rv (pClosureDepth P) + rv (tZ0 t)) * d) + nth i c 0 * d =
      (if Nat.eqb i 0 || Nat.eqb (S i) (length T) then nth i c 0 * d - retreat P * height P t * d
       else nth (i - 1) l 0 - nth i l 0
          + (if closed then 0 else landing P d (nth (length q - 1) q 0) e1 t - (if Nat.eqb i (S k) then Rmax (nth k l 0) 0 else 0)))).
    { destruct (Nat.eqb i 0 || Nat.eqb (S i) (length T)) eqn:EE.
      - apply orb_prop in EE. rewrite olst_out in Y by (destruct EE as [X|X]; apply Nat.eqb_eq in X; lia).
        subst y. unfold retreat, height. replace (IZR 36525 / 100) with 365.25 by lra. field; lra.
      - apply orb_false_iff in EE. destruct EE as (X1 & X2). apply Nat.eqb_neq in X1, X2. rewrite olst_in in Y by lia. cbv zeta in Y. rewrite Y.
        destruct closed.
        + destruct B as (-> & ->). cbn [withheld]. lra.
        + destruct B as (-> & rb & v & -> & B1 & B2). specialize (HK eq_refl). apply firstRight_Rb in HK. rewrite HK in B1. apply Ok_inj in B1. subst rb.
          cbn [prevIx] in B2. rewrite (nth_error_nth _ _ 0 B2). unfold landing. cbv zeta. cbn [withheld].
          destruct (Nat.eqb i (S k)); cbn [andb]; [|lra].
          destruct (Rltb 0 v) eqn:E0; [apply Rltb_true in E0; rewrite (Rmax_left v 0) by lra; lra|apply Rltb_false in E0; rewrite (Rmax_right v 0) by lra; lra]. }
    rewrite <- YY. clear YY Y B HK.
    destruct SP as ((cd & Hcd) & (bs & Hbs) & _).
    destruct t as [x y0 y1 y2 y3 y4 z0 z1 z2 z3].
    destruct TS as ((rx & Ex) & (r0 & E0) & (r3 & E3) & (r4 & E4) & (s0 & F0) & (s3 & F3) & HP & Hh & Hc & Hre).
    cbn [tX tY0 tY1 tY2 tY3 tY4 tZ0 tZ1 tZ2 tZ3] in *. subst x y0 y3 y4 z0 z3.
    unfold slope. subst r. cbn [rY0 rY1 rY2 rY3 rY4 rZ0 rZ1 rZ2 rZ3 tX tY0 tY1 tY2 tY3 tY4 tZ0 tZ1 tZ2 tZ3].
    unfold over, soundLagoon, soundOutlet, bankTop, crest, rear in *.
    rewrite Hbs, Hcd in *. cbn [tX tY0 tY1 tY2 tY3 tY4 tZ0 tZ1 tZ2 tZ3] in *.
    destruct (outletPresent _) eqn:OP.
    - destruct (HP eq_refl) as ((r1 & ->) & (r2 & ->) & (s1 & ->) & (s2 & ->)).
      rewrite xsub in Hc, Hre. rewrite ?xsub. cbn [rv] in *.
      destruct lag as [j|], out as [j'|]; cbn [option_map on] in *;
        try destruct (L ltac:(discriminate)) as (L1 & L2 & L3);
        try destruct (O ltac:(discriminate)) as (_ & O1 & O2 & O3); cbn [rv] in *;
        unfold rxJ; cbv zeta; cbn [xd xb xk xe];
        try (pose proof (rmm (gain q j)) as M; destruct (tooWide P CW CD j));
        try (pose proof (rmm (gain q j')) as M'; destruct (tooWide P CW CD j'));
        destruct (nth i OW false); field_simplify_eq; try (repeat split; nz); nra.
    - assert (out = None) as -> by (destruct out; [destruct (O ltac:(discriminate)); discriminate|auto]).
      rewrite xsub in Hc, Hre. rewrite ?xsub. cbn [rv] in *.
      destruct lag as [j|]; cbn [option_map on] in *;
        try destruct (L ltac:(discriminate)) as (L1 & L2 & L3); cbn [rv] in *;
        unfold rxJ; cbv zeta; cbn [xd xb xk xe];
        try (pose proof (rmm (gain q j)) as M; destruct (tooWide P CW CD j));
        destruct (nth i OW false); field_simplify_eq; try (repeat split; nz); nra.
  Qed.

  Lemma in_range i : In i online -> (i < length T)%nat.
  Proof.
    assert (FO : formOf P (Fin d) T e0 e1 W Zend online outlet CW CD fl closed (map Fin l) q (map Fin c) OW RR).
    { apply form; auto; pose proof SI as (_&_&_&_&_&_&_&_&_&X1&X2&X3); auto. }
    intros Hi. destruct (fo_on _ _ _ _ _ _ _ _ _ _ _ _ _ _ _ _ _ _ FO i Hi) as (t & Ht). apply nth_error_Some. congruence.
  Qed.
  Lemma out_range i : closed = false -> In i outlet -> (i < length T)%nat.
  Proof.
    intros HC. assert (FO : formOf P (Fin d) T e0 e1 W Zend online outlet CW CD fl closed (map Fin l) q (map Fin c) OW RR).
    { apply form; auto; pose proof SI as (_&_&_&_&_&_&_&_&_&X1&X2&X3); auto. }
    intros Hi. destruct (fo_out _ _ _ _ _ _ _ _ _ _ _ _ _ _ _ _ _ _ FO HC i Hi) as (t & Ht). apply nth_error_Some. congruence.
  Qed.

  Lemma river_total : riverGain P d RR = rsum (map (gain q) (flagged closed fl 0)).
  Proof.
    pose proof SI as (SP & Hd & _). unfold riverGain. rewrite (rf_riv _ _ _ _ _ _ _ _ _ _ _ _ _ _ _ _ _ _ FM), map_map. f_equal. apply map_ext. intros j.
    destruct SP as (_ & _ & _ & _ & _ & (rw & -> & Hrw) & _). cbn [rv]. field. split; auto.
  Qed.
  Lemma end_total k : closed = false -> firstRight T e1 (S k) ->
    endGain P d W Zend RR = rsum (map (gain q) (flagged closed fl 3)) + Rabs (nth k l 0).
  Proof.
    intros HC HK. pose proof SI as (SP & Hd & _ & _ & ((w & HW & Nw) & (z & HZ & Nz)) & _).
    pose proof (rf_end _ _ _ _ _ _ _ _ _ _ _ _ _ _ _ _ _ _ FM) as A. rewrite HC in A.
    destruct A as (rb & v & j1 & A1 & A2 & A3 & A4). apply firstRight_Rb in HK. rewrite HK in A1. apply Ok_inj in A1. subst rb. cbn [prevIx] in A2.
    apply (nth_error_nth _ _ 0) in A2. rewrite A2. rewrite HC, A3. cbn [map rsum fold_right].
    destruct SP as (_ & _ & (bt & Hbt) & (bf & Hbf) & _ & _ & (sw & Hsw & Nsw) & _).
    unfold endRates in A4. unfold endGain. rewrite HW, HZ, Hbt, Hbf, Hsw in *. cbn [rv] in *.
    cbn [toX xDep xBed xBank xEro xd xb xk xe] in A4.
    change (f0 <? Fin v)%n with (Rltb 0 v) in A4. set (g := gain q j1) in *. unfold rxJ in A4. fold g in A4. cbv zeta in A4. cbn [xd xb xk xe] in A4.
    pose proof (rmm g) as M.
    destruct (Rltb 0 v) eqn:EV; [apply Rltb_true in EV; rewrite Rabs_right by lra|apply Rltb_false in EV; rewrite Rabs_left1 by lra];
      pose proof (f_equal (fun p => fst (fst p)) A4) as A5; pose proof (f_equal (fun p => snd (fst p)) A4) as A6;
      cbn [fst snd] in A5, A6; rewrite A5, A6; xf; cbn [rv]; destruct (tooWide P CW CD j1); field_simplify_eq; try (repeat split; nz); nra.
  Qed.

  Definition kept (k : nat) : R := if closed then 0 else if (S (S k) <? length T)%nat then Rmax (nth k l 0) 0 else 0.
  Lemma received_total k :
    total (fun i t => received P d (length T) e1 online outlet fl closed l q c k i t) T =
    rsum (map (gain q) (flagged closed fl 1)) + (if closed then 0 else rsum (map (gain q) (flagged closed fl 2)))
    + (nth 0 l 0 - nth (length l - 1) l 0) + endsGain P d c T
    + (if closed then 0 else landed P d (nth (length q - 1) q 0) e1 T) - kept k.
  Proof.
    pose proof (rf_lst _ _ _ _ _ _ _ _ _ _ _ _ _ _ _ _ _ _ FM) as LL.
    pose proof (rf_online _ _ _ _ _ _ _ _ _ _ _ _ _ _ _ _ _ _ FM) as LN.
    pose proof (rf_outlet _ _ _ _ _ _ _ _ _ _ _ _ _ _ _ _ _ _ FM) as LO.
    rewrite (total_ext _ (fun i t =>
      ((gainAt q online (flagged closed fl 1) i + (if closed then 0 else gainAt q outlet (flagged closed fl 2) i))
       + ((if isEnd (length T) i then 0 else nth (i - 1) l 0 - nth i l 0)
          + (if closed then 0 else if isEnd (length T) i then 0 else - (if Nat.eqb i (S k) then Rmax (nth k l 0) 0 else 0))))
      + ((if isEnd (length T) i then nth i c 0 * d - retreat P * height P t * d else 0)
         + (if closed then 0 else if isEnd (length T) i then 0 else landing P d (nth (length q - 1) q 0) e1 t)))).
    2:{ intros i t _. unfold received, isEnd. destruct (_ || _), closed; lra. }
    rewrite !total_plus.
    rewrite (total_seq (fun i t => gainAt q online (flagged closed fl 1) i) (gainAt q online (flagged closed fl 1))) by auto.
    rewrite gains_all by (auto; apply in_range).
    assert (G2 : total (fun i (t : tsect xr) => if closed then 0 else gainAt q outlet (flagged closed fl 2) i) T =
                 if closed then 0 else rsum (map (gain q) (flagged closed fl 2))).
    { case_eq closed; intros EC.
      - apply total_zero. reflexivity.
      - rewrite (total_seq (fun i t => gainAt q outlet (flagged false fl 2) i) (gainAt q outlet (flagged false fl 2))) by auto.
        specialize (LO EC). rewrite EC in LO. apply gains_all; [symmetry; exact LO|]. intros i. apply out_range; auto. }
    rewrite G2.
    assert (G3 : total (fun i (t : tsect xr) => if isEnd (length T) i then 0 else nth (i - 1) l 0 - nth i l 0) T = nth 0 l 0 - nth (length l - 1) l 0).
    { rewrite (total_seq _ (fun i => if isEnd (length T) i then 0 else nth (i - 1) l 0 - nth i l 0)) by auto.
      replace (length T) with (S (length l)) by lia. cbn [seq map rsum fold_right]. unfold isEnd at 1. cbn [Nat.eqb orb].
      destruct (length l) as [|m] eqn:EL; [cbn [seq map fold_right]; replace (0 - 1)%nat with 0%nat by lia; lra|].
      rewrite seq_S, map_app. cbn [map]. fold (rsum (map (fun i => if isEnd (S (S m)) i then 0 else nth (i - 1) l 0 - nth i l 0) (seq 1 m) ++ [if isEnd (S (S m)) (1 + m) then 0 else nth (1 + m - 1) l 0 - nth (1 + m) l 0])).
      rewrite rsum_app. unfold isEnd at 2. rewrite (proj2 (Nat.eqb_eq (S (1 + m)) (S (S m)))) by lia. rewrite orb_true_r. cbn [rsum fold_right].
      rewrite (map_ext_in _ (fun i => nth (i - 1) l 0 - nth i l 0)).
      - rewrite (tele (fun i => nth i l 0) 0 m). replace (S m - 1)%nat with (0 + m)%nat by lia. lra.
      - intros i Hi. apply in_seq in Hi. unfold isEnd. destruct (Nat.eqb_spec i 0), (Nat.eqb_spec (S i) (S (S m))); try lia. reflexivity. }
    rewrite G3.
    assert (G4 : total (fun i (t : tsect xr) => if closed then 0 else if isEnd (length T) i then 0 else - (if Nat.eqb i (S k) then Rmax (nth k l 0) 0 else 0)) T = - kept k).
    { rewrite (total_seq _ (fun i => if Nat.eqb i (S k) then (if isEnd (length T) (S k) then 0 else - kept k) else 0)).
      - rewrite rsum_single. unfold kept, isEnd. destruct (Nat.ltb_spec (S (S k)) (length T)) as [X|X].
        + destruct (Nat.eqb_spec (S k) 0), (Nat.eqb_spec (S (S k)) (length T)), (Nat.leb_spec 0 (S k)), (Nat.ltb_spec (S k) (0 + length T)); try lia. cbn [orb andb]. destruct closed; lra.
        + destruct (Nat.leb_spec 0 (S k)), (Nat.ltb_spec (S k) (0 + length T)); try lia; cbn [andb]; destruct closed; try lra.
          all: destruct (Nat.eqb_spec (S k) 0), (Nat.eqb_spec (S (S k)) (length T)); try lia; cbn [orb]; lra.
      - intros i t Ht. assert (i < length T)%nat by (apply nth_error_Some; congruence). unfold kept, isEnd.
        destruct (Nat.eqb_spec i (S k)) as [->|X].
        + destruct closed; [destruct (_ || _); lra|]. destruct (Nat.eqb_spec (S k) 0), (Nat.eqb_spec (S (S k)) (length T)); try lia; cbn [orb]; try lra.
          destruct (Nat.ltb_spec (S (S k)) (length T)); try lia. lra.
        + destruct closed; [lra|]. destruct (_ || _); lra. }
    rewrite G4. unfold endsGain, landed.
    assert (G5 : total (fun i t => if closed then 0 else if isEnd (length T) i then 0 else landing P d (nth (length q - 1) q 0) e1 t) T =
                 if closed then 0 else total (fun i t => if isEnd (length T) i then 0 else landing P d (nth (length q - 1) q 0) e1 t) T).
    { destruct closed; [|reflexivity]. apply total_zero. reflexivity. }
    rewrite G5. lra.
  Qed.

  Lemma moved_volume s k : (closed = false -> firstRight T e1 (S k)) ->
    volume P d (map2 (shifted s) T (rT RR)) - volume P d T =
    s * total (fun i t => received P d (length T) e1 online outlet fl closed l q c k i t) T + s * s * crossed d T (rT RR).
  Proof.
    intros HK. pose proof (rates_finite _ _ _ _ _ _ _ _ _ _ _ _ _ _ _ _ _ _ SI HR) as (_ & FR & _).
    pose proof SI as (_ & _ & ST & _). pose proof (rf_len _ _ _ _ _ _ _ _ _ _ _ _ _ _ _ _ _ _ FM) as LT.
    unfold volume, total, crossed, mapi. apply vol_core; auto. intros i t r Ht Hr. apply slope_val; auto.
  Qed.

  Lemma balance s k : (closed = false -> firstRight T e1 (S k)) ->
    (forall j, In j (seq 1 (length fl - (if closed then 1 else 2))) -> (nth j fl 9 <= (if closed then 1 else 3))%nat) ->
    volume P d (map2 (shifted s) T (rT RR)) - volume P d T + s * (riverGain P d RR + (if closed then 0 else endGain P d W Zend RR)) =
    s * (nth 0 q 0 - (if closed then 0 else nth (length q - 1) q 0) + (nth 0 l 0 - nth (length l - 1) l 0) + endsGain P d c T
         + (if closed then 0 else landed P d (nth (length q - 1) q 0) e1 T + Rabs (nth k l 0) - (if (S (S k) <? length T)%nat then Rmax (nth k l 0) 0 else 0)))
    + s * s * crossed d T (rT RR).
  Proof.
    intros HK HF. rewrite moved_volume with (k := k) by auto. rewrite received_total, river_total.
    assert (LQ : length fl = S (length q)) by (pose proof SI as (_&_&_&_&_&_&_&_&_&_&_&X); exact X).
    pose proof (partition4 (gain q) (fun j => nth j fl 9%nat) (seq 1 (length fl - (if closed then 1 else 2)))) as PT.
    change (rsum (map (gain q) (seq 1 (length fl - (if closed then 1 else 2)))) = _) with (rsum (map (gain q) (seq 1 (length fl - (if closed then 1 else 2)))) =
      rsum (map (gain q) (flagged closed fl 0)) + rsum (map (gain q) (flagged closed fl 1))
      + rsum (map (gain q) (flagged closed fl 2)) + rsum (map (gain q) (flagged closed fl 3))) in PT.
    rewrite gains in PT. cbn [Nat.add] in PT. unfold kept. pose proof end_total as ET.
    destruct closed.
    - assert (E2 : forall m, (2 <= m)%nat -> flagged true fl m = []).
      { intros m Hm. unfold flagged. assert (A : forall u, (forall j, In j u -> (nth j fl 9 <= 1)%nat) -> filter (fun j => Nat.eqb (nth j fl 9%nat) m) u = []).
        { induction u as [|j u IH]; intros H; [reflexivity|]. cbn [filter]. destruct (Nat.eqb_spec (nth j fl 9%nat) m) as [X|X].
          - specialize (H j (or_introl eq_refl)). lia.
          - apply IH. intros; apply H; right; auto. }
        apply A. exact HF. }
      rewrite (E2 2%nat), (E2 3%nat) in PT by lia. cbn [map rsum fold_right] in PT.
      rewrite (nth_overflow q (n := (length fl - 1)%nat)) in PT by lia.
      assert (X : forall j, In j (seq 1 (length fl - 1)) -> (nth j fl 9 <= 3)%nat) by (intros j Hj; specialize (HF j Hj); lia).
      specialize (PT X). nra.
    - specialize (PT HF). rewrite (ET k eq_refl (HK eq_refl)).
      replace (length fl - 2)%nat with (length q - 1)%nat in PT by lia. nra.
  Qed.

  Lemma moved_transect s k i t r : (closed = false -> firstRight T e1 (S k)) ->
    nth_error T i = Some t -> nth_error (rT RR) i = Some r ->
    d * (section P (shifted s t r) - section P t) = s * received P d (length T) e1 online outlet fl closed l q c k i t + s * s * (d * mixed t r).
  Proof.
    intros HK Ht Hr. pose proof SI as (_ & _ & ST & _). rewrite Forall_forall in ST.
    pose proof (rates_finite _ _ _ _ _ _ _ _ _ _ _ _ _ _ _ _ _ _ SI HR) as (_ & FT & _). rewrite Forall_forall in FT.
    rewrite (shift_section P s t r (ST _ (nth_error_In _ _ Ht)) (FT _ (nth_error_In _ _ Hr))), <- (slope_val k i t r HK Ht Hr). ring.
  Qed.
End Vol.
