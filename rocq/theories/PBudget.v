(** Sediment budgets of the rates of change (mor.py:70-172), exact arithmetic. *)
From Coq Require Import ZArith List Bool Lia Reals Lra.
From Verif Require Import Base Num Xr MState MCoast MRiv MMor SMor PCoast PLag PCore PRate.
Import ListNotations.
Local Open Scope R_scope.

Definition none (l : list R) : list R := map (fun _ => 0) l.
Lemma none_fin l : map Fin (none l) = map (fun _ => Fin 0) l.
Proof. apply map_map. Qed.
Lemma none_len l : length (none l) = length l. Proof. apply map_length. Qed.
Lemma none_nth l i : nth i (none l) 0 = 0.
Proof. unfold none. change 0 with ((fun _ : R => 0) 0) at 2. rewrite map_nth. auto. Qed.

(** The rates of one transect, spelled out. *)
Lemma row_val {P d T e0 e1 W Zend online outlet CW CD fl closed l q c OW} {RR : rates xr} :
  soundPars P -> d <> 0 -> Forall (soundT P) T ->
  realForm P d T e0 e1 W Zend online outlet CW CD fl closed l q c OW RR ->
  forall i t r, nth_error T i = Some t -> nth_error (rT RR) i = Some r ->
  let lag := option_map (rxJ P CW CD q) (scat online (flagged closed fl 1) i) in
  let out := option_map (rxJ P CW CD q) (scat (if closed then [] else outlet) (if closed then [] else flagged closed fl 2) i) in
  let cst := nth i c 0 in let ow := nth i OW false in
  (lag <> None -> soundLagoon P t) /\ (out <> None -> soundOutlet t) /\
  exists y, r = mkR (Fin y)
      (Fin (on out (fun x => xk x / 2 / ((rv (tZ0 t) - rv (tZ1 t)) * d)) - (if outletPresent t then over ow cst t else 0)))
      (Fin (- on out (fun x => xk x / 2 / ((rv (tZ2 t) - rv (tZ1 t)) * d))))
      (Fin (on lag (fun x => xk x / 2 / ((rv (bankTop t) - rv (tZ3 t)) * d)) - (if outletPresent t then 0 else over ow cst t)))
      (Fin (- on lag (fun x => xk x / 2 / ((rv (pBackshoreElev P) - rv (tZ3 t)) * d))))
      (Fin ((1 - (if ow then 1 else 0)) * cst / rv (crest t)))
      (Fin (on out (fun x => (xd x - xb x) / ((rv (tY1 t) - rv (tY2 t)) * d))))
      (Fin 0)
      (Fin (on lag (fun x => (xd x - xb x) / ((rv (tY3 t) - rv (tY4 t)) * d)))) /\
  exists sp rbv,
    (if closed then sp = None /\ rbv = None
     else sp = Some (nth (length q - 1) q 0) /\ exists rb v, rbv = Some (rb, v) /\
          outletRb T e1 = Ok rb /\ nth_error l (prevIx (length l) rb) = Some v) /\
    match olst l i with
    | None => y = - rv (pShorelineErosionRate P) / (IZR 36525 / 100 * 86400)
    | Some (a, b) =>
      let h := rv (pClosureDepth P) + rv (tZ0 t) in
      let s := rv (pOutletSedSpreadDist P) in
      y * (h * d) = match sp with Some q => d * q / s * Rmax (1 - Rabs (rv (tX t) - rv e1) / s) 0 | None => 0 end
                  + (a - b) - match withheld rbv i with Some q => q | None => 0 end - cst * d
    end.
Proof.
  intros SP Hd ST F i t r Ht Hr. cbv zeta. destruct (rf_row _ _ _ _ _ _ _ _ _ _ _ _ _ _ _ _ _ _ F i t Ht) as (sp & rbv & y & B & (C & L & O) & Y).
  cbv zeta in *. split; [exact L|]. split; [exact O|]. exists y.
  rewrite Hr in C. apply Some_inj in C. rewrite rateOf_val in C; auto.
  - split; [exact C|]. exists sp, rbv. split; auto.
  - rewrite Forall_forall in ST. apply ST. eapply nth_error_In; eauto.
Qed.

  (** *** All cross-sections together *)
  Lemma rsum_app l m : rsum (l ++ m) = rsum l + rsum m.
  Proof. unfold rsum. induction l as [|x l IH]; cbn [app fold_right]; [lra|]. rewrite IH. lra. Qed.
  Lemma partition4 (f : nat -> R) (c : nat -> nat) l : (forall j, In j l -> (c j <= 3)%nat) ->
    rsum (map f l) = rsum (map f (filter (fun j => Nat.eqb (c j) 0) l)) + rsum (map f (filter (fun j => Nat.eqb (c j) 1) l))
      + rsum (map f (filter (fun j => Nat.eqb (c j) 2) l)) + rsum (map f (filter (fun j => Nat.eqb (c j) 3) l)).
  Proof.
    induction l as [|j l IH]; intros H; [unfold rsum; cbn [map filter fold_right]; lra|].
    specialize (IH (fun k Hk => H k (or_intror Hk))). specialize (H j (or_introl eq_refl)).
    cbn [map filter]. destruct (c j) as [|[|[|[|]]]]; [| | | |lia]; cbn [Nat.eqb map rsum fold_right] in *; unfold rsum in IH; rewrite IH; lra.
  Qed.
  Lemma map_nth_eq {A B} (f : A -> R) (g : B -> R) l m : length l = length m ->
    (forall k x y, nth_error l k = Some x -> nth_error m k = Some y -> f x = g y) -> map f l = map g m.
  Proof.
    revert m; induction l as [|x l IH]; intros [|y m] L H; try discriminate; [reflexivity|]. cbn [map]. f_equal.
    - apply (H 0%nat); reflexivity.
    - apply IH; [cbn in L; lia|]. intros k a b Ha Hb. apply (H (S k)); auto.
  Qed.

Section Bedload.
  Variables (P : phys xr) (d : R) (T : list (tsect xr)) (e0 e1 W Zend : xr) (online outlet : list nat)
            (CW CD : list xr) (fl : list nat) (closed : bool) (LST : list R) (q : list R) (CST : list R) (OW : list bool)
            (Rq Rn : rates xr).
  Hypothesis SI : soundInputs P d T e1 W Zend online outlet CW CD fl closed (length q).
  Hypothesis H1 : ratesFor P (Fin d) T e0 e1 W Zend online outlet CW CD fl closed (map Fin LST) (map Fin q) (map Fin CST) OW = Ok Rq.
  Hypothesis H0 : ratesFor P (Fin d) T e0 e1 W Zend online outlet CW CD fl closed (map Fin LST) (map (fun _ => Fin 0) q) (map Fin CST) OW = Ok Rn.

  Lemma formQ : realForm P d T e0 e1 W Zend online outlet CW CD fl closed LST q CST OW Rq.
  Proof. apply real; auto. Qed.
  Lemma formN : realForm P d T e0 e1 W Zend online outlet CW CD fl closed LST (none q) CST OW Rn.
  Proof. apply real; [rewrite none_len; auto|rewrite none_fin; auto]. Qed.

  Lemma soundAt i t : nth_error T i = Some t -> soundT P t.
  Proof. intros H. destruct SI as (_ & _ & ST & _). rewrite Forall_forall in ST. apply ST. eapply nth_error_In; eauto. Qed.

  Lemma lagoon_budget k i j t r r0 :
    nth_error online k = Some i -> nth_error (flagged closed fl 1) k = Some j -> nth_error T i = Some t ->
    nth_error (rT Rq) i = Some r -> nth_error (rT Rn) i = Some r0 ->
    lagoonVol P d t r r0 = Fin (gain q j) /\
    (0 <= gain q j \/ tooWide P CW CD j = true -> rY3 r = rY3 r0 /\ rY4 r = rY4 r0) /\
    (gain q j <= 0 -> tooWide P CW CD j = false -> rZ3 r = rZ3 r0 /\
      ((rY3 r - rY3 r0) * ((bankTop t - tZ3 t) * Fin d))%n = Fin (- gain q j / 2) /\
      ((rY4 r0 - rY4 r) * ((pBackshoreElev P - tZ3 t) * Fin d))%n = Fin (- gain q j / 2)).
  Proof.
    intros Hk Hj Ht Hr Hr0. pose proof SI as (SP & Hd & ST & He & SE & N1 & N2 & SL & SO & _).
    destruct (row_val SP Hd ST formQ i t r Ht Hr) as (L & O & y & E & _).
    destruct (row_val SP Hd ST formN i t r0 Ht Hr0) as (_ & _ & y0 & E0 & _).
    assert (SC : scat online (flagged closed fl 1) i = Some j) by (erewrite scat_nth; eauto; rewrite (rf_online _ _ _ _ _ _ _ _ _ _ _ _ _ _ _ _ _ _ formQ); auto).
    rewrite SC in *. cbn [option_map on] in *. unfold none in E0. rewrite rx_zero in E0. cbn [xd xb xk xe] in E0.
    specialize (L ltac:(discriminate)). destruct L as (L1 & L2 & L3).
    destruct (soundAt i t Ht) as (_ & _ & (y3 & E3) & (y4 & E4) & (z0 & F0) & (z3 & F3) & HP & _).
    destruct SP as (_ & (bs & Hbs) & _).
    assert (BT : is_fin (bankTop t)).
    { unfold bankTop. destruct (outletPresent t) eqn:OP; [destruct (HP eq_refl) as (_ & _ & _ & X); exact X|rewrite F0; eexists; eauto]. }
    destruct BT as (bt & BT). unfold lagoonVol. rewrite E3, E4, F3, BT, Hbs in *. cbn [rv] in *. subst r r0.
    cbn [rY0 rY1 rY2 rY3 rY4 rZ0 rZ1 rZ2 rZ3].
    set (g := gain q j) in *. unfold rxJ. fold g. cbv zeta. cbn [xd xb xk xe].
    set (w := if outletPresent t then 0 else over (nth i OW false) (nth i CST 0) t).
    split; [|split].
    - xf. f_equal. pose proof (rmm g) as M. destruct (tooWide P CW CD j); field_simplify_eq; auto; lra.
    - intros [G|G]; [|rewrite G; split; f_equal; lra]. rewrite Rmin_right by lra.
      destruct (tooWide P CW CD j); split; f_equal; unfold Rdiv; lra.
    - intros G E. rewrite E. rewrite Rmax_right, Rmin_left by lra. split; [f_equal; unfold Rdiv; lra|]. split; xf; f_equal; field; repeat split; nz.
  Qed.

  Lemma outlet_budget k i j t r r0 : closed = false ->
    nth_error outlet k = Some i -> nth_error (flagged closed fl 2) k = Some j -> nth_error T i = Some t ->
    nth_error (rT Rq) i = Some r -> nth_error (rT Rn) i = Some r0 ->
    outletVol d t r r0 = Fin (gain q j) /\
    (0 <= gain q j \/ tooWide P CW CD j = true -> rY1 r = rY1 r0 /\ rY2 r = rY2 r0) /\
    (gain q j <= 0 -> tooWide P CW CD j = false -> rZ1 r = rZ1 r0 /\
      ((rY1 r - rY1 r0) * ((tZ0 t - tZ1 t) * Fin d))%n = Fin (- gain q j / 2) /\
      ((rY2 r0 - rY2 r) * ((tZ2 t - tZ1 t) * Fin d))%n = Fin (- gain q j / 2)).
  Proof.
    intros HC Hk Hj Ht Hr Hr0. pose proof SI as (SP & Hd & ST & He & SE & N1 & N2 & SL & SO & _).
    destruct (row_val SP Hd ST formQ i t r Ht Hr) as (L & O & y & E & _).
    destruct (row_val SP Hd ST formN i t r0 Ht Hr0) as (_ & _ & y0 & E0 & _).
    pose proof (rf_outlet _ _ _ _ _ _ _ _ _ _ _ _ _ _ _ _ _ _ formQ HC) as LO.
    assert (SC : scat (if closed then [] else outlet) (if closed then [] else flagged closed fl 2) i = Some j).
    { rewrite HC in *. erewrite scat_nth; eauto. rewrite LO; auto. }
    rewrite SC in *. cbn [option_map on] in *. unfold none in E0. rewrite rx_zero in E0. cbn [xd xb xk xe] in E0.
    specialize (O ltac:(discriminate)). destruct O as (OP & L1 & L2 & L3).
    destruct (soundAt i t Ht) as (_ & _ & _ & _ & (z0 & F0) & _ & HP & _).
    destruct (HP OP) as ((y1 & E1) & (y2 & E2) & (z1 & F1) & (z2 & F2)).
    rewrite OP in *. unfold outletVol. rewrite E1, E2, F0, F1, F2 in *. cbn [rv] in *. subst r r0.
    cbn [rY0 rY1 rY2 rY3 rY4 rZ0 rZ1 rZ2 rZ3].
    set (g := gain q j) in *. unfold rxJ. fold g. cbv zeta. cbn [xd xb xk xe].
    set (w := over (nth i OW false) (nth i CST 0) t).
    split; [|split].
    - xf. f_equal. pose proof (rmm g) as M. destruct (tooWide P CW CD j); field_simplify_eq; auto; lra.
    - intros [G|G]; [|rewrite G; split; f_equal; lra]. rewrite Rmin_right by lra.
      destruct (tooWide P CW CD j); split; f_equal; unfold Rdiv; lra.
    - intros G E. rewrite E. rewrite Rmax_right, Rmin_left by lra. split; [f_equal; unfold Rdiv; lra|]. split; xf; f_equal; field; repeat split; nz.
  Qed.

  Lemma river_budget k j v v0 : nth_error (flagged closed fl 0) k = Some j ->
    nth_error (rRiv Rq) k = Some v -> nth_error (rRiv Rn) k = Some v0 -> riverVol P d v v0 = Fin (gain q j).
  Proof.
    intros Hj Hv Hv0. pose proof SI as (SP & Hd & _).
    rewrite (rf_riv _ _ _ _ _ _ _ _ _ _ _ _ _ _ _ _ _ _ formQ), nth_error_map, Hj in Hv.
    rewrite (rf_riv _ _ _ _ _ _ _ _ _ _ _ _ _ _ _ _ _ _ formN), nth_error_map, Hj in Hv0.
    cbn in Hv, Hv0. apply Some_inj in Hv, Hv0. subst. unfold none. rewrite gain_zero.
    destruct SP as (_ & _ & _ & _ & _ & (rw & Hrw & Nrw) & _). unfold riverVol. rewrite Hrw. cbn [rv]. xf. f_equal. field. auto.
  Qed.

  Lemma end_budget j : closed = false -> nth_error (flagged closed fl 3) 0 = Some j ->
    endVol P d W Zend Rq Rn = Fin (gain q j) /\ flagged closed fl 3 = [j].
  Proof.
    intros HC Hj. pose proof SI as (SP & Hd & _ & _ & ((w & HW & Nw) & (z & HZ & Nz)) & _).
    pose proof (rf_end _ _ _ _ _ _ _ _ _ _ _ _ _ _ _ _ _ _ formQ) as A.
    pose proof (rf_end _ _ _ _ _ _ _ _ _ _ _ _ _ _ _ _ _ _ formN) as B. rewrite HC in *.
    destruct A as (rb & v & j1 & A1 & A2 & A3 & A4). destruct B as (rb' & v' & j2 & B1 & B2 & B3 & B4).
    rewrite A1 in B1. apply Ok_inj in B1. subst rb'. rewrite A2 in B2. apply Some_inj in B2. subst v'.
    rewrite A3 in *. injection B3 as <-. apply Some_inj in Hj. subst j1. split; [|auto].
    unfold none in B4. rewrite rx_zero in B4.
    destruct SP as (_ & _ & (bt & Hbt) & (bf & Hbf) & _ & _ & (sw & Hsw & Nsw) & _).
    unfold endRates in A4, B4. unfold endVol, bankArea. rewrite HW, HZ, Hbt, Hbf, Hsw in *. cbn [rv] in *.
    cbn [toX xDep xBed xBank xEro xd xb xk xe] in A4, B4.
    set (g := gain q j) in *. unfold rxJ in A4. fold g in A4. cbv zeta in A4, B4. cbn [xd xb xk xe] in A4, B4.
    destruct (f0 <? Fin v)%n;
      pose proof (f_equal (fun p => fst (fst p)) A4) as A5; pose proof (f_equal (fun p => snd (fst p)) A4) as A6;
      pose proof (f_equal (fun p => fst (fst p)) B4) as B5; pose proof (f_equal (fun p => snd (fst p)) B4) as B6;
      cbn [fst snd] in A5, A6, B5, B6; rewrite A5, A6, B5, B6; xf; f_equal;
      pose proof (rmm g) as M; destruct (tooWide P CW CD j); field_simplify_eq; try (repeat split; nz); lra.
  Qed.

  (** Transects with neither a lagoon nor an outlet cross-section keep everything but the shoreline. *)
  Lemma elsewhere i t r r0 : ~ In i online -> (closed = false -> ~ In i outlet) -> nth_error T i = Some t ->
    nth_error (rT Rq) i = Some r -> nth_error (rT Rn) i = Some r0 ->
    r = mkR (rY0 r) (rY1 r0) (rY2 r0) (rY3 r0) (rY4 r0) (rZ0 r0) (rZ1 r0) (rZ2 r0) (rZ3 r0).
  Proof.
    intros NI NO Ht Hr Hr0. pose proof SI as (SP & Hd & ST & _).
    destruct (row_val SP Hd ST formQ i t r Ht Hr) as (_ & _ & y & E & _).
    destruct (row_val SP Hd ST formN i t r0 Ht Hr0) as (_ & _ & y0 & E0 & _).
    rewrite (scat_notin online) in E, E0 by auto.
    assert (SC : scat (if closed then [] else outlet) (if closed then [] else flagged closed fl 2) i = None).
    { destruct closed; [reflexivity|]. apply scat_notin. auto. }
    rewrite SC in E, E0. cbn [option_map on] in E, E0. subst r r0. reflexivity.
  Qed.

  Lemma gains a n : rsum (map (gain q) (seq (S a) n)) = nth a q 0 - nth (a + n) q 0.
  Proof.
    revert a; induction n as [|n IH]; intros a; cbn [seq map rsum fold_right].
    - rewrite Nat.add_0_r. lra.
    - fold (rsum (map (gain q) (seq (S (S a)) n))). rewrite IH. unfold gain. replace (S a - 1)%nat with a by lia.
      replace (S a + n)%nat with (a + S n)%nat by lia. lra.
  Qed.
  Lemma channel_budget : (forall j, In j (seq 1 (length fl - (if closed then 1 else 2))) -> (nth j fl 9 <= (if closed then 1 else 3))%nat) ->
    channelVol P d T W Zend online outlet closed Rq Rn = nth 0 q 0 - (if closed then 0 else nth (length q - 1) q 0).
  Proof.
    intros HF.
    assert (LQ : length fl = S (length q)) by (destruct SI as (_&_&_&_&_&_&_&_&_&_&_&X); exact X).
    pose proof (rf_len _ _ _ _ _ _ _ _ _ _ _ _ _ _ _ _ _ _ formQ) as LT.
    pose proof (rf_len _ _ _ _ _ _ _ _ _ _ _ _ _ _ _ _ _ _ formN) as LT0.
    pose proof (rf_online _ _ _ _ _ _ _ _ _ _ _ _ _ _ _ _ _ _ formQ) as LN.
    assert (Rows : forall i, (i < length T)%nat -> exists t r r0, nth_error T i = Some t /\ nth_error (rT Rq) i = Some r /\ nth_error (rT Rn) i = Some r0).
    { intros i Hi. destruct (nth_error T i) as [t|] eqn:E1; [|apply nth_error_None in E1; lia].
      destruct (nth_error (rT Rq) i) as [r|] eqn:E2; [|apply nth_error_None in E2; lia].
      destruct (nth_error (rT Rn) i) as [r0|] eqn:E3; [|apply nth_error_None in E3; lia]. eauto 10. }
    assert (IN : forall i, In i online -> (i < length T)%nat).
    { assert (FO : formOf P (Fin d) T e0 e1 W Zend online outlet CW CD fl closed (map Fin LST) q (map Fin CST) OW Rq).
      { apply form; auto; destruct SI as (_&_&_&_&_&_&_&_&_&X1&X2&X3); auto. }
      intros i Hi. destruct (fo_on _ _ _ _ _ _ _ _ _ _ _ _ _ _ _ _ _ _ FO i Hi) as (t & Ht). apply nth_error_Some. congruence. }
    assert (INO : closed = false -> forall i, In i outlet -> (i < length T)%nat).
    { intros HC. assert (FO : formOf P (Fin d) T e0 e1 W Zend online outlet CW CD fl closed (map Fin LST) q (map Fin CST) OW Rq).
      { apply form; auto; destruct SI as (_&_&_&_&_&_&_&_&_&X1&X2&X3); auto. }
      intros i Hi. destruct (fo_out _ _ _ _ _ _ _ _ _ _ _ _ _ _ _ _ _ _ FO HC i Hi) as (t & Ht). apply nth_error_Some. congruence. }
    unfold channelVol.
    assert (V0 : map2 (fun v v0 => rv (riverVol P d v v0)) (rRiv Rq) (rRiv Rn) = map (gain q) (flagged closed fl 0)).
    { apply nth_error_ext. intros k. rewrite nth_error_map2, nth_error_map.
      destruct (nth_error (flagged closed fl 0) k) as [j|] eqn:E.
      - assert (Q1 : exists v, nth_error (rRiv Rq) k = Some v) by (rewrite (rf_riv _ _ _ _ _ _ _ _ _ _ _ _ _ _ _ _ _ _ formQ), nth_error_map, E; cbn; eauto).
        assert (Q2 : exists v, nth_error (rRiv Rn) k = Some v) by (rewrite (rf_riv _ _ _ _ _ _ _ _ _ _ _ _ _ _ _ _ _ _ formN), nth_error_map, E; cbn; eauto).
        destruct Q1 as (v & Q1), Q2 as (v0 & Q2). rewrite Q1, Q2, (river_budget k j v v0 E Q1 Q2). reflexivity.
      - rewrite (rf_riv _ _ _ _ _ _ _ _ _ _ _ _ _ _ _ _ _ _ formQ), nth_error_map, E. reflexivity. }
    assert (V1 : map (at3 (lagoonVol P d) T (rT Rq) (rT Rn)) online = map (gain q) (flagged closed fl 1)).
    { apply map_nth_eq; [auto|]. intros k i j Hi Hj. destruct (Rows i) as (t & r & r0 & A & B & C); [apply IN; eapply nth_error_In; eauto|].
      unfold at3. rewrite A, B, C. destruct (lagoon_budget k i j t r r0 Hi Hj A B C) as (-> & _). reflexivity. }
    rewrite V0, V1. 
    assert (PT : (forall j, In j (seq 1 (length fl - (if closed then 1 else 2))) -> (nth j fl 9 <= 3)%nat) ->
      rsum (map (gain q) (seq 1 (length fl - (if closed then 1 else 2)))) =
      rsum (map (gain q) (flagged closed fl 0)) + rsum (map (gain q) (flagged closed fl 1))
      + rsum (map (gain q) (flagged closed fl 2)) + rsum (map (gain q) (flagged closed fl 3)))
      by exact (partition4 (gain q) (fun j => nth j fl 9%nat) _).
    rewrite gains in PT. cbn [Nat.add] in PT.
    assert (V2 : closed = false -> map (at3 (outletVol d) T (rT Rq) (rT Rn)) outlet = map (gain q) (flagged closed fl 2)).
    { intros HC. apply map_nth_eq; [symmetry; apply (rf_outlet _ _ _ _ _ _ _ _ _ _ _ _ _ _ _ _ _ _ formQ HC)|].
      intros k i j Hi Hj. destruct (Rows i) as (t & r & r0 & A & B & C); [apply INO; auto; eapply nth_error_In; eauto|].
      unfold at3. rewrite A, B, C. destruct (outlet_budget k i j t r r0 HC Hi Hj A B C) as (-> & _). reflexivity. }
    assert (V3 : closed = false -> exists j, flagged closed fl 3 = [j] /\ endVol P d W Zend Rq Rn = Fin (gain q j)).
    { intros HC. pose proof (rf_end _ _ _ _ _ _ _ _ _ _ _ _ _ _ _ _ _ _ formQ) as A. rewrite HC in A. destruct A as (_ & _ & j & _ & _ & A & _).
      rewrite <- HC in A. exists j. split; [exact A|]. apply end_budget; auto. rewrite A. reflexivity. }
    clear V0 V1 Rows IN INO LN.
    destruct closed.
    - assert (E2 : forall k, (2 <= k)%nat -> flagged true fl k = []).
      { intros k Hk. unfold flagged. assert (A : forall l, (forall j, In j l -> (nth j fl 9 <= 1)%nat) -> filter (fun j => Nat.eqb (nth j fl 9%nat) k) l = []).
        { induction l as [|j l IH]; intros H; [reflexivity|]. cbn [filter]. destruct (Nat.eqb_spec (nth j fl 9%nat) k) as [X|X].
          - specialize (H j (or_introl eq_refl)). lia.
          - apply IH. intros; apply H; right; auto. }
        apply A. exact HF. }
      rewrite (E2 2%nat), (E2 3%nat) in PT by lia. cbn [map rsum fold_right] in PT.
      rewrite (nth_overflow q (n := (length fl - 1)%nat)) in PT by lia.
      assert (X : forall j, In j (seq 1 (length fl - 1)) -> (nth j fl 9 <= 3)%nat) by (intros j Hj; specialize (HF j Hj); lia).
      specialize (PT X). lra.
    - specialize (PT HF). rewrite (V2 eq_refl). destruct (V3 eq_refl) as (j & E3 & ->). rewrite E3 in PT.
      replace (length fl - 2)%nat with (length q - 1)%nat in PT by lia. unfold rsum in *. cbn [map fold_right rv] in *. lra.
  Qed.
End Bedload.
