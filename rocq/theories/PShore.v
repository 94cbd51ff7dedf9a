(** Budgets of the shoreline: longshore transport, overtopping, river sediment. *)
From Coq Require Import ZArith List Bool Lia Reals Lra.
From Verif Require Import Base Num Xr MState MCoast MRiv MMor SMor PCoast PLag PCore PRate PBudget.
Import ListNotations.
Local Open Scope R_scope.

Lemma firstRight_Rb T e1 rb : firstRight T e1 rb <-> outletRb T e1 = Ok rb.
Proof.
  unfold outletRb, firstRight. rewrite <- first_where_Some. destruct (first_where _ T) as [k|]; cbn; split; intros H; try discriminate.
  - apply Some_inj in H. subst. auto.
  - apply Ok_inj in H. subst. auto.
Qed.
Lemma olst_in l i : (0 < i)%nat -> (i < length l)%nat -> olst l i = Some (nth (i - 1) l 0, nth i l 0).
Proof. intros H1 H2. apply olst_some. split; [lia|]. split; apply nth_error_nth'; lia. Qed.
Lemma olst_out l i : i = 0%nat \/ (length l <= i)%nat -> olst l i = None.
Proof.
  intros [->|H]; [reflexivity|]. unfold olst. destruct i as [|k]; auto.
  rewrite (proj2 (nth_error_None l (S k))) by auto. destruct (nth_error l k); auto.
Qed.
Lemma seq_at3 {A B C} (f : A -> B -> C -> xr) l m n (g : nat -> R) a len :
  (forall i, (a <= i < a + len)%nat -> exists x y z, nth_error l i = Some x /\ nth_error m i = Some y /\ nth_error n i = Some z /\ f x y z = Fin (g i)) ->
  map (at3 f l m n) (seq a len) = map g (seq a len).
Proof.
  intros H. apply map_ext_in. intros i Hi. apply in_seq in Hi. destruct (H i Hi) as (x & y & z & E1 & E2 & E3 & E).
  unfold at3. rewrite E1, E2, E3, E. reflexivity.
Qed.
Lemma tele (f : nat -> R) a n : rsum (map (fun i => f (i - 1)%nat - f i) (seq (S a) n)) = f a - f (a + n)%nat.
Proof.
  revert a; induction n as [|n IH]; intros a; cbn [seq map rsum fold_right].
  - rewrite Nat.add_0_r. lra.
  - change (f (S a - 1)%nat - f (S a) + rsum (map (fun i => f (i - 1)%nat - f i) (seq (S (S a)) n)) = f a - f (a + S n)%nat).
    rewrite IH. replace (S a - 1)%nat with a by lia. replace (S a + n)%nat with (a + S n)%nat by lia. lra.
Qed.
Lemma rsum_minus {A} (f g : A -> R) l : rsum (map (fun x => f x - g x) l) = rsum (map f l) - rsum (map g l).
Proof. unfold rsum. induction l as [|x l IH]; cbn [map fold_right]; [lra|]. rewrite IH. lra. Qed.
Lemma rsum_single (v : R) k a n : rsum (map (fun i => if Nat.eqb i k then v else 0) (seq a n)) = if (a <=? k)%nat && (k <? a + n)%nat then v else 0.
Proof.
  revert a; induction n as [|n IH]; intros a; cbn [seq map rsum fold_right].
  - destruct (Nat.leb_spec a k), (Nat.ltb_spec k (a + 0)); cbn; auto; lia.
  - change ((if Nat.eqb a k then v else 0) + rsum (map (fun i => if Nat.eqb i k then v else 0) (seq (S a) n)) = if (a <=? k)%nat && (k <? a + S n)%nat then v else 0).
    rewrite IH. destruct (Nat.eqb_spec a k), (Nat.leb_spec (S a) k), (Nat.leb_spec a k), (Nat.ltb_spec k (S a + n)), (Nat.ltb_spec k (a + S n)); cbn [andb]; try lia; lra.
Qed.

Section Common.
  Variables (P : phys xr) (d : R) (T : list (tsect xr)) (e0 e1 W Zend : xr) (online outlet : list nat)
            (CW CD : list xr) (fl : list nat) (closed : bool) (OW : list bool).

  Lemma shore_val (l q c : list R) (RR : rates xr) i t r :
    soundInputs P d T e1 W Zend online outlet CW CD fl closed (length q) ->
    realForm P d T e0 e1 W Zend online outlet CW CD fl closed l q c OW RR ->
    nth_error T i = Some t -> nth_error (rT RR) i = Some r -> (0 < i)%nat -> (S i < length T)%nat ->
    exists y, rY0 r = Fin y /\
      (let h := rv (pClosureDepth P) + rv (tZ0 t) in
       let s := rv (pOutletSedSpreadDist P) in
       y * (h * d) = (if closed then 0 else d * nth (length q - 1) q 0 / s * Rmax (1 - Rabs (rv (tX t) - rv e1) / s) 0)
         + (nth (i - 1) l 0 - nth i l 0)
         - (if closed then 0 else match outletRb T e1 with Ok rb => if Nat.eqb i rb then Rmax (nth (prevIx (length l) rb) l 0) 0 else 0 | Exc _ => 0 end)
         - nth i c 0 * d).
  Proof.
    intros (SP & Hd & ST & _) F Ht Hr Hi Hn.
    destruct (row_val SP Hd ST F i t r Ht Hr) as (_ & _ & y & E & sp & rbv & B & Y).
    pose proof (rf_lst _ _ _ _ _ _ _ _ _ _ _ _ _ _ _ _ _ _ F) as LL.
    rewrite olst_in in Y by lia. exists y. split; [subst r; reflexivity|]. cbv zeta in *. rewrite Y. clear Y.
    destruct closed.
    - destruct B as (-> & ->). cbn [withheld]. lra.
    - destruct B as (-> & rb & v & -> & B1 & B2). rewrite B1. cbn [withheld].
      rewrite (nth_error_nth _ _ 0 B2). destruct (Nat.eqb i rb); cbn [andb]; [|lra].
      destruct (Rltb 0 v) eqn:E0; [apply Rltb_true in E0; rewrite (Rmax_left v 0) by lra; lra|apply Rltb_false in E0; rewrite (Rmax_right v 0) by lra; lra].
  Qed.

  Lemma shoreVol_val t r r0 y y0 : soundPars P -> soundT P t -> rY0 r = Fin y -> rY0 r0 = Fin y0 ->
    shoreVol P d t r r0 = Fin (y * ((rv (pClosureDepth P) + rv (tZ0 t)) * d) - y0 * ((rv (pClosureDepth P) + rv (tZ0 t)) * d)).
  Proof.
    intros ((cd & Hcd) & _) (_ & _ & _ & _ & (z0 & Hz) & _) E1 E2. unfold shoreVol. rewrite Hcd, Hz, E1, E2. cbn [rv]. xf. f_equal. ring.
  Qed.

  (** *** Longshore transport *)
  Section Lst.
    Variables (LST q CST : list R) (Rl Rn : rates xr).
    Hypothesis SI : soundInputs P d T e1 W Zend online outlet CW CD fl closed (length q).
    Hypothesis H1 : ratesFor P (Fin d) T e0 e1 W Zend online outlet CW CD fl closed (map Fin LST) (map Fin q) (map Fin CST) OW = Ok Rl.
    Hypothesis H0 : ratesFor P (Fin d) T e0 e1 W Zend online outlet CW CD fl closed (map (fun _ => Fin 0) LST) (map Fin q) (map Fin CST) OW = Ok Rn.
    Lemma formL : realForm P d T e0 e1 W Zend online outlet CW CD fl closed LST q CST OW Rl.
    Proof. apply real; auto. Qed.
    Lemma formL0 : realForm P d T e0 e1 W Zend online outlet CW CD fl closed (none LST) q CST OW Rn.
    Proof. apply real; auto. rewrite none_fin; auto. Qed.

    Lemma lst_budget k i t r r0 : (closed = false -> firstRight T e1 (S k)) -> (0 < i)%nat -> (S i < length T)%nat ->
      nth_error T i = Some t -> nth_error (rT Rl) i = Some r -> nth_error (rT Rn) i = Some r0 ->
      shoreVol P d t r r0 = Fin (nth (i - 1) LST 0 - nth i LST 0
        - (if closed then 0 else if Nat.eqb i (S k) then Rmax (nth k LST 0) 0 else 0)).
    Proof.
      intros HR Hi Hn Ht Hr Hr0. pose proof SI as (SP & Hd & ST & _).
      destruct (shore_val _ _ _ _ i t r SI formL Ht Hr Hi Hn) as (y & E & Y).
      destruct (shore_val _ _ _ _ i t r0 SI formL0 Ht Hr0 Hi Hn) as (y0 & E0 & Y0). cbv zeta in *.
      rewrite (shoreVol_val t r r0 y y0 SP); auto; [|rewrite Forall_forall in ST; apply ST; eapply nth_error_In; eauto].
      rewrite Y, Y0. f_equal. rewrite !none_nth. destruct closed; [lra|].
      specialize (HR eq_refl). apply firstRight_Rb in HR. rewrite HR. cbn [prevIx]. rewrite none_nth, (Rmax_left 0 0) by lra.
      destruct (Nat.eqb i (S k)); lra.
    Qed.
    Lemma lst_uniform v k i t r r0 : Forall (eq v) LST -> (closed = false -> firstRight T e1 (S k)) -> (0 < i)%nat -> (S i < length T)%nat ->
      (closed = false -> i <> S k \/ v <= 0) ->
      nth_error T i = Some t -> nth_error (rT Rl) i = Some r -> nth_error (rT Rn) i = Some r0 ->
      shoreVol P d t r r0 = Fin 0.
    Proof.
      intros HU HR Hi Hn HX Ht Hr Hr0. rewrite (lst_budget k i t r r0) by auto.
      pose proof (rf_lst _ _ _ _ _ _ _ _ _ _ _ _ _ _ _ _ _ _ formL) as LL.
      assert (U : forall j, (j < length LST)%nat -> nth j LST 0 = v).
      { intros j Hj. rewrite Forall_forall in HU. symmetry. apply HU. apply nth_In. auto. }
      rewrite !U by lia. f_equal. destruct closed; [lra|]. specialize (HX eq_refl). destruct (Nat.eqb_spec i (S k)); [|lra].
      destruct HX as [HX|HX]; [lia|]. subst i. rewrite U by lia. rewrite Rmax_right by lra. lra.
    Qed.
    Lemma lst_total k : (closed = false -> firstRight T e1 (S k)) ->
      shorelineVol P d T Rl Rn = nth 0 LST 0 - nth (length LST - 1) LST 0
        - (if closed then 0 else if (S (S k) <? length T)%nat then Rmax (nth k LST 0) 0 else 0).
    Proof.
      intros HR. unfold shorelineVol.
      pose proof (rf_len _ _ _ _ _ _ _ _ _ _ _ _ _ _ _ _ _ _ formL) as L1. pose proof (rf_len _ _ _ _ _ _ _ _ _ _ _ _ _ _ _ _ _ _ formL0) as L0.
      pose proof (rf_lst _ _ _ _ _ _ _ _ _ _ _ _ _ _ _ _ _ _ formL) as LL.
      rewrite (seq_at3 _ _ _ _ (fun i => nth (i - 1) LST 0 - nth i LST 0 - (if closed then 0 else if Nat.eqb i (S k) then Rmax (nth k LST 0) 0 else 0))).
      - rewrite (rsum_minus (fun i => nth (i - 1) LST 0 - nth i LST 0)), (tele (fun i => nth i LST 0)).
        replace (0 + (length T - 2))%nat with (length LST - 1)%nat by lia.
        destruct closed.
        + replace (rsum (map (fun _ => 0) (seq 1 (length T - 2)))) with 0; [lra|]. unfold rsum. induction (seq 1 (length T - 2)); cbn [map fold_right]; lra.
        + rewrite rsum_single. cbn [Nat.leb andb]. destruct (Nat.ltb_spec (S k) (1 + (length T - 2))), (Nat.ltb_spec (S (S k)) (length T)); try lia; lra.
      - intros i Hi. destruct (nth_error T i) as [t|] eqn:E1; [|apply nth_error_None in E1; lia].
        destruct (nth_error (rT Rl) i) as [r|] eqn:E2; [|apply nth_error_None in E2; lia].
        destruct (nth_error (rT Rn) i) as [r0|] eqn:E3; [|apply nth_error_None in E3; lia].
        exists t, r, r0. split; [auto|]. split; [auto|]. split; [auto|]. apply lst_budget; auto; lia.
    Qed.
    Lemma lst_only i t r r0 : nth_error T i = Some t -> nth_error (rT Rl) i = Some r -> nth_error (rT Rn) i = Some r0 ->
      r = mkR (rY0 r) (rY1 r0) (rY2 r0) (rY3 r0) (rY4 r0) (rZ0 r0) (rZ1 r0) (rZ2 r0) (rZ3 r0).
    Proof.
      intros Ht Hr Hr0. pose proof SI as (SP & Hd & ST & _).
      destruct (row_val SP Hd ST formL i t r Ht Hr) as (_ & _ & y & E & _).
      destruct (row_val SP Hd ST formL0 i t r0 Ht Hr0) as (_ & _ & y0 & E0 & _). subst r r0. reflexivity.
    Qed.
    Lemma lst_bank k : closed = false -> firstRight T e1 (S k) ->
      ((rWiden Rn - rWiden Rl) * bankArea P Zend)%n = Fin (Rabs (nth k LST 0)) /\
      ((rMove Rl - rMove Rn) * bankArea P Zend)%n = Fin (nth k LST 0 / 2) /\ rAgg Rl = rAgg Rn.
    Proof.
      intros HC HR. pose proof SI as (SP & Hd & _ & _ & ((w & HW & Nw) & (z & HZ & Nz)) & _).
      pose proof (rf_end _ _ _ _ _ _ _ _ _ _ _ _ _ _ _ _ _ _ formL) as A.
      pose proof (rf_end _ _ _ _ _ _ _ _ _ _ _ _ _ _ _ _ _ _ formL0) as B. rewrite HC in *.
      destruct A as (rb & v & j1 & A1 & A2 & A3 & A4). destruct B as (rb' & v' & j2 & B1 & B2 & B3 & B4).
      apply firstRight_Rb in HR. rewrite HR in A1, B1. apply Ok_inj in A1, B1. subst rb rb'. cbn [prevIx] in A2, B2.
      rewrite A3 in B3. injection B3 as <-. apply (nth_error_nth _ _ 0) in A2, B2. rewrite none_nth in B2. subst v v'.
      set (v := nth k LST 0) in *.
      destruct SP as (_ & _ & (bt & Hbt) & (bf & Hbf) & _ & _ & (sw & Hsw & Nsw) & _).
      unfold endRates in A4, B4. unfold bankArea. rewrite HW, HZ, Hbt, Hbf, Hsw in *. cbn [rv] in *.
      cbn [toX xDep xBed xBank xEro xd xb xk xe] in A4, B4.
      set (x := rxJ P CW CD q j1) in *. cbv zeta in A4, B4.
      change (f0 <? Fin 0)%n with (Rltb 0 0) in B4. rewrite (proj2 (Rltb_false 0 0)) in B4 by lra.
      change (f0 <? Fin v)%n with (Rltb 0 v) in A4.
      set (mv := if (e0 <? e1)%n then _ else _) in A4.
      set (mv0 := if (e0 <? e1)%n then _ else _) in B4.
      assert (MV : exists m, mv = Fin m /\ mv0 = Fin m).
      { unfold mv, mv0. destruct (e0 <? e1)%n, (e1 <? e0)%n; xf; eexists; split; reflexivity. }
      destruct MV as (m & M1 & M2). rewrite M1 in A4. rewrite M2 in B4.
      destruct (Rltb 0 v) eqn:EV; [apply Rltb_true in EV; rewrite Rabs_right by lra|apply Rltb_false in EV; rewrite Rabs_left1 by lra];
      pose proof (f_equal (fun p => fst (fst p)) A4) as A5; pose proof (f_equal (fun p => snd (fst p)) A4) as A6; pose proof (f_equal snd A4) as A7;
      pose proof (f_equal (fun p => fst (fst p)) B4) as B5; pose proof (f_equal (fun p => snd (fst p)) B4) as B6; pose proof (f_equal snd B4) as B7;
      cbn [fst snd] in A5, A6, A7, B5, B6, B7; rewrite A5, A6, A7, B5, B6, B7; (split; [|split; [|reflexivity]]); xf; f_equal; field; repeat split; nz.
    Qed.
  End Lst.

  (** *** Overtopping *)
  Section Cst.
    Variables (LST q CST : list R) (Rc Rn : rates xr).
    Hypothesis SI : soundInputs P d T e1 W Zend online outlet CW CD fl closed (length q).
    Hypothesis H1 : ratesFor P (Fin d) T e0 e1 W Zend online outlet CW CD fl closed (map Fin LST) (map Fin q) (map Fin CST) OW = Ok Rc.
    Hypothesis H0 : ratesFor P (Fin d) T e0 e1 W Zend online outlet CW CD fl closed (map Fin LST) (map Fin q) (map (fun _ => Fin 0) CST) OW = Ok Rn.
    Lemma formC : realForm P d T e0 e1 W Zend online outlet CW CD fl closed LST q CST OW Rc.
    Proof. apply real; auto. Qed.
    Lemma formC0 : realForm P d T e0 e1 W Zend online outlet CW CD fl closed LST q (none CST) OW Rn.
    Proof. apply real; auto. rewrite none_fin; auto. Qed.

    Lemma cst_shore i t r r0 : (0 < i)%nat -> (S i < length T)%nat ->
      nth_error T i = Some t -> nth_error (rT Rc) i = Some r -> nth_error (rT Rn) i = Some r0 ->
      shoreVol P d t r r0 = Fin (- (nth i CST 0 * d)).
    Proof.
      intros Hi Hn Ht Hr Hr0. pose proof SI as (SP & Hd & ST & _).
      destruct (shore_val _ _ _ _ i t r SI formC Ht Hr Hi Hn) as (y & E & Y).
      destruct (shore_val _ _ _ _ i t r0 SI formC0 Ht Hr0 Hi Hn) as (y0 & E0 & Y0). cbv zeta in *.
      rewrite (shoreVol_val t r r0 y y0 SP); auto; [|rewrite Forall_forall in ST; apply ST; eapply nth_error_In; eauto].
      rewrite Y, Y0. f_equal. rewrite !none_nth. lra.
    Qed.
    Lemma cst_barrier i t r r0 : nth_error T i = Some t -> nth_error (rT Rc) i = Some r -> nth_error (rT Rn) i = Some r0 ->
      ((rZ0 r - rZ0 r0) * crest t + (if outletPresent t then rY1 r0 - rY1 r else rY3 r0 - rY3 r) * rear t)%n = Fin (nth i CST 0) /\
      (nth i OW false = true -> rZ0 r = rZ0 r0) /\ (nth i OW false = false -> rY1 r = rY1 r0 /\ rY3 r = rY3 r0) /\
      rY2 r = rY2 r0 /\ rY4 r = rY4 r0 /\ rZ1 r = rZ1 r0 /\ rZ2 r = rZ2 r0 /\ rZ3 r = rZ3 r0.
    Proof.
      intros Ht Hr Hr0. pose proof SI as (SP & Hd & ST & _).
      destruct (row_val SP Hd ST formC i t r Ht Hr) as (_ & _ & y & E & _).
      destruct (row_val SP Hd ST formC0 i t r0 Ht Hr0) as (_ & _ & y0 & E0 & _). rewrite none_nth in E0.
      assert (S : soundT P t) by (rewrite Forall_forall in ST; apply ST; eapply nth_error_In; eauto).
      destruct S as (_ & (a0 & A0) & (a3 & A3) & _ & (b0 & B0) & (b3 & B3) & HP & _ & Nc & Nr).
      assert (C : is_fin (crest t) /\ is_fin (rear t)).
      { unfold crest, rear. rewrite A0, A3, B0, B3. destruct (outletPresent t).
        - destruct (HP eq_refl) as ((a1 & ->) & _ & (b1 & ->) & _). split; eexists; reflexivity.
        - split; eexists; reflexivity. }
      destruct C as ((cr & Hcr) & (re & Hre)). rewrite Hcr in *. rewrite Hre in *. unfold over in *. rewrite Hre in *. cbn [rv] in *.
      subst r r0. cbn [rY0 rY1 rY2 rY3 rY4 rZ0 rZ1 rZ2 rZ3].
      split; [|split; [|split]].
      - destruct (outletPresent t); xf; f_equal; destruct (nth i OW false); field; auto.
      - intros ->. f_equal. field. auto.
      - intros ->. destruct (outletPresent t); split; f_equal; field; auto.
      - repeat split.
    Qed.
    Lemma cst_rest : rRiv Rc = rRiv Rn /\ rWiden Rc = rWiden Rn /\ rAgg Rc = rAgg Rn /\ rMove Rc = rMove Rn.
    Proof.
      rewrite (rf_riv _ _ _ _ _ _ _ _ _ _ _ _ _ _ _ _ _ _ formC), (rf_riv _ _ _ _ _ _ _ _ _ _ _ _ _ _ _ _ _ _ formC0). split; [reflexivity|].
      pose proof (rf_end _ _ _ _ _ _ _ _ _ _ _ _ _ _ _ _ _ _ formC) as A.
      pose proof (rf_end _ _ _ _ _ _ _ _ _ _ _ _ _ _ _ _ _ _ formC0) as B. destruct closed.
      - destruct A as (-> & -> & ->). destruct B as (-> & -> & ->). auto.
      - destruct A as (rb & v & j1 & A1 & A2 & A3 & A4). destruct B as (rb' & v' & j2 & B1 & B2 & B3 & B4).
        rewrite A1 in B1. apply Ok_inj in B1. subst rb'. rewrite A2 in B2. apply Some_inj in B2. subst v'. rewrite A3 in B3. injection B3 as <-.
        rewrite <- B4 in A4. injection A4. auto.
    Qed.
  End Cst.
End Common.
