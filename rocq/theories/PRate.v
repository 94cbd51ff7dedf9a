(** Proofs about the rates of change (mor.py:26-172), exact arithmetic. *)
From Coq Require Import ZArith List Bool Lia Reals Lra.
From Verif Require Import Base Num Xr MState MCoast MRiv MMor SMor PCoast PLag PCore.
Import ListNotations.
Local Open Scope R_scope.

(** ** Arithmetic on numbers *)
Lemma xadd a b : (Fin a + Fin b)%n = Fin (a + b). Proof. reflexivity. Qed.
Lemma xsub a b : (Fin a - Fin b)%n = Fin (a - b). Proof. reflexivity. Qed.
Lemma xmul a b : (Fin a * Fin b)%n = Fin (a * b). Proof. reflexivity. Qed.
Lemma xopp a : (- Fin a)%n = Fin (- a). Proof. reflexivity. Qed.
Lemma xabs a : fabs (Fin a) = Fin (Rabs a). Proof. reflexivity. Qed.
Lemma xofZ z : @fofZ xr xr_num z = Fin (IZR z). Proof. reflexivity. Qed.
Lemma xdivf a b : b <> 0 -> (Fin a / Fin b)%n = Fin (a / b). Proof. apply xdiv_fin. Qed.
Lemma xmax a b : fmaximum (Fin a) (Fin b) = Fin (Rmax a b).
Proof.
  unfold fmaximum. change (@fisnan xr xr_num (Fin a)) with false. change (@fisnan xr xr_num (Fin b)) with false.
  change (Fin a <? Fin b)%n with (Rltb a b). cbv iota. destruct (Rltb a b) eqn:E.
  - apply Rltb_true in E. rewrite Rmax_right by lra. auto.
  - apply Rltb_false in E. rewrite Rmax_left by lra. auto.
Qed.
Lemma xmin a b : fminimum (Fin a) (Fin b) = Fin (Rmin a b).
Proof.
  unfold fminimum. change (@fisnan xr xr_num (Fin a)) with false. change (@fisnan xr xr_num (Fin b)) with false.
  change (Fin b <? Fin a)%n with (Rltb b a). cbv iota. destruct (Rltb b a) eqn:E.
  - apply Rltb_true in E. rewrite Rmin_right by lra. auto.
  - apply Rltb_false in E. rewrite Rmin_left by lra. auto.
Qed.
Lemma xofb b : @fofb xr xr_num b = Fin (if b then 1 else 0).
Proof. destruct b; reflexivity. Qed.
Lemma x0 : @f0 xr xr_num = Fin 0. Proof. reflexivity. Qed.
Lemma x1 : @f1 xr xr_num = Fin 1. Proof. reflexivity. Qed.
Lemma x2 : @f2 xr xr_num = Fin 2. Proof. reflexivity. Qed.
Ltac nz := first [assumption | lra | (apply Rmult_integral_contrapositive_currified; nz) | (intro; lra)].
Ltac xf := rewrite ?x0, ?x1, ?x2, ?xofb, ?xofZ;
  repeat first [rewrite xadd | rewrite xsub | rewrite xmul | rewrite xopp | rewrite xabs | rewrite xmax | rewrite xmin
               | rewrite xdivf by nz].

Lemma fin_eq a : is_fin a -> a = Fin (rv a). Proof. apply is_fin_rv. Qed.
Lemma rmm g : Rmax g 0 - - Rmin g 0 = g.
Proof. unfold Rmax, Rmin. destruct (Rle_dec g 0); lra. Qed.

(** ** Cross-sections *)
Definition xsJ (P : phys xr) (CW CD : list xr) (q : list R) (j : nat) : xsrate xr :=
  xsRate P (Fin (gain q j)) (nth j CW NaN) (nth j CD NaN).

Lemma xsJ_form P CW CD q j : exists b : bool, xsJ P CW CD q j =
  mkXs (Fin (Rmax (gain q j) 0)) (Fin (- Rmin (gain q j) 0 * (if b then 1 else 0)))
       (Fin (- Rmin (gain q j) 0 * (if b then 0 else 1))) (Fin (- Rmin (gain q j) 0)).
Proof.
  unfold xsJ, xsRate. cbv zeta. set (b := (pWidthDepthRatio P <? _)%n). exists b. xf. destruct b; reflexivity.
Qed.

Lemma dVol_nth (closed : bool) q j : (S j < length q + (if closed then 1 else 0))%nat ->
  nth_error (dVolRate closed (map Fin q)) j = Some (Fin (gain q (S j))).
Proof.
  intros H. assert (Hj : (j < length q)%nat) by (destruct closed; lia).
  unfold dVolRate, gain. replace (S j - 1)%nat with j by lia. destruct closed; rewrite nth_error_map2.
  - rewrite nth_error_map, (nth_error_nth' q 0 Hj). cbn [option_map].
    destruct q as [|a q]; [cbn in Hj; lia|]. cbn [map tl]. cbn [length] in Hj. change (nth (S j) (a :: q) 0) with (nth j q 0).
    destruct (Nat.eq_dec j (length q)) as [->|N].
    + rewrite nth_error_app2 by (rewrite map_length; lia). rewrite map_length, Nat.sub_diag. cbn [nth_error].
      rewrite (nth_overflow q) by lia. reflexivity.
    + rewrite nth_error_app1 by (rewrite map_length; lia). rewrite nth_error_map, (nth_error_nth' q 0) by lia. reflexivity.
  - rewrite nth_error_removelast by (rewrite map_length; lia). rewrite nth_error_tl, !nth_error_map.
    rewrite (nth_error_nth' q 0 Hj), (nth_error_nth' q 0) by lia. reflexivity.
Qed.
Lemma mid_nth {A} (closed : bool) (l : list A) j x : (S j < length l - (if closed then 0 else 1))%nat ->
  nth_error (midOf closed l) j = Some (nth (S j) l x).
Proof.
  intros H. unfold midOf. destruct closed.
  - rewrite nth_error_tl. apply nth_error_nth'. lia.
  - assert (L : length (tl l) = (length l - 1)%nat) by (destruct l; cbn; lia).
    rewrite nth_error_removelast by lia. rewrite nth_error_tl. apply nth_error_nth'. lia.
Qed.
Lemma mid_len {A} (closed : bool) (l : list A) : length (midOf closed l) = (length l - (if closed then 1 else 2))%nat.
Proof. unfold midOf. destruct closed; [|rewrite length_removelast]; destruct l as [|x l]; cbn; lia. Qed.
Lemma zip_nth (P : phys xr) : forall dv w d fl j, nth_error (zipXs P dv w d fl) j =
  match nth_error dv j, nth_error w j, nth_error d j, nth_error fl j with
  | Some a, Some b, Some c, Some k => Some (k, xsRate P a b c) | _, _, _, _ => None end.
Proof.
  induction dv as [|a dv IH]; intros w d fl j; [destruct j; reflexivity|].
  destruct w as [|b w], d as [|c d], fl as [|k fl], j as [|j]; cbn [zipXs nth_error]; auto;
    repeat match goal with |- context [match ?x with _ => _ end] => destruct x end; auto.
Qed.
Lemma chan_form P (closed : bool) q CW CD fl :
  length CW = S (length q) -> length CD = S (length q) -> length fl = S (length q) ->
  channelXs P closed (map Fin q) CW CD fl =
  map (fun j => (nth j fl 9%nat, xsJ P CW CD q j)) (seq 1 (length fl - (if closed then 1 else 2))).
Proof.
  intros H1 H2 H3. apply nth_error_ext. intros i.
  unfold channelXs. rewrite zip_nth, nth_error_map.
  destruct (lt_dec i (length fl - (if closed then 1 else 2))) as [L|L].
  - rewrite dVol_nth by (destruct closed; lia).
    rewrite (mid_nth closed CW i NaN), (mid_nth closed CD i NaN), (mid_nth closed fl i 9%nat) by (destruct closed; lia).
    rewrite (proj2 (nth_error_seq 1 _ i (S i))) by auto. reflexivity.
  - rewrite (proj2 (nth_error_None (midOf closed fl) i)) by (rewrite mid_len; lia).
    rewrite (proj2 (nth_error_None (seq 1 _) i)) by (rewrite seq_length; lia). cbn.
    repeat match goal with |- context [match ?x with _ => _ end] => destruct x end; auto.
Qed.
Lemma sel_form P (closed : bool) q CW CD fl k :
  length CW = S (length q) -> length CD = S (length q) -> length fl = S (length q) ->
  xsSel k (channelXs P closed (map Fin q) CW CD fl) = map (xsJ P CW CD q) (flagged closed fl k).
Proof.
  intros H1 H2 H3. rewrite chan_form by auto. unfold xsSel, flagged.
  induction (seq 1 _) as [|j l IH]; [reflexivity|]. cbn [map filter fst]. destruct (Nat.eqb _ k); cbn [map snd]; rewrite IH; auto.
Qed.

(** ** Inversion *)
Definition lstAt (l : list xr) (i : nat) : option (xr * xr) :=
  match i with
  | O => None
  | S k => match nth_error l k, nth_error l i with Some a, Some b => Some (a, b) | _, _ => None end
  end.
Definition rowAt (P : phys xr) (Dx e1 : xr) (online out : list nat) (lag ox : list (xsrate xr)) (spread : option xr)
  (rbq : option (nat * xr)) (LST CST : list xr) (OW : list bool) (i : nat) (t : tsect xr) : trate xr :=
  rateOf P Dx (scat online lag i) (scat out ox i)
    (rateY0 P Dx e1 spread (lstAt LST i)
       (match rbq with Some (rb, q) => if Nat.eqb i rb && (f0 <? q)%n then Some q else None | None => None end)
       (nth i CST f0) t) (nth i CST f0) (nth i OW false) t.

Record formOf (P : phys xr) (Dx : xr) (T : list (tsect xr)) (e0 e1 W Zend : xr) (online outlet : list nat)
       (CW CD : list xr) (fl : list nat) (closed : bool) (LST : list xr) (q : list R) (CST : list xr) (OW : list bool)
       (R : rates xr) : Prop := {
  fo_online : length (flagged closed fl 1) = length online;
  fo_outlet : closed = false -> length (flagged closed fl 2) = length outlet;
  fo_lst : S (length LST) = length T; fo_cst : length CST = length T; fo_ow : length OW = length T;
  fo_on : forall i, In i online -> exists t, nth_error T i = Some t;
  fo_out : closed = false -> forall i, In i outlet -> exists t, nth_error T i = Some t;
  fo_riv : rRiv R = map (fun j => let x := xsJ P CW CD q j in ((xDep x - xEro x) / (pRiverWidth P * Dx))%n) (flagged closed fl 0);
  fo_len : length (rT R) = length T;
  fo_row : forall i t, nth_error T i = Some t -> exists sp rbq,
    (if closed then sp = None /\ rbq = None
     else sp = Some (Fin (nth (length q - 1) q 0)) /\ exists rb v, rbq = Some (rb, v) /\
          outletRb T e1 = Ok rb /\ nth_error LST (prevIx (length LST) rb) = Some v) /\
    nth_error (rT R) i = Some (rowAt P Dx e1 online (if closed then [] else outlet)
       (map (xsJ P CW CD q) (flagged closed fl 1)) (if closed then [] else map (xsJ P CW CD q) (flagged closed fl 2))
       sp rbq LST CST OW i t);
  fo_end : if closed then rWiden R = f0 /\ rAgg R = f0 /\ rMove R = f0
     else exists rb v j, outletRb T e1 = Ok rb /\ nth_error LST (prevIx (length LST) rb) = Some v /\
          flagged closed fl 3 = [j] /\ (rWiden R, rAgg R, rMove R) = endRates P Dx e0 e1 W Zend v (xsJ P CW CD q j) }.

Lemma form P Dx T e0 e1 W Zend online outlet CW CD fl closed LST q CST OW R :
  length CW = S (length q) -> length CD = S (length q) -> length fl = S (length q) ->
  ratesFor P Dx T e0 e1 W Zend online outlet CW CD fl closed LST (map Fin q) CST OW = Ok R ->
  formOf P Dx T e0 e1 W Zend online outlet CW CD fl closed LST q CST OW R.
Proof.
  intros H1 H2 H3 H. unfold ratesFor in H. bok H rbq. unfold changeRates in H.
  assert (EC : closed = match rbq with None => true | _ => false end).
  { destruct closed; [apply Ok_inj in Erbq; subst; auto|]. bok Erbq rb. bok Erbq v. apply Ok_inj in Erbq. subst. auto. }
  rewrite <- EC in H. cbv zeta in H. rewrite !sel_form in H by auto.
  destruct (negb _) eqn:EN in H; [discriminate|]. apply negb_false_iff in EN.
  repeat (apply andb_prop in EN; let X := fresh "L" in destruct EN as [EN X]; apply Nat.eqb_eq in X).
  apply Nat.eqb_eq in EN. rewrite map_length in EN.
  bok H g1. bok H g2. bok H sp.
  destruct rbq as [[rb v]|]; subst closed.
  - bok Erbq rb'. bok Erbq v'. apply Ok_inj in Erbq. injection Erbq as -> ->.
    bok H ends. destruct ends as [[wd ag] mv].
    destruct (flagged false fl 3) as [|j3 [|]] eqn:E3 in Eends; try discriminate. cbn [map] in Eends. apply Ok_inj in Eends.
    apply Ok_inj in H. subst R.
    bok Esp qe. apply Ok_inj in Esp. subst sp.
    rewrite map_length in L2.
    assert (Hq : qe = Fin (nth (length q - 1) q 0)).
    { unfold last_ in Eqe. destruct q as [|x q] using rev_ind; [discriminate|]. rewrite map_app in Eqe. cbn [map] in Eqe.
      rewrite rev_app_distr in Eqe. cbn in Eqe. apply Ok_inj in Eqe. subst.
      rewrite app_length. cbn [length]. rewrite app_nth2 by lia. replace (length q + 1 - 1 - length q)%nat with 0%nat by lia. reflexivity. }
    apply ix_ok in Ev'. constructor; auto; cbn [rRiv rT rWiden rAgg rMove].
    + intros i Hi. apply gather_ok in Eg1. apply In_nth_error in Hi. destruct Hi as (k & Hk).
      clear - Eg1 Hk. revert k Hk. induction Eg1; intros [|k] Hk; cbn [nth_error] in Hk; try discriminate; eauto. injection Hk as <-. eauto.
    + intros _ i Hi. apply gather_ok in Eg2. apply In_nth_error in Hi. destruct Hi as (k & Hk).
      clear - Eg2 Hk. revert k Hk. induction Eg2; intros [|k] Hk; cbn [nth_error] in Hk; try discriminate; eauto. injection Hk as <-. eauto.
    + rewrite map_map. reflexivity.
    + apply mapi_length.
    + intros i t Ht. exists (Some (Fin (nth (length q - 1) q 0))), (Some (rb, v)). split; [split; [reflexivity|]; exists rb, v; auto|].
      rewrite nth_error_mapi, Ht. subst qe. reflexivity.
    + exists rb, v, j3. auto.
  - apply Ok_inj in Esp. subst sp. bok H ends. destruct ends as [[wd ag] mv]. apply Ok_inj in Eends. injection Eends as <- <- <-.
    apply Ok_inj in H. subst R. constructor; auto; cbn [rRiv rT rWiden rAgg rMove]; try discriminate.
    + intros i Hi. apply gather_ok in Eg1. apply In_nth_error in Hi. destruct Hi as (k & Hk).
      clear - Eg1 Hk. revert k Hk. induction Eg1; intros [|k] Hk; cbn [nth_error] in Hk; try discriminate; eauto. injection Hk as <-. eauto.
    + rewrite map_map. reflexivity.
    + apply mapi_length.
    + intros i t Ht. exists None, None. split; [auto|]. rewrite nth_error_mapi, Ht. reflexivity.
Qed.

(** ** Values of the rates of one transect *)
Record rxs := mkRx { xd : R; xb : R; xk : R; xe : R }.
Definition toX (x : rxs) : xsrate xr := mkXs (Fin (xd x)) (Fin (xb x)) (Fin (xk x)) (Fin (xe x)).
Definition on (o : option rxs) (f : rxs -> R) : R := match o with Some x => f x | None => 0 end.
Definition over (ow : bool) (c : R) (t : tsect xr) : R := (if ow then 1 else 0) * c / rv (rear t).

Lemma rateOf_val P d lag out y c ow t : soundPars P -> d <> 0 -> soundT P t ->
  (lag <> None -> soundLagoon P t) -> (out <> None -> soundOutlet t) ->
  rateOf P (Fin d) (option_map toX lag) (option_map toX out) (Fin y) (Fin c) ow t =
  mkR (Fin y)
      (Fin (on out (fun x => xk x / 2 / ((rv (tZ0 t) - rv (tZ1 t)) * d)) - (if outletPresent t then over ow c t else 0)))
      (Fin (- on out (fun x => xk x / 2 / ((rv (tZ2 t) - rv (tZ1 t)) * d))))
      (Fin (on lag (fun x => xk x / 2 / ((rv (bankTop t) - rv (tZ3 t)) * d)) - (if outletPresent t then 0 else over ow c t)))
      (Fin (- on lag (fun x => xk x / 2 / ((rv (pBackshoreElev P) - rv (tZ3 t)) * d))))
      (Fin ((1 - (if ow then 1 else 0)) * c / rv (crest t)))
      (Fin (on out (fun x => (xd x - xb x) / ((rv (tY1 t) - rv (tY2 t)) * d))))
      (Fin 0)
      (Fin (on lag (fun x => (xd x - xb x) / ((rv (tY3 t) - rv (tY4 t)) * d)))).
Proof.
  intros SP Hd ST SL SO.
  destruct SP as (_ & (bs & Hbs) & _).
  destruct t as [x y0 y1 y2 y3 y4 z0 z1 z2 z3].
  destruct ST as ((rx & Ex) & (r0 & E0) & (r3 & E3) & (r4 & E4) & (s0 & F0) & (s3 & F3) & HP & Hh & Hc & Hr).
  cbn [tX tY0 tY1 tY2 tY3 tY4 tZ0 tZ1 tZ2 tZ3] in *. subst x y0 y3 y4 z0 z3.
  unfold rateOf, crestWidth, backBarHeight, lagoonBankElev, lagoonWidth, over, soundLagoon, soundOutlet, bankTop, crest, rear in *.
  rewrite Hbs in *.
  destruct (outletPresent _) eqn:OP.
  - destruct (HP eq_refl) as ((r1 & ->) & (r2 & ->) & (s1 & ->) & (s2 & ->)).
    cbn [tX tY0 tY1 tY2 tY3 tY4 tZ0 tZ1 tZ2 tZ3] in *.
    rewrite xsub in Hc, Hr. cbn [rv] in *.
    destruct lag as [x|], out as [w|]; cbn [option_map on toX xDep xBed xBank xEro];
      try destruct (SL ltac:(discriminate)) as (L1 & L2 & L3);
      try destruct (SO ltac:(discriminate)) as (_ & O1 & O2 & O3); cbn [rv] in *; xf; cbn [rv];
      f_equal; f_equal; try lra.
  - cbn [tX tY0 tY1 tY2 tY3 tY4 tZ0 tZ1 tZ2 tZ3] in *.
    assert (out = None) as -> by (destruct out; [destruct (SO ltac:(discriminate)); discriminate|auto]).
    rewrite xsub in Hc, Hr. cbn [rv] in *.
    destruct lag as [x|]; cbn [option_map on toX xDep xBed xBank xEro];
      try destruct (SL ltac:(discriminate)) as (L1 & L2 & L3); cbn [rv] in *; xf; cbn [rv]; f_equal; f_equal; try lra.
Qed.

Lemma rateY0_val P d e1 sp l w c t : soundPars P -> d <> 0 -> soundT P t -> is_fin e1 ->
  exists y, rateY0 P (Fin d) e1 (option_map Fin sp) (option_map (fun p => (Fin (fst p), Fin (snd p))) l) (option_map Fin w) (Fin c) t = Fin y /\
   match l with
   | None => y = - rv (pShorelineErosionRate P) / (IZR 36525 / 100 * 86400)
   | Some (a, b) =>
     let h := rv (pClosureDepth P) + rv (tZ0 t) in
     let s := rv (pOutletSedSpreadDist P) in
     y * (h * d) = match sp with Some q => d * q / s * Rmax (1 - Rabs (rv (tX t) - rv e1) / s) 0 | None => 0 end
                  + (a - b) - match w with Some q => q | None => 0 end - c * d
   end.
Proof.
  intros SP Hd ST (re & ->).
  destruct SP as ((cd & Hcd) & _ & _ & _ & (er & Her) & _ & _ & (s & Hs & Ns)).
  destruct ST as ((rx & Ex) & _ & _ & _ & (s0 & F0) & _ & _ & Hh & _).
  unfold rateY0, bedloadToShore, shorefaceHeight. rewrite Ex, F0, Hcd, Her, Hs in *. cbn [rv] in *.
  assert (QQ : @fofQ xr xr_num 36525 100 = Fin (IZR 36525 / 100)) by reflexivity.
  destruct l as [[a b]|]; cbn [option_map fst snd].
  - destruct sp as [q|], w as [v|]; cbn [option_map]; xf; eexists; (split; [reflexivity|]); field; auto.
  - rewrite QQ. xf. eexists; (split; [reflexivity|]). reflexivity.
Qed.

(** ** Sediment budgets *)
Definition rxJ (P : phys xr) (CW CD : list xr) (q : list R) (j : nat) : rxs :=
  let w := tooWide P CW CD j in let g := gain q j in
  mkRx (Rmax g 0) (- Rmin g 0 * (if w then 1 else 0)) (- Rmin g 0 * (if w then 0 else 1)) (- Rmin g 0).
Lemma xsJ_real P CW CD q j : xsJ P CW CD q j = toX (rxJ P CW CD q j).
Proof.
  unfold xsJ, xsRate, rxJ, toX, tooWide. cbv zeta. destruct (pWidthDepthRatio P <? _)%n; xf; reflexivity.
Qed.
Lemma scat_map {A B} (f : A -> B) idx v i : scat idx (map f v) i = option_map f (scat idx v i).
Proof. revert v. induction idx as [|j idx IH]; intros [|x v]; cbn; auto. destruct (Nat.eqb j i); auto. Qed.
Lemma scat_xs P CW CD q idx js i : scat idx (map (xsJ P CW CD q) js) i = option_map toX (option_map (rxJ P CW CD q) (scat idx js i)).
Proof. rewrite scat_map. destruct (scat idx js i); cbn [option_map]; [rewrite xsJ_real|]; auto. Qed.
Lemma gain_zero (q : list R) j : gain (map (fun _ => 0) q) j = 0.
Proof.
  unfold gain. assert (Z : forall k, nth k (map (fun _ : R => 0) q) 0 = 0).
  { intros k. change 0 with ((fun _ : R => 0) 0) at 2. rewrite map_nth. auto. }
  rewrite !Z. lra.
Qed.
Lemma rx_zero P CW CD (q : list R) j : rxJ P CW CD (map (fun _ => 0) q) j = mkRx 0 0 0 0.
Proof.
  unfold rxJ. rewrite gain_zero. cbv zeta. rewrite Rmax_left, Rmin_left by lra.
  f_equal; destruct (tooWide P CW CD j); lra.
Qed.
Definition olst (l : list R) (i : nat) : option (R * R) :=
  match i with O => None | S k => match nth_error l k, nth_error l i with Some a, Some b => Some (a, b) | _, _ => None end end.
Lemma lstAt_real l i : lstAt (map Fin l) i = option_map (fun p => (Fin (fst p), Fin (snd p))) (olst l i).
Proof.
  unfold lstAt, olst. destruct i as [|k]; [reflexivity|]. rewrite !nth_error_map.
  destruct (nth_error l k), (nth_error l (S k)); reflexivity.
Qed.
Lemma nth_fin l i : nth i (map Fin l) f0 = Fin (nth i l 0).
Proof. change (@f0 xr xr_num) with (Fin 0). apply map_nth. Qed.
Lemma olst_some l i a b : olst l i = Some (a, b) <-> (1 <= i)%nat /\ nth_error l (i - 1) = Some a /\ nth_error l i = Some b.
Proof.
  unfold olst. destruct i as [|k]; [split; [discriminate|lia]|]. replace (S k - 1)%nat with k by lia.
  destruct (nth_error l k), (nth_error l (S k)); split; intros H; try discriminate; try (destruct H as (_ & H1 & H2); discriminate).
  - injection H as -> ->. repeat split; auto. lia.
  - destruct H as (_ & H1 & H2). congruence.
Qed.

(** Everything the budgets need, in real numbers. *)
Definition withheld (rbv : option (nat * R)) (i : nat) : option R :=
  match rbv with Some (rb, v) => if Nat.eqb i rb && Rltb 0 v then Some v else None | None => None end.
Record realForm (P : phys xr) (d : R) (T : list (tsect xr)) (e0 e1 W Zend : xr) (online outlet : list nat)
       (CW CD : list xr) (fl : list nat) (closed : bool) (l q c : list R) (OW : list bool)
       (R : rates xr) : Prop := {
  rf_len : length (rT R) = length T;
  rf_online : length (flagged closed fl 1) = length online;
  rf_outlet : closed = false -> length (flagged closed fl 2) = length outlet;
  rf_lst : S (length l) = length T; rf_cst : length c = length T;
  rf_riv : rRiv R = map (fun j => Fin (gain q j / (rv (pRiverWidth P) * d))) (flagged closed fl 0);
  rf_row : forall i t, nth_error T i = Some t ->
    exists sp rbv y,
    (if closed then sp = None /\ rbv = None
     else sp = Some (nth (length q - 1) q 0) /\ exists rb v, rbv = Some (rb, v) /\
          outletRb T e1 = Ok rb /\ nth_error l (prevIx (length l) rb) = Some v) /\
    (let lag := option_map (rxJ P CW CD q) (scat online (flagged closed fl 1) i) in
     let out := option_map (rxJ P CW CD q) (scat (if closed then [] else outlet) (if closed then [] else flagged closed fl 2) i) in
     nth_error (rT R) i = Some (rateOf P (Fin d) (option_map toX lag) (option_map toX out) (Fin y) (Fin (nth i c 0)) (nth i OW false) t) /\
     (lag <> None -> soundLagoon P t) /\ (out <> None -> soundOutlet t)) /\
    match olst l i with
    | None => y = - rv (pShorelineErosionRate P) / (IZR 36525 / 100 * 86400)
    | Some (a, b) =>
      let h := rv (pClosureDepth P) + rv (tZ0 t) in
      let s := rv (pOutletSedSpreadDist P) in
      y * (h * d) = match sp with Some q => d * q / s * Rmax (1 - Rabs (rv (tX t) - rv e1) / s) 0 | None => 0 end
                  + (a - b) - match withheld rbv i with Some q => q | None => 0 end - nth i c 0 * d
    end;
  rf_end : if closed then rWiden R = f0 /\ rAgg R = f0 /\ rMove R = f0
     else exists rb v j, outletRb T e1 = Ok rb /\ nth_error l (prevIx (length l) rb) = Some v /\
          flagged closed fl 3 = [j] /\ (rWiden R, rAgg R, rMove R) = endRates P (Fin d) e0 e1 W Zend (Fin v) (toX (rxJ P CW CD q j)) }.

Lemma real P d T e0 e1 W Zend online outlet CW CD fl closed (l q c : list R) OW (RR : rates xr) :
  soundInputs P d T e1 W Zend online outlet CW CD fl closed (length q) ->
  ratesFor P (Fin d) T e0 e1 W Zend online outlet CW CD fl closed (map Fin l) (map Fin q) (map Fin c) OW = Ok RR ->
  realForm P d T e0 e1 W Zend online outlet CW CD fl closed l q c OW RR.
Proof.
  intros (SP & Hd & ST & He & SE & N1 & N2 & SL & SO & L1 & L2 & L3) H.
  apply form in H; auto. destruct H as [A1 A2 A3 A4 A5 A6 A7 A8 A9 A10 A11]. rewrite map_length in A3, A4.
  constructor; auto.
  - rewrite A8. apply map_ext. intros j. rewrite xsJ_real. cbv zeta. cbn [toX xDep xEro].
    destruct SP as (_ & _ & _ & _ & _ & (rw & -> & Hrw) & _). cbn [rv]. xf. unfold rxJ. cbn [xd xe]. rewrite rmm. reflexivity.
  - intros i t Ht. destruct (A10 i t Ht) as (sp & rbq & B & C). rewrite map_length in B.
    assert (Sound : soundT P t) by (rewrite Forall_forall in ST; apply ST; eapply nth_error_In; eauto).
    assert (E : exists spr rbr, sp = option_map Fin spr /\ rbq = option_map (fun p => (fst p, Fin (snd p))) rbr /\
      (if closed then spr = None /\ rbr = None
       else spr = Some (nth (length q - 1) q 0) /\ exists rb v, rbr = Some (rb, v) /\
          outletRb T e1 = Ok rb /\ nth_error l (prevIx (length l) rb) = Some v)).
    { destruct closed.
      - destruct B as (-> & ->). exists None, None. auto.
      - destruct B as (-> & rb & v & -> & B1 & B2). rewrite nth_error_map in B2.
        destruct (nth_error l _) as [v'|] eqn:E; [|discriminate]. cbn in B2. apply Some_inj in B2. subst v.
        exists (Some (nth (length q - 1) q 0)), (Some (rb, v')). repeat split. exists rb, v'. auto. }
    clear B. destruct E as (spr & rbr & -> & -> & B).
    unfold rowAt in C. rewrite nth_fin, lstAt_real in C.
    replace (match option_map (fun p : nat * Reals.Rdefinitions.R => (fst p, Fin (snd p))) rbr with
             | Some (rb, q0) => if Nat.eqb i rb && (f0 <? q0)%n then Some q0 else None | None => None end)
      with (option_map Fin (withheld rbr i)) in C.
    2:{ destruct rbr as [[rb v]|]; cbn [option_map withheld fst snd]; [|reflexivity].
        change (f0 <? Fin v)%n with (Rltb 0 v). destruct (_ && _); reflexivity. }
    destruct (rateY0_val P d e1 spr (olst l i) (withheld rbr i) (nth i c 0) t SP Hd Sound He) as (y & Y1 & Y2).
    rewrite Y1 in C. exists spr, rbr, y. split; [exact B|]. split; [|exact Y2]. cbv zeta. split; [|split].
    + rewrite C. do 2 f_equal; [apply scat_xs|]. destruct closed; [reflexivity|]. apply scat_xs.
    + clear C. intros X. destruct (scat online (flagged closed fl 1) i) eqn:E; [|exfalso; apply X; reflexivity]. apply scat_In in E. eapply SL; eauto.
    + destruct closed; [intros X; exfalso; apply X; reflexivity|].
      clear C. intros X. destruct (scat outlet (flagged false fl 2) i) eqn:E; [|exfalso; apply X; reflexivity]. apply scat_In in E. eapply SO; eauto.
  - destruct closed; [exact A11|]. destruct A11 as (rb & v & j & B1 & B2 & B3 & B4). rewrite nth_error_map, map_length in B2.
    destruct (nth_error l _) as [v'|] eqn:E; [|discriminate]. cbn in B2. apply Some_inj in B2. subst v.
    exists rb, v', j. rewrite <- xsJ_real. auto.
Qed.
