(** Order of the corrections, worked cases and counterexamples (mor.py:217-692). *)
From Coq Require Import ZArith List Bool Lia Reals Lra.
From Verif Require Import Base Num Xr XEval MState MCoast MRiv MMor SMor SPost SAdapt PCoast PGeom PLag PCore PFill PRate PCap PPost PTrunc PBreach PBreach2 PUpdate PUpdate2 PCapEx.
Import ListNotations.
Local Open Scope R_scope.

(** ** Order of the corrections *)
Lemma correct_order {F} {NF : Num F} (P : phys F) Dx T0 T e0 e1 W Zend outlet Closed T' pres' e0' e1' outlet' :
  morCorrect P Dx T0 T e0 e1 W Zend outlet Closed = Ok (T', pres', e0', e1', outlet') -> length T0 = length T ->
  exists d TA pA TB oB TC TD oD, domainCheck T e1 = Ok d /\
    (forall i t0 t, nth_error T0 i = Some t0 -> nth_error T i = Some t -> exists a lev, nth_error TA i = Some a /\
       negWidth (outletPresent t0) (backBarHeight t0) (crestWidth t0) (cliffCollision P (shorefaceHeight P t0) t) = Ok (a, lev)) /\
    (if Closed then TB = TA /\ oB = outlet /\ TC = TB
     else extendStep P TA e0 d W Zend outlet = Ok (TB, oB) /\ seawardFirstStep TB oB = Ok TC) /\
    lagoonTrunc TC pA e0 d oB = Ok (TD, pres', e0', oD) /\ seaTrunc Dx TD e0' d oD = Ok (e1', outlet') /\
    (if Closed then T' = TD else lagoonLastStep P TD outlet' = Ok T').
Proof.
  intros H L. unfold morCorrect in H. bok H d. apply bind_ok in H as ([TA pA] & EA & H). apply bind_ok in H as ([TB oB] & EB & H).
  apply bind_ok in H as (TC & EC & H). apply bind_ok in H as ([[[TD pD] eD] oD] & ED & H). apply bind_ok in H as ([eE oE] & EE & H).
  apply bind_ok in H as (TF & EF & H). injection H as <- <- <- <- <-.
  exists d, TA, pA, TB, oB, TC, TD, oD. split; [auto|].
  destruct (neg_step _ _ _ _ _ EA) as [LA NA]; [apply map_length|rewrite map2_length; lia|]. split.
  - intros i t0 t Ht0 Ht. destruct (NA i (outletPresent t0) t0 (cliffCollision P (shorefaceHeight P t0) t)) as (a & lev & Ha & HW);
      [rewrite nth_error_map, Ht0; reflexivity|auto|rewrite nth_error_map2, Ht0, Ht; reflexivity|eauto].
  - destruct Closed; [injection EB as <- <-; apply Ok_inj in EC; apply Ok_inj in EF; auto 10|auto 10].
Qed.
(** Closed lagoon: nothing but the domain check, cliff collision and negative widths. *)
Lemma correct_closed {F} {NF : Num F} (P : phys F) Dx T0 T e0 e1 W Zend T' pres' e0' e1' outlet' :
  morCorrect P Dx T0 T e0 e1 W Zend [] true = Ok (T', pres', e0', e1', outlet') -> length T0 = length T ->
  domainCheck T e1 = Ok e1' /\ e0' = e0 /\ outlet' = [] /\
  forall i t0 t, nth_error T0 i = Some t0 -> nth_error T i = Some t -> exists t' lev, nth_error T' i = Some t' /\
    negWidth (outletPresent t0) (backBarHeight t0) (crestWidth t0) (cliffCollision P (shorefaceHeight P t0) t) = Ok (t', lev) /\
    (outletPresent t0 = false -> t' = cliffCollision P (shorefaceHeight P t0) t).
Proof.
  intros H L. destruct (correct_order _ _ _ _ _ _ _ _ _ _ _ _ _ _ _ H L) as (d & TA & pA & TB & oB & TC & TD & oD & Ed & HA & (-> & -> & ->) & ET & ES & ->).
  injection ET as <- _ <- <-. injection ES as <- <-. split; [auto|]. split; [auto|]. split; [auto|].
  intros i t0 t Ht0 Ht. destruct (HA i t0 t Ht0 Ht) as (a & lev & Ha & HW). exists a, lev. split; [auto|]. split; [auto|].
  intros E. rewrite E in HW. unfold negWidth in HW. cbn [andb] in HW. apply Ok_inj in HW. pose proof (f_equal fst HW) as Q. cbn [fst] in Q. congruence.
Qed.
(** Open lagoon: the lagoon edge stays behind the last channel transect. *)
Lemma correct_last (P : phys xr) Dx T0 T e0 e1 W Zend outlet T' pres' e0' e1' outlet' i :
  morCorrect P Dx T0 T e0 e1 W Zend outlet false = Ok (T', pres', e0', e1', outlet') -> length T0 = length T ->
  last_ outlet' = Ok i -> exists t, nth_error T' i = Some (lagoonLast P t).
Proof.
  intros H L Hi. destruct (correct_order _ _ _ _ _ _ _ _ _ _ _ _ _ _ _ H L) as (d & TA & pA & TB & oB & TC & TD & oD & _ & _ & _ & _ & _ & EL).
  unfold lagoonLastStep in EL. rewrite Hi in EL. cbn [bind] in EL. bok EL t. apply ix_ok in Et. apply Ok_inj in EL. subst T'. exists t.
  apply nth_error_upd_eq. apply nth_error_Some. congruence.
Qed.
Lemma keep_width (P : phys xr) (t : tsect xr) m y3 y4 : pMinOutletWidth P = Fin m -> tY3 t = Fin y3 -> tY4 t = Fin y4 ->
  exists y4', tY3 (keepLagoon P t) = Fin y3 /\ tY4 (keepLagoon P t) = Fin y4' /\ m <= y3 - y4' /\ (m <= y3 - y4 -> keepLagoon P t = t).
Proof.
  intros Hm H3 H4. unfold keepLagoon. rewrite H3, H4, Hm, PRate.xsub, xlt, xofQ. destruct (Rltb (y3 - y4) m) eqn:E; rb.
  - exists (y3 - m - 1/1000). fl. split; [auto|]. xf. split; [reflexivity|]. split; lra.
  - exists y4. rewrite H3, H4. split; [auto|]. split; [auto|]. split; [lra|auto].
Qed.
Lemma keep_y4 (P : phys xr) (t : tsect xr) m y3 : pMinOutletWidth P = Fin m -> tY3 t = Fin y3 ->
  is_fin (tY4 (keepLagoon P t)) -> exists y4, tY4 (keepLagoon P t) = Fin y4 /\ m <= y3 - y4.
Proof.
  intros Hm H3. unfold keepLagoon. rewrite H3, Hm. destruct (Fin y3 - tY4 t <? Fin m)%n eqn:E.
  - intros _. exists (y3 - m - 1/1000). fl. rewrite xofQ. xf. split; [reflexivity|lra].
  - intros (y4 & E4). exists y4. split; [auto|]. rewrite E4, PRate.xsub, xlt in E. rb. lra.
Qed.
Lemma keep_y3 {F} {NF : Num F} (P : phys F) t : tY3 (keepLagoon P t) = tY3 t.
Proof. unfold keepLagoon. destruct (_ <? _)%n; reflexivity. Qed.
Lemma update_width fuel j1 j2 (P : phys xr) N TP T e0 e1 W Zend RiverElev online outlet LagoonWL OutletDep CW CD fl closed LST q CST OW dt (o : morOut xr) m :
  updateMorphology fuel j1 j2 P N TP T e0 e1 W Zend RiverElev online outlet LagoonWL OutletDep CW CD fl closed LST q CST OW dt = Ok o ->
  pMinOutletWidth P = Fin m ->
  exists i t t', nth_error T i = Some t /\ (tX t =? f0)%n = true /\ nth_error (oT o) i = Some t' /\
    forall y3 y4, tY3 t' = Fin y3 -> tY4 t' = Fin y4 -> m <= y3 - y4.
Proof.
  intros H Hm. destruct (update_row0 _ _ _ _ _ _ _ _ _ _ _ _ _ _ _ _ _ _ _ _ _ _ _ _ _ _ H) as (x0 & r & X0 & Hr).
  unfold x0Ix in X0. destruct (first_where _ T) as [k|] eqn:E; [|discriminate]. cbn in X0. apply Ok_inj in X0. subst k.
  apply first_where_Some in E as [(t & Ht & Hx) _]. exists x0, t, (keepLagoon P r). split; [auto|]. split; [auto|]. split; [auto|].
  intros y3 y4 H3 H4. rewrite keep_y3 in H3. destruct (keep_y4 P r m y3 Hm H3) as (v & Hv & K); [rewrite H4; eexists; reflexivity|]. congruence.
Qed.

(** ** Worked cases *)
Lemma neg_zero : - 0 = 0. Proof. lra. Qed.
Definition exRow (x : R) : tsect xr := withChannel x 0 (-10) (-20) (-30) (-50) 3 0 2 (-1).
Definition exGrid : list (tsect xr) := map exRow [0; 1; 2; 3; 4].
Lemma exGrid_nth i t : nth_error exGrid i = Some t -> (i < 5)%nat /\ t = exRow (INR i).
Proof.
  intros H. assert (i < 5)%nat by (change 5%nat with (length exGrid); apply nth_error_Some; congruence). split; [auto|].
  destruct i as [|[|[|[|[|i]]]]]; [| | | | |lia]; injection H as <-; unfold exRow; cbn [INR]; f_equal; f_equal; lra.
Qed.
Lemma exGrid_order : inOrder exGrid.
Proof.
  split.
  - intros i t H. apply exGrid_nth in H as [_ ->]. eexists. reflexivity.
  - intros i j t u Hi Hj L. apply exGrid_nth in Hi as [_ ->]. apply exGrid_nth in Hj as [_ ->]. cbn. now apply lt_INR.
Qed.
Lemma exGrid_regular : regular 1 exGrid.
Proof.
  split; [lra|]. intros i t u Hi Hj. apply exGrid_nth in Hi as [_ ->]. apply exGrid_nth in Hj as [_ ->]. unfold exRow, withChannel. fl. cbn [rv]. rewrite S_INR. lra.
Qed.
Lemma clamp_refuted : exists T e a b, inOrder T /\ nth_error T 1 = Some a /\ nth_error T (length T - 2) = Some b /\ rv (tX b) < e /\
  domainCheck T (Fin e) = Ok (tX a) /\ rv (tX a) < rv (tX b).
Proof.
  exists exGrid, 3.5, (exRow 1), (exRow 3). split; [apply exGrid_order|]. split; [reflexivity|]. split; [reflexivity|]. split; [cbn; lra|].
  split; [|cbn; lra]. unfold domainCheck. xrun.
Qed.
Lemma domain_case : domainCheck exGrid (Fin 0.5) = Ok (Fin 1) /\ domainCheck exGrid (Fin 2.5) = Ok (Fin 2.5).
Proof. split; unfold domainCheck; xrun. Qed.
Lemma cliff_case : exists P t, pBackshoreElev P = Fin 4 /\ tX t = Fin 0 /\ tY0 t = Fin (-60) /\ tY3 t = Fin (-50) /\ tY4 t = Fin (-50) /\
  tZ0 t = Fin 2 /\ tZ3 t = Fin 0 /\ -60 <= -50 /\ (0 < 7) /\ 2 <= 4 /\ noChannel t.
Proof.
  exists (mkPhys (Fin 1) (Fin 1) (Fin 1) (Fin 1) (Fin 1) (Fin 1) (Fin 1) (Fin 1) (Fin 1) (Fin 1) (Fin 1) (Fin 1) (Fin 1) (Fin 1) (Fin 1) (Fin 1) (Fin 1) (Fin 1) (Fin 1) (Fin 1) (Fin 4)
    (Fin 1) (Fin 1) (Fin 1) (Fin 1) (Fin 1) (Fin 1) (Fin 1) (Fin 1) (Fin 1) (Fin 1) (Fin 1) (Fin 1) (Fin 1) (Fin 1) (Fin 1) (Fin 1)),
   (mkT (Fin 0) (Fin (-60)) NaN NaN (Fin (-50)) (Fin (-50)) (Fin 2) NaN NaN (Fin 0)).
  repeat split; lra.
Qed.
(** Overlap of 2 m behind a lower outer crest, and levelling. *)
Lemma neg_case :
  (exists c, negWidth true (Fin 3) (Fin 10) (withChannel 0 0 (-12) (-10) (-30) (-50) 3 0 4 (-1)) = Ok (withChannel 0 0 (-10) (-10) (-30) (-50) c 0 4 (-1), false)) /\
  (exists c, negWidth true (Fin 3) (Fin 10) (withChannel 0 0 (-12) (-10) (-30) (-50) 3 0 3.5 (-1)) =
     Ok (mkT (Fin 0) (Fin 0) NaN NaN (Fin (-30)) (Fin (-50)) (Fin c) NaN NaN (Fin (-1)), true)).
Proof.
  split.
  - destruct (neg_spec 3 10 0 0 (-12) (-10) (-30) (-50) 3 0 4 (-1)) as [_ K]; try lra. destruct K as (A & _ & _); try lra.
    destruct A as (c & E & _); [|lra|exists c; exact E]. unfold toLevel. replace (Rleb 3 4) with true by (symmetry; apply Rleb_true; lra). lra.
  - destruct (neg_spec 3 10 0 0 (-12) (-10) (-30) (-50) 3 0 3.5 (-1)) as [_ K]; try lra. destruct K as (_ & _ & A); try lra.
    destruct A as (c & E & _); [|exists c; exact E]. unfold toLevel. replace (Rleb 3 3.5) with true by (symmetry; apply Rleb_true; lra). lra.
Qed.
(** The outlet end has crossed transects 3 and 4. *)
Lemma extend_case : exists T' outlet', extendStep ones exGrid (Fin 0) (Fin 4) (Fin 5) (Fin 0) [0; 1; 2]%nat = Ok (T', outlet') /\ outlet' = [0; 1; 2; 3; 4]%nat.
Proof. do 2 eexists. split; [unfold extendStep; xrun|reflexivity]. Qed.
Lemma seaward_case : seawardFirst (withChannel 0 (-10.001) (-10) (-20) (-30) (-50) 4 0 2 (-1)) = withChannel 0 (-10.001) (-10.002) (-20.004) (-30) (-50) 4 0 2 (-1).
Proof.
  destruct (seaward_spec 0 (-10.001) (-10) (-20) (-30) (-50) 4 0 2 (-1)) as [_ K]; [lra|]. destruct K as (u & E & V); [lra|]. rewrite E. unfold withChannel. f_equal; f_equal; lra.
Qed.
(** Transects 1 and 2 have merged with the lagoon; only the first is cut off. *)
Definition exMerged : list (tsect xr) :=
  [exRow 0; withChannel 1 0 (-10) (-20) (-15) (-50) 3 0 2 (-1); withChannel 2 0 (-10) (-20) (-15) (-50) 3 0 2 (-1); exRow 3; exRow 4].
Lemma rest_refuted : exists T pres e0' outlet', lagoonTrunc T pres (Fin 0) (Fin 4) [0; 1; 2; 3; 4]%nat = Ok (T, pres, e0', outlet') /\
  exists k t, nth_error outlet' 0 = Some k /\ (1 < length outlet')%nat /\ nth_error T k = Some t /\ (tY2 t <=? tY3 t)%n = true.
Proof.
  exists exMerged, [true; true; true; true; true], (Fin 2), [2; 3; 4]%nat. split.
  - unfold lagoonTrunc. xrun.
  - exists 2%nat. eexists. split; [reflexivity|]. split; [cbn; lia|]. split; [reflexivity|]. apply Rleb_true. lra.
Qed.
(** The merged transect lies landward of the cliff top; the channel up to the lagoon turns into lagoon. *)
Definition exSwallow : list (tsect xr) :=
  [mkT (Fin 0) (Fin 0) NaN NaN (Fin (-30)) (Fin (-50)) (Fin 3) NaN NaN (Fin (-1));
   withChannel 1 0 (-10) (-20) (-15) (-15) 3 0 2 (-1); withChannel 2 0 (-10) (-20) (-15) (-15) 3 0 2 (-1); withChannel 3 0 (-10) (-20) (-30) (-30) 3 0 2 (-1); withChannel 4 0 (-10) (-20) (-30) (-30) 3 0 2 (-1)].
Lemma swallow_case : exists T' pres' e0' outlet', lagoonTrunc exSwallow [false; true; true; true; true] (Fin 1) (Fin 4) [1; 2; 3; 4]%nat = Ok (T', pres', e0', outlet') /\
  map tY3 T' = [Fin (-30); Fin (-10); Fin (-15); Fin (-30); Fin (-30)] /\ outlet' = [2; 3; 4]%nat.
Proof. do 4 eexists. split; [unfold lagoonTrunc; xrun|split; reflexivity]. Qed.
(** Transects 1 and 3 have met the sea. *)
Definition exSea : list (tsect xr) :=
  [exRow 0; withChannel 1 (-12) (-10) (-20) (-30) (-50) 3 0 2 (-1); exRow 2; withChannel 3 (-12) (-10) (-20) (-30) (-50) 3 0 2 (-1); exRow 4].
Lemma exSea_nth i t : nth_error exSea i = Some t -> (i < 5)%nat /\ tX t = Fin (INR i).
Proof.
  intros H. assert (i < 5)%nat by (change 5%nat with (length exSea); apply nth_error_Some; congruence). split; [auto|].
  destruct i as [|[|[|[|[|i]]]]]; [| | | | |lia]; injection H as <-; unfold exRow, withChannel; cbn [INR tX]; f_equal; lra.
Qed.
Lemma exSea_regular : finX exSea /\ regular 1 exSea.
Proof.
  split; [|split; [lra|]].
  - intros i t H. apply exSea_nth in H as [_ E]. eexists. exact E.
  - intros i t u Hi Hj. apply exSea_nth in Hi as [_ ->]. apply exSea_nth in Hj as [_ ->]. cbn [rv]. rewrite S_INR. lra.
Qed.
Lemma sea_mirror_refuted : exists T e1' outlet', finX T /\ regular 1 T /\
  seaTrunc (Fin 1) T (Fin 4) (Fin 0) [4; 3; 2; 1; 0]%nat = Ok (e1', outlet') /\ exists k, In k outlet' /\ broken T k.
Proof.
  exists exSea, (Fin (1 + 1/2)), [4; 3; 2]%nat. destruct exSea_regular as [A B]. split; [auto|]. split; [auto|]. split; [unfold seaTrunc; xrun|].
  exists 3%nat. split; [right; left; reflexivity|]. eexists. split; [reflexivity|]. apply Rleb_true. lra.
Qed.
Lemma sea_case : seaTrunc (Fin 1) exSea (Fin 0) (Fin 4) [0; 1; 2; 3; 4]%nat = Ok (Fin (1 - 1/2), [0]%nat).
Proof. unfold seaTrunc. xrun. Qed.
Lemma last_case : exists u, lagoonLast ones (withChannel 0 0 (-10) (-20) (-15) (-18) 3 0 (1/2) (-1)) = withChannel 0 0 (-10) (u + 1/10000) u u 3 0 (1/2) (-1).
Proof.
  destruct (last_spec ones 1 0 0 (-10) (-20) (-15) (-18) 3 0 (1/2) (-1)) as (_ & _ & K); [reflexivity|lra|lra|]. destruct K as (u & E & _); [lra|lra|]. exists u. exact E.
Qed.

(** ** Breaches *)
Definition bare (x y0 : R) : tsect xr := mkT (Fin x) (Fin y0) NaN NaN (Fin (-30)) (Fin (-50)) (Fin 3) NaN NaN (Fin (-1)).
Definition exCoast (y : R) : list (tsect xr) := [bare (-1) 0; bare 0 0; bare 1 y; bare 2 0].
Definition yes (_ : nat) : bool := true.
(** Closed, the barrier of transect 2 is gone: a breach.  With other memory: failure. *)
Lemma erode_case : exists r, morBreach ones yes yes (exCoast 0) (exCoast (-40)) [false; false; false; false] 1 NaN (Fin 1) (Fin 5) (Fin 0) [] true [Fin 2; Fin 2; Fin 2; Fin 2] = Ok r /\ snd r = true.
Proof. eexists. split; [unfold morBreach; cbv zeta; xrun|reflexivity]. Qed.
Lemma spill_case : exists r, morBreach ones yes yes (exCoast 0) (exCoast 0) [false; false; false; false] 1 NaN (Fin 1) (Fin 5) (Fin 0) [] true [Fin 2; Fin 2; Fin 4; Fin 2] = Ok r /\ snd r = true.
Proof. eexists. split; [unfold morBreach; cbv zeta; xrun|reflexivity]. Qed.
Lemma calm_case : exists r, morBreach ones yes yes (exCoast 0) (exCoast 0) [false; false; false; false] 1 NaN (Fin 1) (Fin 5) (Fin 0) [] true [Fin 2; Fin 2; Fin 2; Fin 2] = Ok r /\ snd r = false.
Proof. eexists. split; [unfold morBreach; cbv zeta; xrun|reflexivity]. Qed.
(** ** A whole update of a coast at rest *)
Definition restP : phys xr := mkPhys (Fin 1) (Fin 1) (Fin 1) (Fin 1) (Fin 1) (Fin 1) (Fin 1) (Fin 1) (Fin 1) (Fin 1) (Fin 1) (Fin 1) (Fin 1) (Fin 1) (Fin 1) (Fin 1) (Fin 1) (Fin 1) (Fin 1) (Fin 1) (Fin 4)
    (Fin 1) (Fin 1) (Fin 1) (Fin 1) (Fin 1) (Fin 1) (Fin 1) (Fin 1) (Fin 1) (Fin 1) (Fin 1) (Fin 0) (Fin 1) (Fin 1) (Fin 1) (Fin 1).
Definition zeroRow : trate xr := mkR (Fin 0) (Fin 0) (Fin 0) (Fin 0) (Fin 0) (Fin 0) (Fin 0) (Fin 0) (Fin 0).
Definition zeroRates : rates xr := mkRates [Fin 0] (repeat zeroRow 4) (Fin 0) (Fin 0) (Fin 0).
Lemma still_rates : changeRates restP (Fin 20) (exCoast 0) NaN (Fin 1) (Fin 5) (Fin 0) [1]%nat [] [Fin 5; Fin 5; Fin 5] [Fin 1; Fin 1; Fin 1] [0;0;1]%nat None
   [Fin 0; Fin 0; Fin 0] [Fin 0; Fin 0] [Fin 0; Fin 0; Fin 0; Fin 0] [false;false;false;false] = Ok zeroRates.
Proof.
  cbv beta zeta delta [changeRates]. repeat onbind; xev. unfold zeroRates, zeroRow. cbn [repeat]. 
  repeat first [reflexivity|f_equal]; lra.
Qed.
Lemma still_row x : applyRow (Fin 15) (bare x 0) zeroRow = bare x 0.
Proof. unfold applyRow, bare, zeroRow. cbn [rY0 rY1 rY2 rY3 rY4 rZ0 rZ1 rZ2 rZ3 tX tY0 tY1 tY2 tY3 tY4 tZ0 tZ1 tZ2 tZ3]. rewrite !PRate.xmul, !xadd_nan_l, !PRate.xadd, !Rmult_0_l, !Rplus_0_r. reflexivity. Qed.
Lemma still_apply : morApply 10 restP capNum capTP (exCoast 0) NaN (Fin 1) (Fin 5) (Fin 0) [Fin 1; Fin 1] [1]%nat [] [Fin 2; Fin 2; Fin 2; Fin 2] [] [Fin 5; Fin 5; Fin 5] [Fin 1; Fin 1; Fin 1] [0;0;1]%nat true
   [Fin 0; Fin 0; Fin 0] [Fin 0; Fin 0] [Fin 0; Fin 0; Fin 0; Fin 0] [false;false;false;false] (sec 15) =
   Ok (mkApp (exCoast 0) (Fin 1) (Fin 5) (Fin 0) [Fin 1; Fin 1] (sec 15) [Fin 2; Fin 2; Fin 2; Fin 2] 1).
Proof.
  unfold morApply. do 3 onbind. match goal with |- bind ?r _ = _ => assert (EC : r = Ok zeroRates) by exact still_rates; rewrite EC end. cbn [bind]. cbv zeta.
  assert (EM : maxRate zeroRates = Ok (Fin 0)).
  { unfold maxRate, zeroRates, zeroRow. cbn [rRiv rT rWiden rAgg rMove repeat]. unfold rowMax, rowMaxZ. cbn [map rY0 rY1 rY2 rY3 rY4 rZ0 rZ1 rZ2 rZ3]. rewrite !PRate.xabs, Rabs_R0.
    cbn [concat app fmaxl bind fold_left]. rewrite !xmax, !(Rmax_left 0 0) by lra. rewrite !pymax_fin, !(Rmax_left 0 0) by lra. reflexivity. }
  rewrite EM. cbn [bind].
  assert (EA : adaptStep 10 capNum capTP (Fin 0) (sec 15) = Ok (sec 15)).
  { unfold adaptStep, adaptDown, adaptUp. change (seconds (tMorDtMin capTP) <? seconds (sec 15))%Z with false. cbn [andb bind]. change (seconds (sec 15) <? seconds (tMorDtMax capTP))%Z with false. reflexivity. }
  rewrite EA. cbn [bind].
  assert (EL : limitRates capNum capTP (Fin 0) (sec 15) zeroRates = Ok zeroRates).
  { unfold limitRates. change (nMaxMorChange capNum) with (Fin 0.25). change (fofZ (seconds (sec 15))) with (Fin 15). rewrite PRate.xmul, xlt.
    replace (Rltb 0.25 (0 * 15)) with false by (symmetry; apply Rltb_false; lra). reflexivity. }
  rewrite EL. cbn [bind]. change (fofZ (seconds (sec 15))) with (Fin 15).
  assert (ER : applyRiver (Fin 15) [Fin 1; Fin 1] (rRiv zeroRates) = Ok [Fin 1; Fin 1]).
  { unfold applyRiver, zeroRates. cbn [rRiv length Nat.eqb map2]. rewrite PRate.xmul, PRate.xadd. do 3 f_equal. f_equal. lra. }
  rewrite ER. cbn [bind]. unfold exCoast, zeroRates. cbn [rT repeat map2]. rewrite !still_row. reflexivity.
Qed.
Lemma still_correct : morCorrect restP (nDx capNum) (exCoast 0) (exCoast 0) NaN (Fin 1) (Fin 5) (Fin 0) [] true = Ok (exCoast 0, [false; false; false; false], NaN, Fin 1, []).
Proof. unfold morCorrect. xrun. Qed.
Lemma still_breach : exists e0' br, morBreach restP yes yes (exCoast 0) (exCoast 0) [false; false; false; false] 1 NaN (Fin 1) (Fin 5) (Fin 0) [] true [Fin 2; Fin 2; Fin 2; Fin 2] = Ok (exCoast 0, e0', Fin 1, Fin 5, Fin 0, br).
Proof. do 2 eexists. unfold morBreach; cbv zeta; xrun. Qed.
Lemma still_update : exists o, updateMorphology 10 yes yes restP capNum capTP (exCoast 0) NaN (Fin 1) (Fin 5) (Fin 0) [Fin 1; Fin 1] [1]%nat [] [Fin 2; Fin 2; Fin 2; Fin 2] [] [Fin 5; Fin 5; Fin 5] [Fin 1; Fin 1; Fin 1] [0;0;1]%nat true
   [Fin 0; Fin 0; Fin 0] [Fin 0; Fin 0] [Fin 0; Fin 0; Fin 0; Fin 0] [false;false;false;false] (sec 15) = Ok o /\ oT o = exCoast 0.
Proof.
  destruct still_breach as (e & br & EB). eexists. split.
  - unfold updateMorphology. rewrite still_apply. cbn [bind aT aE1 aW aZ aX0 aWL aRiver aDt]. rewrite still_correct. cbn [bind]. rewrite EB. reflexivity.
  - reflexivity.
Qed.
(** The same update when memory holds a false at transect 0. *)
Lemma memory_refuted : exists j (r : _), morBreach restP yes yes (exCoast 0) (exCoast 0) [false; false; false; false] 1 NaN (Fin 1) (Fin 5) (Fin 0) [] true [Fin 2; Fin 2; Fin 2; Fin 2] = Ok r /\
  morBreach restP j yes (exCoast 0) (exCoast 0) [false; false; false; false] 1 NaN (Fin 1) (Fin 5) (Fin 0) [] true [Fin 2; Fin 2; Fin 2; Fin 2] = Exc EAssert /\
  morBreach restP yes j (exCoast 0) (exCoast 0) [false; false; false; false] 1 NaN (Fin 1) (Fin 5) (Fin 0) [] true [Fin 2; Fin 2; Fin 2; Fin 2] = Exc EAssert.
Proof.
  destruct still_breach as (e & br & EB). exists (fun i => negb (Nat.eqb i 0)). eexists. split; [exact EB|]. split; unfold morBreach; cbv zeta; repeat onbind; xev; reflexivity.
Qed.
(** Channel 10 m wide overlapping the lagoon by 5 m, over a bed 1 m below datum. *)
Lemma bed_refuted : exists x y0 y1 y2 y3 y4 z0 z1 z2 z3 z, y4 < y1 /\ y2 <= y3 /\
  dissolve (withChannel x y0 y1 y2 y3 y4 z0 z1 z2 z3) = mkT (Fin x) (Fin y0) NaN NaN (Fin (y3 + (y1 - y2))) (Fin y4) (Fin z0) NaN (Fin z2) (Fin z) /\
  z * (y3 + (y1 - y2) - y4) <> z1 * (y1 - y2) + z3 * (y3 - y4).
Proof.
  exists 0, 0, (-10), (-20), (-15), (-50), 3, (-1), 2, (-1). destruct (dissolve_spec 0 0 (-10) (-20) (-15) (-50) 3 (-1) 2 (-1)) as (z & E & A & B); [lra|].
  exists z. split; [lra|]. split; [lra|]. split; [exact E|]. lra.
Qed.
Lemma fill_case : exists y, fillT restP (withChannel 0 (-11) (-10) (-20) (-30) (-50) 3 0 2 (-1)) = mkT (Fin 0) (Fin y) NaN NaN (Fin (-30)) (Fin (-50)) (Fin 2) NaN NaN (Fin (-1)) /\ (-11 - y) * (2 + 1) = 10 * 2.
Proof. destruct (fill_spec restP 1 0 (-11) (-10) (-20) (-30) (-50) 3 0 2 (-1)) as (y & E & V); [reflexivity|lra|]. exists y. split; [exact E|lra]. Qed.
(** The sea has reached the relic channel at transect 2 (or 1). *)
Definition reachedRow (x : R) : tsect xr := withChannel x (-11) (-10) (-20) (-30) (-50) 3 0 2 (-1).
Lemma relic_case : exists T' pres', shoreFill restP yes [bare 0 0; exRow 1; reachedRow 2; exRow 3] [false; true; true; true] (Fin 1) true (Some (1, 3)%Z) = Ok (T', pres', Some 2%nat).
Proof. do 2 eexists. unfold shoreFill. cbv zeta. xrun. Qed.
Lemma relic_stop : shoreFill restP yes [bare 0 0; reachedRow 1; exRow 2; exRow 3] [false; true; true; true] (Fin 1) true (Some (1, 3)%Z) = Exc EIndex.
Proof. unfold shoreFill. cbv zeta. repeat onbind. xev. reflexivity. Qed.
Lemma restore_case : exists a b, restoreT (Fin 4) (bare 0 (-40)) = mkT (Fin 0) (Fin (-40 + a)) NaN NaN (Fin (-30 - b)) (Fin (-50)) (Fin 3) NaN NaN (Fin (-1)) /\ 0 < a * 4 + b * 4.
Proof.
  destruct (restore_spec 4 (bare 0 (-40)) 0 (-40) (-30) 3 (-1)) as (a & b & E & A & B & _); try reflexivity; try lra.
  exists a, b. split; [exact E|lra].
Qed.
(** A relic channel whose inner crest is higher; no water anywhere near. *)
Definition relicRow (x : R) : tsect xr := withChannel x 0 (-10) (-20) (-30) (-50) 3 0 4 (-1).
Lemma raise_case : exists T' e0' e1' W' Z', morBreach restP yes yes [bare 0 0; bare 1 0; relicRow 2; bare 3 0] [bare 0 0; bare 1 0; relicRow 2; bare 3 0] [false; false; true; false] 0 NaN (Fin 1) (Fin 5) (Fin 0) [] true (repeat (Fin 1) 4)
   = Ok (T', e0', e1', W', Z', false) /\ map tZ0 T' = [Fin 3; Fin 3; Fin 4; Fin 3].
Proof. do 5 eexists. split; [unfold morBreach; cbv zeta; cbn [repeat]; xrun|]. cbn [map tZ0]. reflexivity. Qed.
Lemma joined_refuted : exists n cc b, (b < n)%nat /\ joined cc b /\ inConnected n cc b = false.
Proof. exists 5%nat, (Some (2, 4)%Z), 3%nat. split; [lia|]. split; [cbn; lia|reflexivity]. Qed.
(** Overtopping of a barrier that no open lagoon joins to the river, outlet open. *)
Lemma stuck_case : spillBreach restP [bare 0 0; mkT (Fin 1) (Fin 0) NaN NaN (Fin (-30)) (Fin (-30)) (Fin 3) NaN NaN (Fin (-1)); bare 2 0] 0 false (Some (0, 0)%Z) [Fin 2; Fin 2; Fin 4] None = Exc EIndex.
Proof. unfold spillBreach. xev. reflexivity. Qed.
Lemma breach_case : let T := exCoast 0 in exists t, inOrder T /\ nth_error T 2 = Some t /\ pMinOutletWidth restP = Fin 1 /\ pSpitWidth restP = Fin 1 /\ pMaxOutletElev restP = Fin 1 /\
  tX t = Fin 1 /\ tY0 t = Fin 0 /\ tY3 t = Fin (-30) /\ tY4 t = Fin (-50) /\ tZ0 t = Fin 3 /\ tZ3 t = Fin (-1) /\ breachWidth restP (Fin 1) = Fin 2.
Proof.
  intros T. exists (bare 1 0). split.
  - assert (E : forall i t, nth_error T i = Some t -> tX t = Fin (INR i - 1)).
    { intros i t H. assert (i < 4)%nat by (change 4%nat with (length T); apply nth_error_Some; congruence).
      destruct i as [|[|[|[|i]]]]; [| | | |lia]; injection H as <-; unfold bare; cbn [INR tX]; f_equal; lra. }
    split.
    + intros i t H. rewrite (E i t H). eexists. reflexivity.
    + intros i j t u Hi Hj L. rewrite (E _ _ Hi), (E _ _ Hj). cbn [rv]. apply lt_INR in L. lra.
  - repeat split. unfold breachWidth. change (f2 * pMinOutletWidth restP)%n with (Fin (2 * 1)). rewrite pymax_fin. f_equal. rewrite Rmax_right; lra.
Qed.
