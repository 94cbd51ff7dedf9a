(** The initial transects follow the input lines. *)
From Coq Require Import ZArith List Bool Lia Reals Lra.
From Verif Require Import Base Num Xr MState MGeom MLoad SGeom SLoad SLine SShape PGeom PRate PLine PPlan2 PAnim PHyd PTrans PLoad PLoad2 PLoad3.
Import ListNotations.
Local Open Scope R_scope.

Lemma maxl_fin c m : fmaxl (map Fin c) = Ok m -> exists y, m = Fin y /\ In y c /\ forall z, In z c -> z <= y.
Proof.
  destruct c as [|a c]; [discriminate|]. intros H. cbn [map fmaxl] in H. apply Ok_inj in H. subst m.
  destruct (outermost fmaximum Rmax (fun u v => v <= u)) with (l := c) (a := a) as (r & E & I & M); [apply xmax| | | |].
  - intros u v. unfold Rmax. destruct (Rle_dec u v); (split; [auto|lra]).
  - intros; lra.
  - intros; lra.
  - exists r. auto.
Qed.

Lemma row_lines I shore lagoon cliff outlet l0 l1 o0 o1 x t w :
  iOutletWidth I = Fin w -> rightward shore -> shore <> [] ->
  shapeRow I (map fp shore) (map fp lagoon) (map fp cliff) (map fp outlet) (Fin l0) (Fin l1) (Fin o0) (Fin o1) (Fin x) = Ok t ->
  read_off shore lagoon cliff outlet l0 l1 o0 o1 w x t.
Proof.
  intros EW HR HN H. unfold shapeRow in H. apply bind_ok in H as (cl & Hcl & H). apply bind_ok in H as (y4 & H4 & H).
  apply bind_ok in H as (y3 & H3 & H). apply bind_ok in H as ([y1 y2] & H12 & H). apply Ok_inj in H. subst t.
  cbn [tX tY0 tY1 tY2 tY3 tY4].
  unfold read_off. cbn [tX tY0 tY1 tY2 tY3 tY4].
  destruct (interp_spec shore x HR HN) as (y0 & E0 & O0). change (nodes shore) with (map fp shore) in E0. rewrite E0 in *.
  destruct (intersect_spec cliff x) as (c4 & I4 & C4). rewrite I4 in Hcl. apply Ok_inj in Hcl. subst cl.
  apply maxl_fin in H4 as (r4 & -> & I4' & M4).
  change (Fin l0 <? Fin x)%n with (Rltb l0 x) in H3. change (Fin x <? Fin l1)%n with (Rltb x l1) in H3.
  change (Fin o0 <? Fin x)%n with (Rltb o0 x) in H12. change (Fin x <? Fin o1)%n with (Rltb x o1) in H12.
  assert (K3 : exists r3, y3 = Fin r3 /\ (l0 < x < l1 -> exists c3, crossings x lagoon c3 /\ In r3 c3 /\ forall y, In y c3 -> y <= r3) /\ (x <= l0 \/ l1 <= x -> r3 = r4)).
  { destruct (Rltb l0 x) eqn:Q1; [destruct (Rltb x l1) eqn:Q2|]; cbn [andb] in H3.
    - apply Rltb_true in Q1, Q2. apply bind_ok in H3 as (ys & Hys & H3). destruct (intersect_spec lagoon x) as (c3 & I3 & C3). rewrite I3 in Hys. apply Ok_inj in Hys. subst ys.
      apply maxl_fin in H3 as (r3 & -> & I3' & M3). exists r3. split; [reflexivity|]. split; [intros _; eauto|intros; lra].
    - apply Rltb_false in Q2. apply Ok_inj in H3. subst y3. exists r4. split; [reflexivity|]. split; [intros; lra|reflexivity].
    - apply Rltb_false in Q1. apply Ok_inj in H3. subst y3. exists r4. split; [reflexivity|]. split; [intros; lra|reflexivity]. }
  destruct K3 as (r3 & -> & K3 & K3'). exists y0, r3, r4, c4. do 10 (split; [assumption || reflexivity|]).
  destruct (Rltb o0 x) eqn:Q1; [destruct (Rltb x o1) eqn:Q2|]; cbn [andb] in H12.
  - apply Rltb_true in Q1, Q2. split; [intros _|intros; lra].
    apply bind_ok in H12 as (ys & Hys & H12). destruct (intersect_spec outlet x) as (c & Ic & Cc). rewrite Ic in Hys. apply Ok_inj in Hys. subst ys.
    destruct c as [|y [|? ?]]; cbn [map] in H12; try discriminate. exists y. split; [exact Cc|].
    rewrite EW, halfn, PRate.xsub, PRate.xadd in H12. change (Fin r3 <? Fin (y - w / 2))%n with (Rltb r3 (y - w / 2)) in H12. change (Fin (y + w / 2) <? Fin y0)%n with (Rltb (y + w / 2) y0) in H12.
    destruct (Rltb r3 (y - w / 2)) eqn:A1; [destruct (Rltb (y + w / 2) y0) eqn:A2|]; cbn [andb] in H12; apply Ok_inj in H12;
      pose proof (f_equal fst H12) as B1; pose proof (f_equal snd H12) as B2; cbn [fst snd] in B1, B2; subst y1 y2.
    + apply Rltb_true in A1, A2. split; [auto|intros; lra].
    + apply Rltb_true in A1. apply Rltb_false in A2. split; [intros; lra|intros _; split; reflexivity].
    + apply Rltb_false in A1. split; [intros; lra|intros _; split; reflexivity].
  - apply Rltb_false in Q2. split; [intros; lra|intros _]. apply Ok_inj in H12. pose proof (f_equal fst H12) as B1; pose proof (f_equal snd H12) as B2; cbn [fst snd] in B1, B2; subst y1 y2. split; reflexivity.
  - apply Rltb_false in Q1. split; [intros; lra|intros _]. apply Ok_inj in H12. pose proof (f_equal fst H12) as B1; pose proof (f_equal snd H12) as B2; cbn [fst snd] in B1, B2; subst y1 y2. split; reflexivity.
Qed.

(** The grid. *)
Lemma shape_grid dx c p q xs : 0 < dx -> nth_error c 0 = Some p -> nth_error c (length c - 1) = Some q -> fst p <= fst q ->
  shapeX (Fin dx) (map fp c) = Ok xs -> exists l, xs = map Fin l /\ multiples dx (fst p) (fst q) l.
Proof.
  intros D Hp Hq L H. unfold shapeX in H. apply bind_ok in H as (a & Ha & H). apply bind_ok in H as (z & Hz & H). apply Ok_inj in H. subst xs.
  assert (a = fp p). { apply ix_ok in Ha. rewrite nth_error_map in Ha. unfold pt2 in *. rewrite Hp in Ha. now apply Some_inj in Ha. }
  assert (z = fp q). { rewrite last_nth in Hz. rewrite map_length, nth_error_map in Hz. unfold pt2 in *. rewrite Hq in Hz. now apply Ok_inj in Hz. }
  subst a z. cbn [fp fst]. rewrite xofZ, xdivf by lra. xf.
  set (k := fceil (Fin (fst p / dx))). pose proof (ceil_spec (fst p / dx)) as [K1 K2]. fold k in K1, K2.
  rewrite arange_val by lra.
  assert (E1 : fst p = fst p / dx * dx) by (field; lra).
  assert (A1 : (IZR k - 1) * dx < fst p). { rewrite E1 at 1. apply Rmult_lt_compat_r; lra. }
  assert (A2 : fst p <= IZR k * dx). { rewrite E1 at 1. apply Rmult_le_compat_r; lra. }
  assert (E2 : fst q - IZR k * dx = (fst q - IZR k * dx) / dx * dx) by (field; lra).
  assert (-1 < (fst q - IZR k * dx) / dx). { apply (Rmult_lt_reg_r dx); [lra|]. rewrite <- E2. lra. }
  destruct (ceil_nat _ H) as [N1 N2]. set (n := Z.to_nat _) in *.
  eexists. split; [reflexivity|]. exists k. rewrite map_length, seq_length. split; [|split].
  - intros i x Hx. rewrite nth_error_map_seq in Hx. destruct (Nat.ltb_spec i n); [|discriminate]. apply Some_inj in Hx. subst x. ring.
  - split; assumption.
  - split.
    + apply (Rmult_lt_compat_r dx) in N1; [|lra]. rewrite <- E2 in N1. lra.
    + apply (Rmult_le_compat_r dx) in N2; [|lra]. rewrite <- E2 in N2. lra.
Qed.

(** The shoreline from left to right. *)
Lemma consec_rightward (l : list (R * R)) : forallb (fun b => b) (map2 (fun p q : xr * xr => f0 <? fst q - fst p)%n (removelast (map fp l)) (tl (map fp l))) = true -> rightward l.
Proof.
  unfold rightward. induction l as [|a [|b l] IH]; intros H.
  - constructor.
  - repeat constructor.
  - cbn [map removelast tl map2 forallb] in H. apply andb_true_iff in H as [H1 H2].
    assert (R1 : ForallOrdPairs (fun a b : R * R => fst a < fst b) (b :: l)). { apply IH. exact H2. }
    assert (L : fst a < fst b). { cbn [fp fst] in H1. rewrite PRate.xsub in H1. change (Rltb 0 (fst b - fst a) = true) in H1. apply Rltb_true in H1. lra. }
    constructor; [|exact R1]. constructor; [exact L|]. inversion R1; subst. eapply Forall_impl; [|eassumption]. cbn. intros; lra.
Qed.
Lemma shore_order O d shore s c : toModel O d shore = map fp s -> shoreCoords O d shore = Ok c ->
  exists s', c = map fp s' /\ (s' = s \/ s' = rev s) /\ rightward s' /\ s' <> [].
Proof.
  intros E H. unfold shoreCoords in H. rewrite E in H. apply bind_ok in H as (a & Ha & H). apply bind_ok in H as (z & Hz & H).
  apply bind_ok in H as (u & Hu & H). apply Ok_inj in H. apply assert_ok in Hu.
  assert (N : s <> []). { intros ->. discriminate. }
  destruct (fst z <? fst a)%n.
  - exists (rev s). rewrite <- map_rev in *. split; [auto|]. split; [auto|]. split; [apply consec_rightward, Hu|].
    intros Q. apply N. rewrite <- (rev_involutive s), Q. reflexivity.
  - exists s. split; [auto|]. split; [auto|]. split; [apply consec_rightward, Hu|exact N].
Qed.
Lemma rightward_ends l p q : rightward l -> nth_error l 0 = Some p -> nth_error l (length l - 1) = Some q -> fst p <= fst q.
Proof.
  intros HR Hp Hq. destruct l as [|a l]; [discriminate|]. cbn in Hp. apply Some_inj in Hp. subst a. inversion HR; subst.
  cbn [length] in Hq. replace (S (length l) - 1)%nat with (length l) in Hq by lia. destruct l as [|b l]; cbn [length nth_error] in Hq.
  - apply Some_inj in Hq. subst. lra.
  - apply nth_error_In in Hq. rewrite Forall_forall in H1. apply H1 in Hq. lra.
Qed.
Lemma span_of l a b : xMin (map fp l) = Ok a -> xMax (map fp l) = Ok b -> exists lo hi, a = Fin lo /\ b = Fin hi /\ spans l lo hi.
Proof.
  intros H1 H2. unfold xMax in H2. rewrite map_map in H2. change (map (fun x => fst (fp x)) l) with (map (fun x => Fin (fst x)) l) in H2.
  rewrite <- (map_map fst Fin) in H2. apply maxl_fin in H2 as (hi & -> & I2 & M2).
  destruct l as [|p l]; [discriminate|]. cbn [map xMin] in H1. apply Ok_inj in H1. rewrite map_map in H1.
  change (map (fun x => fst (fp x)) l) with (map (fun x => Fin (fst x)) l) in H1. rewrite <- (map_map fst Fin) in H1. cbn [fp fst] in H1.
  destruct (outermost fminimum Rmin (fun u v => u <= v)) with (l := map fst l) (a := fst p) as (r & E & I1 & M1); [apply xmin| | | |].
  - intros u v. unfold Rmin. destruct (Rle_dec u v); (split; [auto|lra]).
  - intros; lra.
  - intros; lra.
  - exists r, hi. split; [rewrite <- H1; exact E|]. split; [reflexivity|].
    change (fst p :: map fst l) with (map fst (p :: l)) in I1, M1.
    apply in_map_iff in I1 as (u & Eu & Iu). apply in_map_iff in I2 as (v & Ev & Iv). split; [eauto|]. split; [eauto|].
    intros t It. split; [apply M1, in_map, It|apply M2, in_map, It].
Qed.

Lemma setup_rows P I Dx toR outlet T T' e0 e1 : outletSetup P I Dx toR outlet T = Ok (T', e0, e1) ->
  length T' = length T /\ forall i t0 t, nth_error T i = Some t0 -> nth_error T' i = Some t ->
    tX t = tX t0 /\ tY0 t = tY0 t0 /\ tY4 t = tY4 t0 /\ ((exists u, In u T /\ chanHere u) \/ (tX t0 =? e0)%n = false -> t = t0).
Proof.
  intros H. unfold outletSetup in H. destruct (map tX (filter hasOutlet T)) as [|x r] eqn:E.
  - destruct (straightEnd Dx toR outlet) as [a b]. apply bind_ok in H as (u & _ & H). apply Ok_inj in H. injection H as <- <- <-.
    split; [apply map_length|]. intros i t0 t H0 H1. rewrite nth_error_map, H0 in H1. apply Some_inj in H1. subst t.
    change (tX t0 =? a)%n with (xeqb (tX t0) a). destruct (xeqb (tX t0) a); [|repeat split; reflexivity]. repeat split; try reflexivity.
    intros [(v & Iv & Cv)|Q]; [|discriminate]. exfalso. apply has_chan in Cv.
    assert (In v (filter hasOutlet T)) by (apply filter_In; split; assumption). apply map_eq_nil in E. rewrite E in H. destruct H.
  - assert (T' = T). { destruct toR; apply Ok_inj in H; injection H as <- _ _; reflexivity. } subst T'. split; [reflexivity|].
    intros i t0 t H0 H1. assert (t = t0) by congruence. subst. repeat split; reflexivity.
Qed.

Lemma setBeds_len bed (crest : xr) k T : length (setBeds bed crest k T) = length T.
Proof. revert k. induction T as [|t r IH]; intros k; cbn [setBeds]; [reflexivity|]. destruct (hasOutlet t); cbn [length]; f_equal; apply IH. Qed.
Lemma shape_follows P I dx B inflow shore lagoon cliff outlet T e0 e1 W Z O d w s l c o :
  toModel (originOf B inflow) (shoreNormDir B inflow) shore = map fp s -> toModel (originOf B inflow) (shoreNormDir B inflow) lagoon = map fp l ->
  toModel (originOf B inflow) (shoreNormDir B inflow) cliff = map fp c -> toModel (originOf B inflow) (shoreNormDir B inflow) outlet = map fp o ->
  0 < dx -> iOutletWidth I = Fin w ->
  shapeShore P I (Fin dx) B inflow shore lagoon cliff outlet = Ok (T, e0, e1, W, Z, O, d) ->
  exists s' o' xs l0 l1 o0 o1 T0,
    (s' = s \/ s' = rev s) /\ rightward s' /\
    (exists p q, nth_error s' 0 = Some p /\ nth_error s' (length s' - 1) = Some q /\ multiples dx (fst p) (fst q) xs) /\
    (o' = o \/ o' = rev o) /\ (forall p q, nth_error o' 0 = Some p -> nth_error o' (length o' - 1) = Some q -> snd p <= snd q) /\
    spans l l0 l1 /\ spans o o0 o1 /\ (exists a z, nth_error xs 0 = Some a /\ nth_error xs (length xs - 1) = Some z /\ a < l0 /\ l1 < z) /\
    length T0 = length xs /\ length T = length xs /\
    (forall i x t, nth_error xs i = Some x -> nth_error T0 i = Some t -> read_off s' l c o' l0 l1 o0 o1 w x t) /\
    (forall i t0 t, nth_error T0 i = Some t0 -> nth_error T i = Some t -> tX t = tX t0 /\ tY0 t = tY0 t0 /\ tY4 t = tY4 t0 /\
       ((exists u, In u T0 /\ chanHere u) \/ tX t0 <> e0 -> tY1 t = tY1 t0 /\ tY2 t = tY2 t0 /\ tY3 t = tY3 t0)) /\
    (exists toR T1, outletSetup P I (Fin dx) toR (map fp o') T0 = Ok (T1, e0, e1) /\ T = outletBeds I toR T1 /\
       forall p q, nth_error o' 0 = Some p -> nth_error o' (length o' - 1) = Some q -> (toR = true <-> fst p < fst q)) /\
    W = iOutletWidth I /\ Z = iOutletBed I /\ O = originOf B inflow /\ d = shoreNormDir B inflow.
Proof.
  intros Es El Ec Eo D EW H. unfold shapeShore in H. cbv zeta in H. rewrite El, Ec, Eo in H.
  apply bind_ok in H as (c' & Hc' & H). destruct (shore_order _ _ _ _ _ Es Hc') as (s' & -> & S1 & S2 & S3).
  apply bind_ok in H as (xs & Hxs & H).
  destruct (nth_error s' 0) as [p|] eqn:Hp; [|destruct s'; [congruence|discriminate]].
  destruct (nth_error s' (length s' - 1)) as [q|] eqn:Hq; [|apply nth_error_None in Hq; destruct s'; [congruence|cbn in Hq; lia]].
  destruct (shape_grid _ _ _ _ _ D Hp Hq (rightward_ends _ _ _ S2 Hp Hq) Hxs) as (gx & -> & G).
  apply bind_ok in H as (lmin & Hlmin & H). apply bind_ok in H as (lmax & Hlmax & H).
  destruct (span_of _ _ _ Hlmin Hlmax) as (l0 & l1 & -> & -> & SL).
  apply bind_ok in H as (xf & Hxf & H). apply bind_ok in H as (xl & Hxl & H). apply bind_ok in H as (u & Hu & H). apply assert_ok in Hu.
  apply bind_ok in H as (omin & Homin & H). apply bind_ok in H as (omax & Homax & H).
  destruct (span_of _ _ _ Homin Homax) as (o0 & o1 & -> & -> & SO).
  apply bind_ok in H as (a & Ha & H). apply bind_ok in H as (z & Hz & H).
  set (o' := if (snd z <? snd a)%n then rev o else o).
  assert (Eo' : (if (snd z <? snd a)%n then rev (map fp o) else map fp o) = map fp o'). { unfold o'. destruct (snd z <? snd a)%n; [symmetry; apply map_rev|reflexivity]. }
  rewrite Eo' in H. set (toR := if (snd z <? snd a)%n then _ else _) in H.
  apply bind_ok in H as (T0 & HT0 & H). apply bind_ok in H as ([[T1 e0'] e1'] & HT1 & H). apply Ok_inj in H. injection H as <- <- <- <- <- <- <-.
  destruct (PAnim.all_ok_nth _ _ HT0) as [L0 N0]. rewrite !map_length in L0. destruct (setup_rows _ _ _ _ _ _ _ _ _ HT1) as [L1 N1].
  assert (LT : length (outletBeds I toR T1) = length T1).
  { apply setBeds_len. }
  exists s', o', gx, l0, l1, o0, o1, T0. split; [exact S1|]. split; [exact S2|]. split; [exists p, q; auto|].
  assert (OE : forall p1 q1, nth_error o' 0 = Some p1 -> nth_error o' (length o' - 1) = Some q1 -> snd p1 <= snd q1 /\ (toR = true <-> fst p1 < fst q1)).
  { intros p1 q1 Hp1 Hq1. apply ix_ok in Ha. rewrite last_nth in Hz. rewrite nth_error_map in Ha. rewrite map_length, nth_error_map in Hz.
    unfold o' in Hp1, Hq1. unfold pt2 in *. unfold toR.
    destruct (nth_error o 0) as [oa|] eqn:Oa; [|discriminate]. destruct (nth_error o (length o - 1)) as [oz|] eqn:Oz; [|discriminate].
    cbn [option_map] in Ha, Hz. apply Some_inj in Ha. apply Ok_inj in Hz. clear toR o' Eo' HT1 LT HT0 N0. subst a z. cbn [fp snd fst] in *.
    change (Fin (snd oz) <? Fin (snd oa))%n with (Rltb (snd oz) (snd oa)) in *. change (Fin (fst oz) <? Fin (fst oa))%n with (Rltb (fst oz) (fst oa)).
    change (Fin (fst oa) <? Fin (fst oz))%n with (Rltb (fst oa) (fst oz)). destruct (Rltb (snd oz) (snd oa)) eqn:Q.
    - apply Rltb_true in Q.
      assert (LO : (0 < length o)%nat) by (destruct o; [discriminate|cbn; lia]). rewrite rev_length in Hq1.
      assert (Rp : p1 = oz). { apply (nth_error_nth _ _ oa) in Hp1, Oz. rewrite rev_nth in Hp1 by exact LO. congruence. }
      assert (Rq : q1 = oa). { apply (nth_error_nth _ _ oa) in Hq1, Oa. rewrite rev_nth in Hq1 by lia. replace (length o - S (length o - 1))%nat with 0%nat in Hq1 by lia. congruence. }
      subst. split; [lra|apply Rltb_true].
    - apply Rltb_false in Q. rewrite Hp1 in Oa. rewrite Hq1 in Oz. apply Some_inj in Oa, Oz. subst. split; [lra|apply Rltb_true]. }
  split; [unfold o'; destruct (snd z <? snd a)%n; auto|]. split; [intros p1 q1 U V; apply (OE p1 q1 U V)|].
  split; [exact SL|]. split; [exact SO|]. split.
  { apply ix_ok in Hxf. rewrite last_nth in Hxl. rewrite nth_error_map in Hxf. rewrite map_length, nth_error_map in Hxl.
    destruct (nth_error gx 0) as [ga|] eqn:Ga; [|discriminate]. destruct (nth_error gx (length gx - 1)) as [gz|] eqn:Gz; [|discriminate].
    cbn [option_map] in Hxf, Hxl. apply Some_inj in Hxf. apply Ok_inj in Hxl. subst xf xl. apply andb_true_iff in Hu as [U1 U2].
    change (Rltb l1 gz = true) in U1. change (Rltb ga l0 = true) in U2. apply Rltb_true in U1, U2. exists ga, gz. auto. }
  split; [exact L0|]. split; [congruence|]. split.
  { intros i x t Hx Ht. apply N0 in Ht. rewrite nth_error_map, nth_error_map, Hx in Ht. cbn [option_map] in Ht. apply Some_inj in Ht.
    apply (row_lines I); assumption. }
  split; [|split; [exists toR, T1; split; [exact HT1|]; split; [reflexivity|]; intros p1 q1 U V; apply (OE p1 q1 U V)|repeat split]].
  intros i t0 t Ht0 Ht. destruct (nth_error T1 i) as [t1|] eqn:Ht1.
  2:{ apply nth_error_None in Ht1. apply nth_lt in Ht0. lia. }
  pose proof (N1 _ _ _ Ht0 Ht1) as (A1 & A2 & A3 & A4). rewrite (beds_nth _ _ _ _ _ Ht1) in Ht. apply Some_inj in Ht. subst t.
  assert (Q : (exists u, In u T0 /\ chanHere u) \/ tX t0 <> e0' -> t1 = t0).
  { intros [U|U]; apply A4; [now left|right]. apply N0 in Ht0. rewrite nth_error_map, nth_error_map in Ht0.
    destruct (nth_error gx i) as [x|] eqn:Hx; [|discriminate]. cbn [option_map] in Ht0. apply Some_inj in Ht0.
    destruct (row_lines I s' l c o' l0 l1 o0 o1 x t0 w EW S2 S3 Ht0) as (y0 & y3 & y4 & c4 & EX & _). rewrite EX in *.
    destruct e0'; try reflexivity. change (Reqb x r = false). apply Reqb_false. intros ->. now apply U. }
  destruct (hasOutlet t1); cbn [tX tY0 tY1 tY2 tY3 tY4 setZ1 setZ2]; repeat (split; [assumption|]); intros U; rewrite (Q U); repeat split.
Qed.
