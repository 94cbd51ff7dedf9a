(** Proofs: initial outlet, and examples for the initial state. *)
From Coq Require Import Reals List ZArith Bool Lia Lra Sorted Floats.
From Verif Require Import Base Num Xr Flt MState MGeom MOut MLoad SGeom SLoad PGeom PLag PHyd PRate PFill PLoad PLoad2 XEval PCoast PJac.
Import ListNotations.
Local Open Scope R_scope.

Lemma fold_rmin : forall l a, fold_left fminimum (map Fin l) (Fin a) = Fin (fold_left Rmin l a).
Proof. induction l as [|b l IH]; intros a; [reflexivity|]. cbn [map fold_left]. rewrite xmin. apply IH. Qed.
Lemma fold_rmax : forall l a, fold_left fmaximum (map Fin l) (Fin a) = Fin (fold_left Rmax l a).
Proof. induction l as [|b l IH]; intros a; [reflexivity|]. cbn [map fold_left]. rewrite xmax. apply IH. Qed.
Lemma rmin_spec : forall l a, In (fold_left Rmin l a) (a :: l) /\ forall x, In x (a :: l) -> fold_left Rmin l a <= x.
Proof.
  induction l as [|b l IH]; intros a; cbn [fold_left].
  - split; [left; reflexivity|]. intros x [<-|[]]. lra.
  - destruct (IH (Rmin a b)) as [A B]. split.
    + destruct A as [A|A]; [|right; right; exact A]. rewrite <- A. unfold Rmin. destruct (Rle_dec a b); [left|right; left]; reflexivity.
    + intros x [<-|[<-|Hx]]; [| |apply B; right; exact Hx]; pose proof (B _ (or_introl eq_refl)).
      * pose proof (Rmin_l a b). lra.
      * pose proof (Rmin_r a b). lra.
Qed.
Lemma rmax_spec : forall l a, In (fold_left Rmax l a) (a :: l) /\ forall x, In x (a :: l) -> x <= fold_left Rmax l a.
Proof.
  induction l as [|b l IH]; intros a; cbn [fold_left].
  - split; [left; reflexivity|]. intros x [<-|[]]. lra.
  - destruct (IH (Rmax a b)) as [A B]. split.
    + destruct A as [A|A]; [|right; right; exact A]. rewrite <- A. unfold Rmax. destruct (Rle_dec a b); [right; left|left]; reflexivity.
    + intros x [<-|[<-|Hx]]; [| |apply B; right; exact Hx]; pose proof (B _ (or_introl eq_refl)).
      * pose proof (Rmax_l a b). lra.
      * pose proof (Rmax_r a b). lra.
Qed.

Lemma has_chan t : hasOutlet t = true <-> chanHere t.
Proof. unfold hasOutlet, chanHere. destruct (tY1 t); cbn; split; try congruence; intuition congruence. Qed.

(** The ends of an outlet that meets transects. *)
Lemma setup_ends P I dx toR outlet T T' e0 e1 : outletSetup P I (Fin dx) toR outlet T = Ok (T', e0, e1) ->
  (exists t, In t T /\ chanHere t) -> (forall t, In t T -> chanHere t -> is_fin (tX t)) ->
  T' = T /\ exists lo hi, (exists t, In t T /\ chanHere t /\ tX t = Fin lo) /\ (exists t, In t T /\ chanHere t /\ tX t = Fin hi) /\
    (forall t x, In t T -> chanHere t -> tX t = Fin x -> lo <= x <= hi) /\
    e0 = Fin (if toR then lo else hi) /\ e1 = Fin (if toR then hi + dx / 2 else lo - dx / 2).
Proof.
  intros H (t0 & I0 & C0) FX. unfold outletSetup in H.
  assert (E : exists x l, map tX (filter hasOutlet T) = map Fin (x :: l)).
  { assert (G : forall L, (forall t, In t L -> is_fin (tX t)) -> exists l, map tX L = map Fin l).
    { induction L as [|u L IH]; intros HL; [exists []; reflexivity|]. destruct (IH (fun t Ht => HL t (or_intror Ht))) as (l & El).
      destruct (HL u (or_introl eq_refl)) as (r & Er). exists (r :: l). cbn [map]. rewrite Er, El. reflexivity. }
    destruct (G (filter hasOutlet T)) as (l & El). { intros t Ht. apply filter_In in Ht as [A B]. apply FX; [exact A|apply has_chan, B]. }
    destruct l as [|x l]; [|exists x, l; exact El].
    exfalso. assert (In (tX t0) (map tX (filter hasOutlet T))). { apply in_map, filter_In. split; [exact I0|apply has_chan, C0]. }
    rewrite El in H0. destruct H0. }
  destruct E as (x & l & E). rewrite E in H. cbn [map] in H. rewrite fold_rmin, fold_rmax in H.
  change (@f2 xr _) with (Fin 2) in H. rewrite xdivf in H by lra. rewrite PRate.xadd, PRate.xsub in H.
  destruct (rmin_spec l x) as [M1 M2]. destruct (rmax_spec l x) as [X1 X2]. set (lo := fold_left Rmin l x) in *. set (hi := fold_left Rmax l x) in *.
  assert (AT : forall r, In r (x :: l) -> exists t, In t T /\ chanHere t /\ tX t = Fin r).
  { intros r Hr. apply (in_map Fin) in Hr. rewrite <- E in Hr. apply in_map_iff in Hr as (t & Et & Ht). apply filter_In in Ht as [A B].
    exists t. split; [exact A|]. split; [apply has_chan, B|exact Et]. }
  assert (Q : T' = T /\ e0 = Fin (if toR then lo else hi) /\ e1 = Fin (if toR then hi + dx / 2 else lo - dx / 2)).
  { destruct toR; apply Ok_inj in H; pose proof (f_equal (fun p => fst (fst p)) H) as A; pose proof (f_equal (fun p => snd (fst p)) H) as B;
      pose proof (f_equal snd H) as C; cbn [fst snd] in A, B, C; subst; auto. }
  destruct Q as (-> & -> & ->). split; [reflexivity|]. exists lo, hi. split; [apply AT, M1|]. split; [apply AT, X1|]. split; [|split; reflexivity].
  intros t y It Ct Ey. assert (In y (x :: l)); [|split; auto].
  assert (Q : In (Fin y) (map Fin (x :: l))). { rewrite <- E, <- Ey. apply in_map, filter_In. split; [exact It|apply has_chan, Ct]. }
  apply in_map_iff in Q as (r & Er & Hr). injection Er as ->. exact Hr.
Qed.

(** The position of an outlet that meets none does not depend on where along the shore it is. *)
Lemma setup_same_y {F} {NF : Num F} P I Dx toR (o o' : list (F * F)) T : filter hasOutlet T = [] -> map snd o = map snd o' ->
  outletSetup P I Dx toR o T = outletSetup P I Dx toR o' T.
Proof. intros E S. unfold outletSetup, straightEnd. rewrite E, S. reflexivity. Qed.

Lemma pymin_fin a b : pymin (Fin a) (Fin b) = Fin (Rmin a b).
Proof.
  unfold pymin. change (Fin b <? Fin a)%n with (Rltb b a). destruct (Rltb b a) eqn:E; rb.
  - rewrite Rmin_right by lra. reflexivity.
  - rewrite Rmin_left by lra. reflexivity.
Qed.
Lemma insert_val P I t y0 y3 sp w : pSpitWidth P = Fin sp -> iOutletWidth I = Fin w -> tY0 t = Fin y0 -> tY3 t = Fin y3 ->
  exists y1, tY1 (insertStraight P I t) = Fin y1 /\ tY2 (insertStraight P I t) = Fin (y1 - w) /\
    tY3 (insertStraight P I t) = Fin (Rmin (y1 - w + 1/1000) y3) /\ y1 <= y0 - sp /\ y1 <= (y0 + y3) / 2 + w / 2 /\
    tX (insertStraight P I t) = tX t /\ tY0 (insertStraight P I t) = tY0 t /\ tY4 (insertStraight P I t) = tY4 t.
Proof.
  intros E1 E2 E3 E4. unfold insertStraight. cbn [tX tY0 tY1 tY2 tY3 tY4 setY1 setY2 setY3]. rewrite E1, E2, E3, E4.
  change (@fofQ xr _ 1 1000) with (Fin (IZR 1 / IZR 1000)). change (@f2 xr _) with (Fin 2). xf. rewrite pymin_fin. xf. rewrite pymin_fin.
  eexists. repeat (split; [reflexivity|]). split; [apply Rmin_l|]. split; [apply Rmin_r|]. repeat split.
Qed.
Lemma insert_overlap P I t y0 y3 sp w : pSpitWidth P = Fin sp -> iOutletWidth I = Fin w -> tY0 t = Fin y0 -> tY3 t = Fin y3 ->
  y0 - y3 < sp + w - 1/1000 ->
  exists y1, tY1 (insertStraight P I t) = Fin y1 /\ tY2 (insertStraight P I t) = Fin (y1 - w) /\ tY3 (insertStraight P I t) = Fin (y1 - w + 1/1000).
Proof.
  intros E1 E2 E3 E4 L. destruct (insert_val P I t y0 y3 sp w E1 E2 E3 E4) as (y1 & A & B & C & D & _). exists y1. split; [exact A|]. split; [exact B|].
  rewrite C. rewrite Rmin_left by lra. reflexivity.
Qed.

(** Examples. *)
Definition lIni : inicond xr := mkIni (Fin 1) (Fin 0) (Fin 10) (Fin 5).
Definition bareT (x y0 y3 : R) : tsect xr := mkT (Fin x) (Fin y0) NaN NaN (Fin y3) (Fin (-50)) (Fin 5) NaN NaN (Fin 1).
Definition between : list (xr * xr) := [(Fin 103, Fin (-5)); (Fin 106, Fin 15)].
Lemma straight_example : exists T', outletSetup ones lIni (Fin 10) true between [bareT 0 100 20; bareT 100 100 20] = Ok (T', Fin 0, Fin 5).
Proof.
  unfold outletSetup. cbn [filter hasOutlet bareT tY1 map]. change (@fisnan xr _ NaN) with true. cbn [negb map filter].
  unfold straightEnd, fmean, between. cbn [map snd length]. cbn [fsum fold_right]. change (@f0 xr _) with (Fin 0). rewrite !xofZ.
  change (@f2 xr _) with (Fin 2). change (Z.of_nat 2) with 2%Z. xf.
  change (ffloor (Fin ((-5 + (15 + 0)) / 2 / 10))) with (Rfloor ((-5 + (15 + 0)) / 2 / 10)).
  rewrite (Rfloor_unique _ 0) by lra. xf. cbn [tX filter bareT].
  change (Fin 0 =? Fin (10 * 0))%n with (Reqb 0 (10 * 0)). change (Fin 100 =? Fin (10 * 0))%n with (Reqb 100 (10 * 0)).
  rewrite (proj2 (Reqb_true 0 (10 * 0))) by lra. rewrite (proj2 (Reqb_false 100 (10 * 0))) by lra. cbn [length Nat.eqb assert_ bind].
  eexists. replace (10 * 0) with 0 by ring. replace (0 + 10 / 2) with 5 by lra. reflexivity.
Qed.
Lemma insert_example : tY0 (bareT 0 100 92) = Fin 100 /\ tY3 (bareT 0 100 92) = Fin 92 /\ iOutletWidth lIni = Fin 10 /\ 100 - 92 < 1 + 10 - 1/1000.
Proof. repeat split; lra. Qed.
Definition chanT (x : R) : tsect xr := mkT (Fin x) (Fin 100) (Fin 60) (Fin 50) (Fin 20) (Fin (-50)) (Fin 5) NaN NaN (Fin 1).
Lemma ends_example : outletSetup ones lIni (Fin 10) true between [bareT 0 100 20; chanT 10; chanT 20; bareT 30 100 20] =
  Ok ([bareT 0 100 20; chanT 10; chanT 20; bareT 30 100 20], Fin 10, Fin 25).
Proof.
  unfold outletSetup. change (filter hasOutlet _) with [chanT 10; chanT 20]. cbn [map tX chanT]. cbv zeta.
  cbn [fold_left]. rewrite xmin, xmax. change (@f2 xr _) with (Fin 2). xf. rewrite Rmin_left, Rmax_right by lra. repeat f_equal. lra.
Qed.

(** In floating point the default grid may miss X = 0: then no transect gets a channel or a lagoon. *)
Lemma grid_misses : forallb (fun x => negb (x =? f0)%n) (@straightX float _ 0x1.999999999999ap-4 1 1)%float = true /\
  length (@straightX float _ 0x1.999999999999ap-4 1 1)%float = 21%nat.
Proof. split; vm_compute; reflexivity. Qed.
Lemma no_channel : forallb (fun t => fisnan (tY1 t)) (map (straightRow onesF (mkIni 1 0 10 5) 50) (straightX 0x1.999999999999ap-4 1 1))%float = true.
Proof. vm_compute. reflexivity. Qed.

Lemma derived {F} {NF : Num F} (P : phys F) :
  pK2coef (derive P) = k2coef (pKcoef P) (pRhoSed P) (pRhoSea P) (pGravity P) (pVoidRatio P) /\
  pBreakerCoef (derive P) = breakerCoef (pRhoSea P) (pGravity P) (pGammaRatio P) /\
  pBarRatSlope (derive P) = barRatSlope (pTargetBarHeight P) (pBeachTopElev P) (pTargetBarWidth P) (pSpitWidth P) /\
  pBarRatInt (derive P) = barRatInt (pTargetBarHeight P) (pBeachTopElev P) (pTargetBarWidth P) (pSpitWidth P) /\
  derive (derive P) = derive P /\ pGravity (derive P) = pGravity P /\ pRhoSea (derive P) = pRhoSea P /\ pSpitWidth (derive P) = pSpitWidth P.
Proof. repeat split. Qed.
Lemma derive_example : 30 <> 10 /\ (2650 - 1025) * (981/100) * (1 - 4/10) <> 0 /\ 0 < 1025 /\ 0 < 981/100 /\ 0 < 6/10.
Proof. repeat split; lra. Qed.
Lemma straight_hyps : pSpitWidth ones = Fin 1 /\ pRiverWidth ones = Fin 1 /\ lIni = mkIni (Fin 1) (Fin 0) (Fin 10) (Fin 5) /\
  0 < 20 /\ 0 <= 1000 /\ 0 <= 990.
Proof. repeat split; lra. Qed.
Lemma river_at_sea : exists y, 0 <= y /\
  real2mod (Fin 0) (Fin 0) (originOf (Fin 1, Fin 10) (Fin 0, Fin 0)) (shoreNormDir (Fin 1, Fin 10) (Fin 0, Fin 0)) = (Fin 0, Fin y).
Proof.
  destruct (inflow_place 1 10 0 0) as (y & E & Q); [lra|]. exists y. split; [|exact E].
  rewrite (proj2 (Rltb_true 0 (0 * 1 + 10))) in Q by lra. apply Rnot_lt_le. intros L. apply Q in L. lra.
Qed.
Lemma trim_total {A} start stop dtMax (s : list (Z * A)) : covers start stop s -> exists s', trimSeries start stop dtMax s = Ok s'.
Proof.
  intros [(a & Ha & La) (z & Hz & Lz)]. unfold trimSeries. unfold ix at 1. rewrite Ha. cbn [of_opt bind].
  assert (last_ s = Ok z) as ->.
  { destruct s as [|x s] using rev_ind; [discriminate|]. clear IHs. unfold last_. rewrite app_length, nth_error_app2 in Hz by (cbn; lia). cbn [length] in Hz.
    replace (length s + 1 - 1 - length s)%nat with 0%nat in Hz by lia. injection Hz as ->. rewrite rev_unit. reflexivity. }
  cbn [bind]. rewrite (proj2 (Z.leb_le _ _) La), (proj2 (Z.leb_le _ _) Lz). cbn [andb assert_ bind]. eexists. reflexivity.
Qed.
Lemma row_example : exists t, shapeRow lIni [(Fin 0, Fin 100); (Fin 40, Fin 100)] [(Fin 5, Fin 20); (Fin 35, Fin 20)]
  [(Fin 0, Fin 0); (Fin 40, Fin 0)] [(Fin 0, Fin 30); (Fin 40, Fin 70)] (Fin 5) (Fin 35) (Fin 0) (Fin 40) (Fin 10) = Ok t /\
  tY1 t = Fin 45 /\ tY2 t = Fin 35 /\ tY3 t = Fin 20.
Proof.
  eexists. split; [unfold shapeRow, intersectPolyline, interpX, interpSeg; cbv zeta; xrun|]. cbn [tY1 tY2 tY3].
  repeat split; f_equal; lra.
Qed.
