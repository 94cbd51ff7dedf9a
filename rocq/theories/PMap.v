(** Proofs about the map view. *)
From Coq Require Import ZArith Reals List Bool Lia Lra.
From Verif Require Import Base Num Xr MState MGeom MMap SGeom PGeom PRate SMap.
Import ListNotations.
Local Open Scope R_scope.

Lemma real_nan x ox oy d : mod2real (Fin x) NaN (Fin ox, Fin oy) (Fin d) = (NaN, NaN).
Proof.
  unfold mod2real; xcbn; unfold fdiv; rewrite xdiv_fin by lra. xcbn.
  change (fst (Fin ox, Fin oy)) with (Fin ox); change (snd (Fin ox, Fin oy)) with (Fin oy). reflexivity.
Qed.
Lemma real_world x y ox oy d : mod2real (Fin x) (Fin y) (Fin ox, Fin oy) (Fin d) = fp (worldOf ox oy d x y).
Proof. apply mod2real_fin. Qed.

Lemma line_drawn ox oy d T y : drawn ox oy d T y (map (fun t => mod2real (tX t) (y t) (Fin ox, Fin oy) (Fin d)) T).
Proof.
  split; [apply map_length|]. intros i t x Ht Hx. split.
  - intros r Hr. rewrite (map_nth_error _ _ _ Ht), Hx, Hr, real_world. reflexivity.
  - intros Hr. rewrite (map_nth_error _ _ _ Ht), Hx, Hr, real_nan. reflexivity.
Qed.


Lemma min_lowest l : forall x, exists m, fminl (map Fin (x :: l)) = Ok (Fin m) /\ lowest m (x :: l).
Proof.
  cbn [map fminl]. induction l as [|a l IH]; intros x; cbn [map fold_left].
  - exists x. split; [reflexivity|]. split; [left; reflexivity|]. intros r [<-|[]]. lra.
  - assert (E : fminimum (Fin x) (Fin a) = Fin (if Rltb a x then a else x)).
    { change (fminimum (Fin x) (Fin a)) with (if Rltb a x then Fin a else Fin x). destruct (Rltb a x); reflexivity. }
    rewrite E. destruct (IH (if Rltb a x then a else x)) as (m & H & I & L). exists m. split; [exact H|].
    assert (B : (if Rltb a x then a else x) <= a /\ (if Rltb a x then a else x) <= x).
    { destruct (Rltb a x) eqn:Q; [apply Rltb_true in Q | apply Rltb_false in Q]; lra. }
    split.
    + destruct I as [<-|I]; [|right; right; exact I]. destruct (Rltb a x); [right; left | left]; reflexivity.
    + intros r [<-|[<-|J]]; [| |apply L; right; exact J].
      * apply Rle_trans with (if Rltb a x then a else x); [apply L; left; reflexivity | tauto].
      * apply Rle_trans with (if Rltb a x then a else x); [apply L; left; reflexivity | tauto].
Qed.

Definition lag (t : tsect xr) : bool := negb (fisnan (tY3 t)).
Lemma lag_true t : lag t = true <-> tY3 t <> NaN.
Proof. unfold lag. destruct (tY3 t); cbn; split; intros; congruence. Qed.
Lemma lag_false t : lag t = false <-> tY3 t = NaN.
Proof. unfold lag. destruct (tY3 t); cbn; split; intros; congruence. Qed.

Lemma ends_found T : (exists t, In t T /\ tY3 t <> NaN) ->
  exists i j s t, ix (where_ lag T) 0 = Ok i /\ pynth (where_ lag T) (-1) = Ok j /\ ix T i = Ok s /\ ix T j = Ok t /\ firstLagoon T s /\ lastLagoon T t.
Proof.
  intros (t0 & I0 & N0). apply In_nth_error in I0 as (k & Hk).
  destruct (first_where lag T) as [i|] eqn:E1; [|exfalso; apply (proj1 (first_where_None lag T) E1 k t0) in Hk; apply lag_false in Hk; contradiction].
  destruct (last_where lag T) as [j|] eqn:E2; [|exfalso; apply (proj1 (last_where_None lag T) E2 k t0) in Hk; apply lag_false in Hk; contradiction].
  pose proof (proj1 (first_where_Some lag T i) E1) as ((s & Hs & Ls) & Bs).
  pose proof (last_where_Some lag T E2) as ((t & Ht & Lt) & Bt).
  exists i, j, s, t. unfold first_where in E1. unfold last_where in E2.
  split; [unfold ix; rewrite E1; reflexivity|]. split; [rewrite pynth_m1; unfold last_; rewrite E2; reflexivity|].
  split; [unfold ix; rewrite Hs; reflexivity|]. split; [unfold ix; rewrite Ht; reflexivity|]. split.
  - exists i. split; [exact Hs|]. split; [apply lag_true, Ls|]. intros q u Q U. apply lag_false, (Bs q u Q U).
  - exists j. split; [exact Ht|]. split; [apply lag_true, Lt|]. intros q u Q U. apply lag_false, (Bt q u Q U).
Qed.

Lemma cliff_y T l : cliffLine T l -> map tY4 T = map Fin (map snd l).
Proof.
  unfold cliffLine. intros H. rewrite map_map. transitivity (map snd (map (fun t : tsect xr => (tX t, tY4 t)) T)).
  - rewrite map_map. reflexivity.
  - rewrite H, map_map. reflexivity.
Qed.
Lemma cliff_x T l i t : cliffLine T l -> nth_error T i = Some t -> exists p, nth_error l i = Some p /\ tX t = Fin (fst p) /\ tY4 t = Fin (snd p).
Proof.
  unfold cliffLine. intros H Ht. apply (map_nth_error (fun t : tsect xr => (tX t, tY4 t))) in Ht. rewrite H in Ht.
  destruct (nth_error l i) as [p|] eqn:E.
  - rewrite (map_nth_error _ _ _ E) in Ht. exists p. split; [reflexivity|]. unfold fp in Ht. split; congruence.
  - apply nth_error_None in E. assert (L : nth_error (map fp l) i = None) by (apply nth_error_None; rewrite map_length; exact E). congruence.
Qed.

Lemma arrows a z ox oy d :
  let b0 := mod2real (Fin a) f0 (Fin ox, Fin oy) (Fin d) in
  let b1 := mod2real f0 f0 (Fin ox, Fin oy) (Fin d) in
  let b2 := mod2real (Fin z) f0 (Fin ox, Fin oy) (Fin d) in
  let ax := ((fst b2 - fst b0) / fofZ 20)%n in
  let ay := ((snd b2 - snd b0) / fofZ 20)%n in
  b1 = fp (ox, oy) /\ ax = Fin ((z - a) * cos d / 20) /\ ay = Fin (- ((z - a) * sin d) / 20).
Proof.
  cbv zeta. change (@f0 xr _) with (Fin 0). rewrite !real_world. unfold worldOf, fp. cbn [fst snd].
  split; [f_equal; f_equal; lra|]. change (@fofZ xr _ 20) with (Fin 20). rewrite !PRate.xsub, !PRate.xdivf by lra.
  split; f_equal; field.
Qed.

Lemma closed_end ox oy d t : closing ox oy d t [mod2real (tX t) (tY3 t) (Fin ox, Fin oy) (Fin d); mod2real (tX t) (tY4 t) (Fin ox, Fin oy) (Fin d)].
Proof. intros x a b Hx Ha Hb. rewrite Hx, Ha, Hb, !real_world. reflexivity. Qed.

Lemma map_ok ox oy d T l c cs : cliffLine T l -> crossings 0 l (c :: cs) -> (exists t, In t T /\ tY3 t <> NaN) ->
  exists M, mapView T (Fin ox, Fin oy) (Fin d) = Ok M /\ shows ox oy d T l M.
Proof.
  intros HL HC HE. destruct (ends_found T HE) as (i & j & s & t & E1 & E2 & E3 & E4 & FS & LS).
  destruct l as [|p0 l0]; [inversion HC|]. set (l := p0 :: l0) in *.
  destruct (min_lowest (map snd l0) (snd p0)) as (mn & HM & HLo).
  change (map Fin (snd p0 :: map snd l0)) with (map Fin (map snd l)) in HM. rewrite <- (cliff_y T l HL) in HM.
  destruct (intersect_spec l 0) as (c' & HI & HC'). pose proof (crossings_unique _ _ _ _ HC HC') as <-.
  assert (LT : length T = length l). { pose proof (f_equal (@length _) HL) as Q. rewrite !map_length in Q. exact Q. }
  destruct (nth_error T 0) as [ta|] eqn:TA; [|apply nth_error_None in TA; rewrite LT in TA; cbn in TA; lia].
  assert (TZ : exists tz, nth_error T (length T - 1) = Some tz).
  { destruct (nth_error T (length T - 1)) as [tz|] eqn:Q; [eauto|]. apply nth_error_None in Q. rewrite LT in Q; cbn in Q; lia. }
  destruct TZ as (tz & TZ).
  destruct (cliff_x T l _ _ HL TA) as (pa & PA & XA & _). destruct (cliff_x T l _ _ HL TZ) as (pz & PZ & XZ & _).
  assert (LA : pynth T (-1) = Ok tz).
  { rewrite pynth_m1. unfold last_. rewrite (proj2 (nth_error_rev0 T tz)); [reflexivity|].
    clear - TZ. destruct T as [|z T' _] using rev_ind; [discriminate|]. exists T'. rewrite app_length in TZ. cbn [length] in TZ.
    replace (length T' + 1 - 1)%nat with (length T') in TZ by lia. rewrite nth_error_app2, Nat.sub_diag in TZ by lia. cbn in TZ. congruence. }
  destruct (arrows (fst pa) (fst pz) ox oy d) as (B1 & AX & AY).
  eexists. split.
  - unfold mapView. rewrite HM. cbn [bind]. change (@f0 xr _) with (Fin 0). unfold cliffLine in HL. rewrite HL, HI. cbn [bind map].
    unfold ix at 1. cbn [nth_error of_opt bind].
    change (fun t1 : tsect xr => negb (fisnan (tY3 t1))) with lag. rewrite E1. cbn [bind]. rewrite E2. cbn [bind]. rewrite E3. cbn [bind]. rewrite E4. cbn [bind].
    unfold ix. rewrite TA. cbn [of_opt bind]. rewrite LA. cbn [bind]. rewrite XA, XZ. change (Fin 0) with (@f0 xr _). cbv zeta in *. rewrite AX, AY, B1. reflexivity.
  - unfold shows. cbn [mvShore mvOutlet mvLagoon mvCliff mvRiver mvEnd1 mvEnd2 mvOrigin mvArrowX mvArrowY mvLabelX mvLabelY].
    split; [apply line_drawn|]. split; [apply line_drawn|]. split; [apply line_drawn|]. split; [apply line_drawn|]. split; [|split; [|split]].
    + exists mn, c, cs. split; [exact HLo|]. split; [exact HC|].
      change (@f0 xr _) with (Fin 0). change (@fofZ xr _ 3) with (Fin 3). rewrite PRate.xmul, !real_world. replace (mn * 3) with (3 * mn) by lra. reflexivity.
    + exists s, t. split; [exact FS|]. split; [exact LS|]. split; apply closed_end.
    + reflexivity.
    + exists pa, pz. split; [exact PA|]. split; [rewrite <- LT; exact PZ|]. split.
      * exists ((fst pz - fst pa) * cos d / 20, - ((fst pz - fst pa) * sin d) / 20). split; [reflexivity|].
        unfold plus2, worldOf, fp. cbn [fst snd]. split; [f_equal; field|].
        unfold fofQ; xcbn. rewrite ?PRate.xmul, ?PRate.xadd. f_equal; f_equal; field.
      * exists ((fst pz - fst pa) * sin d / 20, ((fst pz - fst pa) * cos d) / 20).
        unfold plus2, worldOf, fp. cbn [fst snd]. xcbn. split; [f_equal; f_equal; f_equal; field|]. split; [f_equal; field|].
        f_equal; f_equal; field.
Qed.

Lemma map_cross T l : cliffLine T l -> (exists cs, crossings 0 l cs).
Proof. intros _. destruct (intersect_spec l 0) as (c & _ & H). eauto. Qed.

Lemma no_lagoon T : (forall t, In t T -> tY3 t = NaN) -> where_ lag T = [].
Proof.
  intros H. destruct (where_ lag T) as [|i w] eqn:E; [reflexivity|]. exfalso.
  assert (I : In i (where_ lag T)) by (rewrite E; left; reflexivity). apply where_spec in I as (t & Ht & L).
  apply lag_true in L. apply L, H. eapply nth_error_In, Ht.
Qed.

Lemma map_fails ox oy d T l : cliffLine T l ->
  (T = [] -> mapView T (Fin ox, Fin oy) (Fin d) = Exc EValue) /\
  (T <> [] -> crossings 0 l [] \/ (forall t, In t T -> tY3 t = NaN) -> mapView T (Fin ox, Fin oy) (Fin d) = Exc EIndex).
Proof.
  intros HL. split; [intros ->; reflexivity|]. intros NE HC.
  destruct l as [|p0 l0]; [destruct T; [contradiction | discriminate HL]|]. set (l := p0 :: l0) in *.
  destruct (min_lowest (map snd l0) (snd p0)) as (mn & HM & HLo).
  change (map Fin (snd p0 :: map snd l0)) with (map Fin (map snd l)) in HM. rewrite <- (cliff_y T l HL) in HM.
  destruct (intersect_spec l 0) as (c' & HI & HC').
  unfold mapView. rewrite HM. cbn [bind]. change (@f0 xr _) with (Fin 0). unfold cliffLine in HL. rewrite HL, HI. cbn [bind].
  destruct HC as [HC|HN].
  - rewrite <- (crossings_unique _ _ _ _ HC HC'). reflexivity.
  - destruct c' as [|c cs]; [reflexivity|]. cbn [map]. unfold ix at 1. cbn [nth_error of_opt bind].
    change (fun t1 : tsect xr => negb (fisnan (tY3 t1))) with lag. rewrite (no_lagoon T HN). reflexivity.
Qed.

Lemma map_drawn ox oy d T l M : cliffLine T l -> mapView T (Fin ox, Fin oy) (Fin d) = Ok M -> shows ox oy d T l M.
Proof.
  intros HL E. destruct (map_fails ox oy d T l HL) as (H0 & H1).
  assert (NE : T <> []). { intros Q. rewrite (H0 Q) in E. discriminate. }
  destruct (map_cross T l HL) as (cs & HC). destruct cs as [|c cs]; [rewrite (H1 NE (or_introl HC)) in E; discriminate|].
  destruct (Exists_dec (fun t : tsect xr => tY3 t <> NaN) T) as [X|X].
  { intros t. destruct (lag t) eqn:Q; [left; apply lag_true, Q | right; apply lag_false in Q; tauto]. }
  - apply Exists_exists in X. destruct (map_ok ox oy d T l c cs HL HC X) as (M' & E' & S'). rewrite E in E'. apply Ok_inj in E'. subst. exact S'.
  - rewrite (H1 NE) in E; [discriminate|]. right. intros t I. destruct (lag t) eqn:Q; [|apply lag_false, Q].
    exfalso. apply X, Exists_exists. exists t. split; [exact I | apply lag_true, Q].
Qed.

Lemma map_iff ox oy d T l : cliffLine T l ->
  ((exists M, mapView T (Fin ox, Fin oy) (Fin d) = Ok M) <->
   (exists p q i, nth_error l i = Some p /\ nth_error l (S i) = Some q /\ crosses p q 0) /\ (exists t, In t T /\ tY3 t <> NaN)).
Proof.
  intros HL. split.
  - intros (M & E). apply (map_drawn _ _ _ _ _ _ HL) in E. destruct E as (_ & _ & _ & _ & (mn & c & cs & _ & HC & _) & (s & _ & (i & Hs & Ns & _) & _) & _).
    split; [|exists s; split; [eapply nth_error_In, Hs | exact Ns]].
    clear - HC. remember (c :: cs) as w eqn:W. revert c cs W. induction HC as [|p|p q l w N HC IH|p q l w y C Y B HC IH]; intros c0 cs0 W; try discriminate.
    + destruct (IH _ _ W) as (a & b & i & A & B & X). exists a, b, (S i). auto.
    + exists p, q, 0%nat. auto.
  - intros ((p & q & i & A & B & X) & HE). destruct (map_cross T l HL) as (cs & HC).
    assert (N : cs <> []).
    { clear - A B X HC. revert i A B. induction HC as [|p0|p0 q0 l w N HC IH|p0 q0 l w y C Y Bd HC IH]; intros i A B; [| | |discriminate].
      - destruct i; discriminate A.
      - destruct i; cbn in B; [discriminate B | destruct i; discriminate B].
      - destruct i as [|i]; [cbn in A, B; injection A as <-; injection B as <-; contradiction | exact (IH i A B)]. }
    destruct cs as [|c cs]; [contradiction|]. destruct (map_ok ox oy d T l c cs HL HC HE) as (M & E & _). eauto.
Qed.

(** Concrete coasts: cliff at [c], lagoon edge at [c + 200] on the two right-hand transects. *)
Definition coast (c : R) : list (tsect xr) :=
  map (fun p => mkT (Fin (fst p)) (Fin 0) NaN NaN (snd p) (Fin c) NaN NaN NaN NaN)
      [(-100, NaN); (0, Fin (c + 200)); (100, Fin (c + 200))].
Definition coastL (c : R) : list pt2 := [(-100, c); (0, c); (100, c)].
Lemma coast_cliff c : cliffLine (coast c) (coastL c).
Proof. reflexivity. Qed.
Lemma coast_cross c : crossings 0 (coastL c) [c].
Proof.
  apply cr_hit; unfold crosses; cbn [fst snd]; try lra; [rewrite Rmin_left, Rmax_left by lra; lra|].
  apply cr_skip; [unfold crosses; cbn [fst snd]; lra | apply cr_one].
Qed.
Lemma coast_lagoon c : exists t, In t (coast c) /\ tY3 t <> NaN.
Proof. eexists. split; [right; left; reflexivity | discriminate]. Qed.
Lemma coast_map ox oy d c : exists M, mapView (coast c) (Fin ox, Fin oy) (Fin d) = Ok M /\ shows ox oy d (coast c) (coastL c) M.
Proof. apply map_ok with c []; [apply coast_cliff | apply coast_cross | apply coast_lagoon]. Qed.
Lemma river_at ox oy d c M : mapView (coast c) (Fin ox, Fin oy) (Fin d) = Ok M ->
  mvRiver M = [fp (worldOf ox oy d 0 (3 * c)); fp (worldOf ox oy d 0 c)].
Proof.
  intros E. apply (map_drawn _ _ _ _ (coastL c) _ (coast_cliff c)) in E.
  destruct E as (_ & _ & _ & _ & (mn & y & cs & (I & _) & HC & R) & _).
  pose proof (crossings_unique _ _ _ _ HC (coast_cross c)) as Q. injection Q as -> ->.
  cbn in I. assert (mn = c) as -> by (destruct I as [I|[I|[I|[]]]]; congruence). exact R.
Qed.
(** With the cliff 500 m inland the river runs from 1500 m to 500 m inland. *)
Lemma coast_case : exists M, mapView (coast (-500)) (Fin 1000, Fin 2000) (Fin 0) = Ok M /\
  mvRiver M = [(Fin 1000, Fin 500); (Fin 1000, Fin 1500)] /\ mvArrowX M = ((Fin 1000, Fin 2000), (Fin 10, Fin 0)).
Proof.
  destruct (coast_map 1000 2000 0 (-500)) as (M & E & S'). exists M. split; [exact E|]. split.
  - rewrite (river_at _ _ _ _ _ E). unfold worldOf, fp. cbn [fst snd]. rewrite cos_0, sin_0. f_equal; [|f_equal]; f_equal; f_equal; lra.
  - destruct S' as (_ & _ & _ & _ & _ & _ & _ & p & q & P & Q & (v & -> & V & _) & _). cbn in P, Q. injection P as <-. injection Q as <-.
    destruct v as [v w]. unfold plus2, worldOf in V. cbn [fst snd] in V. rewrite cos_0, sin_0 in V. injection V as V W.
    unfold fp. cbn [fst snd]. f_equal. f_equal; f_equal; lra.
Qed.
(** With the cliff 10 m seaward of the origin the river is drawn from 30 m out at sea to the cliff. *)
Lemma river_at_sea : exists T l M, cliffLine T l /\ mapView T (Fin 0, Fin 0) (Fin 0) = Ok M /\
  (forall p, In p l -> snd p = 10) /\ mvRiver M = [(Fin 0, Fin 30); (Fin 0, Fin 10)].
Proof.
  destruct (coast_map 0 0 0 10) as (M & E & _). exists (coast 10), (coastL 10), M. split; [apply coast_cliff|]. split; [exact E|]. split.
  - intros p [<-|[<-|[<-|[]]]]; reflexivity.
  - rewrite (river_at _ _ _ _ _ E). unfold worldOf, fp. cbn [fst snd]. rewrite cos_0, sin_0. f_equal; [|f_equal]; f_equal; f_equal; lra.
Qed.
