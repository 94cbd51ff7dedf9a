(** Proofs about the transect view. *)
From Coq Require Import ZArith List Bool Lia Reals Lra.
From Verif Require Import Base Num Xr MState MCoast MRiv MMor MOut MLoad MVis SVis PCoast PRate PBreach PVis XEval.
Import ListNotations.
Local Open Scope R_scope.

Lemma last_nth {A} (l : list A) : last_ l = of_opt EIndex (nth_error l (length l - 1)).
Proof.
  unfold last_. destruct l as [|x l] using rev_ind; [reflexivity|]. rewrite rev_app_distr, app_length. cbn [rev app length nth_error].
  rewrite nth_error_app2 by lia. replace (length l + 1 - 1 - length l)%nat with 0%nat by lia. reflexivity.
Qed.

Section Nearest.
  Variable T : list (tsect xr).
  Variable X : list R.
  Hypothesis HX : map tX T = map Fin X.
  Variable x : R.

  Lemma tx_nth i r : nth_error X i = Some r -> exists t, nth_error T i = Some t /\ tX t = Fin r.
  Proof.
    intros H. pose proof (f_equal (fun l => nth_error l i) HX) as E. cbn beta in E. rewrite !nth_error_map, H in E.
    destruct (nth_error T i) as [t|]; cbn in E; [|discriminate]. exists t. split; congruence.
  Qed.
  Lemma tx_len : length T = length X.
  Proof. rewrite <- (map_length tX), HX. apply map_length. Qed.
  Lemma dists : map (fun t => fabs (tX t - Fin x)%n) T = map Fin (map (fun r => Rabs (r - x)) X).
  Proof. rewrite <- (map_map tX (fun r => fabs (r - Fin x)%n)), HX, !map_map. reflexivity. Qed.

  Lemma nearest a z : nth_error X 0 = Some a -> nth_error X (length X - 1) = Some z ->
    (a <= x <= z -> exists i r, transectIx T (Fin x) = Ok i /\ nth_error X i = Some r /\
       (forall j s, nth_error X j = Some s -> Rabs (r - x) <= Rabs (s - x)) /\
       (forall j s, (j < i)%nat -> nth_error X j = Some s -> Rabs (r - x) < Rabs (s - x))) /\
    (x < a \/ z < x -> transectIx T (Fin x) = Exc EAssert).
  Proof.
    intros Ha Hz. destruct (tx_nth _ _ Ha) as (ta & Ta & Xa). destruct (tx_nth _ _ Hz) as (tz & Tz & Xz).
    unfold transectIx. unfold ix. rewrite Ta, last_nth, tx_len, Tz. cbn [of_opt bind]. rewrite Xa, Xz.
    change (Fin a <=? Fin x)%n with (Rleb a x). change (Fin x <=? Fin z)%n with (Rleb x z). split.
    - intros [H1 H2]. apply Rleb_true in H1, H2. rewrite H1, H2. cbn [andb assert_ bind]. rewrite dists.
      destruct (argmin_ok (map (fun r => Rabs (r - x)) X)) as [i Hi]; [destruct X; [discriminate Ha|discriminate]|].
      rewrite Hi. destruct (argmin_spec _ _ Hi) as (v & A & B & C). rewrite nth_error_map in A.
      destruct (nth_error X i) as [r|] eqn:Er; [|discriminate]. cbn in A. apply Some_inj in A. subst v.
      exists i, r. split; [reflexivity|]. split; [exact Er|]. split.
      + intros j s Hj. apply (B j). now rewrite nth_error_map, Hj.
      + intros j s Hji Hj. apply (C j); [exact Hji|]. now rewrite nth_error_map, Hj.
    - intros [H|H]; [apply Rleb_false in H; rewrite H|]; [reflexivity|]. apply Rleb_false in H. rewrite H, andb_false_r. reflexivity.
  Qed.
End Nearest.

Lemma title T X x i : map tX T = map Fin X -> In 0 X -> transectIx T (Fin x) = Ok i ->
  exists r, nth_error X i = Some r /\
    ((x < 0 /\ r <= 0 /\ transectTitle T (Fin x) i = Ok (Some (true, Fin (Rabs r)))) \/
     (x = 0 /\ r = 0 /\ transectTitle T (Fin x) i = Ok None) \/
     (0 < x /\ 0 <= r /\ transectTitle T (Fin x) i = Ok (Some (false, Fin (Rabs r))))).
Proof.
  intros HX H0 Hi. destruct X as [|a X'] eqn:EX; [destruct H0|]. rewrite <- EX in *.
  assert (Ha : nth_error X 0 = Some a) by (now rewrite EX).
  destruct (nth_error X (length X - 1)) as [z|] eqn:Hz.
  2:{ apply nth_error_None in Hz. rewrite EX in Hz. cbn in Hz. lia. }
  destruct (nearest T X HX x a z Ha Hz) as [N1 N2].
  assert (Hx : a <= x <= z).
  { destruct (Rle_dec a x); [|rewrite N2 in Hi by lra; discriminate]. destruct (Rle_dec x z); [lra|rewrite N2 in Hi by lra; discriminate]. }
  destruct (N1 Hx) as (k & r & E & Er & B & _). rewrite E in Hi. apply Ok_inj in Hi. subst k.
  exists r. split; [exact Er|]. destruct (In_nth_error _ _ H0) as [j0 Hj0]. specialize (B _ _ Hj0).
  destruct (tx_nth T X HX _ _ Er) as (t & Et & Xt).
  unfold transectTitle, ix. rewrite Et. cbn [of_opt bind]. rewrite Xt, x0.
  change (Fin x <? Fin 0)%n with (Rltb x 0). change (Fin x =? Fin 0)%n with (Reqb x 0). rewrite PRate.xabs.
  destruct (Rtotal_order x 0) as [L|[L|L]].
  - left. split; [exact L|]. apply Rltb_true in L as L'. rewrite L'. split; [|reflexivity].
    unfold Rabs in B. destruct (Rcase_abs (r - x)), (Rcase_abs (0 - x)); lra.
  - right. left. subst x. split; [reflexivity|]. assert (E1 : Rltb 0 0 = false) by (apply Rltb_false; lra).
    assert (E2 : Reqb 0 0 = true) by (now apply Reqb_true). rewrite E1, E2. split; [|reflexivity].
    unfold Rabs in B. destruct (Rcase_abs (r - 0)), (Rcase_abs (0 - 0)); lra.
  - right. right. split; [exact L|]. assert (E1 : Rltb x 0 = false) by (apply Rltb_false; lra).
    assert (E2 : Reqb x 0 = false) by (apply Reqb_false; lra). rewrite E1, E2. split; [|reflexivity].
    unfold Rabs in B. destruct (Rcase_abs (r - x)), (Rcase_abs (0 - x)); lra.
Qed.

Lemma fillDown_spec (l : list (xr * xr)) : l <> [] -> exists f, fillDown l = Ok f /\ closed_below f l.
Proof.
  intros H. unfold fillDown, ix. destruct l as [|a l']; [congruence|]. set (l := a :: l') in *.
  destruct (nth_error l (length l - 1)) as [z|] eqn:Ez. 2:{ apply nth_error_None in Ez. cbn in Ez. lia. }
  rewrite last_nth, Ez. cbn [nth_error of_opt bind l]. eexists. split; [reflexivity|].
  exists a, z. repeat split; auto.
Qed.

Section Profile.
  Variables beachTop closure slope back sea : R.
  Variable t : tsect xr.
  Variable g : tgeom.
  Hypothesis Hs : slope <> 0.
  Hypothesis Ht : transect_is t g.
  Let toe := gY0 g + (beachTop + closure) / slope.

  Ltac seg n := unfold level; match goal with |- segment ?p _ _ => exists (firstn n p), (skipn (S (S n)) p); reflexivity end.

  Lemma ground : exists p, through (groundLine (Fin beachTop) (Fin closure) (Fin slope) (Fin back) t) p /\
    segment p (toe, - closure) (gY0 g, beachTop) /\
    level p 1000 toe (- closure) /\ level p (gY4 g) (-1000) back /\
    match gChan g with
    | None => level p (gY0 g) (gY3 g) (gZ0 g)
    | Some (y1, y2) => level p (gY0 g) y1 (gZ0 g) /\ level p y1 y2 (gZ1 g) /\ level p y2 (gY3 g) (gZ2 g)
    end /\
    (gY3 g <> gY4 g -> level p (gY3 g) (gY4 g) (gZ3 g)) /\
    (ordered g -> gY0 g <= toe <= 1000 -> -1000 <= gY4 g -> landward p).
  Proof.
    destruct Ht as (E0 & E3 & E4 & Z0 & Z3 & EC). unfold groundLine. rewrite E0, E3, E4, Z0, Z3.
    rewrite PRate.xadd, xdivf, PRate.xadd, PRate.xopp by exact Hs. fold toe.
    change (Fin (gY3 g) =? Fin (gY4 g))%n with (Reqb (gY3 g) (gY4 g)). rewrite !xofZ, PRate.xopp.
    destruct (gChan g) as [[y1 y2]|] eqn:G.
    - destruct EC as (E1 & E2 & Z1 & Z2). rewrite E1, E2, Z1, Z2. change (fisnan (Fin y2)) with false. cbv iota.
      destruct (Reqb (gY3 g) (gY4 g)) eqn:R; cbn [negb].
      + apply Reqb_true in R.
        exists [(1000, - closure); (toe, - closure); (gY0 g, beachTop); (gY0 g, gZ0 g); (y1, gZ0 g); (y1, gZ1 g); (y2, gZ1 g); (y2, gZ2 g);
                (gY3 g, gZ2 g); (gY4 g, back); (-1000, back)].
        split; [reflexivity|]. split; [seg 1%nat|]. split; [seg 0%nat|]. split; [seg 9%nat|].
        split; [split; [seg 3%nat|split; [seg 5%nat|seg 7%nat]]|]. split; [congruence|].
        unfold ordered. rewrite G. intros (O1 & O2 & O3) O4 O5.
        unfold landward. repeat (constructor; [repeat (constructor; [cbn; lra|]); constructor|]). constructor.
      + apply Reqb_false in R.
        exists [(1000, - closure); (toe, - closure); (gY0 g, beachTop); (gY0 g, gZ0 g); (y1, gZ0 g); (y1, gZ1 g); (y2, gZ1 g); (y2, gZ2 g);
                (gY3 g, gZ2 g); (gY3 g, gZ3 g); (gY4 g, gZ3 g); (gY4 g, back); (-1000, back)].
        split; [reflexivity|]. split; [seg 1%nat|]. split; [seg 0%nat|]. split; [seg 11%nat|].
        split; [split; [seg 3%nat|split; [seg 5%nat|seg 7%nat]]|]. split; [intros _; seg 9%nat|].
        unfold ordered. rewrite G. intros (O1 & O2 & O3) O4 O5.
        unfold landward. repeat (constructor; [repeat (constructor; [cbn; lra|]); constructor|]). constructor.
    - rewrite EC. change (fisnan NaN) with true. cbv iota.
      destruct (Reqb (gY3 g) (gY4 g)) eqn:R; cbn [negb].
      + apply Reqb_true in R.
        exists [(1000, - closure); (toe, - closure); (gY0 g, beachTop); (gY0 g, gZ0 g); (gY3 g, gZ0 g); (gY4 g, back); (-1000, back)].
        split; [reflexivity|]. split; [seg 1%nat|]. split; [seg 0%nat|]. split; [seg 5%nat|].
        split; [seg 3%nat|]. split; [congruence|].
        unfold ordered. rewrite G. intros (O1 & O2) O4 O5.
        unfold landward. repeat (constructor; [repeat (constructor; [cbn; lra|]); constructor|]). constructor.
      + apply Reqb_false in R.
        exists [(1000, - closure); (toe, - closure); (gY0 g, beachTop); (gY0 g, gZ0 g); (gY3 g, gZ0 g); (gY3 g, gZ3 g); (gY4 g, gZ3 g); (gY4 g, back); (-1000, back)].
        split; [reflexivity|]. split; [seg 1%nat|]. split; [seg 0%nat|]. split; [seg 7%nat|].
        split; [seg 3%nat|]. split; [intros _; seg 5%nat|].
        unfold ordered. rewrite G. intros (O1 & O2) O4 O5.
        unfold landward. repeat (constructor; [repeat (constructor; [cbn; lra|]); constructor|]). constructor.
  Qed.

  Lemma water lagWL outWL : exists p, through (waterLine (Fin lagWL) (Fin outWL) (Fin sea) t) p /\
    level p 1000 (gY0 g) sea /\
    (forall y1 y2, gChan g = Some (y1, y2) -> level p y1 y2 outWL) /\
    (gY3 g <> gY4 g -> level p (gY3 g) (gY4 g) lagWL) /\
    (ordered g -> gY0 g <= 1000 -> landward p) /\
    (gChan g = None -> gY3 g = gY4 g -> length p = 2%nat).
  Proof.
    destruct Ht as (E0 & E3 & E4 & Z0 & Z3 & EC). unfold waterLine. rewrite E0, E3, E4.
    change (Fin (gY3 g) =? Fin (gY4 g))%n with (Reqb (gY3 g) (gY4 g)). rewrite !xofZ.
    destruct (gChan g) as [[y1 y2]|] eqn:G.
    - destruct EC as (E1 & E2 & Z1 & Z2). rewrite E1, E2. change (fisnan (Fin y2)) with false. cbv iota.
      destruct (Reqb (gY3 g) (gY4 g)) eqn:R; cbn [negb].
      + apply Reqb_true in R. exists [(1000, sea); (gY0 g, sea); (y1, outWL); (y2, outWL)].
        split; [reflexivity|]. split; [seg 0%nat|]. split; [intros a b Hab; injection Hab as <- <-; seg 2%nat|]. split; [congruence|].
        split; [|discriminate]. unfold ordered. rewrite G. intros (O1 & O2 & O3) O4.
        unfold landward. repeat (constructor; [repeat (constructor; [cbn; lra|]); constructor|]). constructor.
      + apply Reqb_false in R. exists [(1000, sea); (gY0 g, sea); (y1, outWL); (y2, outWL); (gY3 g, lagWL); (gY4 g, lagWL)].
        split; [reflexivity|]. split; [seg 0%nat|]. split; [intros a b Hab; injection Hab as <- <-; seg 2%nat|]. split; [intros _; seg 4%nat|].
        split; [|discriminate]. unfold ordered. rewrite G. intros (O1 & O2 & O3) O4.
        unfold landward. repeat (constructor; [repeat (constructor; [cbn; lra|]); constructor|]). constructor.
    - rewrite EC. change (fisnan NaN) with true. cbv iota.
      destruct (Reqb (gY3 g) (gY4 g)) eqn:R; cbn [negb].
      + apply Reqb_true in R. exists [(1000, sea); (gY0 g, sea)].
        split; [reflexivity|]. split; [seg 0%nat|]. split; [discriminate|]. split; [congruence|].
        split; [|reflexivity]. unfold ordered. rewrite G. intros (O1 & O2) O4.
        unfold landward. repeat (constructor; [repeat (constructor; [cbn; lra|]); constructor|]). constructor.
      + apply Reqb_false in R. exists [(1000, sea); (gY0 g, sea); (gY3 g, lagWL); (gY4 g, lagWL)].
        split; [reflexivity|]. split; [seg 0%nat|]. split; [discriminate|]. split; [intros _; seg 2%nat|].
        split; [|congruence]. unfold ordered. rewrite G. intros (O1 & O2) O4.
        unfold landward. repeat (constructor; [repeat (constructor; [cbn; lra|]); constructor|]). constructor.
  Qed.
End Profile.

Lemma fig_inv i (T : list (tsect xr)) lw ow sea bt cl sl bk t a b :
  nth_error T i = Some t -> nth_error lw i = Some a -> nth_error ow i = Some b ->
  exists f, transectFig i T lw ow sea bt cl sl bk = Ok f /\
    tfGround f = groundLine bt cl sl bk t /\ tfWater f = waterLine a b sea t /\
    closed_below (tfGroundFill f) (tfGround f) /\ closed_below (tfWaterFill f) (tfWater f).
Proof.
  intros Ht Ha Hb. unfold transectFig, ix. rewrite Ht, Ha, Hb. cbn [of_opt bind].
  destruct (fillDown_spec (groundLine bt cl sl bk t)) as (gf & G1 & G2); [discriminate|].
  destruct (fillDown_spec (waterLine a b sea t)) as (wf & W1 & W2); [discriminate|].
  rewrite G1. cbn [bind]. rewrite W1. cbn [bind]. eexists. split; [reflexivity|]. cbn. auto.
Qed.

Lemma transect_ground i (T : list (tsect xr)) lw ow sea bt cl sl bk f t g :
  transectFig i T lw ow sea (Fin bt) (Fin cl) (Fin sl) (Fin bk) = Ok f ->
  nth_error T i = Some t -> transect_is t g -> sl <> 0 ->
  let toe := gY0 g + (bt + cl) / sl in
  exists p, through (tfGround f) p /\ closed_below (tfGroundFill f) (tfGround f) /\
    segment p (toe, - cl) (gY0 g, bt) /\
    level p 1000 toe (- cl) /\ level p (gY4 g) (-1000) bk /\
    match gChan g with
    | None => level p (gY0 g) (gY3 g) (gZ0 g)
    | Some (y1, y2) => level p (gY0 g) y1 (gZ0 g) /\ level p y1 y2 (gZ1 g) /\ level p y2 (gY3 g) (gZ2 g)
    end /\
    (gY3 g <> gY4 g -> level p (gY3 g) (gY4 g) (gZ3 g)) /\
    (ordered g -> gY0 g <= toe <= 1000 -> -1000 <= gY4 g -> landward p).
Proof.
  intros H Ht Hg Hs toe. assert (H' := H). unfold transectFig in H'.
  apply bind_ok in H' as (t' & _ & H'). apply bind_ok in H' as (a & Ha & H'). apply bind_ok in H' as (b & Hb & _).
  apply ix_ok in Ha, Hb. destruct (fig_inv i T lw ow sea (Fin bt) (Fin cl) (Fin sl) (Fin bk) t a b Ht Ha Hb) as (f' & E & G & _ & GF & _).
  rewrite H in E. apply Ok_inj in E. subst f'.
  destruct (ground bt cl sl bk t g Hs Hg) as (p & P1 & P2 & P3). exists p. rewrite G. split; [exact P1|].
  split; [rewrite <- G; exact GF|]. split; [exact P2|exact P3].
Qed.
Lemma transect_water i (T : list (tsect xr)) lw ow sea bt cl sl bk f t g a b :
  transectFig i T lw ow (Fin sea) bt cl sl bk = Ok f ->
  nth_error T i = Some t -> transect_is t g -> nth_error lw i = Some (Fin a) -> nth_error ow i = Some (Fin b) ->
  exists p, through (tfWater f) p /\ closed_below (tfWaterFill f) (tfWater f) /\
    level p 1000 (gY0 g) sea /\
    (forall y1 y2, gChan g = Some (y1, y2) -> level p y1 y2 b) /\
    (gY3 g <> gY4 g -> level p (gY3 g) (gY4 g) a) /\
    (ordered g -> gY0 g <= 1000 -> landward p) /\
    (gChan g = None -> gY3 g = gY4 g -> length p = 2%nat).
Proof.
  intros H Ht Hg Ha Hb. destruct (fig_inv i T lw ow (Fin sea) bt cl sl bk t _ _ Ht Ha Hb) as (f' & E & _ & W & _ & WF).
  rewrite H in E. apply Ok_inj in E. subst f'.
  destruct (water sea t g Hg a b) as (p & P1 & P2). exists p. rewrite W. split; [exact P1|]. split; [rewrite <- W; exact WF|exact P2].
Qed.

(** ** Concrete cases *)
Definition exT : tsect xr := mkT (Fin 0) (Fin 50) (Fin 30) (Fin 20) (Fin 10) (Fin (-20)) (Fin 4) (Fin 0) (Fin 3) (Fin (-1)).
Definition exG : tgeom := mkTg 50 (Some (30, 20)) 10 (-20) 4 0 3 (-1).
Lemma transect_example : transect_is exT exG /\ ordered exG /\
  exists f, transectFig 0 [exT] [Fin 1] [Fin 1] (Fin 0) (Fin 3) (Fin 5) (Fin (1 / 10)) (Fin 6) = Ok f.
Proof.
  split; [repeat split|]. split; [unfold ordered; cbn; lra|].
  destruct (fig_inv 0 [exT] [Fin 1] [Fin 1] (Fin 0) (Fin 3) (Fin 5) (Fin (1 / 10)) (Fin 6) exT _ _ eq_refl eq_refl eq_refl) as (f & E & _).
  exists f. exact E.
Qed.
Lemma folds : ~ (forall i (T : list (tsect xr)) lw ow sea bt cl sl bk f t g p,
  transectFig i T lw ow sea (Fin bt) (Fin cl) (Fin sl) (Fin bk) = Ok f -> nth_error T i = Some t -> transect_is t g ->
  0 < bt -> 0 < cl -> 0 < sl -> ordered g -> through (tfGround f) p -> landward p).
Proof.
  intros C.
  set (t := mkT (Fin 0) (Fin 1500) NaN NaN (Fin 10) (Fin (-20)) (Fin 4) NaN NaN (Fin (-1))).
  set (g := mkTg 1500 None 10 (-20) 4 0 0 (-1)).
  destruct (fig_inv 0 [t] [Fin 1] [Fin 1] (Fin 0) (Fin 3) (Fin 5) (Fin 1) (Fin 6) t _ _ eq_refl eq_refl eq_refl) as (f & E & G & _).
  assert (Hg : transect_is t g) by (repeat split).
  destruct (ground 3 5 1 6 t g ltac:(lra) Hg) as (p & P & _). rewrite <- G in P.
  assert (L := C 0%nat [t] _ _ _ 3 5 1 6 f t g p E eq_refl Hg ltac:(lra) ltac:(lra) ltac:(lra) ltac:(unfold ordered; cbn; lra) P).
  rewrite G in P. unfold through in P. destruct p as [|a [|b p]]; [discriminate P|discriminate P|].
  unfold groundLine in P. cbn [app map] in P.
  pose proof (f_equal (fun l => nth_error l 0) P) as P0. pose proof (f_equal (fun l => nth_error l 1) P) as P1.
  cbn [nth_error] in P0, P1. apply Some_inj in P0, P1.
  assert (A : fst a = 1000). { apply (f_equal fst) in P0. cbn in P0. congruence. }
  assert (B : fst b = 1508).
  { apply (f_equal fst) in P1. cbn [fst] in P1. change (tY0 t) with (Fin 1500) in P1.
    rewrite PRate.xadd, xdivf, PRate.xadd in P1 by lra.
    assert (E1 : Fin (fst b) = Fin 1508) by (rewrite <- P1; f_equal; lra). congruence. }
  inversion L as [|x l F L2 EX]. apply Forall_inv in F. lra.
Qed.
Lemma nearest_example : exists T : list (tsect xr), map tX T = map Fin [-10; 0; 10] /\ In 0 [-10; 0; 10] /\ transectIx T (Fin (-4)) = Ok 1%nat.
Proof.
  exists (map (fun x => mkT (Fin x) (Fin 0) (Fin 0) (Fin 0) (Fin 0) (Fin 0) (Fin 0) (Fin 0) (Fin 0) (Fin 0)) [-10; 0; 10]).
  split; [reflexivity|]. split; [cbn; auto|].
  set (T := map _ _). destruct (nearest T [-10; 0; 10] eq_refl (-4) (-10) 10 eq_refl eq_refl) as [N _].
  destruct (N ltac:(lra)) as (i & r & E & Er & B & _). rewrite E. f_equal.
  pose proof (B 1%nat 0 eq_refl) as B1. assert (Rabs (0 - -4) = 4) by (rewrite Rabs_pos_eq; lra). rewrite H in B1.
  destruct i as [|[|[|i]]]; cbn in Er; [|reflexivity| |destruct i; discriminate]; apply Some_inj in Er; subst r.
  - rewrite <- Rabs_Ropp, Rabs_pos_eq in B1; lra.
  - rewrite Rabs_pos_eq in B1; lra.
Qed.
