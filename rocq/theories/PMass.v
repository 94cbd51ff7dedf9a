(** The unit of mass does not matter. *)
From Coq Require Import ZArith List Bool Lia.
From Verif Require Import Base Num Xr MState MCoast MRiv MMor MOut MCore MLoad SMass.
Import ListNotations.
Local Open Scope R_scope.

Section Mass.
  Context (k : R) (Hk : 0 < k).
  Notation sc := (inUnits k).
  Lemma sgn_k x : sgn_inf (k * x) = sgn_inf x.
  Proof.
    unfold sgn_inf, Rltb. destruct (Rlt_dec 0 x) as [A|A].
    - destruct (Rlt_dec 0 (k * x)) as [B|B]; [reflexivity|]. exfalso. apply B. nra.
    - destruct (Rlt_dec 0 (k * x)) as [B|B]; [exfalso; apply A; nra|]. destruct (Rlt_dec x 0) as [C|C], (Rlt_dec (k * x) 0) as [D|D]; try reflexivity; exfalso; [apply D; nra|apply C; nra].
  Qed.
  Lemma ltb_k x : Rltb (k * x) 0 = Rltb x 0.
  Proof. unfold Rltb. destruct (Rlt_dec (k * x) 0), (Rlt_dec x 0); try reflexivity; exfalso; nra. Qed.
  Lemma sc_sgn x : sc (sgn_inf x) = sgn_inf x.
  Proof. unfold sgn_inf. destruct (Rltb 0 x); [reflexivity|]. destruct (Rltb x 0); reflexivity. Qed.
  Lemma sc_nan x : fisnan (sc x) = fisnan x. Proof. destruct x; reflexivity. Qed.
  Lemma sc_sub x y : (sc x - sc y)%n = sc (x - y)%n.
  Proof. destruct x, y; cbn; try reflexivity. f_equal. ring. Qed.
  Lemma sc_add x y : (sc x + sc y)%n = sc (x + y)%n.
  Proof. destruct x, y; cbn; try reflexivity. f_equal. ring. Qed.
  Lemma sc_mul x y : (sc x * y)%n = sc (x * y)%n.
  Proof.
    destruct x, y; cbn; try reflexivity; rewrite ?sc_sgn; try reflexivity.
    - f_equal. ring.
    - apply sgn_k.
    - rewrite <- (sgn_k (- r)). f_equal. ring.
  Qed.
  Lemma sc_div x y : (sc x / y)%n = sc (x / y)%n.
  Proof.
    destruct x, y; cbn; try reflexivity.
    - destruct (Req_EM_T r0 0); [rewrite sc_sgn; apply sgn_k|]. cbn. f_equal. unfold Rdiv. ring.
    - f_equal. ring.
    - f_equal. ring.
    - destruct (Rltb r 0); reflexivity.
    - destruct (Rltb r 0); reflexivity.
  Qed.
  Lemma k_nz y : k * y = 0 -> y = 0. Proof. intros H. apply Rmult_integral in H as [H|H]; lra. Qed.
  Lemma sc_ratio x y : (sc x / sc y)%n = (x / y)%n.
  Proof.
    destruct x, y; cbn; try reflexivity.
    - destruct (Req_EM_T (k * r0) 0) as [A|A], (Req_EM_T r0 0) as [B|B]; [apply sgn_k|exfalso; apply B, k_nz, A|exfalso; apply A; rewrite B; ring|]. f_equal. field. lra.
    - rewrite ltb_k. reflexivity.
    - rewrite ltb_k. reflexivity.
  Qed.
  (** A quotient by something scaled, times something scaled. *)
  Lemma sc_cancel a y x : (a / sc y * sc x)%n = (a / y * x)%n.
  Proof.
    destruct a as [a| | |], y as [y| | |]; cbn; try reflexivity.
    - destruct (Req_EM_T (k * y) 0) as [A|A], (Req_EM_T y 0) as [B|B]; [|exfalso; apply B, k_nz, A|exfalso; apply A; rewrite B; ring|].
      + unfold sgn_inf. destruct (Rltb 0 a); [destruct x; cbn; try reflexivity; apply sgn_k|]. destruct (Rltb a 0); [destruct x; cbn; try reflexivity; rewrite <- (sgn_k (- r)); f_equal; ring|reflexivity].
      + destruct x; cbn; try reflexivity.
        * f_equal. field. lra.
        * rewrite <- (sgn_k (a / (k * y))). f_equal. field. lra.
        * rewrite <- (sgn_k (- (a / (k * y)))). f_equal. field. lra.
    - destruct x; cbn; try reflexivity. f_equal. ring.
    - destruct x; cbn; try reflexivity. f_equal. ring.
    - rewrite ltb_k. destruct (Rltb y 0), x; cbn; try reflexivity; try apply sgn_k; rewrite <- (sgn_k (- r)); f_equal; ring.
    - rewrite ltb_k. destruct (Rltb y 0), x; cbn; try reflexivity; try apply sgn_k; rewrite <- (sgn_k (- r)); f_equal; ring.
  Qed.
  Lemma opp_mul a b : ((- a) * b)%n = (- (a * b))%n.
  Proof.
    assert (S : forall r, sgn_inf (- r) = xopp (sgn_inf r)).
    { intros r. unfold sgn_inf, Rltb. destruct (Rlt_dec 0 (- r)), (Rlt_dec 0 r), (Rlt_dec (- r) 0), (Rlt_dec r 0); try reflexivity; exfalso; lra. }
    destruct a, b; cbn; try reflexivity; rewrite ?S; try reflexivity; try (destruct (sgn_inf _); cbn; rewrite ?Ropp_involutive; reflexivity). f_equal. ring.
  Qed.

  (** ** The series *)
  Lemma filter_map_sc (f : Z * xr -> bool) (l : list (Z * xr)) : (forall p, f (fst p, sc (snd p)) = f p) -> filter f (map (fun p => (fst p, sc (snd p))) l) = map (fun p => (fst p, sc (snd p))) (filter f l).
  Proof. intros H. induction l as [|p l IH]; [reflexivity|]. cbn [map filter]. rewrite H, IH. destruct (f p); reflexivity. Qed.
  Lemma find_map_sc t (l : list (Z * xr)) : find (fun p => Z.eqb (fst p) t) (map (fun p => (fst p, sc (snd p))) l) = option_map (fun p => (fst p, sc (snd p))) (find (fun p => Z.eqb (fst p) t) l).
  Proof. induction l as [|p l IH]; [reflexivity|]. cbn [map find fst]. destruct (Z.eqb _ _); [reflexivity|exact IH]. Qed.
  Lemma sc_value l t : valueAt (map (fun p => (fst p, sc (snd p))) l) t = sc (valueAt l t).
  Proof.
    unfold valueAt. cbv zeta. rewrite filter_map_sc by (intros p; cbn [snd]; rewrite sc_nan; reflexivity). rewrite find_map_sc. destruct (find _ _) as [p|]; [reflexivity|]. cbn [option_map].
    rewrite !filter_map_sc by reflexivity. rewrite <- map_rev. destruct (rev _) as [|a ra]; [reflexivity|]. destruct (filter _ _) as [|b rb]; [reflexivity|]. cbn [map fst snd].
    rewrite sc_sub, sc_div, sc_mul, sc_add. reflexivity.
  Qed.
  Lemma where_sc (f : Z * xr -> bool) (l : list (Z * xr)) : (forall p, f (fst p, sc (snd p)) = f p) -> where_ f (map (fun p => (fst p, sc (snd p))) l) = where_ f l.
  Proof. intros H. unfold where_. generalize 0%nat. induction l as [|p l IH]; intros n; [reflexivity|]. cbn [map where_from]. rewrite H, !IH. reflexivity. Qed.
  Lemma slice_map {A B} (g : A -> B) l a b : slice (map g l) a b = map g (slice l a b).
  Proof. unfold slice. rewrite skipn_map, firstn_map. reflexivity. Qed.
  Lemma bind_ext {A B} (r : res A) (f g : A -> res B) : (forall a, f a = g a) -> bind r f = bind r g.
  Proof. intros H. destruct r; cbn [bind]; auto. Qed.
  Lemma sc_at1 l t : at1 (map (fun p => (fst p, sc (snd p))) l) t = let! x := at1 l t in Ok (sc x).
  Proof.
    unfold at1, interpolateAt. change (ix [t] 0) with (Ok t). change (last_ [t]) with (Ok t). cbn [bind]. unfold last_where, first_where. rewrite where_sc by reflexivity.
    destruct (of_opt _ _) as [i|]; cbn [bind]; [|reflexivity]. rewrite where_sc by reflexivity. destruct (of_opt _ _) as [j|]; cbn [bind]; [|reflexivity]. cbv zeta. rewrite slice_map. cbn [map]. rewrite sc_value. reflexivity.
  Qed.

  (** ** Transport *)
  Context (P : phys xr).
  Notation D := (derive P). Notation D' := (derive (heavier k P)).
  Lemma sc_breaker p : breakerDepth D' (sc p) = breakerDepth D p.
  Proof.
    unfold breakerDepth. f_equal. change (pBreakerCoef D') with (breakerCoef (sc (pRhoSea P)) (pGravity P) (pGammaRatio P)). change (pBreakerCoef D) with (breakerCoef (pRhoSea P) (pGravity P) (pGammaRatio P)).
    unfold breakerCoef. rewrite !sc_mul. apply sc_cancel.
  Qed.
  Lemma sc_k2 p : ((- pK2coef D') * sc p)%n = ((- pK2coef D) * p)%n.
  Proof.
    rewrite !opp_mul. f_equal. change (pK2coef D') with (k2coef (pKcoef P) (sc (pRhoSed P)) (sc (pRhoSea P)) (pGravity P) (pVoidRatio P)). change (pK2coef D) with (k2coef (pKcoef P) (pRhoSed P) (pRhoSea P) (pGravity P) (pVoidRatio P)).
    unfold k2coef. rewrite sc_sub, !sc_mul. apply sc_cancel.
  Qed.
  Lemma sc_lst Y Dx p per len dir : longShoreTransport Y Dx (sc p) per len dir D' = longShoreTransport Y Dx p per len dir D.
  Proof.
    unfold longShoreTransport. assert (E : forall a b, lstSegment D' (sc p) per len (localEDir Dx dir a b) = lstSegment D p per len (localEDir Dx dir a b)).
    { intros a b. unfold lstSegment, celB. cbv zeta. rewrite sc_k2, sc_breaker. reflexivity. }
    generalize (removelast Y), (tl Y). induction l as [|x l IH]; intros [|y m]; cbn [map2]; try reflexivity. rewrite E, IH. reflexivity.
  Qed.
  Lemma sc_node B h V : bedloadNode D' B h V = bedloadNode D B h V.
  Proof.
    unfold bedloadNode. cbv zeta. change (pRhoRiv D') with (sc (pRhoRiv P)). change (pRhoSed D') with (sc (pRhoSed P)). rewrite sc_ratio, sc_sub, !sc_mul, sc_ratio. reflexivity.
  Qed.
  Lemma sc_bed B h V psi : calcBedload B h V D' psi = calcBedload B h V D psi.
  Proof.
    unfold calcBedload. assert (E : nodeBedloads D' B h V = nodeBedloads D B h V); [|rewrite E; reflexivity].
    revert h V. induction B as [|b B IH]; intros [|x h] [|u V]; cbn [nodeBedloads]; try reflexivity. rewrite sc_node, IH. reflexivity.
  Qed.
  Lemma sc_over r sl T : overtopping D' r sl T = overtopping D r sl T. Proof. reflexivity. Qed.
  Lemma sc_asm T e0 e1 eW eE Cl RE RD RV LWL LVel OD OV ED EV Dx : assembleChannel T e0 e1 eW eE Cl RE RD RV LWL LVel OD OV ED EV Dx D' = assembleChannel T e0 e1 eW eE Cl RE RD RV LWL LVel OD OV ED EV Dx D.
  Proof. reflexivity. Qed.
  Lemma sc_zip dv : forall w d fl, zipXs D' dv w d fl = zipXs D dv w d fl.
  Proof. induction dv as [|a dv IH]; intros [|b w] [|c d] [|n fl]; cbn [zipXs]; try reflexivity. rewrite IH. reflexivity. Qed.
  Lemma sc_rates Dx T e0 e1 W Z on out CW CD fl rbq LST B CST OW : changeRates D' Dx T e0 e1 W Z on out CW CD fl rbq LST B CST OW = changeRates D Dx T e0 e1 W Z on out CW CD fl rbq LST B CST OW.
  Proof. unfold changeRates, channelXs. rewrite sc_zip. reflexivity. Qed.
  Lemma sc_apply fuel N TP T e0 e1 W Z RE on out LW OD CW CD fl cl LST B CST OW dt :
    morApply fuel D' N TP T e0 e1 W Z RE on out LW OD CW CD fl cl LST B CST OW dt = morApply fuel D N TP T e0 e1 W Z RE on out LW OD CW CD fl cl LST B CST OW dt.
  Proof. unfold morApply. cbv zeta. do 4 (apply bind_ext; intros ?). rewrite sc_rates. reflexivity. Qed.
  Lemma sc_correct Dx T0 T e0 e1 W Z out cl : morCorrect D' Dx T0 T e0 e1 W Z out cl = morCorrect D Dx T0 T e0 e1 W Z out cl. Proof. reflexivity. Qed.
  Lemma sc_breach j1 j2 T0 T ps x0 e0 e1 W Z out cl WL : morBreach D' j1 j2 T0 T ps x0 e0 e1 W Z out cl WL = morBreach D j1 j2 T0 T ps x0 e0 e1 W Z out cl WL. Proof. reflexivity. Qed.
  Lemma sc_update fuel j1 j2 N TP T e0 e1 W Z RE on out LW OD CW CD fl cl LST B CST OW dt :
    updateMorphology fuel j1 j2 D' N TP T e0 e1 W Z RE on out LW OD CW CD fl cl LST B CST OW dt = updateMorphology fuel j1 j2 D N TP T e0 e1 W Z RE on out LW OD CW CD fl cl LST B CST OW dt.
  Proof. unfold updateMorphology. rewrite sc_apply. apply bind_ext. intros a. rewrite sc_correct. apply bind_ext. intros [[[[? ?] ?] ?] ?]. rewrite sc_breach. reflexivity. Qed.
  Lemma sc_pre sv E B LA LL cl h V dx dt Q wl N : solveFullPreissmann sv E B LA LL cl h V dx dt Q wl N D' = solveFullPreissmann sv E B LA LL cl h V dx dt Q wl N D. Proof. reflexivity. Qed.

  (** ** A pass and a run *)
  Context (v : env xr).
  Notation V' := (inMass k (loadedWith (heavier k P) v)). Notation V := (loadedWith P v).
  Lemma sc_hyd o c flow sea : hydraulics o V' c flow sea = hydraulics o V c flow sea.
  Proof. unfold hydraulics. cbn [vP vN vTP inMass loadedWith]. rewrite sc_pre. reflexivity. Qed.
  Lemma sc_step af o s : step af o V' s = step af o V s.
  Proof.
    unfold step. cbn [vP vN vTP vFlow vSea vWaves vOutInt vTsInt inMass loadedWith wvDir wvPow wvPer wvLen wvHs heavierWaves]. cbv zeta. rewrite sc_asm. apply bind_ext. intros c. apply bind_ext. intros flow. apply bind_ext. intros sea.
    rewrite sc_hyd. apply bind_ext. intros [dep vel]. apply bind_ext. intros [[[[[lwl lvel] odep] ovel] edep] evel]. rewrite sc_bed. apply bind_ext. intros _. apply bind_ext. intros dir.
    rewrite sc_at1. destruct (at1 (wvPow (vWaves v)) (gTime s)) as [pw|]; cbn [bind]; [|reflexivity]. apply bind_ext. intros per. apply bind_ext. intros len. apply bind_ext. intros hs. rewrite sc_lst.
    apply bind_ext. intros seaN. apply bind_ext. intros flowN. change (pBeachSlope D') with (pBeachSlope D). rewrite sc_over. apply bind_ext. intros [cst ow]. rewrite sc_update. reflexivity.
  Qed.
  Lemma sc_steps af n : forall j o s, steps af n j o V' s = steps af n j o V s.
  Proof. induction n as [|n IH]; intros j o s; cbn [steps]; [reflexivity|]. rewrite sc_step. apply bind_ext. intros s1. apply IH. Qed.
  Lemma sc_loop af n : forall j o s, loop af n j o V' s = loop af n j o V s.
  Proof.
    induction n as [|n IH]; intros j o s; cbn [loop]; cbn [vTP inMass loadedWith]; destruct (_ <=? _)%Z; try reflexivity. rewrite sc_step. apply bind_ext. intros s1. apply IH.
  Qed.
  Lemma sc_init T e0 e1 W Z0 River RWL RV LWL LVel OD OV ED EV Cl : init V' T e0 e1 W Z0 River RWL RV LWL LVel OD OV ED EV Cl = init V T e0 e1 W Z0 River RWL RV LWL LVel OD OV ED EV Cl.
  Proof. unfold init. cbn [vP vN vTP vFlow vSea vWaves vOutInt vTsInt inMass loadedWith]. cbv zeta. rewrite sc_asm. reflexivity. Qed.
End Mass.
