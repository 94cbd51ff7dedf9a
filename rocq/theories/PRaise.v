(** Heights measured from another level: the coast, a pass, a run. *)
From Coq Require Import ZArith List Bool Lia.
From Verif Require Import Base Num MState MCoast MRiv MMor MOut MCore SShift SRaise PShift PRaiseH.
Import ListNotations.

Lemma Forall_map2 {A B C} (P : B -> Prop) (Q : C -> Prop) (f : A -> B -> C) : (forall a b, P b -> Q (f a b)) -> forall l m, Forall P m -> Forall Q (map2 f l m).
Proof. intros H. induction l as [|a l IH]; intros [|b m] K; cbn; try constructor; inversion K; subst; [apply H; assumption|apply IH; assumption]. Qed.
Lemma Forall_mapi {A B} (P : A -> Prop) (Q : B -> Prop) (f : nat -> A -> B) : (forall i a, P a -> Q (f i a)) -> forall l k, Forall P l -> Forall Q (mapi_from k f l).
Proof. intros H. induction l as [|a l IH]; intros k K; cbn; constructor; inversion K; subst; [apply H; assumption|apply IH; assumption]. Qed.
Lemma Forall_combine_r {A B} (P : B -> Prop) : forall (l : list A) m, Forall P m -> Forall (fun p => P (snd p)) (combine l m).
Proof. induction l as [|a l IH]; intros [|b m] K; cbn; try constructor; inversion K; subst; [assumption|apply IH; assumption]. Qed.
Lemma Forall2_nth {A B} (R : A -> B -> Prop) : forall l m, Forall2 R l m -> forall i a, nth_error l i = Some a -> exists b, nth_error m i = Some b /\ R a b.
Proof.
  induction 1 as [|x y l m Hxy H IH]; intros [|i] a E; cbn in *; try discriminate; [injection E as <-; exists y; split; [reflexivity|exact Hxy]|apply IH; exact E].
Qed.
Lemma Forall2_len {A B} (R : A -> B -> Prop) l m : Forall2 R l m -> length l = length m.
Proof. induction 1; cbn; [reflexivity|f_equal; assumption]. Qed.
Lemma Forall2_upd {A B} (R : A -> B -> Prop) l m : Forall2 R l m -> forall i a b, R a b -> Forall2 R (upd l i a) (upd m i b).
Proof. induction 1 as [|x y l m Hxy H IH]; intros [|i] a b K; cbn; constructor; auto. Qed.

Section Raise.
  Context {F : Type} {NF : Num F}.
  Local Open Scope num_scope.
  Variables sh dn : F -> F.
  Hypothesis sub_ss : forall a b, sh a - sh b = a - b.
  Hypothesis add_s : forall a d, sh a + d = sh (a + d).
  Hypothesis add_r : forall a d, d + sh a = sh (d + a).
  Hypothesis sub_s : forall a d, sh a - d = sh (a - d).
  Hypothesis ltb_ss : forall a b, (sh a <? sh b) = (a <? b).
  Hypothesis nan_s : forall a, fisnan (sh a) = fisnan a.
  Hypothesis sh_nan : sh fnan = fnan.
  Hypothesis dn_add : forall a b, dn a + sh b = a + b.
  Hypothesis add_dn : forall a b, sh a + dn b = a + b.
  Hypothesis half : forall a b, fofQ 1 2 * sh a + fofQ 1 2 * sh b = sh (fofQ 1 2 * a + fofQ 1 2 * b).
  Hypothesis nan_low : forall x, x = fnan -> (x <? fofQ (-99999) 10) = false.
  Hypothesis diss_nan : forall t, fisnan (tY1 t) = true -> dissolve (raisedT sh t) = raisedT sh (dissolve t).
  Hypothesis mean_s : forall l, nanmean (map sh l) = sh (nanmean l).
  Notation up := (raisedT sh).
  Notation uP := (raisedPars sh dn).
  Notation low := (fofQ (-99999) 10).

  Lemma pymin_r a b : pymin (sh a) (sh b) = sh (pymin a b).
  Proof. unfold pymin. rewrite ltb_ss. destruct (_ <? _); reflexivity. Qed.
  Lemma max_r a b : fmaximum (sh a) (sh b) = sh (fmaximum a b).
  Proof. unfold fmaximum. rewrite !nan_s, ltb_ss. destruct (fisnan a); [reflexivity|]. destruct (fisnan b); [reflexivity|]. destruct (_ <? _); reflexivity. Qed.
  Ltac mcbn := unfold raisedT; cbn [raisedT tX tY0 tY1 tY2 tY3 tY4 tZ0 tZ1 tZ2 tZ3 setY0 setY1 setY2 setY3 setY4 setZ0 setZ1 setZ2 setZ3].
  Ltac pc := repeat match goal with
    | |- context [pBackshoreElev (raisedPars sh dn ?P)] => change (pBackshoreElev (raisedPars sh dn P)) with (sh (pBackshoreElev P))
    | |- context [pClosureDepth (raisedPars sh dn ?P)] => change (pClosureDepth (raisedPars sh dn P)) with (dn (pClosureDepth P))
    | |- context [pMaxOutletElev (raisedPars sh dn ?P)] => change (pMaxOutletElev (raisedPars sh dn P)) with (sh (pMaxOutletElev P))
    | |- context [pBeachTopElev (raisedPars sh dn ?P)] => change (pBeachTopElev (raisedPars sh dn P)) with (sh (pBeachTopElev P))
    | |- context [pBarRatInt (raisedPars sh dn ?P)] => change (pBarRatInt (raisedPars sh dn P)) with (sh (pBarRatInt P))
    end.
  Ltac srw := repeat first [rewrite sub_ss | rewrite ltb_ss | rewrite nan_s | rewrite dn_add | rewrite add_dn | rewrite half | rewrite max_r | rewrite pymin_r | rewrite sub_s | rewrite add_s | rewrite add_r].
  Ltac cases := repeat match goal with |- context [if ?b then _ else _] => destruct b end.

  (** ** One transect *)
  Lemma face_r P t : shorefaceHeight (uP P) (up t) = shorefaceHeight P t. Proof. unfold shorefaceHeight. mcbn. pc. apply dn_add. Qed.
  Lemma backBarHeight_r t : backBarHeight (up t) = backBarHeight t.
  Proof. unfold backBarHeight. change (outletPresent (up t)) with (outletPresent t). mcbn. srw. reflexivity. Qed.
  Lemma bank_r t : lagoonBankElev (up t) = sh (lagoonBankElev t).
  Proof. unfold lagoonBankElev. change (outletPresent (up t)) with (outletPresent t). destruct (outletPresent t); reflexivity. Qed.
  Lemma rateY0_r P Dx e1 sp lst w cst t : rateY0 (uP P) Dx e1 sp lst w cst (up t) = rateY0 P Dx e1 sp lst w cst t.
  Proof. unfold rateY0. rewrite face_r. reflexivity. Qed.
  Lemma rateOf_r P Dx lag out y cst ow t : rateOf (uP P) Dx lag out y cst ow (up t) = rateOf P Dx lag out y cst ow t.
  Proof. unfold rateOf. rewrite backBarHeight_r, bank_r. pc. mcbn. srw. reflexivity. Qed.
  Lemma cst_r P r sl t : cstTransect (uP P) r (sh sl) (up t) = cstTransect P r sl t. Proof. unfold cstTransect. mcbn. srw. reflexivity. Qed.
  Lemma overwash_r P t : overwashTransect (uP P) (up t) = overwashTransect P t.
  Proof. unfold overwashTransect. cbv zeta. pc. mcbn. srw. reflexivity. Qed.
  Lemma applyRow_r d t r : applyRow d (up t) r = up (applyRow d t r). Proof. unfold applyRow. mcbn. srw. reflexivity. Qed.
  Lemma cliff_r P h t : cliffCollision (uP P) h (up t) = up (cliffCollision P h t).
  Proof. unfold cliffCollision. mcbn. destruct (_ <=? _); [|reflexivity]. pc. mcbn. srw. reflexivity. Qed.
  Lemma extend_r P W Z t : extendT (uP P) W (sh Z) (up t) = up (extendT P W Z t). Proof. reflexivity. Qed.
  Lemma seaward_r t : seawardFirst (up t) = up (seawardFirst t).
  Proof. unfold seawardFirst. mcbn. destruct (_ <=? _); [|reflexivity]. mcbn. srw. reflexivity. Qed.
  Lemma convert_r t : convertT (up t) = up (convertT t). Proof. unfold convertT. mcbn. rewrite sh_nan. reflexivity. Qed.
  Lemma lagoonLast_r P t : lagoonLast (uP P) (up t) = up (lagoonLast P t).
  Proof. unfold lagoonLast. mcbn. destruct (_ <=? _); [|reflexivity]. cbv zeta. mcbn. destruct (_ <? _); [|reflexivity]. pc. mcbn. srw. reflexivity. Qed.
  Lemma fill_r P t : fillT (uP P) (up t) = up (fillT P t). Proof. unfold fillT. pc. mcbn. srw. rewrite sh_nan. reflexivity. Qed.
  Lemma restore_r h t : restoreT h (up t) = up (restoreT h t). Proof. unfold restoreT. mcbn. srw. reflexivity. Qed.
  Lemma raise_r p t : raiseCrest p (up t) = up (raiseCrest p t). Proof. unfold raiseCrest. destruct p; [|reflexivity]. mcbn. srw. reflexivity. Qed.
  Lemma breach_r P W Z t : breachT (uP P) W (sh Z) (up t) = up (breachT P W Z t).
  Proof. unfold breachT. cbv zeta. mcbn. rewrite half. reflexivity. Qed.
  Lemma keep_r P t : keepLagoon (uP P) (up t) = up (keepLagoon P t).
  Proof. unfold keepLagoon. mcbn. change (pMinOutletWidth (uP P)) with (pMinOutletWidth P). destruct (_ <? _); reflexivity. Qed.
  Lemma negWidth_r p b c t : negWidth p b c (up t) = thenDo (fun r => (up (fst r), snd r)) (negWidth p b c t).
  Proof.
    unfold negWidth. mcbn. srw. destruct (_ && _); [|reflexivity]. cbv zeta. mcbn. srw. rewrite do_bind. apply bind_ext. intros _. rewrite do_bind. apply bind_ext. intros _.
    cases; cbn [thenDo fst snd]; mcbn; srw; rewrite ?sh_nan; reflexivity.
  Qed.

  (** ** Steps of an update *)
  Ltac bx x := apply bind_ext; intros x.
  Lemma rb_r T e1 : outletRb (map up T) e1 = outletRb T e1.
  Proof. unfold outletRb. rewrite (first_map up _ (fun t => e1 <? tX t)) by reflexivity. reflexivity. Qed.
  Definition wrel (w w' : F) : Prop := w' = sh w \/ (w = low /\ w' = low).
  Lemma wrel_nan w w' : wrel w w' -> fisnan w' = fisnan w.
  Proof. intros [->|[-> ->]]; [apply nan_s|reflexivity]. Qed.
  Lemma wrel_existsb W W' : Forall2 wrel W W' -> existsb fisnan W' = existsb fisnan W.
  Proof. induction 1 as [|w w' W W' H _ IH]; [reflexivity|]. cbn. rewrite (wrel_nan _ _ H), IH. reflexivity. Qed.
  Lemma wrel_base : forall T LW, Forall2 wrel (map2 (fun t w => if lagoonPresent t then w else low) T LW) (map2 (fun t w => if lagoonPresent t then w else low) (map up T) (map sh LW)).
  Proof.
    induction T as [|t T IH]; intros [|w LW]; cbn; constructor; try apply IH. change (lagoonPresent (up t)) with (lagoonPresent t).
    destruct (lagoonPresent t); [left; reflexivity|right; split; reflexivity].
  Qed.
  Lemma wrel_mapi outlet v : forall W W' k, Forall2 wrel W W' ->
    Forall2 wrel (mapi_from k (fun i w => match scat outlet v i with Some x => x | None => w end) W) (mapi_from k (fun i w => match scat outlet (map sh v) i with Some x => x | None => w end) W').
  Proof.
    intros W W' k H. revert k. induction H as [|w w' W W' Hw _ IH]; intros k; cbn; constructor; [|apply IH]. rewrite scat_map. destruct (scat outlet v k); [left; reflexivity|exact Hw].
  Qed.
  Lemma water_r T LW OD out cl : match waterLevel T LW OD out cl with
    | Ok W => exists W', Forall2 wrel W W' /\ waterLevel (map up T) (map sh LW) OD out cl = Ok W'
    | Exc e => waterLevel (map up T) (map sh LW) OD out cl = Exc e end.
  Proof.
    unfold waterLevel. rewrite !map_length. destruct (negb _); [reflexivity|]. cbv zeta.
    pose proof (wrel_base T LW) as H. set (W := map2 _ T LW) in *. set (W' := map2 _ (map up T) (map sh LW)) in *. clearbody W W'.
    assert (G : forall V V', Forall2 wrel V V' -> match (let! _ := assert_ (negb (existsb fisnan V)) in Ok V) with
      | Ok W => exists W', Forall2 wrel W W' /\ (let! _ := assert_ (negb (existsb fisnan V')) in Ok V') = Ok W' | Exc e => (let! _ := assert_ (negb (existsb fisnan V')) in Ok V') = Exc e end).
    { intros V V' K. rewrite (wrel_existsb _ _ K). destruct (assert_ _); cbn [bind]; [|reflexivity]. exists V'. split; [exact K|reflexivity]. }
    destruct cl; [exact (G _ _ H)|]. destruct (gather OD out) as [d|e]; cbn [bind]; [|reflexivity]. rewrite gather_map. destruct (gather T out) as [ts|e]; cbn [bind thenDo]; [|reflexivity].
    rewrite (map2_r up _ (fun a t => sh (a + tZ1 t))) by (intros; cbn [raisedT tZ1]; apply add_r). rewrite <- (map2_out _ sh). apply G. unfold mapi. apply wrel_mapi. exact H.
  Qed.
  Lemma xs_r P : forall a b c d, zipXs (uP P) a b c d = zipXs P a b c d.
  Proof. induction a as [|x a IH]; intros [|y b] [|z c] [|k d]; try reflexivity. cbn [zipXs]. rewrite IH. reflexivity. Qed.
  Lemma endRates_r P Dx e0 e1 W Z q x : endRates (uP P) Dx e0 e1 W (sh Z) q x = endRates P Dx e0 e1 W Z q x.
  Proof. unfold endRates. pc. srw. reflexivity. Qed.
  Lemma rates_r P Dx T e0 e1 W Z on out CW CD CF rbq LST B CST OW :
    changeRates (uP P) Dx (map up T) e0 e1 W (sh Z) on out CW CD CF rbq LST B CST OW = changeRates P Dx T e0 e1 W Z on out CW CD CF rbq LST B CST OW.
  Proof.
    unfold changeRates. rewrite map_length. cbv zeta. unfold channelXs. rewrite xs_r. fold (channelXs P). change (pRiverWidth (uP P)) with (pRiverWidth P).
    destruct (negb _); [reflexivity|]. rewrite gather_map, bind_do. bx u. rewrite gather_map, bind_do. bx u'. bx sp.
    match goal with |- bind ?a _ = bind ?b _ => assert (E : a = b) end.
    { destruct rbq as [[rb q]|]; [|reflexivity]. destruct (xsSel 3 _) as [|x [|y l]]; [reflexivity| |reflexivity]. rewrite endRates_r. reflexivity. }
    rewrite E. clear E. bx q. destruct q as [[a b] c]. do 2 f_equal. unfold mapi. apply mapi_map. intros i t. rewrite rateY0_r, rateOf_r. reflexivity.
  Qed.
  Lemma river_r s RE riv : applyRiver s (map sh RE) riv = thenDo (map sh) (applyRiver s RE riv).
  Proof.
    destruct RE as [|z zs]; cbn [map applyRiver]; [destruct (Nat.eqb _ _); reflexivity|]. rewrite map_length. destruct (Nat.eqb _ _); [|reflexivity]. cbn [thenDo map]. do 2 f_equal.
    rewrite map2_out. apply map2_l. intros; apply add_s.
  Qed.
  Definition upA (a : applied F) (WL : list F) : applied F := mkApp (map up (aT a)) (aE1 a) (aW a) (sh (aZ a)) (map sh (aRiver a)) (aDt a) WL (aX0 a).
  Definition applyRest fuel P N TP (T : list (tsect F)) e0 e1 W Zend RE online outlet CW CD CF (Closed : bool) LST B CST OW MorDt (x0 : nat) (rbq : option (nat * F)) (WL : list F) : res (applied F) :=
    let! _ := assert_ (forallb (fun t => f0 <? crestWidth t) T) in
    let! R := changeRates P (nDx N) T e0 e1 W Zend online outlet CW CD CF rbq LST B CST OW in
    let! rate := maxRate R in
    let! dt := adaptStep fuel N TP rate MorDt in
    let! R := limitRates N TP rate dt R in
    let! river := applyRiver (fofZ (seconds dt)) RE (rRiv R) in
    let T2 := map2 (applyRow (fofZ (seconds dt))) (match rbq with
              | Some (rb, q) => if f0 <? q then T else upd_with T (prevIx (length T) rb) (fun t => setY0 (tY0 t + q / (shorefaceHeight P t * nDx N)) t)
              | None => T end) (rT R) in
    if Closed then Ok (mkApp T2 e1 W Zend river dt WL x0)
    else Ok (mkApp T2 (e1 + rMove R * fofZ (seconds dt)) (W + rWiden R * fofZ (seconds dt)) (Zend + rAgg R * fofZ (seconds dt)) river dt WL x0).
  Lemma rest_r fuel P N TP T e0 e1 W Zd RE on out CW CD CF Cl LST B CST OW dt x0 rbq WL WL' :
    applyRest fuel (uP P) N TP (map up T) e0 e1 W (sh Zd) (map sh RE) on out CW CD CF Cl LST B CST OW dt x0 rbq WL' =
    thenDo (fun a => upA a WL') (applyRest fuel P N TP T e0 e1 W Zd RE on out CW CD CF Cl LST B CST OW dt x0 rbq WL).
  Proof.
    unfold applyRest. cbv zeta. rewrite (forallb_map up _ (fun t => f0 <? crestWidth t)) by reflexivity. rewrite do_bind. bx u.
    rewrite rates_r, do_bind. bx R. rewrite do_bind. bx rate. rewrite do_bind. bx d. rewrite do_bind. bx R'. rewrite river_r, bind_do, do_bind. bx river.
    assert (E : map2 (applyRow (fofZ (seconds d)))
       match rbq with Some (rb, q) => if f0 <? q then map up T else upd_with (map up T) (prevIx (length (map up T)) rb) (fun t => setY0 (tY0 t + q / (shorefaceHeight (uP P) t * nDx N)) t) | None => map up T end (rT R') =
      map up (map2 (applyRow (fofZ (seconds d)))
       match rbq with Some (rb, q) => if f0 <? q then T else upd_with T (prevIx (length T) rb) (fun t => setY0 (tY0 t + q / (shorefaceHeight P t * nDx N)) t) | None => T end (rT R'))).
    { rewrite map2_out. destruct rbq as [[rb q]|].
      - destruct (f0 <? q); [|rewrite map_length, (upd_with_map up T _ _ (fun t => setY0 (tY0 t + q / (shorefaceHeight P t * nDx N)) t)) by (intros; rewrite face_r; reflexivity)];
          apply map2_l; intros; apply applyRow_r.
      - apply map2_l; intros; apply applyRow_r. }
    rewrite E. destruct Cl; [reflexivity|]. rewrite add_s. reflexivity.
  Qed.
  Lemma rest_WL fuel P N TP T e0 e1 W Zd RE on out CW CD CF Cl LST B CST OW dt x0 rbq WL a :
    applyRest fuel P N TP T e0 e1 W Zd RE on out CW CD CF Cl LST B CST OW dt x0 rbq WL = Ok a -> aWL a = WL.
  Proof.
    unfold applyRest. intros H. do 6 (apply bind_ok in H; destruct H as (? & _ & H)). cbv zeta in H. destruct Cl; apply Ok_inj in H; rewrite <- H; reflexivity.
  Qed.
  Lemma apply_r fuel P N TP T e0 e1 W Zd RE on out LW OD CW CD CF Cl LST B CST OW dt :
    match morApply fuel P N TP T e0 e1 W Zd RE on out LW OD CW CD CF Cl LST B CST OW dt with
    | Ok a => exists WL', Forall2 wrel (aWL a) WL' /\ morApply fuel (uP P) N TP (map up T) e0 e1 W (sh Zd) (map sh RE) on out (map sh LW) OD CW CD CF Cl LST B CST OW dt = Ok (upA a WL')
    | Exc e => morApply fuel (uP P) N TP (map up T) e0 e1 W (sh Zd) (map sh RE) on out (map sh LW) OD CW CD CF Cl LST B CST OW dt = Exc e
    end.
  Proof.
    unfold morApply. rewrite x0_u, rb_r. destruct (x0Ix T) as [x0|e]; cbn [bind]; [|reflexivity].
    match goal with |- context [bind (if Cl then ?a else ?b) _] => destruct (if Cl then a else b) as [rbq|e] end; cbn [bind]; [|reflexivity].
    pose proof (water_r T LW OD out Cl) as H. destruct (waterLevel T LW OD out Cl) as [WL|e]; [|rewrite H; reflexivity]. destruct H as (WL' & R & ->). cbn [bind].
    pose proof (rest_r fuel P N TP T e0 e1 W Zd RE on out CW CD CF Cl LST B CST OW dt x0 rbq WL WL') as G.
    pose proof (rest_WL fuel P N TP T e0 e1 W Zd RE on out CW CD CF Cl LST B CST OW dt x0 rbq WL) as K. unfold applyRest in G, K. cbv zeta in *.
    match goal with |- match ?a with _ => _ end => destruct a as [a1|e] eqn:E end; [|exact G]. exists WL'. rewrite (K _ eq_refl). split; [exact R|exact G].
  Qed.

  Lemma domain_r T e1 : domainCheck (map up T) e1 = domainCheck T e1.
  Proof. unfold domainCheck. rewrite ix_map, bind_do. bx t1. rewrite pynth_map, bind_do. bx tn. reflexivity. Qed.
  Lemma negWidths_r : forall ps T0 T, negWidths ps (map up T0) (map up T) = thenDo (map (fun r => (up (fst r), snd r))) (negWidths ps T0 T).
  Proof.
    induction ps as [|p ps IH]; intros [|t0 T0] [|t T]; try reflexivity. cbn [map negWidths]. rewrite backBarHeight_r. change (crestWidth (up t0)) with (crestWidth t0). rewrite negWidth_r, bind_do, do_bind. bx r.
    rewrite IH, bind_do, do_bind. bx rs. reflexivity.
  Qed.
  Lemma negStep_r ps T0 T : negWidthStep ps (map up T0) (map up T) = thenDo (fun r => (map up (fst r), snd r)) (negWidthStep ps T0 T).
  Proof.
    unfold negWidthStep. rewrite negWidths_r, bind_do, do_bind. bx r. cbn [thenDo fst snd].
    assert (E : map fst (map (fun r : tsect F * bool => (up (fst r), snd r)) r) = map up (map fst r)) by (rewrite !map_map; reflexivity).
    rewrite E, (existsb_map _ snd snd) by reflexivity. rewrite (map_inv up outletPresent outletPresent) by reflexivity. reflexivity.
  Qed.
  Lemma extendStep_r P T e0 e1 W Z out : extendStep (uP P) (map up T) e0 e1 W (sh Z) out = thenDo (fun r => (map up (fst r), snd r)) (extendStep P T e0 e1 W Z out).
  Proof.
    unfold extendStep. rewrite do_bind. bx il. rewrite ix_map, bind_do, do_bind. bx tl_. cbv zeta. cbn [raisedT tX].
    assert (G : forall m : tsect F -> bool, (forall t, m (up t) = m t) ->
      (if existsb m (map up T) then Ok (map (fun t => if m t then extendT (uP P) W (sh Z) t else t) (map up T), outletIx (map (fun t => if m t then extendT (uP P) W (sh Z) t else t) (map up T)) e0 e1) else Exc EIndex) =
      thenDo (fun r => (map up (fst r), snd r)) (if existsb m T then Ok (map (fun t => if m t then extendT P W Z t else t) T, outletIx (map (fun t => if m t then extendT P W Z t else t) T) e0 e1) else Exc EIndex)).
    { intros m Hm. rewrite (existsb_map up m m) by exact Hm. destruct (existsb m T); [|reflexivity]. cbn [thenDo fst snd].
      assert (E : map (fun t => if m t then extendT (uP P) W (sh Z) t else t) (map up T) = map up (map (fun t => if m t then extendT P W Z t else t) T)).
      { rewrite !map_map. apply map_ext. intros t. rewrite Hm. destruct (m t); [apply extend_r|reflexivity]. }
      rewrite E, outletIx_u. reflexivity. }
    destruct (e0 <? e1).
    - rewrite ix_map, bind_do, do_bind. bx nx. cbn [raisedT tX]. destruct (_ <=? _); [|reflexivity]. apply G. reflexivity.
    - rewrite pynth_map, bind_do, do_bind. bx nx. cbn [raisedT tX]. destruct (_ <=? _); [|reflexivity]. apply G. reflexivity.
  Qed.
  Lemma seawardStep_r T out : seawardFirstStep (map up T) out = thenDo (map up) (seawardFirstStep T out).
  Proof. unfold seawardFirstStep. rewrite do_bind. bx i. rewrite ix_map, bind_do, do_bind. bx t. cbn [thenDo]. rewrite seaward_r, upd_map. reflexivity. Qed.
  Lemma lagoonLastStep_r P T out : lagoonLastStep (uP P) (map up T) out = thenDo (map up) (lagoonLastStep P T out).
  Proof. unfold lagoonLastStep. rewrite do_bind. bx i. rewrite ix_map, bind_do, do_bind. bx t. cbn [thenDo]. rewrite lagoonLast_r, upd_map. reflexivity. Qed.
  Definition up4 {A B C} (r : list (tsect F) * A * B * C) := let '(T, a, b, c) := r in (map up T, a, b, c).
  Definition up5 {A B C D} (r : list (tsect F) * A * B * C * D) := let '(T, a, b, c, d) := r in (map up T, a, b, c, d).
  Definition up5z {A B C} (r : list (tsect F) * A * B * C * F) := let '(T, a, b, c, d) := r in (map up T, a, b, c, sh d).
  Definition up6z {A B C E} (r : list (tsect F) * A * B * C * F * E) := let '(T, a, b, c, d, e) := r in (map up T, a, b, c, sh d, e).
  Lemma lagoonTrunc_r T ps e0 e1 out : lagoonTrunc (map up T) ps e0 e1 out = thenDo up4 (lagoonTrunc T ps e0 e1 out).
  Proof.
    unfold lagoonTrunc. destruct (Nat.ltb _ _); [|reflexivity]. rewrite gather_map, bind_do, do_bind. bx ts.
    rewrite (map_inv up merged merged) by reflexivity. destruct (filter2 _ _) as [|k l]; [reflexivity|].
    assert (E : (if e0 <? e1 then ix (map up T) (S k) else pynth (map up T) (Z.of_nat k - 1)) = thenDo up (if e0 <? e1 then ix T (S k) else pynth T (Z.of_nat k - 1))).
    { destruct (e0 <? e1); [apply ix_map|apply pynth_map]. }
    rewrite E, bind_do, do_bind. bx nx. cbv zeta. cbn [raisedT tX]. rewrite outletIx_u, do_bind. bx u. rewrite ix_map, bind_do, do_bind. bx tk.
    mcbn. destruct (_ <=? _); [|reflexivity]. fold up.
    rewrite (lastw_map up lagoonPresent lagoonPresent), (first_map up lagoonPresent lagoonPresent) by reflexivity.
    rewrite do_bind. bx ext. cbn [thenDo up4]. unfold mapi. rewrite mapi_out.
    rewrite (mapi_map up 0 _ (fun i t => up (if memb i ext then convertT t else t))); [reflexivity|]. intros i t. destruct (memb i ext); [apply convert_r|reflexivity].
  Qed.
  Lemma seaTrunc_r Dx T e0 e1 out : seaTrunc Dx (map up T) e0 e1 out = seaTrunc Dx T e0 e1 out.
  Proof.
    unfold seaTrunc. destruct (Nat.ltb _ _); [|reflexivity]. rewrite gather_map, bind_do. bx ts.
    assert (E : tl (map up ts) = map up (tl ts)) by (destruct ts; reflexivity). rewrite E, (existsb_map up atSea atSea) by reflexivity.
    destruct (existsb _ _); [|reflexivity]. rewrite (map_inv up atSea atSea) by reflexivity. destruct (e0 <? e1).
    - bx k. rewrite ix_map, bind_do. bx t. cbv zeta. cbn [raisedT tX]. rewrite ixLR_u. reflexivity.
    - bx k. rewrite ix_map, bind_do. bx t. cbv zeta. cbn [raisedT tX]. rewrite ixRL_u. reflexivity.
  Qed.
  Lemma correct_r P Dx T0 T e0 e1 W Z out cl : morCorrect (uP P) Dx (map up T0) (map up T) e0 e1 W (sh Z) out cl = thenDo up5 (morCorrect P Dx T0 T e0 e1 W Z out cl).
  Proof.
    unfold morCorrect. rewrite domain_r, do_bind. bx e1'. cbv zeta.
    assert (E : map2 (fun t0 t => cliffCollision (uP P) (shorefaceHeight (uP P) t0) t) (map up T0) (map up T) = map up (map2 (fun t0 t => cliffCollision P (shorefaceHeight P t0) t) T0 T)).
    { rewrite map2_out. rewrite (map2_l up _ (fun t0 t => cliffCollision (uP P) (shorefaceHeight P t0) t)) by (intros; rewrite face_r; reflexivity). apply map2_r. intros; apply cliff_r. }
    rewrite E, (map_inv up outletPresent outletPresent) by reflexivity. rewrite negStep_r, bind_do, do_bind. bx r. destruct r as [T1 ps]. cbn [fst snd].
    assert (E2 : (if cl then Ok (map up T1, out) else extendStep (uP P) (map up T1) e0 e1' W (sh Z) out) = thenDo (fun r => (map up (fst r), snd r)) (if cl then Ok (T1, out) else extendStep P T1 e0 e1' W Z out)).
    { destruct cl; [reflexivity|apply extendStep_r]. }
    rewrite E2, bind_do, do_bind. bx r. destruct r as [T2 o2]. cbn [fst snd].
    assert (E3 : (if cl then Ok (map up T2) else seawardFirstStep (map up T2) o2) = thenDo (map up) (if cl then Ok T2 else seawardFirstStep T2 o2)).
    { destruct cl; [reflexivity|apply seawardStep_r]. }
    rewrite E3, bind_do, do_bind. bx T3. rewrite lagoonTrunc_r, bind_do, do_bind. bx r. destruct r as [[[T4 ps4] e04] o4]. cbn [up4].
    rewrite seaTrunc_r, do_bind. bx r. destruct r as [e15 o5].
    assert (E6 : (if cl then Ok (map up T4) else lagoonLastStep (uP P) (map up T4) o5) = thenDo (map up) (if cl then Ok T4 else lagoonLastStep P T4 o5)).
    { destruct cl; [reflexivity|apply lagoonLastStep_r]. }
    rewrite E6, bind_do, do_bind. bx T6. reflexivity.
  Qed.

  (** ** Relic channels, breaches, crests *)
  Notation WR := (Forall2 wrel).
  Lemma pynth_rel W W' z : WR W W' -> match pynth W z with Ok a => exists b, pynth W' z = Ok b /\ wrel a b | Exc e => pynth W' z = Exc e end.
  Proof.
    intros H. unfold pynth. rewrite (Forall2_len _ _ _ H). destruct (pyix _ _) as [i|]; [|reflexivity]. unfold ix. destruct (nth_error W i) as [a|] eqn:E.
    - destruct (Forall2_nth _ _ _ H i a E) as (b & -> & K). exists b. split; [reflexivity|exact K].
    - apply nth_error_None in E. rewrite (Forall2_len _ _ _ H) in E. apply nth_error_None in E. rewrite E. reflexivity.
  Qed.
  Definition sameEnd {A} (r r' : res (A * list F)) : Prop :=
    match r with Ok (l, V) => exists V', r' = Ok (l, V') /\ WR V V' | Exc e => r' = Exc e end.
  Lemma searchLeft_r : forall fuel wide W W' lo, WR W W' -> sameEnd (searchLeft fuel wide W lo) (searchLeft fuel wide W' lo).
  Proof.
    induction fuel as [|f IH]; intros wide W W' lo H; cbn [searchLeft]; destruct (pynth wide (lo - 1)) as [w|e]; cbn [bind]; try reflexivity; destruct w;
      try reflexivity; try (exists W'; split; [reflexivity|exact H]).
    pose proof (pynth_rel W W' lo H) as K. destruct (pynth W lo) as [v|e]; cbn [bind]; [|rewrite K; reflexivity]. destruct K as (v' & -> & K). cbn [bind].
    rewrite <- (Forall2_len _ _ _ H). destruct (of_opt _ _) as [i|e]; cbn [bind]; [|reflexivity]. apply IH. apply Forall2_upd; assumption.
  Qed.
  Lemma searchRight_r : forall fuel wide W W' lo, WR W W' -> sameEnd (searchRight fuel wide W lo) (searchRight fuel wide W' lo).
  Proof.
    induction fuel as [|f IH]; intros wide W W' lo H; cbn [searchRight]; destruct (pynth wide (lo + 1)) as [w|e]; cbn [bind]; try reflexivity; destruct w;
      try reflexivity; try (exists W'; split; [reflexivity|exact H]).
    pose proof (pynth_rel W W' lo H) as K. destruct (pynth W lo) as [v|e]; cbn [bind]; [|rewrite K; reflexivity]. destruct K as (v' & -> & K). cbn [bind].
    rewrite <- (Forall2_len _ _ _ H). destruct (of_opt _ _) as [i|e]; cbn [bind]; [|reflexivity]. apply IH. apply Forall2_upd; assumption.
  Qed.
  Lemma connect_r P T ps lo x0 e0 cl out W W' : WR W W' ->
    match connect P T ps lo x0 e0 cl out W with
    | Ok (cc, V, e) => exists V', connect (uP P) (map up T) ps lo x0 e0 cl out W' = Ok (cc, V', e) /\ WR V V'
    | Exc e => connect (uP P) (map up T) ps lo x0 e0 cl out W' = Exc e end.
  Proof.
    intros H. unfold connect. cbv zeta. rewrite (map2_r up _ (wideEnough P)) by reflexivity.
    rewrite (map_inv up _ (fun t => fabs (tX t - e0))) by reflexivity. rewrite map_length. destruct (argmin _) as [us|e]; cbn [bind]; [|reflexivity].
    match goal with |- context [bind (if negb cl then ?a else ?b) _] => destruct (if negb cl then a else b) as [[cc e0']|e] end; cbn [bind]; [|reflexivity].
    destruct cc as [[l h]|].
    - pose proof (searchLeft_r (2 * length T) (map2 (wideEnough P) ps T) W W' l H) as K. unfold sameEnd in K. destruct (searchLeft _ _ W l) as [[l' V]|e]; cbn [bind]; [|rewrite K; reflexivity].
      destruct K as (V' & -> & K). cbn [bind]. pose proof (searchRight_r (2 * length T) (map2 (wideEnough P) ps T) V V' h K) as L. unfold sameEnd in L.
      destruct (searchRight _ _ V h) as [[h' U]|e]; cbn [bind]; [|rewrite L; reflexivity]. destruct L as (U' & -> & L). cbn [bind]. rewrite (wrel_existsb _ _ L).
      destruct (assert_ _); cbn [bind]; [|reflexivity]. exists U'. split; [reflexivity|exact L].
    - rewrite (wrel_existsb _ _ H). destruct (assert_ _); cbn [bind]; [|reflexivity]. exists W'. split; [reflexivity|exact H].
  Qed.
  Definition crests (t : tsect F) : Prop := above sh (tZ0 t) /\ above sh (tZ2 t).
  Lemma above_nan : above sh fnan. Proof. split; [apply nan_low; reflexivity|apply nan_low; exact sh_nan]. Qed.
  Lemma dissolve_r j : forall T, Forall (calm sh) T -> dissolveStep j (map up T) = map up (dissolveStep j T) /\ Forall crests (dissolveStep j T).
  Proof.
    unfold dissolveStep, mapi. generalize 0%nat. intros k T. revert k. induction T as [|t T IH]; intros k H; [split; [reflexivity|constructor]|]. inversion H as [|? ? (A & B & C) D]; subst.
    destruct (IH (S k) D) as (E & G). cbn [map mapi_from]. rewrite E. change (lagoonIntersect j k (up t)) with (lagoonIntersect j k t). split.
    - f_equal. destruct (lagoonIntersect j k t) eqn:Q; [|reflexivity]. apply diss_nan. unfold lagoonIntersect in Q. destruct (fisnan (tY1 t)); [reflexivity|]. cbn [negb] in Q. rewrite (A eq_refl) in Q. discriminate Q.
    - constructor; [|exact G]. destruct (lagoonIntersect j k t); split; assumption.
  Qed.
  Lemma fillStep_r P j T ps e0 cl cc : shoreFill (uP P) j (map up T) ps e0 cl cc = thenDo (fun r => (map up (fst (fst r)), snd (fst r), snd r)) (shoreFill P j T ps e0 cl cc).
  Proof.
    assert (E0 : mapi (shoreIntersect j) (map up T) = mapi (shoreIntersect j) T) by (unfold mapi; apply mapi_map; reflexivity).
    unfold shoreFill. cbv zeta. rewrite E0. destruct (existsb _ _); [|reflexivity].
    match goal with |- bind ?a _ = thenDo _ (bind ?b _) => assert (E : a = b) end.
    { destruct (cl && _); [|reflexivity]. rewrite gather_map, bind_do. bx ts. rewrite (map_inv up _ (fun t => fabs (tX t - e0))) by reflexivity. reflexivity. }
    rewrite E, do_bind. clear E. bx r. destruct r as [m b]. rewrite map_length. destruct (Nat.eqb (length m) (length T)); cbn [negb]; [|reflexivity]. cbn [thenDo fst snd].
    rewrite map2_out, (map2_r up _ (fun (m : bool) t => up (if m then fillT P t else t))); [reflexivity|]. intros t q. destruct q; [apply fill_r|reflexivity].
  Qed.
  Lemma fill_crests P j T ps e0 cl cc T' ps' b : shoreFill P j T ps e0 cl cc = Ok (T', ps', b) -> Forall crests T -> Forall crests T'.
  Proof.
    intros H K. unfold shoreFill in H. cbv zeta in H. destruct (existsb _ _); [|apply Ok_inj in H; pose proof (f_equal (fun r => fst (fst r)) H) as Q; cbn [fst] in Q; rewrite <- Q; exact K].
    apply bind_ok in H. destruct H as ([m b'] & _ & H). destruct (negb _); [discriminate H|]. apply Ok_inj in H. pose proof (f_equal (fun r => fst (fst r)) H) as Q. cbn [fst] in Q. rewrite <- Q.
    apply (Forall_map2 crests); [|exact K]. intros [] t [A B]; [|split; assumption]. split; [exact B|exact above_nan].
  Qed.
  Lemma erosion_r P T0 T lo x0 e0 cl b : erosionBreach (uP P) (map up T0) (map up T) lo x0 e0 cl b = thenDo (fun r => (map up (fst r), snd r)) (erosionBreach P T0 T lo x0 e0 cl b).
  Proof.
    unfold erosionBreach. rewrite (where_map up eroded eroded) by reflexivity. cbv zeta.
    match goal with |- bind ?a _ = thenDo _ (bind ?b _) => assert (E : a = b) end.
    { destruct b; [reflexivity|]. destruct (filter _ _); [reflexivity|]. rewrite gather_map, bind_do. bx ts.
      rewrite (map_inv up _ (fun t => fabs (tX t))) by reflexivity. reflexivity. }
    rewrite E, do_bind. bx b'. cbn [thenDo fst snd]. f_equal. f_equal. unfold mapi. rewrite mapi_out.
    assert (Q : combine (map up T0) (map up T) = map (fun p => (up (fst p), up (snd p))) (combine T0 T)).
    { clear. revert T. induction T0 as [|a T0 IH]; intros [|c T]; cbn; try reflexivity. rewrite IH. reflexivity. }
    rewrite Q. apply mapi_map. intros i [a c]. cbn [fst snd]. rewrite face_r. destruct (memb _ _); [apply restore_r|reflexivity].
  Qed.
  Lemma erosion_crests P T0 T lo x0 e0 cl b T' b' : erosionBreach P T0 T lo x0 e0 cl b = Ok (T', b') -> Forall crests T -> Forall crests T'.
  Proof.
    intros H K. unfold erosionBreach in H. cbv zeta in H. apply bind_ok in H. destruct H as (b1 & _ & H). apply Ok_inj in H. pose proof (f_equal fst H) as Q. cbn [fst] in Q. rewrite <- Q. unfold mapi.
    apply (Forall_mapi (fun p => crests (snd p))); [|apply Forall_combine_r; exact K]. intros i [a c] L. cbn [fst snd] in *. destruct (memb _ _); exact L.
  Qed.
  Lemma raiseAll_r ps T : raiseCrests ps (map up T) = thenDo (map up) (raiseCrests ps T).
  Proof.
    unfold raiseCrests. cbv zeta. assert (E : map2 raiseCrest ps (map up T) = map up (map2 raiseCrest ps T)) by (rewrite map2_out; apply map2_r; intros; apply raise_r).
    rewrite E, do_bind, (existsb_map up _ (fun t => fisnan (tZ0 t))) by (intros; apply nan_s). bx u. reflexivity.
  Qed.
  Lemma raise_crests ps T T' : raiseCrests ps T = Ok T' -> Forall crests T -> Forall crests T'.
  Proof.
    intros H K. unfold raiseCrests in H. cbv zeta in H. apply bind_ok in H. destruct H as (u & _ & H). apply Ok_inj in H. rewrite <- H. apply (Forall_map2 crests); [|exact K].
    intros [] t [A B]; [|split; assumption]. split; [|exact B]. cbn [raiseCrest setZ0 tZ0]. unfold fmaximum. cases; assumption.
  Qed.
  Lemma mask_r : forall T W W', Forall crests T -> WR W W' -> map2 (fun t w => tZ0 t <? w) (map up T) W' = map2 (fun t w => tZ0 t <? w) T W.
  Proof.
    intros T W W' K H. revert T K. induction H as [|w w' W W' Hw _ IH]; intros [|t T] K; cbn; try reflexivity. inversion K as [|? ? [[A B] _] D]; subst. rewrite (IH T D). f_equal.
    destruct Hw as [->|[-> ->]]; [apply ltb_ss|]. rewrite A, B. reflexivity.
  Qed.
  Lemma where_in {A} (p : A -> bool) l i : In i (where_ p l) -> exists x, nth_error l i = Some x /\ p x = true.
  Proof. apply where_spec. Qed.
  Lemma map2_nth {A B C} (f : A -> B -> C) : forall l m i c, nth_error (map2 f l m) i = Some c -> exists a b, nth_error l i = Some a /\ nth_error m i = Some b /\ c = f a b.
  Proof.
    induction l as [|a l IH]; intros [|b m] [|i] c E; cbn in E; try discriminate; [injection E as <-; exists a, b; repeat split|]. apply IH in E. exact E.
  Qed.
  Lemma gather_rel W W' : forall idx, (forall i, In i idx -> nth_error W' i = option_map sh (nth_error W i)) -> gather W' idx = thenDo (map sh) (gather W idx).
  Proof.
    induction idx as [|i idx IH]; intros H; [reflexivity|]. cbn [gather]. unfold ix. rewrite (H i) by (left; reflexivity). destruct (nth_error W i); cbn [option_map bind]; [|reflexivity].
    rewrite IH by (intros; apply H; right; assumption). destruct (gather W idx); reflexivity.
  Qed.
  Lemma spill_r P T x0 cl cc W W' b : Forall crests T -> WR W W' -> spillBreach (uP P) (map up T) x0 cl cc W' b = spillBreach P T x0 cl cc W b.
  Proof.
    intros K H. unfold spillBreach. destruct b; [reflexivity|]. rewrite (mask_r T W W' K H). cbv zeta.
    assert (G : forall i, In i (where_ (fun b => b) (map2 (fun t w => tZ0 t <? w) T W)) -> nth_error W' i = option_map sh (nth_error W i)).
    { intros i L. apply where_in in L. destruct L as (x & E & ->). apply map2_nth in E. destruct E as (t & w & Et & Ew & E). destruct (Forall2_nth _ _ _ H i w Ew) as (w' & E' & R).
      rewrite E', Ew. destruct R as [->|[-> ->]]; [reflexivity|]. exfalso. rewrite Forall_forall in K. destruct (K t (nth_error_In _ _ Et)) as [[A _] _]. rewrite A in E. discriminate E. }
    destruct (where_ _ _) as [|i0 sp]; [reflexivity|]. rewrite (map_inv up _ (lagoonOpen P)) by reflexivity.
    match goal with |- context [concat ?a] => set (poss := concat a) end.
    assert (L : forall i, In i poss -> nth_error W' i = option_map sh (nth_error W i)).
    { intros i L. apply G. unfold poss in L. apply in_concat in L. destruct L as (l & L1 & L2). apply in_map_iff in L1. destruct L1 as (j & <- & L1).
      apply in_app_or in L2. destruct L2 as [L2|L2]; [destruct (connected cc j)|destruct (reachable _ x0 j)]; first [destruct L2 as [->|[]]; exact L1|destruct L2]. }
    clearbody poss. destruct poss as [|p0 ps]; [reflexivity|]. rewrite gather_map, bind_do. bx ts. rewrite (gather_rel W W' _ L), bind_do. bx ws.
    rewrite (map2_l sh _ (fun w t => sh w - tZ0 t)) by reflexivity. rewrite (map2_r up _ (fun w t => w - tZ0 t)) by (intros; apply sub_ss). reflexivity.
  Qed.
  Lemma create_r P T e0 e1 W Z cc b : createBreach (uP P) (map up T) e0 e1 W (sh Z) cc b = thenDo up5z (createBreach P T e0 e1 W Z cc b).
  Proof.
    unfold createBreach. destruct b as [bi|]; [|reflexivity]. rewrite ix_map, bind_do, do_bind. bx t. rewrite map_length. destruct (inConnected _ _ _); [reflexivity|].
    cbv zeta. unfold breachElev. pc. rewrite pymin_r. change (breachWidth (uP P) W) with (breachWidth P W). rewrite breach_r, upd_map. reflexivity.
  Qed.
  Lemma tail_r P j1 j2 T0 T ps x0 e0 e1 W Z out cl WL WL' : Forall (calm sh) T -> WR WL WL' ->
    morBreach (uP P) j1 j2 (map up T0) (map up T) ps x0 e0 e1 W (sh Z) out cl WL' = thenDo up6z (morBreach P j1 j2 T0 T ps x0 e0 e1 W Z out cl WL).
  Proof.
    intros Hc Hw. unfold morBreach. cbv zeta. rewrite (map_inv up _ (lagoonOpen P)) by reflexivity.
    destruct (dissolve_r j1 T Hc) as (E & K1). rewrite E. set (T1 := dissolveStep j1 T) in *. clearbody T1.
    pose proof (connect_r P T1 ps (map (lagoonOpen P) T0) x0 e0 cl out WL WL' Hw) as C. destruct (connect P T1 _ _ _ _ _ _ WL) as [[[cc V] e0']|e]; [|rewrite C; reflexivity].
    destruct C as (V' & -> & Hv). cbn [bind]. rewrite fillStep_r, bind_do, do_bind. apply bind_ext_ok. intros r Er. destruct r as [[T2 ps'] b]. cbn [fst snd]. pose proof (fill_crests _ _ _ _ _ _ _ _ _ _ Er K1) as K2.
    rewrite erosion_r, bind_do, do_bind. apply bind_ext_ok. intros r Er3. destruct r as [T3 b3]. cbn [fst snd]. pose proof (erosion_crests _ _ _ _ _ _ _ _ _ _ Er3 K2) as K3.
    rewrite raiseAll_r, bind_do, do_bind. apply bind_ext_ok. intros T4 Er4. pose proof (raise_crests _ _ _ Er4 K3) as K4. rewrite (spill_r P T4 x0 cl cc V V' b3 K4 Hv), do_bind. bx b5.
    rewrite create_r, bind_do, do_bind. bx r. destruct r as [[[[T6 qa] qb] qc] qd]. cbn [up5z]. rewrite (upd_with_map up T6 x0 _ (keepLagoon P)) by (intros; apply keep_r).
    rewrite (forallb_map up rowOk rowOk) by reflexivity. rewrite do_bind. bx u. reflexivity.
  Qed.
  Lemma update_r fuel j1 j2 P N TP T e0 e1 W Zd RE on out LW OD CW CD CF Cl LST B CST OW dt :
    (forall T1, corrected fuel P N TP T e0 e1 W Zd RE on out LW OD CW CD CF Cl LST B CST OW dt = Ok T1 -> Forall (calm sh) T1) ->
    updateMorphology fuel j1 j2 (uP P) N TP (map up T) e0 e1 W (sh Zd) (map sh RE) on out (map sh LW) OD CW CD CF Cl LST B CST OW dt =
    thenDo (raisedUpdate sh) (updateMorphology fuel j1 j2 P N TP T e0 e1 W Zd RE on out LW OD CW CD CF Cl LST B CST OW dt).
  Proof.
    intros H. unfold updateMorphology. unfold corrected in H. pose proof (apply_r fuel P N TP T e0 e1 W Zd RE on out LW OD CW CD CF Cl LST B CST OW dt) as A.
    destruct (morApply fuel P N TP T e0 e1 W Zd RE on out LW OD CW CD CF Cl LST B CST OW dt) as [a|e]; [|rewrite A; reflexivity]. destruct A as (WL' & R & ->). cbn [bind] in *.
    destruct a as [aT1 ae aw az ar ad aWL1 ax]. unfold upA. cbn [aT aE1 aW aZ aRiver aDt aWL aX0] in *.
    rewrite correct_r, bind_do, do_bind. apply bind_ext_ok. intros r Er. destruct r as [[[[T1 ps] e0'] e1'] o']. cbn [up5]. rewrite Er in H. cbn [bind fst] in H.
    rewrite (tail_r _ _ _ _ _ _ _ _ _ _ _ _ _ _ _ (H _ eq_refl) R), bind_do, do_bind. bx r.
    destruct r as [[[[[T2 a2] b2] c2] d2] br]. reflexivity.
  Qed.

  (** ** One pass and many *)
  Lemma overtop_r P r sl T : overtopping (uP P) r (sh sl) (map up T) = overtopping P r sl T.
  Proof.
    unfold overtopping. cbv zeta. rewrite (map_inv up _ (cstTransect P r sl)) by (intros; apply cst_r). rewrite (map_inv up _ (overwashTransect P)) by (intros; apply overwash_r). reflexivity.
  Qed.
  Lemma bed_r P Psi B h V : calcBedload B h V (uP P) Psi = calcBedload B h V P Psi.
  Proof.
    unfold calcBedload. assert (E : nodeBedloads (uP P) B h V = nodeBedloads P B h V); [|rewrite E; reflexivity].
    revert h V. induction B as [|b B IH]; intros [|x h] [|v V]; try reflexivity. cbn [nodeBedloads]. rewrite IH. reflexivity.
  Qed.
  Lemma step_r fuel o v s : seepOK sh (nTheta (vN v)) -> (forall T1, correctedPass fuel o v s = Ok T1 -> Forall (calm sh) T1) ->
    step fuel o (raisedSetup sh dn v) (raisedRun sh s) = thenDo (raisedRun sh) (step fuel o v s).
  Proof.
    intros K H. unfold step. cbv zeta. destruct s as [T e0 e1 W Z Ri rd rv lw lv od ov ed ev cl tm dt oT1 tT outs ts]. unfold correctedPass in H. cbv zeta in H.
    cbn [raisedRun raisedSetup gT gE0 gE1 gW gZ gRiver gRDep gRVel gLWL gLVel gODep gOVel gEDep gEVel gClosed gTime gDt gOutT gTsT gOuts gTs vP vN vTP vFlow vSea vWaves vOutInt vTsInt] in *.
    rewrite (assemble_u sh dn sub_ss ltb_ss nan_s), bind_do, do_bind. apply bind_ext_ok. intros c Ec. rewrite Ec in H. cbn [bind] in H. rewrite do_bind. apply bind_ext_ok. intros flow Ef. rewrite Ef in H. cbn [bind] in H.
    rewrite (interpolate_u sh sub_ss add_r nan_s sh_nan), bind_do, do_bind. apply bind_ext_ok. intros sea Es. rewrite Es in H. cbn [bind] in H.
    change (mkEnv (uP (vP v)) (vN v) (vTP v) (vFlow v) (map (fun p => (fst p, sh (snd p))) (vSea v)) (vWaves v) (vOutInt v) (vTsInt v)) with (raisedSetup sh dn v).
    rewrite (hydraulics_u sh dn sub_ss add_s add_r sub_s) by exact K. rewrite do_bind. apply bind_ext_ok. intros hyd Eh. rewrite Eh in H. destruct hyd as [dep vel]. cbn [bind] in H.
    cbn [raisedChannel chDx chElev chWidth chLagArea chLagLen chDep chVel chOnline chOutlet chFlag chClosed].
    rewrite (map_inv up tZ3 (fun t => sh (tZ3 t))), <- (map_map tZ3 sh) by reflexivity.
    rewrite (store_u sh add_s), bind_do, do_bind. apply bind_ext_ok. intros st Est. rewrite Est in H. destruct st as [[[[[lwl lvel] odep] ovel] edep] evel]. cbn [bind upH] in *.
    rewrite bed_r, map_length.
    rewrite do_bind. bx u. do 5 (rewrite do_bind; apply bind_ext_ok; let x := fresh "w" in let e := fresh "Ew" in intros x e; rewrite e in H; cbn [bind] in H).
    rewrite last_map, bind_do, do_bind. apply bind_ext_ok. intros seaN EsN. rewrite EsN in H. cbn [bind] in H. rewrite do_bind. bx flowN.
    change (pBeachSlope (uP (vP v))) with (pBeachSlope (vP v)).
    rewrite overtop_r, do_bind. apply bind_ext_ok. intros ot Eot. rewrite Eot in H. destruct ot as [cst ow]. cbn [bind] in H. rewrite (map_inv up tY0 tY0) by reflexivity.
    match goal with |- context [longShoreTransport ?a ?b ?c ?d ?e ?f (uP ?P)] => change (longShoreTransport a b c d e f (uP P)) with (longShoreTransport a b c d e f P) end.
    rewrite update_r by exact H. rewrite bind_do, do_bind. bx m. destruct m as [mT me0 me1 mW mZ mR md mb].
    cbn [raisedUpdate oT oE0 oE1 oW oZ oRiver oDt oBreach]. rewrite do_bind. bx rdep. rewrite do_bind. bx rvel. rewrite map_length.
    set (now := (tm + clampDt (tEnd (vTP v)) tm md)%Z).
    match goal with |- bind ?a _ = thenDo _ (bind ?b _) => assert (E : a = thenDo (fun r => (map (raisedRecord sh) (fst r), snd r)) b) end.
    { destruct (oT1 <=? now)%Z; [|reflexivity]. rewrite do_bind. bx sb. destruct sb as [[lb ob] eb]. rewrite do_bind. bx rb. cbn [thenDo fst snd]. rewrite map_app. reflexivity. }
    rewrite E, bind_do, do_bind. clear E. bx r. destruct r as [outs' outT']. cbn [fst snd].
    match goal with |- bind ?a _ = thenDo _ (bind ?b _) => assert (E : a = thenDo (fun r => (map (raisedTs sh) (fst r), snd r)) b) end.
    { destruct (tT <=? now)%Z; [|reflexivity]. rewrite do_bind. bx x1. rewrite do_bind. bx x2. rewrite do_bind. bx x3. rewrite do_bind. bx x4. cbn [thenDo fst snd]. rewrite map_app, mean_s. reflexivity. }
    rewrite E, bind_do, do_bind. bx r. destruct r as [ts' tsT']. reflexivity.
  Qed.
  Lemma steps_r af o v : seepOK sh (nTheta (vN v)) -> forall n k s,
    (forall m s1 T1, (m < n)%nat -> steps af m k o v s = Ok s1 -> correctedPass af (o (k + m)%nat) v s1 = Ok T1 -> Forall (calm sh) T1) ->
    steps af n k o (raisedSetup sh dn v) (raisedRun sh s) = thenDo (raisedRun sh) (steps af n k o v s).
  Proof.
    intros K. induction n as [|n IH]; intros k s H; cbn [steps]; [reflexivity|].
    rewrite step_r; [|exact K|intros T1 E; apply (H 0%nat s T1); [lia|reflexivity|rewrite Nat.add_0_r; exact E]]. rewrite bind_do, do_bind. apply bind_ext_ok. intros s' Es. apply IH.
    intros m s1 T1 Hm E1 E2. apply (H (S m) s1 T1); [lia|cbn [steps]; rewrite Es; exact E1|rewrite Nat.add_succ_r; exact E2].
  Qed.
  Lemma init_r v T e0 e1 W Z0 Ri RWL RV LWL LVel OD OV ED EV cl :
    init (raisedSetup sh dn v) (map up T) e0 e1 W (sh Z0) (map sh Ri) (map sh RWL) RV (map sh LWL) LVel OD OV ED EV cl =
    thenDo (raisedRun sh) (init v T e0 e1 W Z0 Ri RWL RV LWL LVel OD OV ED EV cl).
  Proof.
    unfold init. cbv zeta. cbn [raisedSetup vP vN vTP vFlow vSea vWaves vOutInt vTsInt]. rewrite do_bind. bx flow. rewrite (at_u sh sub_ss add_r nan_s sh_nan), bind_do, do_bind. bx sea.
    assert (E : map2 fsub (map sh RWL) (map sh Ri) = map2 fsub RWL Ri).
    { rewrite (map2_l sh _ (fun a b => sh a - b)) by reflexivity. apply map2_r. intros; apply sub_ss. }
    rewrite E, (assemble_u sh dn sub_ss ltb_ss nan_s), bind_do, do_bind. bx c. cbn [raisedChannel chDx chElev chWidth chLagArea chLagLen chDep chVel chOnline chOutlet chFlag chClosed].
    rewrite (map_inv up tZ3 (fun t => sh (tZ3 t))), <- (map_map tZ3 sh) by reflexivity.
    match goal with |- bind ?a _ = thenDo _ (bind ?b _) => assert (E1 : a = thenDo (fun r => (fst r, upH sh (snd r))) b) end.
    { destruct (forallb _ _); [|reflexivity]. rewrite (solveSteady_u sh sub_ss add_s add_r sub_s). change (pRoughness (uP (vP v))) with (pRoughness (vP v)). rewrite do_bind. bx r. destruct r as [dep vel].
      rewrite (store_u sh add_s), bind_do, do_bind. bx h. reflexivity. }
    rewrite E1, bind_do, do_bind. clear E1. bx r. destruct r as [[dep vel] [[[[[a b] d] e] f] g]]. cbn [fst snd upH]. rewrite do_bind. bx rd. rewrite do_bind. bx rv. reflexivity.
  Qed.
End Raise.
