(** Moving the line the cross-shore positions are measured from moves the results and nothing else. *)
From Coq Require Import ZArith List Bool Lia.
From Verif Require Import Base Num MState MCoast MRiv MMor MOut MCore SShift.
Import ListNotations.

(** ** Lists and results *)
Lemma bind_do {A B C} (f : A -> B) (k : B -> res C) r : bind (thenDo f r) k = bind r (fun x => k (f x)).
Proof. destruct r; reflexivity. Qed.
Lemma do_bind {A B C} (f : B -> C) (k : A -> res B) r : thenDo f (bind r k) = bind r (fun x => thenDo f (k x)).
Proof. destruct r; reflexivity. Qed.
Lemma bind_ext {A B} (r : res A) (k k' : A -> res B) : (forall x, k x = k' x) -> bind r k = bind r k'.
Proof. intros H. destruct r; cbn; auto. Qed.
Lemma bind_ext_ok {A B} (r : res A) (k k' : A -> res B) : (forall x, r = Ok x -> k x = k' x) -> bind r k = bind r k'.
Proof. intros H. destruct r; cbn; auto. Qed.
Lemma do_id {A} (r : res A) : thenDo (fun x => x) r = r.
Proof. destruct r; reflexivity. Qed.

Section Lists.
  Context {A A' : Type} (g : A -> A').
  Lemma ix_map l i : ix (map g l) i = thenDo g (ix l i).
  Proof. unfold ix. rewrite nth_error_map. destruct (nth_error l i); reflexivity. Qed.
  Lemma pynth_map l z : pynth (map g l) z = thenDo g (pynth l z).
  Proof. unfold pynth. rewrite map_length. destruct (pyix _ _); [apply ix_map|reflexivity]. Qed.
  Lemma last_map l : last_ (map g l) = thenDo g (last_ l).
  Proof. unfold last_. rewrite <- map_rev, nth_error_map. destruct (nth_error (rev l) 0); reflexivity. Qed.
  Lemma gather_map l idx : gather (map g l) idx = thenDo (map g) (gather l idx).
  Proof.
    induction idx as [|i idx IH]; [reflexivity|]. cbn [gather]. rewrite ix_map, bind_do, do_bind. apply bind_ext. intros x.
    rewrite IH, bind_do, do_bind. apply bind_ext. intros y. reflexivity.
  Qed.
  Lemma upd_map l : forall i v, upd (map g l) i (g v) = map g (upd l i v).
  Proof. induction l as [|x l IH]; intros [|i] v; cbn; try reflexivity. rewrite IH. reflexivity. Qed.
  Lemma upd_with_map l i (h : A' -> A') (h' : A -> A) : (forall x, h (g x) = g (h' x)) -> upd_with (map g l) i h = map g (upd_with l i h').
  Proof. intros H. unfold upd_with. rewrite nth_error_map. destruct (nth_error l i); cbn; [rewrite H; apply upd_map|reflexivity]. Qed.
  Lemma mapi_map {B} k (h : nat -> A' -> B) (h' : nat -> A -> B) l : (forall i x, h i (g x) = h' i x) -> mapi_from k h (map g l) = mapi_from k h' l.
  Proof. intros H. revert k. induction l as [|x l IH]; intros k; cbn; [reflexivity|]. rewrite H, IH. reflexivity. Qed.
  Lemma mapi_out {B C} k (h : nat -> A -> B) (f : B -> C) l : map f (mapi_from k h l) = mapi_from k (fun i x => f (h i x)) l.
  Proof. revert k. induction l as [|x l IH]; intros k; cbn; [reflexivity|]. rewrite IH. reflexivity. Qed.
  Lemma map2_l {B C} (h : A' -> B -> C) (h' : A -> B -> C) l : (forall x y, h (g x) y = h' x y) -> forall m, map2 h (map g l) m = map2 h' l m.
  Proof. intros H. induction l as [|x l IH]; intros [|y m]; cbn; try reflexivity. rewrite H, IH. reflexivity. Qed.
  Lemma map2_r {B C} (h : B -> A' -> C) (h' : B -> A -> C) l : (forall x y, h y (g x) = h' y x) -> forall m, map2 h m (map g l) = map2 h' m l.
  Proof. intros H. induction l as [|x l IH]; intros [|y m]; cbn; try reflexivity. rewrite H, IH. reflexivity. Qed.
  Lemma map2_out {B C D} (h : B -> C -> D) {E} (f : D -> E) : forall l m, map f (map2 h l m) = map2 (fun x y => f (h x y)) l m.
  Proof. induction l as [|x l IH]; intros [|y m]; cbn; try reflexivity. rewrite IH. reflexivity. Qed.
  Lemma map2_ext {B C D} (h h' : B -> C -> D) : (forall x y, h x y = h' x y) -> forall l m, map2 h l m = map2 h' l m.
  Proof. intros H. induction l as [|x l IH]; intros [|y m]; cbn; try reflexivity. rewrite H, IH. reflexivity. Qed.
  Section Pred.
    Variables (p : A' -> bool) (p' : A -> bool).
    Hypothesis H : forall x, p (g x) = p' x.
    Lemma existsb_map l : existsb p (map g l) = existsb p' l.
    Proof. induction l as [|x l IH]; [reflexivity|]. cbn. rewrite H, IH. reflexivity. Qed.
    Lemma forallb_map l : forallb p (map g l) = forallb p' l.
    Proof. induction l as [|x l IH]; [reflexivity|]. cbn. rewrite H, IH. reflexivity. Qed.
    Lemma filter_map l : filter p (map g l) = map g (filter p' l).
    Proof. induction l as [|x l IH]; [reflexivity|]. cbn. rewrite H, IH. destruct (p' x); reflexivity. Qed.
    Lemma where_from_map l : forall k, where_from k p (map g l) = where_from k p' l.
    Proof. induction l as [|x l IH]; intros k; [reflexivity|]. cbn. rewrite H, IH. reflexivity. Qed.
    Lemma where_map l : where_ p (map g l) = where_ p' l.
    Proof. apply where_from_map. Qed.
    Lemma first_map l : first_where p (map g l) = first_where p' l.
    Proof. unfold first_where. rewrite where_map. reflexivity. Qed.
    Lemma lastw_map l : last_where p (map g l) = last_where p' l.
    Proof. unfold last_where. rewrite where_map. reflexivity. Qed.
  End Pred.
  Lemma map_inv {B} (h : A' -> B) (h' : A -> B) l : (forall x, h (g x) = h' x) -> map h (map g l) = map h' l.
  Proof. intros H. rewrite map_map. apply map_ext. exact H. Qed.
End Lists.

Section Shift.
  Context {F : Type} {NF : Num F}.
  Local Open Scope num_scope.
  Variable sh : F -> F.
  Hypothesis sub_ss : forall a b, sh a - sh b = a - b.
  Hypothesis add_s : forall a d, sh a + d = sh (a + d).
  Hypothesis sub_s : forall a d, sh a - d = sh (a - d).
  Hypothesis ltb_ss : forall a b, (sh a <? sh b) = (a <? b).
  Hypothesis leb_ss : forall a b, (sh a <=? sh b) = (a <=? b).
  Hypothesis nan_s : forall a, fisnan (sh a) = fisnan a.
  Hypothesis sh_nan : sh fnan = fnan.
  Hypothesis mid_s : forall a b, (sh a + sh b) / f2 = sh ((a + b) / f2).
  Notation mv := (movedT sh).

  Lemma pymin_s a b : pymin (sh a) (sh b) = sh (pymin a b).
  Proof. unfold pymin. rewrite ltb_ss. destruct (_ <? _); reflexivity. Qed.

  Ltac mcbn := unfold movedT; cbn [movedT tX tY0 tY1 tY2 tY3 tY4 tZ0 tZ1 tZ2 tZ3 setY0 setY1 setY2 setY3 setY4 setZ0 setZ1 setZ2 setZ3].
  Ltac srw := repeat first [rewrite sub_ss | rewrite ltb_ss | rewrite leb_ss | rewrite nan_s | rewrite mid_s | rewrite sub_s | rewrite add_s | rewrite pymin_s].
  Ltac cases := repeat match goal with |- context [if ?b then _ else _] => destruct b end.

  (** ** One transect: what is measured does not change *)
  Lemma lagoonWidth_s t : lagoonWidth (mv t) = lagoonWidth t. Proof. unfold lagoonWidth. mcbn. srw. reflexivity. Qed.
  Lemma outletWidth_s t : outletWidth (mv t) = outletWidth t. Proof. unfold outletWidth. mcbn. srw. reflexivity. Qed.
  Lemma outletPresent_s t : outletPresent (mv t) = outletPresent t. Proof. unfold outletPresent. mcbn. srw. reflexivity. Qed.
  Lemma lagoonPresent_s t : lagoonPresent (mv t) = lagoonPresent t. Proof. unfold lagoonPresent. mcbn. srw. reflexivity. Qed.
  Lemma lagoonOpen_s P t : lagoonOpen P (mv t) = lagoonOpen P t. Proof. unfold lagoonOpen. rewrite lagoonWidth_s. reflexivity. Qed.
  Lemma crestWidth_s t : crestWidth (mv t) = crestWidth t. Proof. unfold crestWidth. rewrite outletPresent_s. mcbn. srw. reflexivity. Qed.
  Lemma backBarHeight_s t : backBarHeight (mv t) = backBarHeight t. Proof. unfold backBarHeight. rewrite outletPresent_s. reflexivity. Qed.
  Lemma lagoonBankElev_s t : lagoonBankElev (mv t) = lagoonBankElev t. Proof. unfold lagoonBankElev. rewrite outletPresent_s. reflexivity. Qed.
  Lemma face_s P t : shorefaceHeight P (mv t) = shorefaceHeight P t. Proof. reflexivity. Qed.
  Lemma rateY0_s P Dx e1 sp lst w cst t : rateY0 P Dx e1 sp lst w cst (mv t) = rateY0 P Dx e1 sp lst w cst t. Proof. reflexivity. Qed.
  Lemma rateOf_s P Dx lag out y cst ow t : rateOf P Dx lag out y cst ow (mv t) = rateOf P Dx lag out y cst ow t.
  Proof. unfold rateOf. rewrite outletPresent_s, crestWidth_s, backBarHeight_s, lagoonBankElev_s, lagoonWidth_s. mcbn. srw. reflexivity. Qed.
  Lemma cst_s P r sl t : cstTransect P r sl (mv t) = cstTransect P r sl t. Proof. reflexivity. Qed.
  Lemma overwash_s P t : overwashTransect P (mv t) = overwashTransect P t.
  Proof. unfold overwashTransect. cbv zeta. rewrite outletPresent_s. mcbn. srw. reflexivity. Qed.
  Lemma merged_s t : merged (mv t) = merged t. Proof. unfold merged. mcbn. srw. reflexivity. Qed.
  Lemma atSea_s t : atSea (mv t) = atSea t. Proof. unfold atSea. mcbn. srw. reflexivity. Qed.
  Lemma lagoonIntersect_s j i t : lagoonIntersect j i (mv t) = lagoonIntersect j i t. Proof. unfold lagoonIntersect. mcbn. srw. reflexivity. Qed.
  Lemma shoreIntersect_s j i t : shoreIntersect j i (mv t) = shoreIntersect j i t. Proof. unfold shoreIntersect. mcbn. srw. reflexivity. Qed.
  Lemma wide_s P p t : wideEnough P p (mv t) = wideEnough P p t. Proof. unfold wideEnough. mcbn. srw. reflexivity. Qed.
  Lemma eroded_s t : eroded (mv t) = eroded t. Proof. unfold eroded. mcbn. srw. reflexivity. Qed.
  Lemma rowOk_s t : rowOk (mv t) = rowOk t. Proof. unfold rowOk. mcbn. srw. reflexivity. Qed.

  (** ** One transect: what is changed moves along *)
  Lemma applyRow_s d t r : applyRow d (mv t) r = mv (applyRow d t r). Proof. unfold applyRow. mcbn. srw. reflexivity. Qed.
  Lemma cliff_s P h t : cliffCollision P h (mv t) = mv (cliffCollision P h t).
  Proof. unfold cliffCollision. mcbn. srw. destruct (_ <=? _); [|reflexivity]. mcbn. srw. reflexivity. Qed.
  Lemma extend_s P W Z t : extendT P W Z (mv t) = mv (extendT P W Z t). Proof. unfold extendT. mcbn. srw. reflexivity. Qed.
  Lemma seaward_s t : seawardFirst (mv t) = mv (seawardFirst t).
  Proof. unfold seawardFirst. mcbn. srw. destruct (_ <=? _); [|reflexivity]. mcbn. srw. reflexivity. Qed.
  Lemma convert_s t : convertT (mv t) = mv (convertT t). Proof. unfold convertT. mcbn. rewrite sh_nan. reflexivity. Qed.
  Lemma lagoonLast_s P t : lagoonLast P (mv t) = mv (lagoonLast P t).
  Proof. unfold lagoonLast. mcbn. srw. destruct (_ <=? _); [|reflexivity]. cbv zeta. mcbn. srw. destruct (_ <? _); [|reflexivity]. mcbn. srw. reflexivity. Qed.
  Lemma dissolve_s t : dissolve (mv t) = mv (dissolve t). Proof. unfold dissolve. mcbn. srw. rewrite sh_nan. reflexivity. Qed.
  Lemma fill_s P t : fillT P (mv t) = mv (fillT P t). Proof. unfold fillT. mcbn. srw. rewrite sh_nan. reflexivity. Qed.
  Lemma restore_s h t : restoreT h (mv t) = mv (restoreT h t). Proof. unfold restoreT. mcbn. srw. reflexivity. Qed.
  Lemma raise_s p t : raiseCrest p (mv t) = mv (raiseCrest p t). Proof. unfold raiseCrest. destruct p; reflexivity. Qed.
  Lemma breach_s P W Z t : breachT P W Z (mv t) = mv (breachT P W Z t).
  Proof. unfold breachT. cbv zeta. mcbn. srw. cases; srw; reflexivity. Qed.
  Lemma keep_s P t : keepLagoon P (mv t) = mv (keepLagoon P t).
  Proof. unfold keepLagoon. mcbn. srw. destruct (_ <? _); [|reflexivity]. mcbn. srw. reflexivity. Qed.
  Lemma negWidth_s p b c t : negWidth p b c (mv t) = thenDo (fun r => (mv (fst r), snd r)) (negWidth p b c t).
  Proof.
    unfold negWidth. mcbn. srw. destruct (_ && _); [|reflexivity]. cbv zeta. mcbn. srw. rewrite do_bind. apply bind_ext. intros _. rewrite do_bind. apply bind_ext. intros _.
    cases; cbn [thenDo fst snd]; mcbn; srw; rewrite ?sh_nan; reflexivity.
  Qed.

  (** ** Steps of an update *)
  Ltac bx x := apply bind_ext; intros x.
  Lemma x0_s T : x0Ix (map mv T) = x0Ix T.
  Proof. unfold x0Ix. rewrite (first_map mv _ (fun t => tX t =? f0)) by reflexivity. reflexivity. Qed.
  Lemma rb_s T e1 : outletRb (map mv T) e1 = outletRb T e1.
  Proof. unfold outletRb. rewrite (first_map mv _ (fun t => e1 <? tX t)) by reflexivity. reflexivity. Qed.
  Lemma ixLR_s T a b : ixLR (map mv T) a b = ixLR T a b. Proof. unfold ixLR. apply where_map. reflexivity. Qed.
  Lemma ixRL_s T a b : ixRL (map mv T) a b = ixRL T a b. Proof. unfold ixRL. f_equal. apply where_map. reflexivity. Qed.
  Lemma outletIx_s T a b : outletIx (map mv T) a b = outletIx T a b. Proof. unfold outletIx. rewrite ixLR_s, ixRL_s. reflexivity. Qed.
  Lemma water_s T LW OD out cl : waterLevel (map mv T) LW OD out cl = waterLevel T LW OD out cl.
  Proof.
    unfold waterLevel. rewrite map_length. destruct (negb _); [reflexivity|]. cbv zeta.
    rewrite (map2_l mv _ (fun t w => if lagoonPresent t then w else fofQ (-99999) 10)) by (intros; rewrite lagoonPresent_s; reflexivity).
    f_equal. destruct cl; [reflexivity|]. bx d. rewrite gather_map, bind_do. bx ts. f_equal.
    rewrite (map2_r mv _ (fun a t => a + tZ1 t)) by reflexivity. reflexivity.
  Qed.
  Lemma rates_s P Dx T e0 e1 W Z on out CW CD CF rbq LST B CST OW :
    changeRates P Dx (map mv T) e0 e1 W Z on out CW CD CF rbq LST B CST OW = changeRates P Dx T e0 e1 W Z on out CW CD CF rbq LST B CST OW.
  Proof.
    unfold changeRates. rewrite map_length. cbv zeta. destruct (negb _); [reflexivity|]. rewrite gather_map, bind_do. bx u. rewrite gather_map, bind_do. bx u'. bx sp. bx q.
    destruct q as [[a b] c]. do 2 f_equal. unfold mapi. apply mapi_map. intros i t. rewrite rateOf_s. reflexivity.
  Qed.
  Definition mvA (a : applied F) : applied F := mkApp (map mv (aT a)) (aE1 a) (aW a) (aZ a) (aRiver a) (aDt a) (aWL a) (aX0 a).
  Lemma apply_s fuel P N TP T e0 e1 W Zd RE on out LW OD CW CD CF Cl LST B CST OW dt :
    morApply fuel P N TP (map mv T) e0 e1 W Zd RE on out LW OD CW CD CF Cl LST B CST OW dt =
    thenDo mvA (morApply fuel P N TP T e0 e1 W Zd RE on out LW OD CW CD CF Cl LST B CST OW dt).
  Proof.
    unfold morApply. cbv zeta. rewrite x0_s, do_bind. bx x0. rewrite rb_s, do_bind. bx rbq. rewrite water_s, do_bind. bx WL.
    rewrite (forallb_map mv _ (fun t => f0 <? crestWidth t)) by (intros; rewrite crestWidth_s; reflexivity). rewrite do_bind. bx u.
    rewrite rates_s, do_bind. bx R. rewrite do_bind. bx rate. rewrite do_bind. bx d. rewrite do_bind. bx R'. rewrite do_bind. bx river.
    assert (E : map2 (applyRow (fofZ (seconds d)))
       match rbq with Some (rb, q) => if f0 <? q then map mv T else upd_with (map mv T) (prevIx (length (map mv T)) rb) (fun t => setY0 (tY0 t + q / (shorefaceHeight P t * nDx N)) t) | None => map mv T end (rT R') =
      map mv (map2 (applyRow (fofZ (seconds d)))
       match rbq with Some (rb, q) => if f0 <? q then T else upd_with T (prevIx (length T) rb) (fun t => setY0 (tY0 t + q / (shorefaceHeight P t * nDx N)) t) | None => T end (rT R'))).
    { rewrite map2_out. destruct rbq as [[rb q]|].
      - destruct (f0 <? q); [|rewrite map_length, (upd_with_map mv T _ _ (fun t => setY0 (tY0 t + q / (shorefaceHeight P t * nDx N)) t)) by (intros; mcbn; srw; reflexivity)];
          apply map2_l; intros; apply applyRow_s.
      - apply map2_l; intros; apply applyRow_s. }
    rewrite E. destruct Cl; reflexivity.
  Qed.

  Lemma domain_s T e1 : domainCheck (map mv T) e1 = domainCheck T e1.
  Proof. unfold domainCheck. rewrite ix_map, bind_do. bx t1. rewrite pynth_map, bind_do. bx tn. reflexivity. Qed.
  Lemma negWidths_s : forall ps T0 T, negWidths ps (map mv T0) (map mv T) = thenDo (map (fun r => (mv (fst r), snd r))) (negWidths ps T0 T).
  Proof.
    induction ps as [|p ps IH]; intros [|t0 T0] [|t T]; try reflexivity. cbn [map negWidths]. rewrite backBarHeight_s, crestWidth_s, negWidth_s, bind_do, do_bind. bx r.
    rewrite IH, bind_do, do_bind. bx rs. reflexivity.
  Qed.
  Lemma negStep_s ps T0 T : negWidthStep ps (map mv T0) (map mv T) = thenDo (fun r => (map mv (fst r), snd r)) (negWidthStep ps T0 T).
  Proof.
    unfold negWidthStep. rewrite negWidths_s, bind_do, do_bind. bx r. cbn [thenDo fst snd].
    assert (E : map fst (map (fun r : tsect F * bool => (mv (fst r), snd r)) r) = map mv (map fst r)) by (rewrite !map_map; reflexivity).
    rewrite E, (existsb_map _ snd snd) by reflexivity. rewrite (map_inv mv outletPresent outletPresent) by apply outletPresent_s. reflexivity.
  Qed.
  Lemma extendStep_s P T e0 e1 W Z out : extendStep P (map mv T) e0 e1 W Z out = thenDo (fun r => (map mv (fst r), snd r)) (extendStep P T e0 e1 W Z out).
  Proof.
    unfold extendStep. rewrite do_bind. bx il. rewrite ix_map, bind_do, do_bind. bx tl_. cbv zeta. cbn [movedT tX].
    assert (G : forall m : tsect F -> bool, (forall t, m (mv t) = m t) ->
      (if existsb m (map mv T) then Ok (map (fun t => if m t then extendT P W Z t else t) (map mv T), outletIx (map (fun t => if m t then extendT P W Z t else t) (map mv T)) e0 e1) else Exc EIndex) =
      thenDo (fun r => (map mv (fst r), snd r)) (if existsb m T then Ok (map (fun t => if m t then extendT P W Z t else t) T, outletIx (map (fun t => if m t then extendT P W Z t else t) T) e0 e1) else Exc EIndex)).
    { intros m Hm. rewrite (existsb_map mv m m) by exact Hm. destruct (existsb m T); [|reflexivity]. cbn [thenDo fst snd].
      assert (E : map (fun t => if m t then extendT P W Z t else t) (map mv T) = map mv (map (fun t => if m t then extendT P W Z t else t) T)).
      { rewrite !map_map. apply map_ext. intros t. rewrite Hm. destruct (m t); [apply extend_s|reflexivity]. }
      rewrite E, outletIx_s. reflexivity. }
    destruct (e0 <? e1).
    - rewrite ix_map, bind_do, do_bind. bx nx. cbn [movedT tX]. destruct (_ <=? _); [|reflexivity]. apply G. reflexivity.
    - rewrite pynth_map, bind_do, do_bind. bx nx. cbn [movedT tX]. destruct (_ <=? _); [|reflexivity]. apply G. reflexivity.
  Qed.
  Lemma seawardStep_s T out : seawardFirstStep (map mv T) out = thenDo (map mv) (seawardFirstStep T out).
  Proof. unfold seawardFirstStep. rewrite do_bind. bx i. rewrite ix_map, bind_do, do_bind. bx t. cbn [thenDo]. rewrite seaward_s, upd_map. reflexivity. Qed.
  Lemma lagoonLastStep_s P T out : lagoonLastStep P (map mv T) out = thenDo (map mv) (lagoonLastStep P T out).
  Proof. unfold lagoonLastStep. rewrite do_bind. bx i. rewrite ix_map, bind_do, do_bind. bx t. cbn [thenDo]. rewrite lagoonLast_s, upd_map. reflexivity. Qed.
  Definition mv4 {A B C} (r : list (tsect F) * A * B * C) := let '(T, a, b, c) := r in (map mv T, a, b, c).
  Definition mv5 {A B C D} (r : list (tsect F) * A * B * C * D) := let '(T, a, b, c, d) := r in (map mv T, a, b, c, d).
  Definition mv6 {A B C D E} (r : list (tsect F) * A * B * C * D * E) := let '(T, a, b, c, d, e) := r in (map mv T, a, b, c, d, e).
  Lemma lagoonTrunc_s T ps e0 e1 out : lagoonTrunc (map mv T) ps e0 e1 out = thenDo mv4 (lagoonTrunc T ps e0 e1 out).
  Proof.
    unfold lagoonTrunc. destruct (Nat.ltb _ _); [|reflexivity]. rewrite gather_map, bind_do, do_bind. bx ts.
    rewrite (map_inv mv merged merged) by apply merged_s. destruct (filter2 _ _) as [|k l]; [reflexivity|].
    assert (E : (if e0 <? e1 then ix (map mv T) (S k) else pynth (map mv T) (Z.of_nat k - 1)) = thenDo mv (if e0 <? e1 then ix T (S k) else pynth T (Z.of_nat k - 1))).
    { destruct (e0 <? e1); [apply ix_map|apply pynth_map]. }
    rewrite E, bind_do, do_bind. bx nx. cbv zeta. cbn [movedT tX]. rewrite outletIx_s, do_bind. bx u. rewrite ix_map, bind_do, do_bind. bx tk.
    mcbn. srw. destruct (_ <=? _); [|reflexivity].
    rewrite (lastw_map mv lagoonPresent lagoonPresent), (first_map mv lagoonPresent lagoonPresent) by apply lagoonPresent_s.
    rewrite do_bind. bx ext. cbn [thenDo mv4]. unfold mapi. rewrite mapi_out.
    rewrite (mapi_map mv 0 _ (fun i t => mv (if memb i ext then convertT t else t))); [reflexivity|]. intros i t. destruct (memb i ext); [apply convert_s|reflexivity].
  Qed.
  Lemma seaTrunc_s Dx T e0 e1 out : seaTrunc Dx (map mv T) e0 e1 out = seaTrunc Dx T e0 e1 out.
  Proof.
    unfold seaTrunc. destruct (Nat.ltb _ _); [|reflexivity]. rewrite gather_map, bind_do. bx ts.
    assert (E : tl (map mv ts) = map mv (tl ts)) by (destruct ts; reflexivity). rewrite E, (existsb_map mv atSea atSea) by apply atSea_s.
    destruct (existsb _ _); [|reflexivity]. rewrite (map_inv mv atSea atSea) by apply atSea_s. destruct (e0 <? e1).
    - bx k. rewrite ix_map, bind_do. bx t. cbv zeta. cbn [movedT tX]. rewrite ixLR_s. reflexivity.
    - bx k. rewrite ix_map, bind_do. bx t. cbv zeta. cbn [movedT tX]. rewrite ixRL_s. reflexivity.
  Qed.
  Lemma correct_s P Dx T0 T e0 e1 W Z out cl : morCorrect P Dx (map mv T0) (map mv T) e0 e1 W Z out cl = thenDo mv5 (morCorrect P Dx T0 T e0 e1 W Z out cl).
  Proof.
    unfold morCorrect. rewrite domain_s, do_bind. bx e1'. cbv zeta.
    assert (E : map2 (fun t0 t => cliffCollision P (shorefaceHeight P t0) t) (map mv T0) (map mv T) = map mv (map2 (fun t0 t => cliffCollision P (shorefaceHeight P t0) t) T0 T)).
    { rewrite map2_out. rewrite (map2_l mv _ (fun t0 t => cliffCollision P (shorefaceHeight P t0) t)) by reflexivity. apply map2_r. intros; apply cliff_s. }
    rewrite E, (map_inv mv outletPresent outletPresent) by apply outletPresent_s. rewrite negStep_s, bind_do, do_bind. bx r. destruct r as [T1 ps]. cbn [fst snd].
    assert (E2 : (if cl then Ok (map mv T1, out) else extendStep P (map mv T1) e0 e1' W Z out) = thenDo (fun r => (map mv (fst r), snd r)) (if cl then Ok (T1, out) else extendStep P T1 e0 e1' W Z out)).
    { destruct cl; [reflexivity|apply extendStep_s]. }
    rewrite E2, bind_do, do_bind. bx r. destruct r as [T2 o2]. cbn [fst snd].
    assert (E3 : (if cl then Ok (map mv T2) else seawardFirstStep (map mv T2) o2) = thenDo (map mv) (if cl then Ok T2 else seawardFirstStep T2 o2)).
    { destruct cl; [reflexivity|apply seawardStep_s]. }
    rewrite E3, bind_do, do_bind. bx T3. rewrite lagoonTrunc_s, bind_do, do_bind. bx r. destruct r as [[[T4 ps4] e04] o4]. cbn [mv4].
    rewrite seaTrunc_s, do_bind. bx r. destruct r as [e15 o5].
    assert (E6 : (if cl then Ok (map mv T4) else lagoonLastStep P (map mv T4) o5) = thenDo (map mv) (if cl then Ok T4 else lagoonLastStep P T4 o5)).
    { destruct cl; [reflexivity|apply lagoonLastStep_s]. }
    rewrite E6, bind_do, do_bind. bx T6. reflexivity.
  Qed.

  Lemma connect_s P T ps lo x0 e0 cl out WL : connect P (map mv T) ps lo x0 e0 cl out WL = connect P T ps lo x0 e0 cl out WL.
  Proof.
    unfold connect. cbv zeta. rewrite (map2_r mv _ (wideEnough P)) by (intros; apply wide_s).
    rewrite (map_inv mv _ (fun t => fabs (tX t - e0))) by reflexivity. rewrite map_length. reflexivity.
  Qed.
  Lemma fillStep_s P j T ps e0 cl cc : shoreFill P j (map mv T) ps e0 cl cc = thenDo (fun r => (map mv (fst (fst r)), snd (fst r), snd r)) (shoreFill P j T ps e0 cl cc).
  Proof.
    assert (E0 : mapi (shoreIntersect j) (map mv T) = mapi (shoreIntersect j) T) by (unfold mapi; apply mapi_map; intros; apply shoreIntersect_s).
    unfold shoreFill. cbv zeta. rewrite E0. destruct (existsb _ _); [|reflexivity].
    match goal with |- bind ?a _ = thenDo _ (bind ?b _) => assert (E : a = b) end.
    { destruct (cl && _); [|reflexivity]. rewrite gather_map, bind_do. bx ts. rewrite (map_inv mv _ (fun t => fabs (tX t - e0))) by reflexivity. reflexivity. }
    rewrite E, do_bind. clear E. bx r. destruct r as [m b]. rewrite map_length. destruct (Nat.eqb (length m) (length T)); cbn [negb]; [|reflexivity]. cbn [thenDo fst snd].
    rewrite map2_out, (map2_r mv _ (fun (m : bool) t => mv (if m then fillT P t else t))); [reflexivity|]. intros t q. destruct q; [apply fill_s|reflexivity].
  Qed.
  Lemma erosion_s P T0 T lo x0 e0 cl b : erosionBreach P (map mv T0) (map mv T) lo x0 e0 cl b = thenDo (fun r => (map mv (fst r), snd r)) (erosionBreach P T0 T lo x0 e0 cl b).
  Proof.
    unfold erosionBreach. rewrite (where_map mv eroded eroded) by apply eroded_s. cbv zeta.
    match goal with |- bind ?a _ = thenDo _ (bind ?b _) => assert (E : a = b) end.
    { destruct b; [reflexivity|]. destruct (filter _ _); [reflexivity|]. rewrite gather_map, bind_do. bx ts.
      rewrite (map_inv mv _ (fun t => fabs (tX t))) by reflexivity. reflexivity. }
    rewrite E, do_bind. bx b'. cbn [thenDo fst snd]. f_equal. f_equal. unfold mapi. rewrite mapi_out.
    assert (Q : combine (map mv T0) (map mv T) = map (fun p => (mv (fst p), mv (snd p))) (combine T0 T)).
    { clear. revert T. induction T0 as [|a T0 IH]; intros [|c T]; cbn; try reflexivity. rewrite IH. reflexivity. }
    rewrite Q. apply mapi_map. intros i [a c]. cbn [fst snd]. destruct (memb _ _); [apply restore_s|reflexivity].
  Qed.
  Lemma raiseAll_s ps T : raiseCrests ps (map mv T) = thenDo (map mv) (raiseCrests ps T).
  Proof.
    unfold raiseCrests. cbv zeta. assert (E : map2 raiseCrest ps (map mv T) = map mv (map2 raiseCrest ps T)) by (rewrite map2_out; apply map2_r; intros; apply raise_s).
    rewrite E, do_bind, (existsb_map mv _ (fun t => fisnan (tZ0 t))) by reflexivity. bx u. reflexivity.
  Qed.
  Lemma spill_s P T x0 cl cc WL b : spillBreach P (map mv T) x0 cl cc WL b = spillBreach P T x0 cl cc WL b.
  Proof.
    unfold spillBreach. destruct b; [reflexivity|]. rewrite (map2_l mv _ (fun t w => tZ0 t <? w)) by reflexivity. cbv zeta. destruct (where_ _ _); [reflexivity|].
    rewrite (map_inv mv _ (lagoonOpen P)) by (intros; apply lagoonOpen_s). destruct (concat _); [reflexivity|]. rewrite gather_map, bind_do. bx ts. bx ws.
    rewrite (map2_r mv _ (fun w t => w - tZ0 t)) by reflexivity. reflexivity.
  Qed.
  Lemma create_s P T e0 e1 W Z cc b : createBreach P (map mv T) e0 e1 W Z cc b = thenDo mv5 (createBreach P T e0 e1 W Z cc b).
  Proof.
    unfold createBreach. destruct b as [bi|]; [|reflexivity]. rewrite ix_map, bind_do, do_bind. bx t. rewrite map_length. destruct (inConnected _ _ _); [reflexivity|].
    cbv zeta. rewrite breach_s, upd_map. reflexivity.
  Qed.
  Lemma tail_s P j1 j2 T0 T ps x0 e0 e1 W Z out cl WL : morBreach P j1 j2 (map mv T0) (map mv T) ps x0 e0 e1 W Z out cl WL = thenDo mv6 (morBreach P j1 j2 T0 T ps x0 e0 e1 W Z out cl WL).
  Proof.
    unfold morBreach. cbv zeta. rewrite (map_inv mv _ (lagoonOpen P)) by (intros; apply lagoonOpen_s).
    assert (E : dissolveStep j1 (map mv T) = map mv (dissolveStep j1 T)).
    { unfold dissolveStep, mapi. rewrite mapi_out. apply mapi_map. intros i t. rewrite lagoonIntersect_s. destruct (lagoonIntersect _ _ _); [apply dissolve_s|reflexivity]. }
    rewrite E. set (T1 := dissolveStep j1 T). rewrite connect_s, do_bind. bx r. destruct r as [[cc WL'] e0']. rewrite fillStep_s, bind_do, do_bind. bx r. destruct r as [[T2 ps'] b]. cbn [fst snd].
    rewrite erosion_s, bind_do, do_bind. bx r. destruct r as [T3 b3]. cbn [fst snd]. rewrite raiseAll_s, bind_do, do_bind. bx T4. rewrite spill_s, do_bind. bx b5.
    rewrite create_s, bind_do, do_bind. bx r. destruct r as [[[[T6 qa] qb] qc] qd]. cbn [mv5]. rewrite (upd_with_map mv T6 x0 _ (keepLagoon P)) by (intros; apply keep_s).
    rewrite (forallb_map mv rowOk rowOk) by apply rowOk_s. rewrite do_bind. bx u. reflexivity.
  Qed.
  Lemma update_s fuel j1 j2 P N TP T e0 e1 W Zd RE on out LW OD CW CD CF Cl LST B CST OW dt :
    updateMorphology fuel j1 j2 P N TP (map mv T) e0 e1 W Zd RE on out LW OD CW CD CF Cl LST B CST OW dt =
    thenDo (movedUpdate sh) (updateMorphology fuel j1 j2 P N TP T e0 e1 W Zd RE on out LW OD CW CD CF Cl LST B CST OW dt).
  Proof.
    unfold updateMorphology. rewrite apply_s, bind_do, do_bind. bx a. destruct a as [aT1 ae aw az ar ad aWL1 ax]. cbn [mvA aT aE1 aW aZ aRiver aDt aWL aX0].
    rewrite correct_s, bind_do, do_bind. bx r. destruct r as [[[[T1 ps] e0'] e1'] o']. cbn [mv5]. rewrite tail_s, bind_do, do_bind. bx r.
    destruct r as [[[[[T2 a2] b2] c2] d2] br]. reflexivity.
  Qed.

  (** ** The channel and one pass *)
  Lemma area_s Dx T : areaOf Dx (map mv T) = areaOf Dx T.
  Proof. unfold areaOf. rewrite (map_inv mv _ (fun t => lagoonWidth t * Dx)) by (intros; rewrite lagoonWidth_s; reflexivity). reflexivity. Qed.
  Lemma len_s Dx T : lenOf Dx (map mv T) = lenOf Dx T.
  Proof. unfold lenOf. rewrite (map_inv mv _ (fun t => fofb (f0 <? lagoonWidth t) * Dx)) by (intros; rewrite lagoonWidth_s; reflexivity). reflexivity. Qed.
  Lemma outletPart_s P T e0 e1 w cl : outletPart P (map mv T) e0 e1 w cl = outletPart P T e0 e1 w cl.
  Proof.
    unfold outletPart. destruct cl; [reflexivity|]. cbv zeta. rewrite outletIx_s, gather_map, bind_do. bx ts. rewrite (map_inv mv outletWidth outletWidth) by apply outletWidth_s. reflexivity.
  Qed.
  Lemma lagoonPart_s Dx T x0 e0 cl : lagoonPart Dx (map mv T) x0 e0 cl = lagoonPart Dx T x0 e0 cl.
  Proof.
    unfold lagoonPart. cbv zeta. rewrite !skipn_map, !firstn_map, !area_s, !len_s.
    rewrite (lastw_map mv (fun t => f0 <? lagoonWidth t) (fun t => f0 <? lagoonWidth t)) by (intros; rewrite lagoonWidth_s; reflexivity).
    rewrite (first_map mv (fun t => f0 <? lagoonWidth t) (fun t => f0 <? lagoonWidth t)) by (intros; rewrite lagoonWidth_s; reflexivity).
    rewrite (lastw_map mv (fun t => tX t <? e0) (fun t => tX t <? e0)) by reflexivity.
    rewrite (first_map mv (fun t => e0 <? tX t) (fun t => e0 <? tX t)) by reflexivity.
    rewrite (filter_map mv (fun t => e0 <? tX t) (fun t => e0 <? tX t)) by reflexivity.
    rewrite (filter_map mv (fun t => tX t <? e0) (fun t => tX t <? e0)) by reflexivity. rewrite !area_s, !len_s. reflexivity.
  Qed.
  Lemma lagoonCut_s P Dx T on ea el cl : lagoonCut P Dx (map mv T) on ea el cl = lagoonCut P Dx T on ea el cl.
  Proof.
    unfold lagoonCut. rewrite gather_map, bind_do. bx ts. rewrite (first_map mv (fun t => lagoonWidth t <? pMinOutletWidth P) (fun t => lagoonWidth t <? pMinOutletWidth P)) by (intros; rewrite lagoonWidth_s; reflexivity).
    destruct (first_where _ _) as [k|]; [|reflexivity]. rewrite skipn_map, area_s, len_s. reflexivity.
  Qed.
  Lemma chanShape_s P Dx T e0 e1 eW eE cl RE on out ow : chanShape P Dx (map mv T) e0 e1 eW eE cl RE on out ow = chanShape P Dx T e0 e1 eW eE cl RE on out ow.
  Proof.
    unfold chanShape. cbv zeta. rewrite gather_map, bind_do. bx lts. rewrite (map_inv mv tZ3 tZ3) by reflexivity. rewrite (map_inv mv lagoonWidth lagoonWidth) by apply lagoonWidth_s.
    destruct cl; [reflexivity|]. rewrite gather_map, bind_do. bx ots. rewrite (map_inv mv tZ1 tZ1) by reflexivity. reflexivity.
  Qed.
  Lemma chanHyd_s T cl a b c d e f g h on out : chanHyd (map mv T) cl a b c d e f g h on out = chanHyd T cl a b c d e f g h on out.
  Proof. unfold chanHyd. rewrite gather_map, bind_do. bx lts. rewrite (map_inv mv tZ3 tZ3) by reflexivity. reflexivity. Qed.
  Lemma assemble_s T e0 e1 eW eE cl RE a b c d e f g h Dx P :
    assembleChannel (map mv T) e0 e1 eW eE cl RE a b c d e f g h Dx P = assembleChannel T e0 e1 eW eE cl RE a b c d e f g h Dx P.
  Proof.
    unfold assembleChannel. cbv zeta. rewrite x0_s. bx x0. rewrite outletPart_s. bx r. destruct r as [[out ow] cl']. rewrite ix_map, bind_do. bx t0. rewrite lagoonWidth_s. bx u.
    rewrite (forallb_map mv _ (fun t => negb (fisnan (lagoonWidth t)))) by (intros; rewrite lagoonWidth_s; reflexivity). bx u1. rewrite lagoonPart_s. bx r. destruct r as [[[[on sa] sl] ea] el]. bx u2.
    rewrite lagoonCut_s. bx r. destruct r as [[[on' ea'] el'] cl'']. bx i0. bx il. bx u3. rewrite gather_map, bind_do. bx lts.
    rewrite (forallb_map mv _ (fun t => f0 <? lagoonWidth t)) by (intros; rewrite lagoonWidth_s; reflexivity). bx u4. rewrite chanShape_s. bx r. destruct r as [[[dx fl] el2] wd]. rewrite chanHyd_s. reflexivity.
  Qed.
  Lemma overtop_s P r sl T : overtopping P r sl (map mv T) = overtopping P r sl T.
  Proof.
    unfold overtopping. cbv zeta. rewrite (map_inv mv _ (cstTransect P r sl)) by reflexivity. rewrite (map_inv mv _ (overwashTransect P)) by (intros; apply overwash_s). reflexivity.
  Qed.
  Lemma lst_s T Dx a b c d P : longShoreTransport (map tY0 (map mv T)) Dx a b c d P = longShoreTransport (map tY0 T) Dx a b c d P.
  Proof.
    unfold longShoreTransport. induction T as [|t T IH]; [reflexivity|]. destruct T as [|t' T]; [reflexivity|]. cbn [map removelast tl map2] in *.
    f_equal; [|exact IH]. f_equal. unfold localEDir. mcbn. srw. reflexivity.
  Qed.
  Lemma step_s fuel o v s : step fuel o v (movedRun sh s) = thenDo (movedRun sh) (step fuel o v s).
  Proof.
    unfold step. cbv zeta. destruct s as [T e0 e1 W Z Ri rd rv lw lv od ov ed ev cl tm dt oT1 tT outs ts].
    cbn [movedRun gT gE0 gE1 gW gZ gRiver gRDep gRVel gLWL gLVel gODep gOVel gEDep gEVel gClosed gTime gDt gOutT gTsT gOuts gTs].
    rewrite assemble_s, do_bind. bx c. rewrite do_bind. bx flow. rewrite do_bind. bx sea. rewrite do_bind. bx hyd. destruct hyd as [dep vel].
    rewrite (map_inv mv tZ3 tZ3) by reflexivity. rewrite do_bind. bx st. destruct st as [[[[[lwl lvel] odep] ovel] edep] evel].
    rewrite do_bind. bx u. rewrite do_bind. bx dir. rewrite do_bind. bx pow. rewrite do_bind. bx per. rewrite do_bind. bx len. rewrite do_bind. bx hs. rewrite do_bind. bx seaN. rewrite do_bind. bx flowN.
    rewrite overtop_s, do_bind. bx ot. destruct ot as [cst ow]. rewrite lst_s, update_s, bind_do, do_bind. bx m. destruct m as [mT me0 me1 mW mZ mR md mb].
    cbn [movedUpdate oT oE0 oE1 oW oZ oRiver oDt oBreach]. rewrite do_bind. bx rdep. rewrite do_bind. bx rvel. rewrite map_length.
    set (now := (tm + clampDt (tEnd (vTP v)) tm md)%Z).
    match goal with |- bind ?a _ = thenDo _ (bind ?b _) => assert (E : a = thenDo (fun r => (map (movedRecord sh) (fst r), snd r)) b) end.
    { destruct (oT1 <=? now)%Z; [|reflexivity]. rewrite do_bind. bx sb. destruct sb as [[lb ob] eb]. rewrite do_bind. bx rb. cbn [thenDo fst snd]. rewrite map_app. reflexivity. }
    rewrite E, bind_do, do_bind. bx r. destruct r as [outs' outT']. cbn [fst snd]. rewrite do_bind. bx r. destruct r as [ts' tsT']. reflexivity.
  Qed.
  Lemma steps_s af o v : forall n k s, steps af n k o v (movedRun sh s) = thenDo (movedRun sh) (steps af n k o v s).
  Proof. induction n as [|n IH]; intros k s; cbn [steps]; [reflexivity|]. rewrite step_s, bind_do, do_bind. bx s'. apply IH. Qed.
  Lemma loop_s af o v : forall n k s, loop af n k o v (movedRun sh s) = thenDo (movedRun sh) (loop af n k o v s).
  Proof.
    induction n as [|n IH]; intros k s; cbn [loop]; change (gTime (movedRun sh s)) with (gTime s); destruct (_ <=? _)%Z; try reflexivity.
    rewrite step_s, bind_do, do_bind. bx s'. apply IH.
  Qed.
  Lemma init_s v T e0 e1 W Z0 Ri RWL RV LWL LVel OD OV ED EV cl :
    init v (map mv T) e0 e1 W Z0 Ri RWL RV LWL LVel OD OV ED EV cl = thenDo (movedRun sh) (init v T e0 e1 W Z0 Ri RWL RV LWL LVel OD OV ED EV cl).
  Proof.
    unfold init. cbv zeta. rewrite do_bind. bx flow. rewrite do_bind. bx sea. rewrite assemble_s, do_bind. bx c. rewrite (map_inv mv tZ3 tZ3) by reflexivity.
    rewrite do_bind. bx r. destruct r as [[dep vel] [[[[[a b] d] e] f] g]]. rewrite do_bind. bx rd. rewrite do_bind. bx rv. reflexivity.
  Qed.
End Shift.
