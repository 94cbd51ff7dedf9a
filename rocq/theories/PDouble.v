(** Zeros and NaN in binary64 arithmetic, and the river bed. *)
From Coq Require Import ZArith List Bool Lia Floats SpecFloat.
From Verif Require Import Base Num Flt MState MCoast MRiv MMor MOut MCore SRun SDouble PCore.
Import ListNotations.

(** ** Zeros *)
Definition zs (s : spec_float) : Prop := (exists b, s = S754_zero b) \/ s = S754_nan.
Definition zf (x : float) : Prop := zs (Prim2SF x).
Definition notNeg (s : spec_float) : Prop := match s with S754_finite true _ _ | S754_infinity true => False | _ => True end.

Lemma isnan_spec x : PrimFloat.is_nan x = match Prim2SF x with S754_nan => true | _ => false end.
Proof.
  unfold PrimFloat.is_nan. rewrite FloatAxioms.eqb_spec. destruct (Prim2SF x) as [b|b| |b m e]; try (destruct b; reflexivity); [reflexivity|].
  unfold SFeqb, SFcompare. destruct b; rewrite Z.compare_refl, Pos.compare_cont_refl; reflexivity.
Qed.
Lemma zf0 : zf 0. Proof. left. exists false. vm_compute. reflexivity. Qed.
Lemma zf_mul x y : zf x -> zf (x * y)%float.
Proof. unfold zf. rewrite FloatAxioms.mul_spec. intros [[b ->]| ->]; destruct (Prim2SF y); cbn; unfold zs; eauto. Qed.
Lemma zf_mul_r x y : zf y -> zf (x * y)%float.
Proof. unfold zf. rewrite FloatAxioms.mul_spec. intros [[b ->]| ->]; destruct (Prim2SF x); cbn; unfold zs; eauto. Qed.
Lemma zf_div x y : zf x -> zf (x / y)%float.
Proof. unfold zf. rewrite FloatAxioms.div_spec. intros [[b ->]| ->]; destruct (Prim2SF y); cbn; unfold zs; eauto. Qed.
Lemma zf_add x y : zf x -> zf y -> zf (x + y)%float.
Proof. unfold zf. rewrite FloatAxioms.add_spec. intros [[b ->]| ->] [[c ->]| ->]; cbn; unfold zs; eauto. destruct (Bool.eqb b c); eauto. Qed.
Lemma zf_sub x y : zf x -> zf y -> zf (x - y)%float.
Proof. unfold zf. rewrite FloatAxioms.sub_spec. intros [[b ->]| ->] [[c ->]| ->]; cbn; unfold zs; eauto. destruct (Bool.eqb b (negb c)); eauto. Qed.
Lemma zf_opp x : zf x -> zf (- x)%float.
Proof. unfold zf. rewrite FloatAxioms.opp_spec. intros [[b ->]| ->]; cbn; unfold zs; eauto. Qed.
(** Adding a zero: the same, up to the sign of zero, or NaN. *)
Lemma zf_plus x z : zf z -> sameDouble (x + z)%float x \/ PrimFloat.is_nan (x + z) = true.
Proof.
  intros [[b Hz]|Hz].
  - left. destruct (Prim2SF x) as [c|c| |c m e] eqn:E.
    + right. rewrite !FloatAxioms.eqb_spec, FloatAxioms.add_spec, E, Hz. cbn. destruct (Bool.eqb c b); split; reflexivity.
    + left. apply Prim2SF_inj. rewrite FloatAxioms.add_spec, E, Hz. reflexivity.
    + left. apply Prim2SF_inj. rewrite FloatAxioms.add_spec, E, Hz. reflexivity.
    + left. apply Prim2SF_inj. rewrite FloatAxioms.add_spec, E, Hz. reflexivity.
  - right. rewrite isnan_spec, FloatAxioms.add_spec, Hz. destruct (Prim2SF x); reflexivity.
Qed.
Lemma same_trans x y z : sameDouble x y -> sameDouble y z -> sameDouble x z.
Proof. intros [-> |[A B]] [<- |[C D]]; unfold sameDouble; auto. Qed.

(** ** Limits *)
Lemma notNeg_ltb x : PrimFloat.ltb x 0 = false <-> notNeg (Prim2SF x).
Proof. rewrite FloatAxioms.ltb_spec. change (Prim2SF 0) with (S754_zero false). destruct (Prim2SF x) as [b|b| |b m e]; cbn; try (destruct b); cbn; split; intros; auto; try discriminate; contradiction. Qed.
Definition plusSign (s : spec_float) : Prop := match s with S754_zero b | S754_infinity b | S754_finite b _ _ => b = false | S754_nan => True end.
Lemma round_plus m e l : plusSign (binary_round_aux prec emax false m e l).
Proof.
  unfold binary_round_aux. destruct (shr_fexp _ _ _ _ _) as [a b]. destruct (shr_fexp _ _ _ _ _) as [c d]. destruct (shr_m c); cbn; auto. destruct (_ <=? _)%Z; cbn; auto.
Qed.
Lemma plus_notNeg s : plusSign s -> notNeg s. Proof. destruct s as [b|b| |b m e]; cbn; try (intros ->); auto. Qed.
Lemma natural_plus s : (0 <= s)%Z -> plusSign (Prim2SF (zfloat s)).
Proof.
  intros H. assert (A : forall n, plusSign (Prim2SF (PrimFloat.of_uint63 n))).
  { intros n. rewrite FloatAxioms.of_uint63_spec. pose proof (Uint63.to_Z_bounded n) as B. unfold binary_normalize. destruct (Uint63.to_Z n) as [|q|q]; [reflexivity| |lia].
    unfold binary_round. destruct (shl_align _ _ _) as [mz ez]. apply round_plus. }
  destruct s; cbn [zfloat]; try apply A. lia.
Qed.
Lemma limit_notNeg cap s : PrimFloat.ltb cap 0 = false -> (0 <= s)%Z -> notNeg (Prim2SF (cap / zfloat s)).
Proof.
  intros Hc Hs. apply notNeg_ltb in Hc. apply natural_plus in Hs. rewrite FloatAxioms.div_spec.
  destruct (Prim2SF (zfloat s)) as [b|b| |b m e]; cbn [plusSign] in Hs; try subst b; destruct (Prim2SF cap) as [c|c| |c m' e']; try (destruct c); cbn in Hc; try contradiction; try exact I.
  unfold SF64div, SFdiv. destruct (SFdiv_core_binary _ _ _ _ _ _) as [[mz ez] lz]. apply plus_notNeg, round_plus.
Qed.

(** ** The update *)
Section Bed.
  Context (NF : Num float) (B : binary64 NF).
  Local Existing Instance NF.
  Lemma b_add x y : (x + y)%n = PrimFloat.add x y. Proof. destruct B as (-> & _). reflexivity. Qed.
  Lemma b_sub x y : (x - y)%n = PrimFloat.sub x y. Proof. destruct B as (_ & -> & _). reflexivity. Qed.
  Lemma b_mul x y : (x * y)%n = PrimFloat.mul x y. Proof. destruct B as (_ & _ & -> & _). reflexivity. Qed.
  Lemma b_div x y : (x / y)%n = PrimFloat.div x y. Proof. destruct B as (_ & _ & _ & -> & _). reflexivity. Qed.
  Lemma b_opp x : (- x)%n = PrimFloat.opp x. Proof. destruct B as (_ & _ & _ & _ & -> & _). reflexivity. Qed.
  Lemma b_lt x y : (x <? y)%n = PrimFloat.ltb x y. Proof. destruct B as (_ & _ & _ & _ & _ & -> & _). reflexivity. Qed.
  Lemma b_nan x : fisnan x = PrimFloat.is_nan x. Proof. destruct B as (_ & _ & _ & _ & _ & _ & -> & _). reflexivity. Qed.
  Lemma b_ofZ z : fofZ z = zfloat z. Proof. destruct B as (_ & _ & _ & _ & _ & _ & _ & ->). reflexivity. Qed.
  Lemma q0 : zf f0. Proof. unfold f0. rewrite b_ofZ. exact zf0. Qed.
  Lemma qmax x : zf x -> zf (fmaximum x f0). Proof. intros H. unfold fmaximum. destruct (fisnan x); [exact H|]. destruct (fisnan f0); [exact q0|]. destruct (_ <? _)%n; [exact q0|exact H]. Qed.
  Lemma qmin x : zf x -> zf (fminimum x f0). Proof. intros H. unfold fminimum. destruct (fisnan x); [exact H|]. destruct (fisnan f0); [exact q0|]. destruct (_ <? _)%n; [exact q0|exact H]. Qed.
  Lemma zf_isnan x : PrimFloat.is_nan x = true -> zf x.
  Proof. rewrite isnan_spec. intros H. right. destruct (Prim2SF x); try discriminate. reflexivity. Qed.
  Lemma qclip l x : notNeg (Prim2SF l) -> zf x -> zf (clipF l x).
  Proof.
    intros Hl Hx. unfold clipF. assert (A : zf (fmaximum x (- l)%n)).
    { unfold fmaximum. rewrite b_opp, !b_nan, b_lt. destruct (PrimFloat.is_nan x); [exact Hx|]. destruct (PrimFloat.is_nan (- l)) eqn:E; [apply zf_isnan, E|].
      assert (L : PrimFloat.ltb x (- l) = false); [|rewrite L; exact Hx]. rewrite FloatAxioms.ltb_spec, FloatAxioms.opp_spec. destruct Hx as [[b ->]| ->]; destruct (Prim2SF l) as [c|c| |c m e]; try (destruct c); cbn in *; try contradiction; reflexivity. }
    revert A. generalize (fmaximum x (- l)%n). intros y Hy. unfold fminimum. rewrite !b_nan, b_lt. destruct (PrimFloat.is_nan y); [exact Hy|]. destruct (PrimFloat.is_nan l) eqn:E; [apply zf_isnan, E|].
    assert (L : PrimFloat.ltb l y = false); [|rewrite L; exact Hy]. rewrite FloatAxioms.ltb_spec. destruct Hy as [[b ->]| ->]; destruct (Prim2SF l) as [c|c| |c m e]; try (destruct c); cbn in *; try contradiction; reflexivity.
  Qed.

  Lemma d_removelast {A} (Q : A -> Prop) l : Forall Q l -> Forall Q (removelast l).
  Proof. induction 1 as [|x l Hx Hl IH]; cbn [removelast]; [constructor|]. destruct l; constructor; auto. Qed.
  Lemma d_tl {A} (Q : A -> Prop) l : Forall Q l -> Forall Q (tl l). Proof. destruct 1; cbn; auto. Qed.
  Lemma d_map2 {A X C} (f : A -> X -> C) (Q : A -> Prop) (R : X -> Prop) (S : C -> Prop) : (forall a b, Q a -> R b -> S (f a b)) -> forall l m, Forall Q l -> Forall R m -> Forall S (map2 f l m).
  Proof. intros H l m Hl. revert m. induction Hl as [|a l Ha Hl IH]; intros m Hm; destruct Hm; cbn [map2]; constructor; auto. Qed.

  Lemma d_node P W h V : zf (pMPM_coef P) -> zf (bedloadNode P W h V).
  Proof.
    intros H. unfold bedloadNode. cbv zeta.
    match goal with |- zf (if _ then ?q * _ else _)%n => assert (Z : zf q) by (rewrite b_div, !b_mul; apply zf_div, zf_mul, zf_mul, zf_mul, H) end.
    destruct (_ <? _)%n; [rewrite b_mul; apply zf_mul|]; exact Z.
  Qed.
  Lemma d_bedload W h V P psi : zf (pMPM_coef P) -> Forall zf (calcBedload W h V P psi).
  Proof.
    intros H. assert (A : Forall zf (nodeBedloads P W h V)) by (revert h V; induction W as [|b W IH]; intros [|x h] [|u V]; cbn [nodeBedloads]; constructor; [apply d_node, H|apply IH]).
    unfold calcBedload. cbv zeta. apply (d_map2 _ zf zf); [|apply d_removelast, A|apply d_tl, A]. intros a b Ha Hb. rewrite b_add, !b_mul. apply zf_add; apply zf_mul_r; assumption.
  Qed.
  Lemma d_vol cl b : Forall zf b -> Forall zf (dVolRate cl b).
  Proof.
    intros H. unfold dVolRate. destruct cl; apply (d_map2 _ zf zf); try (intros x y Hx Hy; rewrite b_sub; apply zf_sub; assumption).
    - exact H.
    - apply Forall_app. split; [apply d_tl, H|]. constructor; [exact q0|constructor].
    - apply d_removelast, H.
    - apply d_tl, H.
  Qed.
  Lemma d_zip P dv : Forall zf dv -> forall w d fl, Forall (fun p => zf (xDep (snd p)) /\ zf (xEro (snd p))) (zipXs P dv w d fl).
  Proof.
    induction 1 as [|a dv Ha Hd IH]; intros [|b w] [|c d] [|k fl]; cbn [zipXs]; constructor; [|apply IH]. cbn [snd]. unfold xsRate. cbv zeta. cbn [xDep xEro]. split; [apply qmax, Ha|rewrite b_opp; apply zf_opp, qmin, Ha].
  Qed.
  Lemma d_rates P Dx T e0 e1 W Ze on out cw cd fl rbq LST b CST OW R : changeRates P Dx T e0 e1 W Ze on out cw cd fl rbq LST b CST OW = Ok R -> Forall zf b -> Forall zf (rRiv R).
  Proof.
    intros H Hb. unfold changeRates in H. cbv zeta in H. destruct (negb _) in H; [discriminate|]. bok H g1. bok H g2. bok H sp. bok H mv. destruct mv as [[wd ag] mo].
    match type of H with context [mkRates ?r _ _ _ _] => assert (Z : Forall zf r) end.
    { apply Forall_map. unfold xsSel. apply Forall_map. apply Forall_forall. intros p Hp. apply filter_In in Hp as [Hp _]. unfold channelXs in Hp.
      pose proof (fun cl => d_zip P _ (d_vol cl b Hb)) as Z. match type of Hp with In _ (zipXs _ (dVolRate ?cl _) _ _ _) => specialize (Z cl) end. match type of Hp with In _ (zipXs _ _ ?w ?d ?f) => specialize (Z w d f) end.
      rewrite Forall_forall in Z. destruct (Z p Hp) as [X Y]. rewrite b_div, b_sub. apply zf_div, zf_sub; assumption. }
    repeat match type of H with bind _ _ = _ => let z := fresh "z" in bok H z end. apply Ok_inj in H. rewrite <- H. exact Z.
  Qed.
  Lemma d_limit N TP rate dt R R' : (nMaxMorChange N <? f0)%n = false -> limitRates N TP rate dt R = Ok R' -> Forall zf (rRiv R) -> Forall zf (rRiv R').
  Proof.
    intros HN H HR. unfold limitRates in H. destruct (_ <? _)%n in H; [|apply Ok_inj in H; rewrite <- H; exact HR].
    bok H u. destruct (seconds dt =? 0)%Z; [discriminate|]. apply Ok_inj in H. rewrite <- H. unfold clipRates. cbn [rRiv]. apply Forall_map. eapply Forall_impl; [|exact HR]. intros x Hx.
    apply qclip; [|exact Hx]. rewrite b_div, b_ofZ. rewrite b_lt in HN. unfold f0 in HN. rewrite b_ofZ in HN. apply limit_notNeg; [exact HN|]. unfold seconds. apply Z.mod_pos_bound. lia.
  Qed.
  Definition stays (new old : float) : Prop := sameDouble new old \/ PrimFloat.is_nan new = true.
  Lemma d_river s RE riv RE' : Forall zf riv -> applyRiver s RE riv = Ok RE' -> Forall2 stays RE' RE.
  Proof.
    intros Hr H. unfold applyRiver in H. destruct RE as [|z zs0].
    - destruct (Nat.eqb _ _); [|discriminate]. apply Ok_inj in H. rewrite <- H. constructor.
    - destruct (Nat.eqb _ _) eqn:E; [|discriminate]. apply Nat.eqb_eq in E. apply Ok_inj in H. rewrite <- H. constructor; [left; left; reflexivity|]. clear H. revert zs0 E. induction Hr as [|x riv Hx Hr IH]; intros [|y zs0] E; cbn [map2]; try discriminate; constructor; [|apply IH; cbn in E; lia].
      rewrite b_add, b_mul. apply zf_plus, zf_mul, Hx.
  Qed.
  Lemma d_update fuel j1 j2 P N TP T e0 e1 W Ze RE on out lwl od cw cd fl cl LST b CST OW dt m : (nMaxMorChange N <? f0)%n = false -> Forall zf b ->
    updateMorphology fuel j1 j2 P N TP T e0 e1 W Ze RE on out lwl od cw cd fl cl LST b CST OW dt = Ok m -> Forall2 stays (oRiver m) RE.
  Proof.
    intros HN Hb H. unfold updateMorphology in H. bok H a. bok H p1. destruct p1 as [[[[T1 pr] e0'] e1'] out']. bok H p2. destruct p2 as [[[[[T2 e0''] e1''] W'] Z'] br].
    apply Ok_inj in H. rewrite <- H. cbn [oRiver]. clear H Ep1 Ep2. unfold morApply in Ea. cbv zeta in Ea. bok Ea x0. bok Ea rbq. bok Ea WL. bok Ea u1. bok Ea R1. bok Ea rate. bok Ea dt'. bok Ea R2. bok Ea river.
    apply d_rates in ER1; [|exact Hb]. apply d_limit in ER2; [|exact HN|exact ER1]. apply d_river in Eriver; [|exact ER2]. destruct cl; apply Ok_inj in Ea; rewrite <- Ea; exact Eriver.
  Qed.
  Lemma d_step af o v s s' : zf (pMPM_coef (vP v)) -> (nMaxMorChange (vN v) <? f0)%n = false -> step af o v s = Ok s' -> Forall2 stays (gRiver s') (gRiver s).
  Proof.
    intros HP HN. unfold step. cbv zeta. intros H. bok H c. bok H flow. bok H sea. bok H hyd. destruct hyd as [dep vel].
    bok H st. destruct st as [[[[[lwl lvel] odep] ovel] edep] evel]. bok H u. bok H dir. bok H pow. bok H per. bok H len. bok H hs.
    bok H seaN. bok H flowN. bok H ot. destruct ot as [cst ow]. bok H m. bok H rdep. bok H rvel. bok H outs. destruct outs as [outs outT].
    bok H ts. destruct ts as [ts tsT]. apply Ok_inj in H. rewrite <- H. cbn [gRiver].
    eapply d_update; [exact HN| |exact Em]. apply d_bedload, HP.
  Qed.
  Lemma d_numbers v s c : assembled v s = Ok c -> Forall (fun z => PrimFloat.is_nan z = false) (gRiver s).
  Proof.
    unfold assembled, assembleChannel. cbv zeta. intros H. bok H x0. bok H op. destruct op as [[outl ow] closed]. bok H t0. bok H u1. bok H u2. bok H lp. destruct lp as [[[[onl sa] sl] ea] el]. bok H u3. bok H lc. destruct lc as [[[onl' ea'] el'] closed'].
    bok H i0. bok H il. bok H u4. bok H lts. bok H u5. bok H cs. destruct cs as [[[dx flag] elev] width].
    assert (X : exists r, elev = gRiver s ++ r).
    { unfold chanShape in Ecs. cbv zeta in Ecs. clear H. repeat match type of Ecs with bind _ _ = _ => let z := fresh "z" in bok Ecs z | (if ?b then _ else _) = _ => destruct b end; apply Ok_inj in Ecs; inversion Ecs; subst; rewrite <- ?app_assoc; eexists; reflexivity. }
    destruct X as [r ->]. bok H hy. destruct hy as [dep vel]. bok H dep0. bok H vel0. bok H u6. bok H u7.
    bok H z. apply assert_ok in Ez. apply negb_true_iff in Ez. rewrite existsb_app in Ez. apply orb_false_elim in Ez as [Ez _].
    apply Forall_forall. intros q Hq. destruct (PrimFloat.is_nan q) eqn:Q; [|reflexivity]. assert (N : existsb fisnan (gRiver s) = true) by (apply existsb_exists; exists q; rewrite b_nan; auto). rewrite N in Ez. discriminate.
  Qed.
  Lemma stays_all l l' : Forall2 stays l' l -> Forall (fun z => PrimFloat.is_nan z = false) l' -> Forall2 sameDouble l' l.
  Proof. induction 1 as [|x y l' l H HH IH]; intros N; [constructor|]. inversion N; subst. constructor; [|auto]. destruct H as [H|H]; [exact H|congruence]. Qed.
  Lemma same_all l1 l2 l3 : Forall2 sameDouble l1 l2 -> Forall2 sameDouble l2 l3 -> Forall2 sameDouble l1 l3.
  Proof. intros H. revert l3. induction H; intros l3 K; inversion K; subst; constructor; [eapply same_trans; eauto|auto]. Qed.
  Lemma same_refl l : Forall2 sameDouble l l. Proof. induction l; constructor; [left; reflexivity|assumption]. Qed.
  Lemma d_run af v : zf (pMPM_coef (vP v)) -> (nMaxMorChange (vN v) <? f0)%n = false ->
    forall n k o s s' c, steps af n k o v s = Ok s' -> assembled v s' = Ok c -> Forall2 sameDouble (gRiver s') (gRiver s).
  Proof.
    intros HP HN. induction n as [|n IH]; intros k o s s' c H A; cbn [steps] in H; [apply Ok_inj in H; rewrite H; apply same_refl|].
    bok H s1. apply (same_all _ _ _ (IH _ _ _ _ _ H A)). apply stays_all; [eapply d_step; eauto|].
    assert (X : exists c1, assembled v s1 = Ok c1). { destruct n; cbn [steps] in H; [apply Ok_inj in H; rewrite H; eauto|]. bok H s2. apply step_inv in Es2 as (c1 & m & P). exists c1. apply (p_asm _ _ _ _ _ _ _ P). }
    destruct X as [c1 X]. exact (d_numbers _ _ _ X).
  Qed.
End Bed.

Lemma double_run NF : binary64 NF -> forall af (v : env float), PrimFloat.eqb (pMPM_coef (vP v)) 0 = true -> PrimFloat.ltb (nMaxMorChange (vN v)) 0 = false ->
  forall n k o s s' c, @steps float NF af n k o v s = Ok s' -> @assembled float NF v s' = Ok c -> Forall2 sameDouble (gRiver s') (gRiver s).
Proof.
  intros B af v H1 H2. apply (d_run NF B).
  - rewrite FloatAxioms.eqb_spec in H1. left. change (Prim2SF 0) with (S754_zero false) in H1. destruct (Prim2SF (pMPM_coef (vP v))) as [b|b| |b m e]; cbn in H1; try (destruct b; discriminate); [|discriminate]. exists b. reflexivity.
  - rewrite (b_lt NF B). unfold f0. rewrite (b_ofZ NF B). exact H2.
Qed.
