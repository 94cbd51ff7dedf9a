(** Where no bedload moves, the river bed stays. *)
From Coq Require Import ZArith List Bool Lia.
From Verif Require Import Base Num Xr MState MCoast MRiv MMor MOut MCore SRun SRbed PCore.
Import ListNotations.
Local Open Scope R_scope.

Definition zn (x : xr) : Prop := x = Fin 0 \/ x = NaN.

Lemma sgn0 : sgn_inf 0 = NaN. Proof. unfold sgn_inf, Rltb. destruct (Rlt_dec 0 0); [lra|reflexivity]. Qed.
Lemma zn_mul x y : zn x -> zn (x * y)%n.
Proof. intros [-> | ->]; destruct y; cbn; unfold zn; rewrite ?Ropp_0, ?sgn0, ?Rmult_0_l; auto. Qed.
Lemma zn_mul_r x y : zn y -> zn (x * y)%n.
Proof. intros [-> | ->]; destruct x; cbn; unfold zn; rewrite ?Ropp_0, ?sgn0, ?Rmult_0_r; auto. Qed.
Lemma zn_div x y : zn x -> zn (x / y)%n.
Proof. intros [-> | ->]; destruct y; cbn; unfold zn; auto. destruct (Req_EM_T r 0); [rewrite sgn0; auto|]. left. f_equal. unfold Rdiv. apply Rmult_0_l. Qed.
Lemma zn_add x y : zn x -> zn y -> zn (x + y)%n.
Proof. intros [-> | ->] [-> | ->]; cbn; unfold zn; rewrite ?Rplus_0_l; auto. Qed.
Lemma zn_sub x y : zn x -> zn y -> zn (x - y)%n.
Proof. intros [-> | ->] [-> | ->]; cbn; unfold zn; rewrite ?Rminus_0_r; auto. Qed.
Lemma zn_opp x : zn x -> zn (- x)%n.
Proof. intros [-> | ->]; cbn; unfold zn; rewrite ?Ropp_0; auto. Qed.
Lemma lt00 : Rltb 0 0 = false. Proof. unfold Rltb. destruct (Rlt_dec 0 0); [lra|reflexivity]. Qed.
Lemma zn_max x : zn x -> zn (fmaximum x f0).
Proof. intros [-> | ->]; unfold fmaximum, f0; cbn; rewrite ?lt00; unfold zn; auto. Qed.
Lemma zn_min x : zn x -> zn (fminimum x f0).
Proof. intros [-> | ->]; unfold fminimum, f0; cbn; rewrite ?lt00; unfold zn; auto. Qed.
Lemma zn_clip l x : 0 <= l -> zn x -> zn (clipF (Fin l) x).
Proof.
  intros Hl [-> | ->]; unfold clipF, fmaximum, fminimum; cbn; unfold zn; auto. unfold Rltb.
  destruct (Rlt_dec 0 (- l)); [lra|]. cbn. destruct (Rlt_dec l 0); [lra|]. auto.
Qed.
Lemma z0_clip l : 0 <= l -> clipF (Fin l) (Fin 0) = Fin 0.
Proof. intros Hl. destruct (zn_clip l (Fin 0) Hl (or_introl eq_refl)) as [H|H]; [exact H|]. exfalso. revert H. unfold clipF, fmaximum, fminimum. cbn. destruct (Rltb 0 (- l)); cbn; [destruct (Rltb l (- l))|destruct (Rltb l 0)]; discriminate. Qed.

(** ** Without the coefficient no bedload *)
Lemma zn_node P B h V : pMPM_coef P = Fin 0 -> zn (bedloadNode P B h V).
Proof.
  intros H. unfold bedloadNode. cbv zeta. rewrite H.
  match goal with |- zn (if _ then ?q * _ else _)%n => assert (Z : zn q) by (apply zn_div, zn_mul, zn_mul, zn_mul; left; reflexivity) end.
  destruct (_ <? _)%n; [apply zn_mul|]; exact Z.
Qed.
Lemma zn_nodes P : pMPM_coef P = Fin 0 -> forall B h V, Forall zn (nodeBedloads P B h V).
Proof. intros H. induction B as [|b B IH]; intros [|x h] [|v V]; cbn [nodeBedloads]; constructor; [apply zn_node, H|apply IH]. Qed.
Lemma Forall_removelast {A} (Q : A -> Prop) l : Forall Q l -> Forall Q (removelast l).
Proof. induction 1 as [|x l Hx Hl IH]; cbn [removelast]; [constructor|]. destruct l; constructor; auto. Qed.
Lemma Forall_tl {A} (Q : A -> Prop) l : Forall Q l -> Forall Q (tl l).
Proof. destruct 1; cbn; auto. Qed.
Lemma Forall_map2 {A B C} (f : A -> B -> C) (Q : A -> Prop) (R : B -> Prop) (S : C -> Prop) : (forall a b, Q a -> R b -> S (f a b)) -> forall l m, Forall Q l -> Forall R m -> Forall S (map2 f l m).
Proof. intros H l m Hl. revert m. induction Hl as [|a l Ha Hl IH]; intros m Hm; destruct Hm; cbn [map2]; constructor; auto. Qed.
Lemma zn_bedload B h V P psi : pMPM_coef P = Fin 0 -> Forall zn (calcBedload B h V P psi).
Proof.
  intros H. unfold calcBedload. cbv zeta. apply (Forall_map2 _ zn zn); [|apply Forall_removelast, zn_nodes, H|apply Forall_tl, zn_nodes, H].
  intros a b Ha Hb. apply zn_add; apply zn_mul_r; assumption.
Qed.

(** ** Without bedload no change of the bed *)
Section Gen.
  (** [Q]: zero, or zero or NaN. *)
  Context (Q : xr -> Prop) (Q0 : Q (Fin 0)) (Qs : forall x y, Q x -> Q y -> Q (x - y)%n) (Qm : forall x, Q x -> Q (fmaximum x f0)) (Qe : forall x, Q x -> Q (- fminimum x f0)%n)
    (Qc : forall l x, 0 <= l -> Q x -> Q (clipF (Fin l) x)).
  Lemma q_vol cl b : Forall Q b -> Forall Q (dVolRate cl b).
  Proof.
    intros H. unfold dVolRate. destruct cl; apply (Forall_map2 _ Q Q); auto.
    - apply Forall_app. split; [apply Forall_tl, H|]. constructor; [exact Q0|constructor].
    - apply Forall_removelast, H.
    - apply Forall_tl, H.
  Qed.
  Lemma q_zip P dv : Forall Q dv -> forall w d fl, Forall (fun p => Q (xDep (snd p)) /\ Q (xEro (snd p))) (zipXs P dv w d fl).
  Proof.
    induction 1 as [|a dv Ha Hd IH]; intros [|b w] [|c d] [|k fl]; cbn [zipXs]; constructor; [|apply IH]. cbn [snd]. unfold xsRate. cbv zeta. cbn [xDep xEro]. split; [apply Qm, Ha|apply Qe, Ha].
  Qed.
  Context (P : phys xr) (Dx : xr) (Qd : forall x, Q x -> Q (x / (pRiverWidth P * Dx))%n).
  Lemma q_riv cl b cw cd fl : Forall Q b -> Forall Q (map (fun x => (xDep x - xEro x) / (pRiverWidth P * Dx))%n (xsSel 0 (channelXs P cl b cw cd fl))).
  Proof.
    intros H. apply Forall_map. unfold xsSel. apply Forall_map. apply Forall_forall. intros p Hp. apply filter_In in Hp as [Hp _].
    pose proof (q_zip P _ (q_vol cl b H) (midOf cl cw) (midOf cl cd) (midOf cl fl)) as Z. rewrite Forall_forall in Z. destruct (Z p Hp) as [A B]. apply Qd, Qs; assumption.
  Qed.
  Lemma q_changeRates T e0 e1 W Ze on out cw cd fl rbq LST b CST OW R : changeRates P Dx T e0 e1 W Ze on out cw cd fl rbq LST b CST OW = Ok R -> Forall Q b -> Forall Q (rRiv R).
  Proof.
    intros H Hb. unfold changeRates in H. cbv zeta in H. destruct (negb _) in H; [discriminate|]. bok H g1. bok H g2. bok H sp. bok H mv. destruct mv as [[wd ag] mo].
    match type of H with context [mkRates ?r _ _ _ _] => assert (Z : Forall Q r) by (apply q_riv, Hb) end.
    repeat match type of H with bind _ _ = _ => let z := fresh "z" in bok H z end. apply Ok_inj in H. rewrite <- H. exact Z.
  Qed.
  Lemma q_limit N TP cap rate dt R R' : nMaxMorChange N = Fin cap -> 0 <= cap -> limitRates N TP rate dt R = Ok R' -> Forall Q (rRiv R) -> Forall Q (rRiv R').
  Proof.
    intros HN Hc H HR. unfold limitRates in H. destruct (_ <? _)%n in H; [|apply Ok_inj in H; rewrite <- H; exact HR].
    bok H u. destruct (seconds dt =? 0)%Z eqn:E; [discriminate|]. apply Z.eqb_neq in E. apply Ok_inj in H. rewrite <- H. unfold clipRates. cbn [rRiv]. apply Forall_map. eapply Forall_impl; [|exact HR]. intros x Hx.
    assert (S0 : (0 <= seconds dt)%Z) by (unfold seconds; apply Z.mod_pos_bound; lia). assert (S1 : 0 < IZR (seconds dt)) by (apply IZR_lt; lia).
    rewrite HN. change (Fin cap / fofZ (seconds dt))%n with (xdiv (Fin cap) (Fin (IZR (seconds dt)))). unfold xdiv. destruct (Req_EM_T _ _) as [Z|Z]; [lra|].
    apply Qc; [|exact Hx]. apply Rmult_le_pos; [exact Hc|]. apply Rlt_le, Rinv_0_lt_compat, S1.
  Qed.
  Lemma q_apply fuel N TP cap T e0 e1 W Ze RE on out lwl od cw cd fl cl LST b CST OW dt a : Dx = nDx N -> nMaxMorChange N = Fin cap -> 0 <= cap -> Forall Q b ->
    morApply fuel P N TP T e0 e1 W Ze RE on out lwl od cw cd fl cl LST b CST OW dt = Ok a ->
    exists riv s, Forall Q riv /\ applyRiver (fofZ s) RE riv = Ok (aRiver a).
  Proof.
    intros HD HN Hc Hb H. unfold morApply in H. cbv zeta in H. bok H x0. bok H rbq. bok H WL. bok H u1. bok H R1. bok H rate. bok H dt'. bok H R2. bok H river.
    rewrite <- HD in ER1. apply q_changeRates in ER1; [|exact Hb]. apply (q_limit _ _ cap) in ER2; [|exact HN|exact Hc|exact ER1].
    exists (rRiv R2), (seconds dt'). split; [exact ER2|]. destruct cl; apply Ok_inj in H; rewrite <- H; exact Eriver.
  Qed.
  Lemma q_update fuel j1 j2 N TP cap T e0 e1 W Ze RE on out lwl od cw cd fl cl LST b CST OW dt m : Dx = nDx N -> nMaxMorChange N = Fin cap -> 0 <= cap -> Forall Q b ->
    updateMorphology fuel j1 j2 P N TP T e0 e1 W Ze RE on out lwl od cw cd fl cl LST b CST OW dt = Ok m ->
    exists riv s, Forall Q riv /\ applyRiver (fofZ s) RE riv = Ok (oRiver m).
  Proof.
    intros HD HN Hc Hb H. unfold updateMorphology in H. bok H a. bok H p1. destruct p1 as [[[[T1 pr] e0'] e1'] out']. bok H p2. destruct p2 as [[[[[T2 e0''] e1''] W'] Z'] br].
    apply Ok_inj in H. rewrite <- H. cbn [oRiver]. exact (q_apply _ _ _ _ _ _ _ _ _ _ _ _ _ _ _ _ _ _ _ _ _ _ _ _ HD HN Hc Hb Ea).
  Qed.
End Gen.

Lemma apply_zero s RE : forall riv RE', Forall (eq (Fin 0)) riv -> applyRiver (fofZ s) RE riv = Ok RE' -> RE' = RE.
Proof.
  intros riv RE' Hr H. unfold applyRiver in H. destruct RE as [|z zs].
  - destruct (Nat.eqb _ _); [|discriminate]. apply Ok_inj in H. auto.
  - destruct (Nat.eqb _ _) eqn:E; [|discriminate]. apply Nat.eqb_eq in E. apply Ok_inj in H. rewrite <- H. f_equal. clear H. revert zs E. induction Hr as [|x riv Hx Hr IH]; intros [|y zs] E; cbn [map2]; try discriminate; [reflexivity|].
    f_equal; [|apply IH; cbn in E; lia]. rewrite <- Hx. destruct y; cbn; rewrite ?Rmult_0_l, ?Rplus_0_r; reflexivity.
Qed.
Lemma apply_zn s RE : forall riv RE', Forall zn riv -> applyRiver (fofZ s) RE riv = Ok RE' -> Forall2 keptOrLost RE' RE.
Proof.
  intros riv RE' Hr H. unfold applyRiver in H. destruct RE as [|z zs].
  - destruct (Nat.eqb _ _); [|discriminate]. apply Ok_inj in H. rewrite <- H. constructor.
  - destruct (Nat.eqb _ _) eqn:E; [|discriminate]. apply Nat.eqb_eq in E. apply Ok_inj in H. rewrite <- H. constructor; [left; reflexivity|]. clear H. revert zs E. induction Hr as [|x riv Hx Hr IH]; intros [|y zs] E; cbn [map2]; try discriminate; constructor; [|apply IH; cbn in E; lia].
    destruct Hx as [-> | ->]; unfold keptOrLost; destruct y; cbn; rewrite ?Rmult_0_l, ?Rplus_0_r; auto.
Qed.

Lemma bed_update fuel j1 j2 P N TP d cap T e0 e1 W Ze RE on out lwl od cw cd fl cl LST b CST OW dt m :
  (pRiverWidth P * nDx N)%n = Fin d -> d <> 0 -> nMaxMorChange N = Fin cap -> 0 <= cap -> Forall (fun q => q = Fin 0) b ->
  updateMorphology fuel j1 j2 P N TP T e0 e1 W Ze RE on out lwl od cw cd fl cl LST b CST OW dt = Ok m -> oRiver m = RE.
Proof.
  intros Hd Hd0 HN Hc Hb H.
  assert (K : exists riv s, Forall (eq (Fin 0)) riv /\ applyRiver (fofZ s) RE riv = Ok (oRiver m)).
  { eapply (q_update (eq (Fin 0))) with (Dx := nDx N); try reflexivity; try eassumption.
    - intros x y <- <-. cbn. f_equal. lra.
    - intros x <-. unfold fmaximum, f0. cbn. rewrite lt00. reflexivity.
    - intros x <-. unfold fminimum, f0. cbn. rewrite lt00. cbn. f_equal. lra.
    - intros l x Hl <-. symmetry. apply z0_clip, Hl.
    - intros x <-. rewrite Hd. cbn. destruct (Req_EM_T d 0); [contradiction|]. f_equal. unfold Rdiv. lra.
    - eapply Forall_impl; [|exact Hb]. intros x ->. reflexivity. }
  destruct K as (riv & s & A & B). exact (apply_zero _ _ _ _ A B).
Qed.
Lemma bed_update_lost fuel j1 j2 P N TP cap T e0 e1 W Ze RE on out lwl od cw cd fl cl LST b CST OW dt m :
  nMaxMorChange N = Fin cap -> 0 <= cap -> Forall zn b ->
  updateMorphology fuel j1 j2 P N TP T e0 e1 W Ze RE on out lwl od cw cd fl cl LST b CST OW dt = Ok m -> Forall2 keptOrLost (oRiver m) RE.
Proof.
  intros HN Hc Hb H.
  assert (K : exists riv s, Forall zn riv /\ applyRiver (fofZ s) RE riv = Ok (oRiver m)).
  { eapply (q_update zn) with (Dx := nDx N); try reflexivity; try eassumption.
    - left. reflexivity.
    - exact zn_sub.
    - exact zn_max.
    - intros x Hx. apply zn_opp, zn_min, Hx.
    - exact zn_clip.
    - intros x Hx. apply zn_div, Hx. }
  destruct K as (riv & s & A & B). exact (apply_zn _ _ _ _ A B).
Qed.

(** ** A pass *)
Lemma bed_step af o v s s' cap : pMPM_coef (vP v) = Fin 0 -> nMaxMorChange (vN v) = Fin cap -> 0 <= cap -> step af o v s = Ok s' -> Forall2 keptOrLost (gRiver s') (gRiver s).
Proof.
  intros HP HN Hc. unfold step. cbv zeta. intros H. bok H c. bok H flow. bok H sea. bok H hyd. destruct hyd as [dep vel].
  bok H st. destruct st as [[[[[lwl lvel] odep] ovel] edep] evel]. bok H u. bok H dir. bok H pow. bok H per. bok H len. bok H hs.
  bok H seaN. bok H flowN. bok H ot. destruct ot as [cst ow]. bok H m. bok H rdep. bok H rvel. bok H outs. destruct outs as [outs outT].
  bok H ts. destruct ts as [ts tsT]. apply Ok_inj in H. rewrite <- H. cbn [gRiver].
  eapply bed_update_lost; [exact HN|exact Hc| |exact Em]. apply zn_bedload, HP.
Qed.
Lemma bed_numbers v s c : assembled v s = Ok c -> Forall (fun z => z <> NaN) (gRiver s).
Proof.
  unfold assembled, assembleChannel. cbv zeta. intros H. bok H x0. bok H op. destruct op as [[outl ow] closed]. bok H t0. bok H u1. bok H u2. bok H lp. destruct lp as [[[[onl sa] sl] ea] el]. bok H u3. bok H lc. destruct lc as [[[onl' ea'] el'] closed'].
  bok H i0. bok H il. bok H u4. bok H lts. bok H u5. bok H cs. destruct cs as [[[dx flag] elev] width].
  assert (X : exists r, elev = gRiver s ++ r).
  { unfold chanShape in Ecs. cbv zeta in Ecs. clear H. repeat match type of Ecs with bind _ _ = _ => let z := fresh "z" in bok Ecs z | (if ?b then _ else _) = _ => destruct b end; apply Ok_inj in Ecs; inversion Ecs; subst; rewrite <- ?app_assoc; eexists; reflexivity. }
  destruct X as [r ->].
  bok H hy. destruct hy as [dep vel]. bok H dep0. bok H vel0. bok H u6. bok H u7.
  bok H z. apply assert_ok in Ez. apply negb_true_iff in Ez. rewrite existsb_app in Ez. apply orb_false_elim in Ez as [Ez _].
  apply Forall_forall. intros q Hq ->. assert (N : existsb fisnan (gRiver s) = true) by (apply existsb_exists; exists NaN; auto). rewrite N in Ez. discriminate.
Qed.
Lemma step_assembled af o v (s s' : state xr) : step af o v s = Ok s' -> exists c, assembled v s = Ok c.
Proof. intros H. apply step_inv in H as (c & m & P). exists c. apply (p_asm _ _ _ _ _ _ _ P). Qed.
Lemma kept_all l l' : Forall2 keptOrLost l' l -> Forall (fun z => z <> NaN) l' -> l' = l.
Proof. induction 1 as [|x y l' l H HH IH]; intros N; [reflexivity|]. inversion N; subst. f_equal; [|auto]. destruct H; [assumption|contradiction]. Qed.
Lemma bed_run af v cap : pMPM_coef (vP v) = Fin 0 -> nMaxMorChange (vN v) = Fin cap -> 0 <= cap ->
  forall n k o s s' c, steps af n k o v s = Ok s' -> assembled v s' = Ok c -> gRiver s' = gRiver s.
Proof.
  intros HP HN Hc. induction n as [|n IH]; intros k o s s' c H A; cbn [steps] in H; [apply Ok_inj in H; rewrite H; reflexivity|].
  bok H s1. rewrite (IH _ _ _ _ _ H A). apply kept_all; [eapply bed_step; eauto|].
  assert (X : exists c1, assembled v s1 = Ok c1). { destruct n; cbn [steps] in H; [apply Ok_inj in H; rewrite H; eauto|]. bok H s2. eapply step_assembled; eauto. }
  destruct X as [c1 X]. exact (bed_numbers _ _ _ X).
Qed.
