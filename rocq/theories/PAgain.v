(** Carrying on from a record. *)
From Coq Require Import ZArith List Bool Lia Reals Lra.
From Verif Require Import Base Num Xr MState MCoast MRiv MMor MOut MLoad SOut POut SChan PChan PFill PRound PCore PUpdate PMain PHot MCore SRun SWatch PWatch SAgain.
Import ListNotations.

Section Again.
  Context {F : Type} {NF : Num F}.
  Local Open Scope num_scope.

  (** The start time only matters to the start. *)
  Definition startT (t : Z) (TP : timep) : timep := mkTime t (tEnd TP) (tHydDt TP) (tMorDtMin TP) (tMorDtMax TP).
  Definition startAt (t : Z) (v : env F) : env F := mkEnv (vP v) (vN v) (startT t (vTP v)) (vFlow v) (vSea v) (vWaves v) (vOutInt v) (vTsInt v).
  Lemma step_start t fuel o v s : step fuel o (startAt t v) s = step fuel o v s.
  Proof. reflexivity. Qed.
  Lemma steps_start t af o v : forall n k s, steps af n k o (startAt t v) s = steps af n k o v s.
  Proof. induction n as [|n IH]; intros k s; [reflexivity|]. cbn [steps]. rewrite step_start. destruct (step af (o k) v s); cbn [bind]; auto. Qed.
  Lemma loop_start t af o v : forall n k s, loop af n k o (startAt t v) s = loop af n k o v s.
  Proof.
    induction n as [|n IH]; intros k s; [reflexivity|]. cbn [loop]. change (tEnd (vTP (startAt t v))) with (tEnd (vTP v)).
    destruct (Z.leb (gTime s) (tEnd (vTP v))); [|reflexivity]. rewrite step_start. destruct (step af (o k) v s); cbn [bind]; auto.
  Qed.

  Lemma f2_len {A B} (R : A -> B -> Prop) l m : Forall2 R l m -> length l = length m.
  Proof. induction 1; cbn [length]; congruence. Qed.
  Lemma some_lt {A} (l : list A) i x : nth_error l i = Some x -> (i < length l)%nat.
  Proof. intros E. apply nth_error_Some. congruence. Qed.
  Lemma map_keep (r32 : F -> F) l : Forall (fun x => r32 x = x) l -> map r32 l = l.
  Proof. induction 1 as [|x l E _ IH]; [reflexivity|]. cbn [map]. rewrite E, IH. reflexivity. Qed.

  Lemma fin_map2 (f : F -> F -> F) (g : F -> F -> F) : forall (riv dep wl : list F), Forall2 (fun z d => f (g z d) z = d) riv dep ->
    (forall i z d, nth_error riv i = Some z -> nth_error dep i = Some d -> nth_error wl i = Some (g z d)) -> map2 f wl riv = dep.
  Proof.
    intros riv dep wl H. revert wl. induction H as [|z d riv dep E _ IH]; intros wl N.
    - destruct wl; reflexivity.
    - destruct wl as [|x wl]; [discriminate (N O z d eq_refl eq_refl)|]. pose proof (N O z d eq_refl eq_refl) as Q. injection Q as ->.
      cbn [map2]. rewrite E, (IH wl); [reflexivity|]. intros i. exact (N (S i)).
  Qed.

  (** Selecting the river again. *)
  Lemma sel_false (m : list nat) : Forall (fun k => Nat.eqb 0 k = false) m -> forall l : list F, filter2 (map (Nat.eqb 0) m) l = [].
  Proof. induction 1 as [|k m E _ IH]; intros [|x l]; try reflexivity. cbn [map filter2]. rewrite E. apply IH. Qed.
  Lemma sel_river (riv : list F) : forall m (l : list F), Forall (fun k => Nat.eqb 0 k = false) m ->
    filter2 (map (Nat.eqb 0) (repeat 0%nat (length riv) ++ m)) (riv ++ l) = riv.
  Proof. induction riv as [|x riv IH]; intros m l N; [exact (sel_false m N l)|]. cbn [length repeat app map filter2 Nat.eqb]. rewrite IH by exact N. reflexivity. Qed.

  Lemma filled_pre (riv rest out : list F) : length out = length (riv ++ rest) ->
    (forall i x y, nth_error (riv ++ rest) i = Some x -> nth_error out i = Some y -> fisnan x = false -> y = x) ->
    Forall (fun x => fisnan x = false) riv -> exists rest', out = riv ++ rest'.
  Proof.
    intros L N H. revert out L N. induction H as [|x riv E _ IH]; intros out L N; [exists out; reflexivity|].
    destruct out as [|y out]; [discriminate|]. pose proof (N O x y eq_refl eq_refl E) as ->.
    destruct (IH out) as [r ->]; [cbn in L; lia|intros i; exact (N (S i))|]. exists r. reflexivity.
  Qed.

  Lemma river_kept v s c : assembled v s = Ok c -> length (gRDep s) = length (gRiver s) -> length (gRVel s) = length (gRiver s) ->
    length (gEDep s) = 2%nat -> length (gEVel s) = 2%nat ->
    Forall (fun x => fisnan x = false) (gRDep s) -> Forall (fun x => fisnan x = false) (gRVel s) ->
    selFlag (chFlag c) (Nat.eqb 0) (chDep c) = Ok (gRDep s) /\ selFlag (chFlag c) (Nat.eqb 0) (chVel c) = Ok (gRVel s).
  Proof.
    intros H LD LV LE LW ND NV. unfold assembled in H.
    destruct (raw_filled _ _ _ _ _ _ _ _ _ _ _ _ _ _ _ _ _ _ H) as (dep & vel & RD & RV & FD & FV); [congruence|congruence|].
    destruct (layout _ _ _ _ _ _ _ _ _ _ _ _ _ _ _ _ _ _ H) as (HF & _).
    destruct (layout_hyd _ _ _ _ _ _ _ _ _ _ _ _ _ _ _ _ _ _ H) as [L1 L2]; [split; [congruence|split; [congruence|intros _; lia]]|].
    assert (exists m, chFlag c = repeat 0%nat (length (gRiver s)) ++ m /\ Forall (fun k => Nat.eqb 0 k = false) m) as (m & EM & NM).
    { rewrite HF. unfold flags. eexists. split; [reflexivity|]. apply Forall_app. split; [apply Forall_forall; intros k I; apply repeat_spec in I; subst k; reflexivity|].
      destruct (chClosed c); [constructor|]. apply Forall_app. split; [apply Forall_forall; intros k I; apply repeat_spec in I; subst k; reflexivity|].
      repeat constructor. }
    destruct RD as (ts & wl & od & _ & _ & _ & ->). destruct RV as (lv & ov & _ & _ & ->).
    destruct FD as [LD' FD]. destruct FV as [LV' FV].
    destruct (filled_pre _ _ _ LD') as [r1 E1]; [intros i x y A B C; specialize (FD i x y A B); rewrite C in FD; exact FD|exact ND|].
    destruct (filled_pre _ _ _ LV') as [r2 E2]; [intros i x y A B C; specialize (FV i x y A B); rewrite C in FV; exact FV|exact NV|].
    unfold selFlag. rewrite L1, L2, Nat.eqb_refl. split; f_equal.
    - rewrite E1, EM, <- LD. apply sel_river. exact NM.
    - rewrite E2, EM, <- LV. apply sel_river. exact NM.
  Qed.

  (** What the hot start holds is the state. *)
  Lemma list_by_nth {A} : forall (l m : list A), length l = length m -> (forall i x, nth_error m i = Some x -> nth_error l i = Some x) -> l = m.
  Proof.
    induction l as [|x l IH]; intros [|y m] L N; try discriminate; [reflexivity|]. pose proof (N O y eq_refl) as Q. injection Q as ->.
    f_equal. apply IH; [cbn in L; lia|intros i; exact (N (S i))].
  Qed.

  Lemma restored r32 w s h : shows w s -> keeps r32 w -> resumes r32 (map tX (gT s)) w h -> (length (htODep h) <= length (htT h))%nat ->
    htT h = gT s /\ htE0 h = gE0 s /\ htE1 h = gE1 s /\ htW h = gW s /\ htZ h = gZ s /\ htRiver h = gRiver s /\
    map2 fsub (htRWL h) (htRiver h) = gRDep s /\ htRVel h = gRVel s /\ htLWL h = gLWL s /\ htLVel h = gLVel s /\ htODep h = gODep s /\
    htOVel h = gOVel s /\ htEDep h = gEDep s /\ htEVel h = gEVel s /\ htClosed h = gClosed s.
  Proof.
    intros (E1 & E2 & E3 & E4 & E5 & E6 & E7 & E8 & E9 & E10 & E11 & E12 & E13 & E14 & E15 & E16) (K & KR & KO & LE & LV & KE) [[RL RT] RE RR RW RG RO RED REV RC] LO.
    rewrite <- E2, <- E3, <- E4, <- E5, <- E6, <- E7, <- E8, <- E9, <- E10, <- E11, <- E12, <- E13, <- E14, <- E15, <- E16. rewrite <- E2 in RL, RT.
    unfold plain in K. rewrite !Forall_app in K. destruct K as (KT & K4 & K1 & K2 & K3 & K5 & K6 & K7 & K8).
    inversion_clear K4 as [|? ? A1 B1]. inversion_clear B1 as [|? ? A2 B2]. inversion_clear B2 as [|? ? A3 B3]. inversion_clear B3 as [|? ? A4 _].
    destruct RE as (-> & -> & -> & ->). destruct RR as (RR1 & ->). destruct RG as (-> & -> & ->).
    assert (ET : htT h = wT w).
    { apply list_by_nth; [rewrite RL, map_length; reflexivity|]. intros i t Ht. rewrite (RT i (tX t) t); [|rewrite nth_error_map, Ht; reflexivity|exact Ht].
      f_equal. rewrite Forall_forall in KT. assert (G : forall x, In x [tY0 t; tY1 t; tY2 t; tY3 t; tY4 t; tZ0 t; tZ1 t; tZ2 t; tZ3 t] -> r32 x = x).
      { intros x I. apply KT. apply in_flat_map. exists t. split; [eapply nth_error_In; exact Ht|exact I]. }
      unfold storedT. rewrite !G by (cbn; tauto). destruct t; reflexivity. }
    assert (EZ : Forall (fun t => r32 (tZ1 t) = tZ1 t) (wT w)).
    { apply Forall_forall. intros t I. rewrite Forall_forall in KT. apply KT, in_flat_map. exists t. split; [exact I|cbn; tauto]. }
    rewrite A1, A2, A3, A4, RC. rewrite RR1, !map_keep by assumption.
    split; [exact ET|]. do 5 (split; [reflexivity|]). split.
    { apply (fin_map2 fsub (fun z d => r32 (z + d))); [exact KR|exact RW]. }
    do 3 (split; [reflexivity|]). split.
    { pose proof (f2_len _ _ _ KO) as LK. rewrite ET in LO.
      assert (G : forall i d, nth_error (wODep w) i = Some d -> nth_error (htODep h) i = Some d).
      { intros i d Hd. destruct (nth_error (wT w) i) as [t|] eqn:Ht; [|apply nth_error_None in Ht; apply some_lt in Hd; lia].
        rewrite (RO i d t Hd Ht). f_equal. rewrite (proj1 (Forall_forall _ _) EZ t (nth_error_In _ _ Ht)).
        clear - KO Hd Ht. revert i Hd Ht. induction KO as [|a b l m E _ IH]; intros [|i] Hd Ht; try discriminate; cbn in Hd, Ht.
        - injection Hd as ->. injection Ht as ->. exact E.
        - exact (IH i Hd Ht). }
      apply list_by_nth; [|exact G]. assert (length (wODep w) <= length (htODep h))%nat; [|lia].
      destruct (wODep w) as [|d0 l] eqn:EO; [cbn; lia|]. rewrite <- EO in *. destruct (nth_error (wODep w) (length (wODep w) - 1)) as [d|] eqn:ED.
      - apply G, some_lt in ED. rewrite EO in *. cbn [length] in *. lia.
      - apply nth_error_None in ED. rewrite EO in ED. cbn [length] in ED. lia. }
    split; [reflexivity|]. split.
    { destruct (wEDep w) as [|d0 [|d1 [|? ?]]] eqn:EE; try discriminate. rewrite (RED _ _ _ eq_refl), A4, (KE _ _ eq_refl).
      inversion_clear K8 as [|? ? Q _]. rewrite Q. reflexivity. }
    split; [|reflexivity].
    destruct (wEVel w) as [|d0 [|d1 [|? ?]]] eqn:EE; try discriminate. rewrite (REV _ _ _ eq_refl).
    inversion_clear K7 as [|? ? Q1 Q2]. inversion_clear Q2 as [|? ? Q3 _]. rewrite Q1, Q3. reflexivity.
  Qed.

  Lemma hot_len r32 f want start cont Dx h : hotLoad r32 f want start cont Dx = Ok h -> (length (htODep h) <= length (htT h))%nat.
  Proof.
    unfold hotLoad. intros H. bok H q. destruct q as [idx t]. bok H r. bok H u. apply Ok_inj in H. subst h. cbn [htODep htT].
    unfold hotDep. rewrite map2_length. lia.
  Qed.

  Lemma begun r32 w s h v v' c : shows w s -> keeps r32 w -> resumes r32 (map tX (gT s)) w h -> (length (htODep h) <= length (htT h))%nat ->
    from (gTime s) v v' -> gDt s = tMorDtMin (vTP v) -> assembled v s = Ok c -> chClosed c = gClosed s ->
    length (gRVel s) = length (gRiver s) -> Forall (fun x => fisnan x = false) (gRDep s) -> Forall (fun x => fisnan x = false) (gRVel s) ->
    (exists x, In x (gLVel s) /\ (x =? f0) = false) ->
    (exists q, at1 (vFlow v) (gTime s) = Ok q) -> (exists z, at1 (vSea v) (gTime s) = Ok z) ->
    exists s0, begins v' h = Ok s0 /\ samePlace s s0.
  Proof.
    intros SH K RS LO (V1 & V2 & V3 & V4 & V5 & V6) DT HA CC LR ND NV (x & IX & NX) (q & Hq) (z & Hz).
    destruct (restored _ _ _ _ SH K RS LO) as (E1 & E2 & E3 & E4 & E5 & E6 & E7 & E8 & E9 & E10 & E11 & E12 & E13 & E14 & E15).
    assert (length (gRDep s) = length (gRiver s) /\ length (gEDep s) = 2%nat /\ length (gEVel s) = 2%nat) as (LD & LE & LV).
    { destruct SH as (_ & _ & _ & _ & _ & _ & S7 & S8 & _ & _ & _ & _ & _ & S14 & S15 & _). destruct K as (_ & KR & _ & K4 & K5 & _).
      rewrite S14 in K4. rewrite S15 in K5. pose proof (f2_len _ _ _ KR) as Q. rewrite S7, S8 in Q. auto. }
    destruct (river_kept _ _ _ HA LD LR LE LV ND NV) as [SD SV].
    unfold begins, init. cbv zeta. rewrite V1, V2, V3, V4, V6. cbn [tStart tMorDtMin]. rewrite Hq, Hz. cbn [bind].
    rewrite E7, E1, E2, E3, E4, E5, E6, E8, E9, E10, E11, E12, E13, E14, E15. unfold assembled in HA. rewrite HA. cbn [bind].
    destruct (forallb _ (gLVel s)) eqn:FA.
    { rewrite forallb_forall in FA. specialize (FA x IX). cbv beta in FA. congruence. }
    cbn [bind]. rewrite SD, SV. cbn [bind]. eexists. split; [reflexivity|].
    unfold samePlace. cbn [gT gE0 gE1 gW gZ gRiver gRDep gRVel gLWL gLVel gODep gOVel gEDep gEVel gClosed gTime gDt].
    rewrite CC, DT. tauto.
  Qed.

  Lemma carry_on v v' t s s0 : from t v v' -> samePlace s s0 -> forall af n k o,
    alike (steps af n k o v s) (steps af n k o v' s0) /\ alike (loop af n k o v s) (loop af n k o v' s0).
  Proof.
    intros (V1 & V2 & V3 & V4 & V5 & V6) SP af n k o.
    assert (SS : sameSetup (startAt t v) v') by (unfold sameSetup; cbn [startAt vP vN vTP vFlow vSea vWaves]; rewrite V1, V2, V3, V4, V5, V6; auto 10).
    rewrite <- (steps_start t), <- (loop_start t). split; [apply steps_alike|apply loop_alike]; assumption.
  Qed.

  Lemma restart (r32 : F -> F) : (f0 =? f0) = true -> (f1 =? f0) = false ->
    forall f l f' want start Dx k w x0 x1 s v v' c,
    ncTimes f = [] -> writeAll r32 f l = Ok f' -> nth_error (ncX f) 0 = Some x0 -> nth_error (ncX f) 1 = Some x1 -> (r32 (x1 - x0) =? Dx) = true ->
    nth_error l k = Some w -> closest (map wTime l) want k -> (forall j, closest (map wTime l) want j -> j = k) ->
    ncX f = map tX (gT s) -> shows w s -> keeps r32 w ->
    from (gTime s) v v' -> gDt s = tMorDtMin (vTP v) -> assembled v s = Ok c -> chClosed c = gClosed s ->
    length (gRVel s) = length (gRiver s) -> Forall (fun x => fisnan x = false) (gRDep s) -> Forall (fun x => fisnan x = false) (gRVel s) ->
    (exists x, In x (gLVel s) /\ (x =? f0) = false) ->
    (exists q, at1 (vFlow v) (gTime s) = Ok q) -> (exists z, at1 (vSea v) (gTime s) = Ok z) ->
    exists h s0, hotLoad r32 f' want start true Dx = Ok h /\ htStart h = gTime s /\ begins v' h = Ok s0 /\ samePlace s s0 /\
      forall af n j o, alike (steps af n j o v s) (steps af n j o v' s0) /\ alike (loop af n j o v s) (loop af n j o v' s0).
  Proof.
    intros Z0 Z1 f l f' want start Dx k w x0 x1 s v v' c E0 HW X0 X1 D Hk C U EX SH K FR DT HA CC LR ND NV IX Hq Hz.
    destruct (hot_load r32 Z0 Z1 f l f' want start true Dx k w x0 x1 E0 HW X0 X1 D Hk C U) as (h & HL & RS & HS). rewrite EX in RS.
    destruct (begun r32 w s h v v' c SH K RS (hot_len _ _ _ _ _ _ _ HL) FR DT HA CC LR ND NV IX Hq Hz) as (s0 & B & SP).
    exists h, s0. split; [exact HL|]. split; [rewrite HS; exact (proj1 SH)|]. split; [exact B|]. split; [exact SP|].
    apply (carry_on _ _ _ _ _ FR SP).
  Qed.

  (** A restart always takes the smallest step, and always starts its water from rest if the lagoon is still. *)
  Lemma restart_dt v h s0 : begins v h = Ok s0 -> gDt s0 = tMorDtMin (vTP v) /\ gTime s0 = tStart (vTP v).
  Proof.
    unfold begins, init. cbv zeta. intros H. bok H fl. bok H se. bok H c. bok H q. destruct q as [[dep vel] [[[[[a b] d] e] g] i]]. bok H rd. bok H rv.
    apply Ok_inj in H. subst s0. cbn [gDt gTime]. auto.
  Qed.
End Again.

(** In real arithmetic, with nothing lost in storage, the depths come back. *)
Lemma back (z d : xr) : real z -> dry d -> fsub (fadd z d) z = d.
Proof. intros [x ->] [[y ->]| ->]; cbn; [|reflexivity]. f_equal. ring. Qed.
Lemma back' (z d : xr) : real z -> dry d -> fsub (fadd d z) z = d.
Proof. intros [x ->] [[y ->]| ->]; cbn; [|reflexivity]. f_equal. ring. Qed.
Lemma real_keeps w : length (wRDep w) = length (wRiv w) -> length (wEDep w) = 2%nat -> length (wEVel w) = 2%nat -> allReal w ->
  keeps (fun x : xr => x) w.
Proof.
  intros L1 L2 L3 (A & B & C & D & E & G & H). split; [apply Forall_forall; reflexivity|]. split; [|split; [|split; [exact L2|split; [exact L3|]]]].
  - revert L1 A B. generalize (wRiv w) (wRDep w). induction l as [|z l IH]; intros [|d m] L A B; try discriminate; constructor.
    + apply back; [inversion A; assumption|inversion B; left; assumption].
    + inversion A; inversion B; subst. apply IH; auto.
  - clear - C D E. induction D as [|t d l m N _ IH]; constructor; inversion_clear C as [|? ? Q R]; inversion_clear E as [|? ? U V]; [|apply IH; assumption].
    destruct Q as [Q|Q]; [apply back'; assumption|]. rewrite (N Q), Q. reflexivity.
  - intros d m Q. rewrite Q in H. inversion_clear H as [|? ? U V]. apply back; assumption.
Qed.
