(** Recording a run does not change it. *)
From Coq Require Import ZArith List Bool Lia.
From Verif Require Import Base Num MState MCoast MRiv MMor MOut PChan PCore PUpdate PMain MCore SRun SWatch.
Import ListNotations.

Section Watch.
  Context {F : Type} {NF : Num F}.
  Local Open Scope num_scope.

  Lemma filter2_len (m : list bool) : forall l : list F, length m = length l -> length (filter2 m l) = length (filter (fun b => b) m).
  Proof. induction m as [|b m IH]; intros [|x l] H; try discriminate; [reflexivity|]. cbn [filter2 filter]. cbn [length] in H. destruct b; cbn [length]; rewrite IH; lia. Qed.
  Lemma count_map (p : nat -> bool) fl : length (filter (fun b => b) (map p fl)) = count p fl.
  Proof. unfold count. induction fl as [|k fl IH]; [reflexivity|]. cbn [map filter]. destruct (p k); cbn [length]; lia. Qed.
  Lemma sel_ok fl p (l : list F) : length fl = length l -> exists r, selFlag fl p l = Ok r /\ length r = count p fl.
  Proof.
    intros E. unfold selFlag. rewrite E, Nat.eqb_refl. eexists. split; [reflexivity|]. rewrite filter2_len; [apply count_map|]. rewrite map_length. exact E.
  Qed.
  Lemma sel_len fl p (l r : list F) : selFlag fl p l = Ok r -> length fl = length l.
  Proof. unfold selFlag. destruct (Nat.eqb_spec (length fl) (length l)) as [E|E]; [auto|discriminate]. Qed.
  Lemma scatter_ok n (d : F) idx vals : forallb (fun i => Nat.ltb i n) idx = true -> length idx = length vals -> exists r, scatterNew n d idx vals = Ok r.
  Proof. intros A B. unfold scatterNew. rewrite A, B, Nat.eqb_refl. cbn [negb]. eauto. Qed.
  Lemma forallb_removelast {A} (p : A -> bool) l : forallb p l = true -> forallb p (removelast l) = true.
  Proof.
    intros H. destruct l as [|x l]; [reflexivity|]. rewrite (app_removelast_last x (l := x :: l)) in H by discriminate.
    rewrite forallb_app in H. apply andb_true_iff in H as [H _]. exact H.
  Qed.
  Lemma last_ok {A} (l : list A) : l <> [] -> exists x, last_ l = Ok x.
  Proof.
    intros N. unfold last_. destruct (rev l) as [|x r] eqn:E; [|cbn; eauto]. apply (f_equal (@rev _)) in E. rewrite rev_involutive in E. easy.
  Qed.

  Lemma store_range dep vel on out fl (Z : list F) cl r : storeHydraulics dep vel on out fl Z cl = Ok r ->
    forallb (fun i => Nat.ltb i (length Z)) on = true /\ (cl = false -> forallb (fun i => Nat.ltb i (length Z)) out = true) /\ on <> [] /\
    length fl = length dep /\ length fl = length vel.
  Proof.
    unfold storeHydraulics. intros H. bok H d1. destruct (forallb _ on) eqn:A; cbn [negb] in H; [|discriminate]. destruct (Nat.eqb _ _); cbn [negb] in H; [|discriminate].
    destruct on as [|o os]; [discriminate|]. bok H lo. bok H hi. bok H v1. bok H lv.
    split; [reflexivity|]. split; [|split; [discriminate|split; [eapply sel_len; exact Ed1|eapply sel_len; exact Ev1]]].
    intros ->. bok H d2. bok H v2. bok H od. unfold scatterNew in Eod. destruct (forallb _ out); cbn [negb] in Eod; [reflexivity|discriminate].
  Qed.

  (** An update that succeeds has a river of two sections or more. *)
  Lemma limit_river N TP (rate : F) dt R R' : limitRates N TP rate dt R = Ok R' -> length (rRiv R') = length (rRiv R).
  Proof.
    unfold limitRates. destruct (_ <? _)%n.
    - intros H. bok H u. destruct (_ =? _)%Z; [discriminate|]. apply Ok_inj in H. subst R'. cbn [clipRates rRiv]. apply map_length.
    - intros H. apply Ok_inj in H. subst R'. reflexivity.
  Qed.
  Lemma apply_river fuel P N TP (T : list (tsect F)) e0 e1 W Zd RE on out LW OD CW CD CF Cl LST B CST OW dt a :
    morApply fuel P N TP T e0 e1 W Zd RE on out LW OD CW CD CF Cl LST B CST OW dt = Ok a -> (2 <= length RE)%nat.
  Proof.
    unfold morApply. cbv zeta. intros H. bok H x0. bok H rbq. bok H WL. bok H u. bok H R. bok H rate. bok H d. bok H R'. bok H river. clear H.
    apply limit_river in ER'. unfold maxRate in Erate. bok Erate x.
    assert (L : length (rRiv R) <> 0%nat) by (destruct (rRiv R); [discriminate|discriminate]).
    unfold applyRiver in Eriver. destruct RE as [|z zs].
    - destruct (Nat.eqb_spec (length (rRiv R')) 0); [lia|discriminate].
    - destruct (Nat.eqb_spec (length (rRiv R')) (length zs)); [cbn [length]; lia|discriminate].
  Qed.
  Lemma mor_river fuel j1 j2 P N TP (T : list (tsect F)) e0 e1 W Zd RE on out LW OD CW CD CF Cl LST B CST OW dt m :
    updateMorphology fuel j1 j2 P N TP T e0 e1 W Zd RE on out LW OD CW CD CF Cl LST B CST OW dt = Ok m -> (2 <= length RE)%nat.
  Proof. unfold updateMorphology. intros H. bok H a. eapply apply_river. exact Ea. Qed.

  Lemma flags_last nr on out : removelast (flags nr on out false) = repeat 0%nat nr ++ repeat 1%nat on ++ repeat 2%nat out ++ [3%nat].
  Proof.
    unfold flags. replace (repeat 0%nat nr ++ repeat 1%nat on ++ repeat 2%nat out ++ [3%nat; 4%nat]) with ((repeat 0%nat nr ++ repeat 1%nat on ++ repeat 2%nat out ++ [3%nat]) ++ [4%nat]).
    - apply removelast_last.
    - rewrite <- !app_assoc. reflexivity.
  Qed.
  Lemma flags1_closed nr on out : on <> 0%nat -> count (Nat.eqb 1) (removelast (flags nr on out true)) = (on - 1)%nat.
  Proof.
    intros N. unfold flags. rewrite app_nil_r, removelast_app by (destruct on; [lia|discriminate]). destruct on as [|on]; [lia|].
    rewrite removelast_repeat, count_app, !count_repeat. cbn. lia.
  Qed.
  Lemma flags1_open nr on out : count (Nat.eqb 1) (removelast (flags nr on out false)) = on.
  Proof. rewrite flags_last, !count_app, !count_repeat. cbn. lia. Qed.
  Lemma flags2_open nr on out : count (Nat.eqb 2) (removelast (flags nr on out false)) = out.
  Proof. rewrite flags_last, !count_app, !count_repeat. cbn. lia. Qed.

  Lemma bed_ok (bed : list F) n on out nr cl : on <> [] -> forallb (fun i => Nat.ltb i n) on = true -> (cl = false -> forallb (fun i => Nat.ltb i n) out = true) ->
    length bed = (length (flags nr (length on) (length out) cl) - 1)%nat ->
    exists lb ob eb, storeBedload bed n on out (flags nr (length on) (length out) cl) cl = Ok (lb, ob, eb).
  Proof.
    intros N A B L. assert (E : length (removelast (flags nr (length on) (length out) cl)) = length bed) by (rewrite removelast_len; lia).
    assert (N' : length on <> 0%nat) by (destruct on; [easy|discriminate]). unfold storeBedload. destruct cl.
    - destruct (sel_ok _ (Nat.eqb 1) _ E) as (b1 & -> & C). cbn [bind]. rewrite flags1_closed in C by exact N'.
      destruct (scatter_ok n f0 (removelast on) b1) as (lb & ->); [apply forallb_removelast, A|rewrite removelast_len; lia|]. cbn [bind]. eauto.
    - destruct (sel_ok _ (Nat.eqb 2) _ E) as (b2 & -> & C2). rewrite flags2_open in C2. cbn [bind].
      destruct (scatter_ok n f0 out b2) as (ob & ->); [apply B; reflexivity|lia|]. cbn [bind].
      destruct (sel_ok _ (Nat.eqb 3) _ E) as (eb & -> & _). cbn [bind].
      destruct (sel_ok _ (Nat.eqb 1) _ E) as (b1 & -> & C1). rewrite flags1_open in C1. cbn [bind].
      destruct (scatter_ok n f0 on b1) as (lb & ->); [exact A|lia|]. cbn [bind]. eauto.
  Qed.

  (** A pass with the records it could make, whether or not they are due. *)
  Definition quiet (fuel : nat) (o : oracle F) (v : env F) (s : state F) : res (state F * wargs F * targs F) :=
    let P := vP v in let N := vN v in let TP := vTP v in
    let! c := assembleChannel (gT s) (gE0 s) (gE1 s) (gW s) (gZ s) (gClosed s) (gRiver s)
                (gRDep s) (gRVel s) (gLWL s) (gLVel s) (gODep s) (gOVel s) (gEDep s) (gEVel s) (nDx N) P in
    let times := hydTimes (gTime s) (gDt s) (tHydDt TP) in
    let! flow := interpolateAt (vFlow v) times in
    let! sea := interpolateAt (vSea v) times in
    let! (dep, vel) := hydraulics o v c flow sea in
    let! (lwl, lvel, odep, ovel, edep, evel) :=
      storeHydraulics dep vel (chOnline c) (chOutlet c) (chFlag c) (map tZ3 (gT s)) (chClosed c) in
    let bed := calcBedload (chWidth c) dep vel P (nPsi N) in
    let! _ := assert_ (Nat.eqb (length bed) (length (chElev c) - 1)) in
    let! dir := at1 (wvDir (vWaves v)) (gTime s) in
    let! pow := at1 (wvPow (vWaves v)) (gTime s) in
    let! per := at1 (wvPer (vWaves v)) (gTime s) in
    let! len := at1 (wvLen (vWaves v)) (gTime s) in
    let! hs := at1 (wvHs (vWaves v)) (gTime s) in
    let lst := longShoreTransport (map tY0 (gT s)) (nDx N) pow per len dir P in
    let run := runup per hs (pBeachSlope P) in
    let! seaN := last_ sea in
    let! flowN := last_ flow in
    let! (cst, ow) := overtopping P run seaN (gT s) in
    let! m := updateMorphology fuel (oJunk1 o) (oJunk2 o) P N TP (gT s) (gE0 s) (gE1 s) (gW s) (gZ s) (gRiver s)
                (chOnline c) (chOutlet c) lwl odep (chWidth c) dep (chFlag c) (chClosed c)
                lst bed cst ow (gDt s) in
    let dt := clampDt (tEnd TP) (gTime s) (oDt m) in
    let now := (gTime s + dt)%Z in
    let! rdep := selFlag (chFlag c) (Nat.eqb 0) dep in
    let! rvel := selFlag (chFlag c) (Nat.eqb 0) vel in
    let! (lb, ob, eb) := storeBedload bed (length (gT s)) (chOnline c) (chOutlet c) (chFlag c) (chClosed c) in
    let! rb := selFlag (removelast (chFlag c)) (Nat.eqb 0) bed in
    let! d := last_ dep in
    let! u := last_ vel in
    let! w := last_ (chWidth c) in
    let! b0 := ix bed 0 in
    Ok (mkS (oT m) (oE0 m) (oE1 m) (oW m) (oZ m) (oRiver m) rdep rvel lwl lvel odep ovel edep evel
            (if oBreach m then false else chClosed c) now dt 0%Z 0%Z [] [],
        mkW now seaN flowN hs dir (oT m) lwl lvel lb odep ovel ob lst cst (map fofb ow)
            (oRiver m) rdep rvel rb (oE0 m) (oE1 m) (oZ m) (oW m) edep evel eb (chClosed c),
        mkTs now seaN flowN hs dir (nanmean lwl) (d * u * w) b0 (oE0 m) (oE1 m) (chClosed c) dt).
  Definition noted (v : env F) (s b : state F) (w : wargs F) (t : targs F) : state F :=
    mkS (gT b) (gE0 b) (gE1 b) (gW b) (gZ b) (gRiver b) (gRDep b) (gRVel b) (gLWL b) (gLVel b) (gODep b) (gOVel b) (gEDep b) (gEVel b)
        (gClosed b) (gTime b) (gDt b)
        (if (gOutT s <=? gTime b)%Z then gOutT s + vOutInt v else gOutT s)%Z (if (gTsT s <=? gTime b)%Z then gTsT s + vTsInt v else gTsT s)%Z
        (if (gOutT s <=? gTime b)%Z then gOuts s ++ [w] else gOuts s) (if (gTsT s <=? gTime b)%Z then gTs s ++ [t] else gTs s).

  Lemma step_quiet fuel o v s : step fuel o v s = let! (b, w, t) := quiet fuel o v s in Ok (noted v s b w t).
  Proof.
    unfold step, quiet. cbv zeta.
    destruct (assembleChannel _ _ _ _ _ _ _ _ _ _ _ _ _ _ _ _ _) as [c|e] eqn:Ec; cbn [bind]; [|reflexivity].
    destruct (interpolateAt (vFlow v) _) as [flow|e]; cbn [bind]; [|reflexivity].
    destruct (interpolateAt (vSea v) _) as [sea|e]; cbn [bind]; [|reflexivity].
    destruct (hydraulics o v c flow sea) as [[dep vel]|e]; cbn [bind]; [|reflexivity].
    destruct (storeHydraulics _ _ _ _ _ _ _) as [[[[[[lwl lvel] odep] ovel] edep] evel]|e] eqn:Est; cbn [bind]; [|reflexivity].
    set (bed := calcBedload _ _ _ _ _).
    destruct (assert_ _) as [q|e] eqn:Ea; cbn [bind]; [|reflexivity]. destruct (at1 (wvDir _) _) as [dir|e]; cbn [bind]; [|reflexivity].
    destruct (at1 (wvPow _) _) as [pow|e]; cbn [bind]; [|reflexivity]. destruct (at1 (wvPer _) _) as [per|e]; cbn [bind]; [|reflexivity].
    destruct (at1 (wvLen _) _) as [len|e]; cbn [bind]; [|reflexivity]. destruct (at1 (wvHs _) _) as [hs|e]; cbn [bind]; [|reflexivity].
    destruct (last_ sea) as [seaN|e]; cbn [bind]; [|reflexivity]. destruct (last_ flow) as [flowN|e]; cbn [bind]; [|reflexivity].
    destruct (overtopping _ _ _ _) as [[cst ow]|e]; cbn [bind]; [|reflexivity].
    destruct (updateMorphology _ _ _ _ _ _ _ _ _ _ _ _ _ _ _ _ _ _ _ _ _ _ _ _ _) as [m|e] eqn:Em; cbn [bind]; [|reflexivity].
    destruct (selFlag (chFlag c) _ dep) as [rdep|e]; cbn [bind]; [|reflexivity]. destruct (selFlag (chFlag c) _ vel) as [rvel|e]; cbn [bind]; [|reflexivity].
    apply mor_river in Em. apply store_range in Est. rewrite map_length in Est. destruct Est as (R1 & R2 & R3 & R4 & R5).
    destruct (layout _ _ _ _ _ _ _ _ _ _ _ _ _ _ _ _ _ _ Ec) as (HF & HE & HW & _). apply assert_ok, Nat.eqb_eq in Ea.
    assert (L2 : (2 <= length (chFlag c))%nat) by (rewrite HF; unfold flags; rewrite !app_length, repeat_length; lia).
    assert (EB : exists lb ob eb, storeBedload bed (length (gT s)) (chOnline c) (chOutlet c) (chFlag c) (chClosed c) = Ok (lb, ob, eb)).
    { rewrite HF. apply bed_ok; auto. rewrite <- HF. lia. }
    destruct EB as (lb & ob & eb & ->). cbn [bind].
    destruct (sel_ok (removelast (chFlag c)) (Nat.eqb 0) bed) as (rb & -> & _); [rewrite removelast_len; lia|]. cbn [bind].
    destruct (last_ok dep) as (d & ->); [intros ->; cbn in *; lia|]. destruct (last_ok vel) as (u & ->); [intros ->; cbn in *; lia|].
    destruct (last_ok (chWidth c)) as (w & ->); [intros E; rewrite E in HW; cbn in *; lia|]. cbn [bind].
    assert (B0 : exists b0, ix bed 0 = Ok b0).
    { destruct bed as [|b0 bb]; [cbn in *; lia|]. exists b0. reflexivity. }
    destruct B0 as (b0 & ->). cbn [bind]. unfold noted. cbn [gT gE0 gE1 gW gZ gRiver gRDep gRVel gLWL gLVel gODep gOVel gEDep gEVel gClosed gTime gDt].
    destruct (gOutT s <=? _)%Z; cbn [bind]; destruct (gTsT s <=? _)%Z; reflexivity.
  Qed.
  Lemma quiet_time fuel o v s b w t : quiet fuel o v s = Ok (b, w, t) -> wTime w = gTime b /\ sTime t = gTime b.
  Proof.
    unfold quiet. cbv zeta. intros H. bok H c. bok H flow. bok H sea. bok H hyd. destruct hyd as [dep vel].
    bok H st. destruct st as [[[[[lwl lvel] odep] ovel] edep] evel]. bok H q. bok H dir. bok H pow. bok H per. bok H len. bok H hs.
    bok H seaN. bok H flowN. bok H ot. destruct ot as [cst ow]. bok H m. bok H rdep. bok H rvel. bok H sb. destruct sb as [[lb ob] eb].
    bok H rb. bok H d. bok H u. bok H bw. bok H b0. apply Ok_inj in H.
    pose proof (f_equal (fun x => fst (fst x)) H) as Q1. pose proof (f_equal (fun x => snd (fst x)) H) as Q2. pose proof (f_equal snd H) as Q3.
    cbn [fst snd] in Q1, Q2, Q3. rewrite <- Q1, <- Q2, <- Q3. split; reflexivity.
  Qed.
  Lemma quiet_same fuel o v v' s s' : sameSetup v v' -> samePlace s s' -> quiet fuel o v s = quiet fuel o v' s'.
  Proof.
    destruct v, v', s, s'. unfold sameSetup, samePlace. cbn [MCore.vP MCore.vN MCore.vTP MCore.vFlow MCore.vSea MCore.vWaves MCore.gT MCore.gE0 MCore.gE1 MCore.gW MCore.gZ MCore.gRiver MCore.gRDep MCore.gRVel MCore.gLWL MCore.gLVel MCore.gODep MCore.gOVel MCore.gEDep MCore.gEVel MCore.gClosed MCore.gTime MCore.gDt].
    intros (-> & -> & -> & -> & -> & ->) (-> & -> & -> & -> & -> & -> & -> & -> & -> & -> & -> & -> & -> & -> & -> & -> & ->). reflexivity.
  Qed.
  Lemma noted_same v v' s s' b w t : samePlace (noted v s b w t) (noted v' s' b w t).
  Proof. unfold samePlace, noted. cbn. repeat (split; [reflexivity|]). reflexivity. Qed.
  Lemma place_refl (s : state F) : samePlace s s.
  Proof. unfold samePlace. repeat (split; [reflexivity|]). reflexivity. Qed.

  Lemma step_alike fuel o v v' s s' : sameSetup v v' -> samePlace s s' -> alike (step fuel o v s) (step fuel o v' s').
  Proof.
    intros V P. rewrite !step_quiet, (quiet_same _ _ _ _ _ _ V P). destruct (quiet _ _ _ _) as [[[b w] t]|e]; cbn [bind alike]; [apply noted_same|reflexivity].
  Qed.
  Lemma steps_alike af o v v' : sameSetup v v' -> forall n k s s', samePlace s s' -> alike (steps af n k o v s) (steps af n k o v' s').
  Proof.
    intros V. induction n as [|n IH]; intros k s s' P; cbn [steps]; [exact P|].
    pose proof (step_alike af (o k) _ _ _ _ V P) as A. destruct (step af (o k) v s), (step af (o k) v' s'); cbn [alike bind] in *; auto; easy.
  Qed.
  Lemma loop_alike af o v v' : sameSetup v v' -> forall n k s s', samePlace s s' -> alike (loop af n k o v s) (loop af n k o v' s').
  Proof.
    intros V. induction n as [|n IH]; intros k s s' P; cbn [loop].
    - destruct V as (_ & _ & <- & _). pose proof P as Q. destruct Q as (_ & _ & _ & _ & _ & _ & _ & _ & _ & _ & _ & _ & _ & _ & _ & <- & _).
      destruct (_ <=? _)%Z; [reflexivity|exact P].
    - pose proof V as V'. destruct V' as (_ & _ & <- & _). pose proof P as Q. destruct Q as (_ & _ & _ & _ & _ & _ & _ & _ & _ & _ & _ & _ & _ & _ & _ & <- & _).
      destruct (_ <=? _)%Z; [|exact P].
      pose proof (step_alike af (o k) _ _ _ _ V P) as A. destruct (step af (o k) v s), (step af (o k) v' s'); cbn [alike bind] in *; auto; easy.
  Qed.

  Lemma steps_records af o : forall n k v (s s1 : state F), steps af n k o v s = Ok s1 ->
    exists W B, length W = n /\ map sTime B = map wTime W /\
      forall v' s', sameSetup v v' -> samePlace s s' -> exists s1', steps af n k o v' s' = Ok s1' /\ samePlace s1 s1' /\
        gOuts s1' = gOuts s' ++ picked (due (vOutInt v') (gOutT s') (map wTime W)) W /\
        gTs s1' = gTs s' ++ picked (due (vTsInt v') (gTsT s') (map wTime W)) B.
  Proof.
    induction n as [|n IH]; intros k v s s1 H; cbn [steps] in H.
    - apply Ok_inj in H. subst s1. exists [], []. split; [reflexivity|]. split; [reflexivity|]. intros v' s' V P. exists s'. cbn [steps map due picked]. rewrite !app_nil_r. auto.
    - bok H s2. rewrite step_quiet in Es2. bok Es2 q. destruct q as [[b w] t]. apply Ok_inj in Es2.
      destruct (IH _ _ _ _ H) as (W & B & L & T & G). destruct (quiet_time _ _ _ _ _ _ _ Eq) as [Tw Tt].
      exists (w :: W), (t :: B). split; [cbn [length]; lia|]. split; [cbn [map]; rewrite T, Tw, Tt; reflexivity|].
      intros v' s' V P. cbn [steps]. rewrite step_quiet, <- (quiet_same _ _ _ _ _ _ V P), Eq. cbn [bind].
      destruct (G v' (noted v' s' b w t) V) as (s1' & G1 & G2 & G3 & G4); [rewrite <- Es2; apply noted_same|].
      exists s1'. split; [exact G1|]. split; [exact G2|]. rewrite G3, G4. unfold noted. cbn [gOuts gOutT gTs gTsT map due]. rewrite Tw.
      destruct (gOutT s' <=? gTime b)%Z, (gTsT s' <=? gTime b)%Z; cbn [picked]; rewrite <- ?app_assoc; split; reflexivity.
  Qed.
End Watch.
