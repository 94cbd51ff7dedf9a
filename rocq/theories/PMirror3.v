(** Left and right exchanged: what is stored, waves, a pass. *)
From Coq Require Import ZArith List Bool Reals Lra Lia.
From Verif Require Import Base Num Xr MState MCoast MRiv MMor MOut MCore SShift SMirror PShift PCore PMirror PMirror2.
Import ListNotations.

Section Store.
  Local Open Scope num_scope.
  Notation below n := (Forall (fun i => (i < n)%nat)).
  Lemma rev_repeat {A} (x : A) n : rev (repeat x n) = repeat x n.
  Proof. induction n as [|n IH]; [reflexivity|]. cbn [repeat rev]. rewrite IH. symmetry. apply repeat_cons. Qed.
  Lemma below_mir n idx : below n idx -> below n (map (fromEnd n) idx).
  Proof. induction 1; constructor; [apply fromEnd_lt; assumption|assumption]. Qed.
  Lemma below_b n idx : below n idx -> forallb (fun i => Nat.ltb i n) idx = true.
  Proof. induction 1; [reflexivity|]. cbn. apply andb_true_intro. split; [apply Nat.ltb_lt; assumption|assumption]. Qed.
  Lemma scatter_across n (d : xr) idx vals : below n idx -> scatterNew n d (map (fromEnd n) idx) vals = thenDo (@rev xr) (scatterNew n d idx vals).
  Proof.
    intros H. unfold scatterNew. rewrite (below_b _ _ H), (below_b _ _ (below_mir _ _ H)), map_length. cbn [negb].
    destruct (negb _); [reflexivity|]. cbn [thenDo]. f_equal. rewrite <- map_rev, <- seq_fromEnd, map_map. apply map_ext_in. intros i Hi. apply in_seq in Hi.
    rewrite <- (scat_fromEnd n idx vals (fromEnd n i)) by (try assumption; apply fromEnd_lt; lia). rewrite fromEnd_twice by lia. reflexivity.
  Qed.
  Lemma min_across n : forall os o, (o < n)%nat -> below n os -> fold_left Nat.min (map (fromEnd n) os) (fromEnd n o) = fromEnd n (fold_left Nat.max os o).
  Proof.
    induction os as [|x os IH]; intros o H B; [reflexivity|]. inversion B; subst. cbn [map fold_left].
    replace (Nat.min (fromEnd n o) (fromEnd n x)) with (fromEnd n (Nat.max o x)) by (unfold fromEnd; lia). apply IH; [lia|assumption].
  Qed.
  Lemma max_across n : forall os o, (o < n)%nat -> below n os -> fold_left Nat.max (map (fromEnd n) os) (fromEnd n o) = fromEnd n (fold_left Nat.min os o).
  Proof.
    induction os as [|x os IH]; intros o H B; [reflexivity|]. inversion B; subst. cbn [map fold_left].
    replace (Nat.max (fromEnd n o) (fromEnd n x)) with (fromEnd n (Nat.min o x)) by (unfold fromEnd; lia). apply IH; [lia|assumption].
  Qed.
  Lemma min_le : forall os o, (fold_left Nat.min os o <= o)%nat.
  Proof. induction os as [|x os IH]; intros o; [cbn; lia|]. cbn [fold_left]. specialize (IH (Nat.min o x)). lia. Qed.
  Lemma max_ge : forall os o, (o <= fold_left Nat.max os o)%nat.
  Proof. induction os as [|x os IH]; intros o; [cbn; lia|]. cbn [fold_left]. specialize (IH (Nat.max o x)). lia. Qed.
  Lemma max_lt n : forall os o, (o < n)%nat -> below n os -> (fold_left Nat.max os o < n)%nat.
  Proof. induction os as [|x os IH]; intros o H B; [exact H|]. inversion B; subst. cbn [fold_left]. apply IH; [lia|assumption]. Qed.

  Lemma store_across dep vel on out flag (LE : list xr) cl : below (length LE) on -> below (length LE) out ->
    storeHydraulics dep vel (map (fromEnd (length LE)) on) (map (fromEnd (length LE)) out) flag (rev LE) cl =
    thenDo (fun r => match r with (a, b, c, d, e, f) => (rev a, rev b, rev c, rev d, e, f) end) (storeHydraulics dep vel on out flag LE cl).
  Proof.
    intros H1 H2. unfold storeHydraulics. cbv zeta. rewrite rev_length. set (n := length LE) in *.
    destruct (selFlag flag (Nat.eqb 1) dep) as [d1|]; cbn [bind thenDo]; [|reflexivity].
    rewrite (below_b _ _ H1), (below_b _ _ (below_mir _ _ H1)), map_length. cbn [negb]. destruct (negb (Nat.eqb (length on) (length d1))); [reflexivity|].
    set (wl := mapi (fun i z => match scat on d1 i with Some d => z + d | None => z end) LE).
    assert (W : mapi (fun i z => match scat (map (fromEnd n) on) d1 i with Some d => z + d | None => z end) (rev LE) = rev wl).
    { apply mapi_rev. intros i x Hi. fold n. rewrite scat_fromEnd by assumption. reflexivity. }
    rewrite W. assert (Lw : length wl = n) by apply mapi_length. clearbody wl.
    destruct on as [|o os]; [reflexivity|]. cbn [map]. inversion H1 as [|? ? Ho Hos]; subst.
    rewrite min_across, max_across by assumption. set (mn := fold_left Nat.min os o). set (mx := fold_left Nat.max os o).
    assert (Mx : (mx < n)%nat) by (apply max_lt; assumption). assert (Mn : (mn <= mx)%nat) by (pose proof (min_le os o); pose proof (max_ge os o); unfold mn, mx; lia).
    assert (IE : forall i, (i < n)%nat -> ix (rev wl) (fromEnd n i) = ix wl i) by (intros i Hi; pose proof (ix_fromEnd wl i) as IF; rewrite Lw in IF; apply IF; exact Hi).
    rewrite !IE by lia.
    unfold ix. destruct (nth_error wl mx) as [hi|] eqn:EH; [|apply nth_error_None in EH; lia]. destruct (nth_error wl mn) as [lo|] eqn:EL; [|apply nth_error_None in EL; lia].
    cbn [of_opt bind].
    assert (W2 : mapi (fun i w => if Nat.ltb i (fromEnd n mx) then hi else if Nat.ltb (fromEnd n mn) i then lo else w) (rev wl) =
      rev (mapi (fun i w => if Nat.ltb i mn then lo else if Nat.ltb mx i then hi else w) wl)).
    { apply mapi_rev. rewrite Lw. intros i x Hi.
      destruct (Nat.ltb_spec (fromEnd n i) (fromEnd n mx)), (Nat.ltb_spec (fromEnd n mn) (fromEnd n i)), (Nat.ltb_spec i mn), (Nat.ltb_spec mx i); unfold fromEnd in *; try reflexivity; lia. }
    rewrite W2. destruct (selFlag flag (Nat.eqb 1) vel) as [v1|]; cbn [bind thenDo]; [|reflexivity].
    change (fromEnd n o :: map (fromEnd n) os) with (map (fromEnd n) (o :: os)). rewrite scatter_across by exact H1.
    destruct (scatterNew n fnan (o :: os) v1) as [lv|]; cbn [bind thenDo]; [|reflexivity].
    destruct cl; [cbn [thenDo]; rewrite !rev_repeat; reflexivity|].
    destruct (selFlag flag (Nat.eqb 2) dep) as [d2|]; cbn [bind thenDo]; [|reflexivity]. destruct (selFlag flag (Nat.eqb 2) vel) as [v2|]; cbn [bind thenDo]; [|reflexivity].
    rewrite !scatter_across by exact H2. destruct (scatterNew n fnan out d2) as [od|]; cbn [bind thenDo]; [|reflexivity].
    destruct (scatterNew n fnan out v2) as [ov|]; cbn [bind thenDo]; [|reflexivity].
    destruct (selFlag flag (fun k => Nat.eqb k 3 || Nat.eqb k 4) dep) as [ed|]; cbn [bind thenDo]; [|reflexivity].
    destruct (selFlag flag (fun k => Nat.eqb k 3 || Nat.eqb k 4) vel) as [ev|]; cbn [bind thenDo]; reflexivity.
  Qed.
  Lemma removelast_map' {A B} (f : A -> B) l : removelast (map f l) = map f (removelast l).
  Proof. induction l as [|x [|y l] IH]; [reflexivity|reflexivity|]. cbn [map removelast] in *. f_equal. exact IH. Qed.
  Lemma below_removelast n l : below n l -> below n (removelast l).
  Proof. intros H. induction l as [|x [|y l] IH]; [constructor|constructor|]. inversion H; subst. constructor; [assumption|apply IH; assumption]. Qed.
  Lemma storeBedload_across (bed : list xr) n on out flag cl : below n on -> below n out ->
    storeBedload bed n (map (fromEnd n) on) (map (fromEnd n) out) flag cl =
    thenDo (fun r => (rev (fst (fst r)), rev (snd (fst r)), snd r)) (storeBedload bed n on out flag cl).
  Proof.
    intros H1 H2. unfold storeBedload. cbv zeta. destruct cl.
    - destruct (selFlag (removelast flag) (Nat.eqb 1) bed) as [b1|]; cbn [bind thenDo]; [|reflexivity]. rewrite removelast_map', scatter_across by (apply below_removelast; exact H1).
      destruct (scatterNew n f0 (removelast on) b1); cbn [bind thenDo fst snd]; [|reflexivity]. rewrite rev_repeat. reflexivity.
    - destruct (selFlag (removelast flag) (Nat.eqb 2) bed) as [b2|]; cbn [bind thenDo]; [|reflexivity]. rewrite !scatter_across by assumption.
      destruct (scatterNew n f0 out b2); cbn [bind thenDo fst snd]; [|reflexivity].
      destruct (selFlag (removelast flag) (Nat.eqb 3) bed) as [b3|]; cbn [bind thenDo]; [|reflexivity].
      destruct (selFlag (removelast flag) (Nat.eqb 1) bed) as [b1|]; cbn [bind thenDo]; [|reflexivity]. rewrite !scatter_across by assumption.
      destruct (scatterNew n f0 on b1); cbn [bind thenDo fst snd]; reflexivity.
  Qed.

  (** ** Waves *)
  Lemma segment_across P pow per len a : lstSegment P pow per len (xopp a) = xopp (lstSegment P pow per len a).
  Proof. unfold lstSegment. cbv zeta. rewrite opp_sin, opp_cos. rewrite (opp_mul (fsin a)), opp_asin, opp_sin, mul_opp. reflexivity. Qed.
  Lemma local_across Dx E ya yb : localEDir Dx (xopp E) yb ya = xopp (localEDir Dx E ya yb).
  Proof. unfold localEDir. rewrite (sub_flip yb ya), opp_div, opp_atan, opp_sub. reflexivity. Qed.
  Lemma map2_rev {A B C} (f : A -> B -> C) : forall l m, length l = length m -> map2 f (rev l) (rev m) = rev (map2 f l m).
  Proof.
    assert (G : forall l m l' m', length l = length m -> map2 f (l ++ l') (m ++ m') = map2 f l m ++ map2 f l' m').
    { induction l as [|x l IH]; intros [|y m] l' m' E; try discriminate; [reflexivity|]. cbn [app map2]. f_equal. apply IH. cbn in E. lia. }
    induction l as [|x l IH]; intros [|y m] E; try discriminate; [reflexivity|]. cbn [rev]. rewrite G by (rewrite !rev_length; cbn in E; lia). rewrite IH by (cbn in E; lia). reflexivity.
  Qed.
  Lemma removelast_rev {A} (l : list A) : removelast (rev l) = rev (tl l).
  Proof. destruct l as [|x l]; [reflexivity|]. cbn [rev tl]. rewrite removelast_app by discriminate. cbn. apply app_nil_r. Qed.
  Lemma tl_rev {A} (l : list A) : tl (rev l) = rev (removelast l).
  Proof. rewrite <- (rev_involutive l) at 2. rewrite removelast_rev, rev_involutive. reflexivity. Qed.
  Lemma removelast_len {A} (l : list A) : length (removelast l) = length (tl l).
  Proof. induction l as [|x [|y l] IH]; [reflexivity|reflexivity|]. cbn [removelast tl length] in *. rewrite IH. reflexivity. Qed.
  Lemma lst_across Y Dx pow per len E P : longShoreTransport (rev Y) Dx pow per len (xopp E) P = rev (map xopp (longShoreTransport Y Dx pow per len E P)).
  Proof.
    unfold longShoreTransport. rewrite removelast_rev, tl_rev, map2_rev by (symmetry; apply removelast_len). f_equal.
    generalize (removelast Y) (tl Y). induction l as [|x l IH]; intros [|y m]; try reflexivity. cbn [map2 map]. rewrite IH, local_across, segment_across. reflexivity.
  Qed.
  Lemma overtop_across P r sl (T : list (tsect xr)) : overtopping P r sl (across T) = thenDo (fun q => (rev (fst q), rev (snd q))) (overtopping P r sl T).
  Proof.
    unfold overtopping, across. cbv zeta. rewrite !map_rev, !map_map, forallb_rev.
    change (fun x => cstTransect P r sl (acrossT x)) with (@cstTransect xr xr_num P r sl).
    change (fun x => overwashTransect P (acrossT x)) with (@overwashTransect xr xr_num P).
    destruct (assert_ _); reflexivity.
  Qed.
  Notation ng := (fun p : Z * xr => (fst p, xopp (snd p))).
  Lemma value_across (s : list (Z * xr)) t : valueAt (map ng s) t = xopp (valueAt s t).
  Proof.
    unfold valueAt. cbv zeta. rewrite (filter_map ng _ (fun p => negb (fisnan (snd p)))) by (intros; cbn [snd]; rewrite isnan_opp; reflexivity). set (l := filter _ s).
    rewrite (filter_map ng _ (fun p => (fst p <? t)%Z)) by reflexivity. rewrite (filter_map ng _ (fun p => (t <? fst p)%Z)) by reflexivity.
    assert (E : find (fun p => (fst p =? t)%Z) (map ng l) = option_map ng (find (fun p => (fst p =? t)%Z) l)).
    { induction l as [|[a b] m IH]; [reflexivity|]. cbn [map find fst]. destruct (a =? t)%Z; [reflexivity|exact IH]. }
    rewrite E. destruct (find _ l) as [p|]; [reflexivity|]. cbn [option_map]. rewrite <- map_rev.
    destruct (rev _) as [|a m]; [reflexivity|]. cbn [map]. destruct (filter _ l) as [|b q]; cbn [map fst snd]; [reflexivity|].
    rewrite opp_sub, opp_div, opp_mul, opp_add. reflexivity.
  Qed.
  Lemma slice_map' {A B} (g : A -> B) l a b : slice (map g l) a b = map g (slice l a b).
  Proof. unfold slice. rewrite skipn_map, firstn_map. reflexivity. Qed.
  Lemma interpolate_across (s : list (Z * xr)) ts : interpolateAt (acrossSeries s) ts = thenDo (map xopp) (interpolateAt s ts).
  Proof.
    unfold acrossSeries. change (fun p : Z * xr => (fst p, - snd p)) with ng. unfold interpolateAt. rewrite do_bind. apply bind_ext; intros a. rewrite do_bind. apply bind_ext; intros b.
    rewrite (lastw_map ng _ (fun p => (fst p <=? a)%Z)) by reflexivity. rewrite do_bind. apply bind_ext; intros i.
    rewrite (first_map ng _ (fun p => (b <=? fst p)%Z)) by reflexivity. rewrite do_bind. apply bind_ext; intros j.
    cbn [thenDo]. rewrite slice_map', map_map. f_equal. apply map_ext. intros t. apply value_across.
  Qed.
  Lemma at_across (s : list (Z * xr)) t : at1 (acrossSeries s) t = thenDo xopp (at1 s t).
  Proof. unfold at1. rewrite interpolate_across, bind_do, do_bind. apply bind_ext. intros l. apply ix_map. Qed.

  (** ** A pass *)
  Lemma assemble_below (T : list (tsect xr)) e0 e1 eW eE Cl RE RD RV LWL LVel OD OV ED EV Dx P c :
    assembleChannel T e0 e1 eW eE Cl RE RD RV LWL LVel OD OV ED EV Dx P = Ok c -> below (length T) (chOnline c) /\ below (length T) (chOutlet c).
  Proof.
    intros H. unfold assembleChannel in H. bok H x0. assert (Hx := x0_lt _ _ Ex0). cbv zeta in H. bok H op. destruct op as [[out ow] cl]. assert (Bo := outletPart_below _ _ _ _ _ _ _ Eop). cbn [fst] in Bo.
    bok H t0. bok H u1. bok H u2. bok H lp. destruct lp as [[[[on sa] sl] ea] el]. assert (Bl := lagoonPart_below _ _ _ _ _ _ Hx Elp). cbn [fst] in Bl.
    bok H u3. bok H lc. destruct lc as [[[on' ea'] el'] cl']. assert (Bc := lagoonCut_below _ _ _ _ _ _ _ _ Bl Elc). cbn [fst] in Bc.
    bok H i0. bok H il. bok H u4. bok H lts. bok H u5. bok H sh. destruct sh as [[[dx flag] elev] width]. bok H hy. destruct hy as [dep vel]. bok H dep'. bok H vel'.
    bok H u6. bok H u7. bok H u8. bok H u9. bok H u10. bok H u11. apply Ok_inj in H. subst c. cbn [chOnline chOutlet]. auto.
  Qed.
  Lemma step_across fuel o v s a b : twoSided v s -> step fuel o v s = Ok a -> step fuel o (acrossSetup v) (acrossRun s) = Ok b ->
    waterAcross a b /\ (forall w w', gOuts a = gOuts s ++ [w] -> gOuts b = gOuts s ++ [w'] -> recordAcross w w').
  Proof.
    intros (N & B & G & L1 & L2 & L3 & L4) H K. unfold step in H, K. cbv zeta in H, K.
    cbn [acrossSetup vP vN vTP vFlow vSea vWaves vOutInt vTsInt wvDir wvPow wvPer wvLen wvHs acrossRun gT gE0 gE1 gW gZ gRiver gRDep gRVel gLWL gLVel gODep gOVel gEDep gEVel gClosed gTime gDt gOutT gTsT gOuts gTs] in K.
    change (@fopp xr xr_num) with xopp in K. rewrite assemble_across in K by assumption. bok H c. rewrite Ec in K. cbn [thenDo bind] in K. destruct (assemble_below _ _ _ _ _ _ _ _ _ _ _ _ _ _ _ _ _ _ Ec) as [Bl Bo].
    bok H flow. rewrite Eflow in K. cbn [bind] in K. bok H sea. rewrite Esea in K. cbn [bind] in K.
    change (hydraulics o _ (acrossChan (length (gT s)) c) flow sea) with (hydraulics o v c flow sea) in K.
    bok H hyd. rewrite Ehyd in K. cbn [bind] in K. destruct hyd as [dep vel].
    cbn [acrossChan chDx chElev chWidth chLagArea chLagLen chDep chVel chOnline chOutlet chFlag chClosed] in K.
    assert (EZ : map tZ3 (across (gT s)) = rev (map tZ3 (gT s))) by (unfold across; rewrite map_rev, map_map; reflexivity). rewrite EZ in K.
    assert (LZ : length (map tZ3 (gT s)) = length (gT s)) by apply map_length. rewrite <- LZ in Bl, Bo. rewrite <- LZ in K at 1 2. rewrite store_across in K by assumption. rewrite LZ in Bl, Bo.
    bok H st. rewrite Est in K. cbn [thenDo bind] in K. destruct st as [[[[[lwl lvel] odep] ovel] edep] evel].
    bok H u. rewrite Eu in K. cbn [bind] in K. rewrite at_across in K.
    bok H dir. bok H pow. bok H per. bok H len. bok H hs. rewrite Edir, Epow, Eper, Elen, Ehs in K. cbn [thenDo bind] in K.
    bok H seaN. bok H flowN. rewrite EseaN, EflowN in K. cbn [bind] in K. rewrite overtop_across in K. bok H ot. rewrite Eot in K. cbn [thenDo bind] in K. destruct ot as [cst ow]. cbn [fst snd] in K.
    assert (EY : map tY0 (across (gT s)) = rev (map tY0 (gT s))) by (unfold across; rewrite map_rev, map_map; reflexivity). rewrite EY, lst_across in K.
    bok H m. bok K m'. clear Em Em'. rewrite across_length, storeBedload_across in K by assumption.
    bok H rdep. bok H rvel. rewrite Erdep, Ervel in K. cbn [bind] in K.
    bok H outs. destruct outs as [outs outT]. bok H ts. destruct ts as [ts tsT]. apply Ok_inj in H.
    bok K outs'. destruct outs' as [outs' outT']. bok K ts'. destruct ts' as [ts' tsT']. apply Ok_inj in K.
    subst a b. unfold waterAcross. cbn [gLWL gLVel gODep gOVel gRDep gRVel gEDep gEVel gOuts]. split; [repeat split|].
    clear Ets Ets'. intros w w' Ha Hb. subst outs outs'.
    destruct (_ <=? _)%Z in Eouts; [|apply Ok_inj in Eouts; injection Eouts as E _; exfalso; revert E; clear; intros E; apply (f_equal (@length _)) in E; rewrite app_length in E; cbn in E; lia].
    destruct (_ <=? _)%Z in Eouts'; [|apply Ok_inj in Eouts'; injection Eouts' as E _; exfalso; revert E; clear; intros E; apply (f_equal (@length _)) in E; rewrite app_length in E; cbn in E; lia].
    bok Eouts sb. rewrite Esb in Eouts'. cbn [thenDo bind] in Eouts'. destruct sb as [[lb ob] eb]. cbn [fst snd] in Eouts'.
    bok Eouts rb. rewrite Erb in Eouts'. cbn [bind] in Eouts'. apply Ok_inj in Eouts, Eouts'. apply (f_equal fst) in Eouts, Eouts'. cbn [fst] in Eouts, Eouts'.
    apply app_inj_tail in Eouts, Eouts'. destruct Eouts as [_ <-], Eouts' as [_ <-].
    unfold recordAcross. cbn [wSea wFlow wHs wDir wLWL wLVel wLBed wODep wOVel wOBed wLST wCST wOW wRDep wRVel wRBed wEDep wEVel wEBed wClosed].
    rewrite map_rev. repeat split.
  Qed.
End Store.
