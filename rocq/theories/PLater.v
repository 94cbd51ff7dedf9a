(** Only time differences matter. *)
From Coq Require Import ZArith List Bool Lia.
From Verif Require Import Base Num MState MCoast MRiv MMor MOut MCore SShift SLater PShift.
Import ListNotations.

Section Later.
  Context {F : Type} {NF : Num F}.
  Local Open Scope num_scope.
  Variable d : Z.
  Hypothesis span : forall a b : Z, (@fofZ F NF (a + d) - fofZ (b + d) = fofZ a - fofZ b)%n.
  Ltac bx x := apply bind_ext; intros x.
  Notation lt := (fun p : Z * F => ((fst p + d)%Z, snd p)).

  Lemma value_later (s : list (Z * F)) t : valueAt (laterSeries d s) (t + d) = valueAt s t.
  Proof.
    unfold valueAt, laterSeries. cbv zeta. rewrite (filter_map lt _ (fun p => negb (fisnan (snd p)))) by reflexivity. set (l := filter _ s).
    rewrite (filter_map lt _ (fun p => (fst p <? t)%Z)) by (intros [a b]; cbn; destruct (Z.ltb_spec (a + d) (t + d)), (Z.ltb_spec a t); lia).
    rewrite (filter_map lt _ (fun p => (t <? fst p)%Z)) by (intros [a b]; cbn; destruct (Z.ltb_spec (t + d) (a + d)), (Z.ltb_spec t a); lia).
    assert (E : find (fun p => (fst p =? t + d)%Z) (map lt l) = option_map lt (find (fun p => (fst p =? t)%Z) l)).
    { induction l as [|[a b] m IH]; [reflexivity|]. cbn [map find fst]. destruct (Z.eqb_spec (a + d) (t + d)), (Z.eqb_spec a t); try lia; [reflexivity|exact IH]. }
    rewrite E. destruct (find _ l) as [p|]; [reflexivity|]. cbn [option_map]. rewrite <- map_rev.
    destruct (rev _) as [|a m]; [reflexivity|]. cbn [map]. destruct (filter _ l) as [|b q]; cbn [map fst snd]; [reflexivity|]. rewrite !span. reflexivity.
  Qed.
  Lemma slice_map {A B} (g : A -> B) l a b : slice (map g l) a b = map g (slice l a b).
  Proof. unfold slice. rewrite skipn_map, firstn_map. reflexivity. Qed.
  Lemma interpolate_later (s : list (Z * F)) ts : interpolateAt (laterSeries d s) (map (fun t => (t + d)%Z) ts) = interpolateAt s ts.
  Proof.
    unfold interpolateAt. rewrite ix_map, bind_do. bx a. rewrite last_map, bind_do. bx b. unfold laterSeries.
    rewrite (lastw_map lt _ (fun p => (fst p <=? a)%Z)) by (intros [x y]; cbn; destruct (Z.leb_spec (x + d) (a + d)), (Z.leb_spec x a); lia). bx i.
    rewrite (first_map lt _ (fun p => (b <=? fst p)%Z)) by (intros [x y]; cbn; destruct (Z.leb_spec (b + d) (x + d)), (Z.leb_spec b x); lia). bx j.
    rewrite slice_map, map_map. f_equal. apply map_ext. intros t. apply value_later.
  Qed.
  Lemma at_later (s : list (Z * F)) t : at1 (laterSeries d s) (t + d) = at1 s t.
  Proof. unfold at1. change [(t + d)%Z] with (map (fun t => (t + d)%Z) [t]). rewrite interpolate_later. reflexivity. Qed.
  Lemma hydTimes_later a b c : hydTimes (a + d) b c = map (fun t => (t + d)%Z) (hydTimes a b c).
  Proof. unfold hydTimes. rewrite map_map. apply map_ext. intros k. lia. Qed.
  Lemma clamp_later e n dt : clampDt (e + d) (n + d) dt = clampDt e n dt.
  Proof. unfold clampDt. replace (e + d - (n + d))%Z with (e - n)%Z by lia. reflexivity. Qed.
  Lemma hyd_later o v c fl se : hydraulics o (laterSetup d v) c fl se = hydraulics o v c fl se.
  Proof. reflexivity. Qed.
  Lemma update_later fuel j1 j2 P N TP (T : list (tsect F)) e0 e1 W Zd RE on out LW OD CW CD CF Cl LST B CST OW dt :
    updateMorphology fuel j1 j2 P N (laterTimes d TP) T e0 e1 W Zd RE on out LW OD CW CD CF Cl LST B CST OW dt =
    updateMorphology fuel j1 j2 P N TP T e0 e1 W Zd RE on out LW OD CW CD CF Cl LST B CST OW dt.
  Proof. reflexivity. Qed.
  Lemma leb_later a b : (a + d <=? b + d)%Z = (a <=? b)%Z.
  Proof. destruct (Z.leb_spec (a + d) (b + d)), (Z.leb_spec a b); lia. Qed.

  Lemma step_later fuel o v s : step fuel o (laterSetup d v) (laterRun d s) = thenDo (laterRun d) (step fuel o v s).
  Proof.
    unfold step. cbv zeta. destruct s as [T e0 e1 W Z Ri rd rv lw lv od ov ed ev cl tm dt oT1 tT outs ts].
    cbn [laterRun laterSetup vP vN vTP vFlow vSea vWaves vOutInt vTsInt gT gE0 gE1 gW gZ gRiver gRDep gRVel gLWL gLVel gODep gOVel gEDep gEVel gClosed gTime gDt gOutT gTsT gOuts gTs].
    rewrite do_bind. bx c. change (tHydDt (laterTimes d (vTP v))) with (tHydDt (vTP v)). rewrite hydTimes_later, !interpolate_later. rewrite do_bind. bx flow. rewrite do_bind. bx sea.
    change (mkEnv (vP v) (vN v) (laterTimes d (vTP v)) (laterSeries d (vFlow v)) (laterSeries d (vSea v)) (laterWaves d (vWaves v)) (vOutInt v) (vTsInt v)) with (laterSetup d v).
    rewrite hyd_later, do_bind. bx hyd. destruct hyd as [dep vel]. rewrite do_bind. bx st. destruct st as [[[[[lwl lvel] odep] ovel] edep] evel].
    cbn [laterWaves wvDir wvPow wvPer wvLen wvHs]. rewrite do_bind. bx u. rewrite at_later, do_bind. bx dir. rewrite at_later, do_bind. bx pow. rewrite at_later, do_bind. bx per. rewrite at_later, do_bind. bx len. rewrite at_later, do_bind. bx hs.
    rewrite do_bind. bx seaN. rewrite do_bind. bx flowN. rewrite do_bind. bx ot. destruct ot as [cst ow]. rewrite update_later, do_bind. bx m.
    cbn [laterTimes tEnd]. rewrite clamp_later. rewrite do_bind. bx rdep. rewrite do_bind. bx rvel.
    set (dt' := clampDt _ _ _). replace (tm + d + dt')%Z with (tm + dt' + d)%Z by lia. rewrite !leb_later.
    match goal with |- bind ?a _ = thenDo _ (bind ?b _) => assert (E : a = thenDo (fun r => (map (laterRecord d) (fst r), (snd r + d)%Z)) b) end.
    { destruct (oT1 <=? _)%Z; [|reflexivity]. rewrite do_bind. bx sb. destruct sb as [[lb ob] eb]. rewrite do_bind. bx rb. cbn [thenDo fst snd]. rewrite map_app.
      replace (oT1 + d + vOutInt v)%Z with (oT1 + vOutInt v + d)%Z by lia. reflexivity. }
    rewrite E, bind_do, do_bind. bx r. destruct r as [outs' outT']. cbn [fst snd].
    match goal with |- bind ?a _ = thenDo _ (bind ?b _) => assert (E2 : a = thenDo (fun r => (map (laterTs d) (fst r), (snd r + d)%Z)) b) end.
    { destruct (tT <=? _)%Z; [|reflexivity]. rewrite do_bind. bx x1. rewrite do_bind. bx x2. rewrite do_bind. bx x3. rewrite do_bind. bx x4. cbn [thenDo fst snd]. rewrite map_app.
      replace (tT + d + vTsInt v)%Z with (tT + vTsInt v + d)%Z by lia. reflexivity. }
    rewrite E2, bind_do, do_bind. bx r. destruct r as [ts' tsT']. reflexivity.
  Qed.
  Lemma steps_later af o v : forall n k s, steps af n k o (laterSetup d v) (laterRun d s) = thenDo (laterRun d) (steps af n k o v s).
  Proof. induction n as [|n IH]; intros k s; cbn [steps]; [reflexivity|]. rewrite step_later, bind_do, do_bind. bx s'. apply IH. Qed.
  Lemma loop_later af o v : forall n k s, loop af n k o (laterSetup d v) (laterRun d s) = thenDo (laterRun d) (loop af n k o v s).
  Proof.
    induction n as [|n IH]; intros k s; cbn [loop]; change (gTime (laterRun d s)) with (gTime s + d)%Z; change (tEnd (vTP (laterSetup d v))) with (tEnd (vTP v) + d)%Z; rewrite leb_later;
      destruct (_ <=? _)%Z; try reflexivity.
    rewrite step_later, bind_do, do_bind. bx s'. apply IH.
  Qed.
  Lemma init_later v (T : list (tsect F)) e0 e1 W Z0 Ri RWL RV LWL LVel OD OV ED EV cl :
    init (laterSetup d v) T e0 e1 W Z0 Ri RWL RV LWL LVel OD OV ED EV cl = thenDo (laterRun d) (init v T e0 e1 W Z0 Ri RWL RV LWL LVel OD OV ED EV cl).
  Proof.
    unfold init. cbv zeta. cbn [laterSetup vP vN vTP vFlow vSea vWaves vOutInt vTsInt laterTimes tStart tMorDtMin]. rewrite !at_later, do_bind. bx flow. rewrite do_bind. bx sea. rewrite do_bind. bx c.
    rewrite do_bind. bx r. destruct r as [[dep vel] [[[[[a b] e] f] g] h]]. rewrite do_bind. bx rd. rewrite do_bind. bx rv. cbn [thenDo laterRun].
    unfold laterRun. cbn [gT gE0 gE1 gW gZ gRiver gRDep gRVel gLWL gLVel gODep gOVel gEDep gEVel gClosed gTime gDt gOutT gTsT gOuts gTs map].
    replace (tStart (vTP v) + d + vOutInt v)%Z with (tStart (vTP v) + vOutInt v + d)%Z by lia. replace (tStart (vTP v) + d + vTsInt v)%Z with (tStart (vTP v) + vTsInt v + d)%Z by lia. reflexivity.
  Qed.
End Later.
