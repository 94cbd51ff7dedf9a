From Coq Require Import ZArith List Bool Lia Sorted Floats.
From Verif Require Import Base Num Xr MState MLoad MSynth SLoad PRate PGeom PLag PFill PCoast PLoad PLoad2 PLoad3 Flt Sim SSynth PSynth PSynth2 PSynth3.
Import ListNotations.

(** No value falls inside the rising limb of the last event. *)
Lemma event_times {F} {NF : Num F} (d1 d2 p1 p2 : F) rise calc last gap size ts c1 c2 ts' k1 k2 t v : (rise <= gap)%Z -> (0 < calc)%Z ->
  shotEvent d1 d2 p1 p2 rise calc last gap size ts c1 c2 = Ok (ts', k1, k2) -> In (t, v) ts' ->
  In (t, v) ts \/ (last <= t <= last + gap - rise)%Z \/ t = (last + gap)%Z.
Proof.
  intros L C H I. unfold shotEvent in H. cbv zeta in H. rewrite (proj2 (Z.ltb_ge _ _) L) in H. cbn [bind] in H. apply Ok_inj in H.
  pose proof (f_equal (fun p => fst (fst p)) H) as Q. cbn [fst] in Q. subst ts'. apply in_app_or in I as [I|I]; [now left|right].
  apply in_app_or in I as [I|[I|[]]].
  - left. apply in_map_iff in I as (t' & E & I). pose proof (f_equal fst E) as E1. cbn [fst] in E1. subst t'. apply gapTimes_In in I; [lia|lia|exact C].
  - right. pose proof (f_equal fst I) as E1. cbn [fst] in E1. now symmetry.
Qed.
Lemma limb_missing {F} {NF : Num F} (u w : F) start stop int gap inc d1 p1 d2 rise calc r g :
  (0 < calc)%Z -> (start < stop)%Z -> (0 < rise <= g)%Z ->
  gapOf (f1 / fofZ (gap / day))%n u = Ok g ->
  shotNoise [(u, w)] start stop int gap inc d1 p1 d2 rise (Some calc) = Ok r ->
  forall c v, In (c, v) r -> (start + g - rise < c)%Z -> (c + int <= start + g)%Z -> v = fnan.
Proof.
  intros C S L G H c v I A B. unfold shotNoise in H. apply bind_ok in H as ([ts last] & E & H). apply bind_ok in H as (r0 & Er & H). apply Ok_inj in H. subst r.
  apply filter_In in I as [I _].
  assert (T : forall t x, In (t, x) ts -> (t <= start + g - rise)%Z \/ t = (start + g)%Z).
  { intros t x Ht. unfold shotNoiseRaw in E. apply bind_ok in E as ([[[[rate p2] r1] r2] d2'] & Sx & E).
    assert (rate = f1 / fofZ (gap / day))%n as ->.
    { unfold shotSetup in Sx. apply bind_ok in Sx as (? & _ & Sx). apply bind_ok in Sx as (? & _ & Sx). apply bind_ok in Sx as (? & _ & Sx). apply bind_ok in Sx as (? & _ & Sx).
      destruct (_ =? 0)%Z; [discriminate|]. destruct d2; [|discriminate]. destruct (feqb _ _); [discriminate|].
      apply Ok_inj in Sx. pose proof (f_equal (fun p => fst (fst (fst (fst p)))) Sx) as Q. cbn [fst] in Q. symmetry. exact Q. }
    cbn [shotLoop] in E. rewrite (proj2 (Z.ltb_lt _ _) S), G in E. cbn [bind] in E.
    apply bind_ok in E as (s & _ & E). apply bind_ok in E as ([[ts1 k1] k2] & Ev & E). destruct (_ <? _)%Z; [discriminate|].
    apply Ok_inj in E. pose proof (f_equal fst E) as Q. cbn [fst] in Q. subst ts1.
    destruct (event_times _ _ _ _ _ _ _ _ _ _ _ _ _ _ _ _ _ (proj2 L) C Ev Ht) as [[Q|[]]|[Q|Q]]; [|lia|lia].
    pose proof (f_equal fst Q) as Q1. cbn [fst] in Q1. lia. }
  pose proof (bin_filter c (c + int) ts) as Bn. set (ys := map snd _) in Bn.
  assert (ys = []) as E0.
  { destruct ys as [|y ys]; [reflexivity|]. destruct (proj1 (bin_In _ _ _ _ y Bn) (or_introl eq_refl)) as (t & Ht & Lt). apply T in Ht. lia. }
  rewrite E0 in Bn. apply (resample_value int ts r0 c v [] Er I Bn).
Qed.

(** A run with one event, in exact arithmetic: gap 2 days, size 0. *)
Definition hour : Z := 3600000000000.
Lemma one_gap : gapOf (F:=xr) (f1 / fofZ (10 * day / day))%n (Fin (exp (-(1/5)))) = Ok (2 * day)%Z.
Proof.
  replace (10 * day / day)%Z with 10%Z by reflexivity. xg. rewrite xdiv_fin by lra. unfold gapOf. xg. pose proof (exp_pos (-(1/5))). rdecide. f_equal.
  unfold xlog. destruct (Rlt_dec 0 (exp (-(1/5)))); [|lra]. xg. rewrite xdiv_fin by lra. xg. rewrite ln_exp. apply Rfloor_unique.
  replace (2 * day)%Z with (2 * nsPerDay)%Z by reflexivity. rewrite mult_IZR.
  replace (- - (1 / 5) / (1 / 10) * IZR nsPerDay)%R with (2 * IZR nsPerDay)%R by field. lra.
Qed.
Lemma one_draw : Forall draw [(Fin (exp (-(1/5))), Fin 0)].
Proof.
  constructor; [|constructor]. exists (exp (-(1/5))), 0%R. split; [reflexivity|]. split; [|lra]. split; [apply exp_pos|].
  pose proof (exp_increasing (-(1/5)) 0 ltac:(lra)) as Q. rewrite exp_0 in Q. exact Q.
Qed.
Lemma shot_total us start stop int gap inc d1 p1 d2 rise calc : Forall draw us -> (0 < inc)%R -> (0 < d1)%R -> (0 < d2)%R -> (0 <= p1 <= 1)%R -> (0 < rise)%Z -> (0 < calc)%Z -> (day <= gap)%Z ->
  (exists r, shotNoise us start stop int gap (Fin inc) (Fin d1) (Fin p1) (Some (Fin d2)) rise (Some calc) = Ok r) \/
  shotNoise us start stop int gap (Fin inc) (Fin d1) (Fin p1) (Some (Fin d2)) rise (Some calc) = Exc EFuel.
Proof.
  intros. unfold shotNoise. destruct (raw_good us start stop int gap inc d1 p1 d2 rise calc) as [(ts & l & c1 & c2 & E & G & S)|E]; try assumption; [|right; now rewrite E].
  left. rewrite E. cbn [bind]. destruct G as [_ _ (l0 & v & ->) _ _ _]. unfold resampleMean, pt.
  assert (exists a, ix (l0 ++ [(l, v)]) 0 = Ok a) as [a ->] by (destruct l0; eexists; reflexivity).
  assert (last_ (l0 ++ [(l, v)]) = Ok (l, v)) as -> by (unfold last_; rewrite rev_unit; reflexivity).
  cbn [bind]. eexists. reflexivity.
Qed.
Lemma one_event : exists r,
  shotNoise [(Fin (exp (-(1/5))), Fin 0)] 0 day hour (10 * day) (Fin 50) (Fin (3/10)) (Fin (9/10)) (Some (Fin (15/1000))) day (Some (hour / 4)%Z) = Ok r.
Proof.
  destruct (shot_total [(Fin (exp (-(1/5))), Fin 0)] 0 day hour (10 * day) 50 (3/10) (9/10) (15/1000) day (hour / 4) one_draw) as [Q|Q]; try lra; try reflexivity; [unfold day; lia|exact Q|].
  exfalso. revert Q. unfold shotNoise, shotNoiseRaw, shotSetup. cbv zeta. xg. rdecide. cbn [assert_ bind andb].
  change (0 <? day)%Z with true. cbn [assert_ bind]. change (daysField (10 * day) =? 0)%Z with false. cbv iota.
  pose proof one_gap as G. unfold day, nsPerDay in *.
  cbn [shotLoop]. change (0 <? 86400000000000)%Z with true. cbv iota.
  change (daysField (10 * 86400000000000))%Z with (10 * 86400000000000 / 86400000000000)%Z.
  cbn [bind]. match goal with |- context [gapOf ?r ?u] => replace (gapOf r u) with (@Ok Z (2 * 86400000000000)%Z) by (symmetry; exact G) end. cbn [bind].
  destruct (size_val 50 0 ltac:(lra) ltac:(lra)) as (s & Es & _). rewrite Es. cbn [bind].
  match goal with |- context [shotEvent ?a ?b ?c ?d ?e ?f ?g ?h ?i ?j ?k ?l] => destruct (shotEvent a b c d e f g h i j k l) as [[[x y] z]|e0] eqn:Ev end; cbn [bind].
  - change (0 + 2 * 86400000000000 <? 86400000000000)%Z with false. cbv iota. cbn [bind].
    unfold resampleMean. intros Q. destruct (ix x 0) as [a|] eqn:Ea; cbn [bind] in Q; [|unfold ix in Ea; destruct (nth_error x 0); cbn in Ea; discriminate Ea || (injection Ea as <-; discriminate Q)].
    destruct (last_ x) as [zz|] eqn:El; cbn [bind] in Q; [discriminate|]. unfold last_ in El. destruct (nth_error (rev x) 0); cbn in El; [discriminate|injection El as <-; discriminate Q].
  - intros Q. injection Q as ->. unfold shotEvent in Ev. cbv zeta in Ev. cbn [Z.ltb Z.compare] in Ev. vm_compute (2 * 86400000000000 <? 86400000000000)%Z in Ev. cbn [bind] in Ev. discriminate.
Qed.

(** The shipped rising limb of one day with hourly output, in simulated floating point. *)
Definition simShot (stop : Z) : res (list (Z * float)) :=
  @shotNoise float sim_num [(0x1.999999999999ap-1, 0.5)%float] 0 stop hour (10 * day) 50%float 0x1.3333333333333p-2%float 0x1.ccccccccccccdp-1%float (Some 0x1.eb851eb851eb8p-7%float) day None.
Lemma limb_example : exists r, simShot (2 * day) = Ok r /\
  exists v, nth_error r 40 = Some ((40 * hour)%Z, v) /\ @fisnan float sim_num v = true.
Proof.
  destruct (simShot (2 * day)) as [r|e] eqn:E.
  - exists r. split; [reflexivity|].
    assert (Q : match simShot (2 * day) with Ok r => match nth_error r 40 with Some (t, v) => (t =? 40 * hour)%Z && @fisnan float sim_num v | None => false end | Exc _ => false end = true) by (vm_compute; reflexivity).
    rewrite E in Q. destruct (nth_error r 40) as [[t v]|]; [|discriminate]. apply andb_true_iff in Q as [Q1 Q2]. apply Z.eqb_eq in Q1. subst t. eauto.
  - assert (Q : match simShot (2 * day) with Ok _ => true | Exc _ => false end = true) by (vm_compute; reflexivity). rewrite E in Q. discriminate.
Qed.
Lemma end_example : exists r, simShot (day + hour / 2) = Ok r /\ trimSeries 0 (day + hour / 2) hour r = Exc EAssert.
Proof.
  assert (Q : match simShot (day + hour / 2) with Ok r => match trimSeries 0 (day + hour / 2) hour r with Exc EAssert => true | _ => false end | Exc _ => false end = true) by (vm_compute; reflexivity).
  destruct (simShot (day + hour / 2)) as [r|e]; [|discriminate]. exists r. split; [reflexivity|]. destruct (trimSeries _ _ _ r) as [|[]]; try discriminate. reflexivity.
Qed.
Lemma tide_example : exists s, trimSeries 0 (10 * hour) hour (harmonicTide 0 (10 * hour) hour (Fin 0) (Fin 2)) = Ok s.
Proof. apply tide_covers; [unfold hour; lia|unfold hour; lia|]. exists 10%Z. reflexivity. Qed.
Lemma tide_refused : forall s, trimSeries 0 (10 * hour) (7 * hour) (harmonicTide 0 (10 * hour) (7 * hour) (Fin 0) (Fin 2)) <> Ok s.
Proof.
  intros s H. assert (Q : (7 * hour | 10 * hour - 0)%Z) by (apply (tide_covers 0 (10 * hour) (7 * hour) (Fin 0) (Fin 2) (7 * hour)); [unfold hour; lia|unfold hour; lia|eauto]).
  destruct Q as [q Q]. unfold hour in Q. lia.
Qed.
Lemma event_example : fine 0 [(0%Z, Fin 3)] 1 2.
Proof.
  repeat split; try lra.
  - repeat constructor.
  - constructor; [|constructor]. exists 3%R. split; [reflexivity|lra].
  - exists [], (Fin 3). reflexivity.
Qed.
Lemma default_example : shotNoise [] 0 day hour (10 * day) 50%float 0.5%float 1%float None day None = Exc EType.
Proof. vm_compute. reflexivity. Qed.
