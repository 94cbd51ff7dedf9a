From Coq Require Import ZArith List Bool Lia Sorted.
From Verif Require Import Base Num Xr MState MLoad MSynth SLoad PRate PGeom PLag PFill PCoast PLoad PLoad2 PLoad3 SSynth PSynth.
Import ListNotations.

Section Loop.
  Context (d1 d2 p1 p2 rate inc : R) (rise calc stop : Z) (Hr : (0 < rise)%Z) (Hc : (0 < calc)%Z) (P1 : (0 <= p1)%R) (P2 : (0 <= p2)%R)
    (Prate : (0 < rate)%R) (Pinc : (0 < inc)%R).
  Lemma loop_good draws : Forall draw draws -> forall last ts c1 c2, good last ts c1 c2 ->
    (exists ts' last' c1' c2', shotLoop draws (Fin rate) (Fin inc) (Fin d1) (Fin d2) (Fin p1) (Fin p2) rise calc stop last ts (Fin c1) (Fin c2) = Ok (ts', last') /\
       good last' ts' c1' c2' /\ (stop <= last')%Z) \/
    shotLoop draws (Fin rate) (Fin inc) (Fin d1) (Fin d2) (Fin p1) (Fin p2) rise calc stop last ts (Fin c1) (Fin c2) = Exc EFuel.
  Proof.
    induction 1 as [|x draws (u & w & -> & Hu & Hw) _ IH]; intros last ts c1 c2 G; cbn [shotLoop]; destruct (last <? stop)%Z eqn:E.
    - now right.
    - left. apply Z.ltb_ge in E. do 4 eexists. split; [reflexivity|]. split; [exact G|exact E].
    - destruct (gap_val rate u Prate Hu) as (g & -> & Pg). destruct (size_val inc w Pinc Hw) as (s & -> & Ps). cbn [bind].
      destruct (event_good d1 d2 p1 p2 rise calc Hr Hc P1 P2 last g Pg s Ps ts c1 c2 G) as (ts' & -> & G'). cbn [bind]. apply IH, G'.
    - left. apply Z.ltb_ge in E. do 4 eexists. split; [reflexivity|]. split; [exact G|exact E].
  Qed.
End Loop.

Section Raw.
  Context (us : list (xr * xr)) (start stop int gap : Z) (inc d1 p1 d2 : R) (rise calc : Z).
  Context (Hus : Forall draw us) (Hinc : (0 < inc)%R) (Hd1 : (0 < d1)%R) (Hd2 : (0 < d2)%R) (Hp : (0 <= p1 <= 1)%R)
    (Hr : (0 < rise)%Z) (Hc : (0 < calc)%Z) (Hg : (day <= gap)%Z).
  Lemma raw_good :
    (exists ts last c1 c2, shotNoiseRaw us start stop int gap (Fin inc) (Fin d1) (Fin p1) (Some (Fin d2)) rise (Some calc) = Ok (ts, last) /\
       good last ts c1 c2 /\ (stop <= last)%Z) \/
    shotNoiseRaw us start stop int gap (Fin inc) (Fin d1) (Fin p1) (Some (Fin d2)) rise (Some calc) = Exc EFuel.
  Proof.
    unfold shotNoiseRaw, shotSetup. cbv zeta.
    assert (Pd : (1 <= daysField gap)%Z).
    { unfold daysField, nsPerDay. unfold day in Hg. apply Z.div_le_lower_bound; lia. }
    pose proof (IZR_le _ _ Pd) as Pd'.
    xg. rdecide. cbn [assert_ bind andb].
    rewrite (proj2 (Z.ltb_lt _ _) Hr). cbn [assert_ bind].
    replace (daysField gap =? 0)%Z with false by (symmetry; apply Z.eqb_neq; lia).
    replace (Reqb d2 0) with false by (symmetry; apply Reqb_false; lra).
    rewrite !xdiv_fin by lra. xg. set (rate := (1 / IZR (daysField gap))%R).
    assert (Prate : (0 < rate)%R) by (unfold rate; apply Rdiv_lt_0_compat; lra).
    assert (A : (0 <= p1 / d1)%R) by (apply Rmult_le_pos; [lra|left; now apply Rinv_0_lt_compat]).
    assert (B : (0 <= (1 - p1) / d2)%R) by (apply Rmult_le_pos; [lra|left; now apply Rinv_0_lt_compat]).
    assert (C : (0 < p1 / d1 + (1 - p1) / d2)%R).
    { destruct (Req_dec p1 0) as [->|N]; [assert (0 < (1 - 0) / d2)%R by (apply Rdiv_lt_0_compat; lra)|assert (0 < p1 / d1)%R by (apply Rdiv_lt_0_compat; lra)]; lra. }
    set (r1 := (inc * (p1 / d1) * rate)%R). set (r2 := (inc * ((1 - p1) / d2) * rate)%R).
    assert (G : good start [(start, Fin (r1 + r2))] r1 r2).
    { assert (0 < inc * rate)%R by nra.
      assert (0 < r1 + r2)%R by (unfold r1, r2; replace (inc * (p1 / d1) * rate + inc * ((1 - p1) / d2) * rate)%R with ((inc * rate) * (p1 / d1 + (1 - p1) / d2))%R by ring; nra).
      constructor.
      - repeat constructor.
      - constructor; [|constructor]. eexists. split; [reflexivity|assumption].
      - exists [], (Fin (r1 + r2)). reflexivity.
      - unfold r1. replace (inc * (p1 / d1) * rate)%R with ((inc * rate) * (p1 / d1))%R by ring. nra.
      - unfold r2. replace (inc * ((1 - p1) / d2) * rate)%R with ((inc * rate) * ((1 - p1) / d2))%R by ring. nra.
      - assumption. }
    assert (X : forall X : Prop, (if Rltb p1 1 then Ok tt else Ok tt) = @Ok unit tt) by (intros; destruct (Rltb p1 1); reflexivity).
    rewrite (X True). cbn [bind].
    pose proof (loop_good d1 d2 p1 (1 - p1) rate inc rise calc stop Hr Hc ltac:(lra) ltac:(lra) Prate Hinc us Hus start _ r1 r2 G) as [L|L].
    - left. destruct L as (ts' & last' & c1' & c2' & L & GG & S). do 4 eexists. split; [exact L|]. split; [exact GG|exact S].
    - now right.
  Qed.
End Raw.

Lemma raw_positive us start stop int gap inc d1 p1 d2 rise calc ts last :
  Forall draw us -> (0 < inc)%R -> (0 < d1)%R -> (0 < d2)%R -> (0 <= p1 <= 1)%R -> (0 < rise)%Z -> (0 < calc)%Z -> (day <= gap)%Z ->
  shotNoiseRaw us start stop int gap (Fin inc) (Fin d1) (Fin p1) (Some (Fin d2)) rise (Some calc) = Ok (ts, last) ->
  in_time ts /\ Forall (fun p => above0 (snd p)) ts /\ (exists v, nth_error ts (length ts - 1) = Some (last, v)) /\ (stop <= last)%Z.
Proof.
  intros. destruct (raw_good us start stop int gap inc d1 p1 d2 rise calc) as [(ts' & l' & c1 & c2 & E & G & S)|E]; try assumption; [|congruence].
  rewrite H7 in E. apply Ok_inj in E. pose proof (f_equal fst E) as E1. pose proof (f_equal snd E) as E2. cbn [fst snd] in E1, E2. subst ts' l'.
  destruct G as [A B (l & v & ->) _ _ _]. repeat split; try assumption. exists v.
  rewrite app_length, nth_error_app2 by (cbn; lia). cbn [length]. replace (length l + 1 - 1 - length l)%nat with 0%nat by lia. reflexivity.
Qed.

Lemma fine_good last ts c1 c2 : fine last ts c1 c2 -> good last ts c1 c2.
Proof. intros (A & B & C & D & E & F). constructor; assumption. Qed.
Lemma event_decay d1 d2 p1 p2 rise calc last gap s ts c1 c2 :
  (0 < rise)%Z -> (0 < calc)%Z -> (0 <= p1)%R -> (0 <= p2)%R -> (p1 + p2 = 1)%R -> (0 <= gap)%Z -> (0 <= s)%R -> fine last ts c1 c2 ->
  exists ts0 mid c1' c2',
    shotEvent (Fin d1) (Fin d2) (Fin p1) (Fin p2) rise calc last gap (Fin s) ts (Fin c1) (Fin c2) =
      Ok (ts0 ++ mid ++ [((last + gap)%Z, Fin (left_after d1 c1 gap + left_after d2 c2 gap + s))], Fin c1', Fin c2') /\
    (forall t v, In (t, v) mid -> (last <= t <= last + gap)%Z /\ v = Fin (left_after d1 c1 (t - last) + left_after d2 c2 (t - last))) /\
    (c1' = left_after d1 c1 gap + s * p1 /\ c2' = left_after d2 c2 gap + s * p2)%R /\
    (rise <= gap -> ts0 = ts /\ exists v, In ((last + gap - rise)%Z, v) mid)%Z.
Proof.
  intros Hr Hc P1 P2 PP Hg Hs G. apply fine_good in G.
  destruct (event_shape d1 d2 p1 p2 rise calc Hr Hc last gap s Hs ts c1 c2 G) as (ts0 & times & l & v & E & _ & _ & _ & _ & B & N & _).
  exists ts0, (map (fun t => (t, Fin (left_after d1 c1 (t - last) + left_after d2 c2 (t - last))%R)) times). do 2 eexists.
  split; [rewrite E; replace (c1' d1 p1 gap s c1 + c2' d2 p2 gap s c2)%R with (left_after d1 c1 gap + left_after d2 c2 gap + s)%R by (unfold c1', c2', after1; replace p2 with (1 - p1)%R by lra; ring); reflexivity|].
  split; [|split; [split; reflexivity|]].
  - intros t w H. apply in_map_iff in H as (t' & Q & Ht). pose proof (f_equal fst Q) as Q1. pose proof (f_equal snd Q) as Q2. cbn [fst snd] in Q1, Q2. subst t' w. auto.
  - intros L. destruct (N L) as [-> I]. split; [reflexivity|]. eexists. apply in_map_iff. exists (last + gap - rise)%Z. split; [reflexivity|exact I].
Qed.

(** * C75 *)
Section Stop.
  Context {F : Type} {NF : Num F}.
  Lemma loop_events draws (rate inc d1 d2 p1 p2 : F) rise calc stop : forall last ts c1 c2 ts' last',
    shotLoop draws rate inc d1 d2 p1 p2 rise calc stop last ts c1 c2 = Ok (ts', last') ->
    exists gaps, Forall2 (fun d g => gapOf rate (fst d) = Ok g) (firstn (length gaps) draws) gaps /\
      (forall k t, (k < length gaps)%nat -> nth_error (eventTimes last gaps) k = Some t -> (t < stop)%Z) /\
      nth_error (eventTimes last gaps) (length gaps) = Some last' /\ (stop <= last')%Z.
  Proof.
    induction draws as [|[u w] draws IH]; intros last ts c1 c2 ts' last' H; cbn [shotLoop] in H; destruct (last <? stop)%Z eqn:E; try discriminate.
    - apply Z.ltb_ge in E. injection H as <- <-. exists []. repeat split; [constructor|cbn; intros; lia|exact E].
    - apply bind_ok in H as (g & Hg & H). apply bind_ok in H as (s & Hs & H). apply bind_ok in H as ([[ts1 c1'] c2'] & He & H).
      apply IH in H as (gaps & A & B & C & D). exists (g :: gaps). cbn [length firstn eventTimes]. repeat split; [| |exact C|exact D].
      + constructor; [exact Hg|exact A].
      + intros [|k] t L Ht; cbn [nth_error] in Ht; [apply Z.ltb_lt in E; apply Some_inj in Ht; lia|]. apply (B k t); [lia|exact Ht].
    - apply Z.ltb_ge in E. injection H as <- <-. exists []. repeat split; [constructor|cbn; intros; lia|exact E].
  Qed.
End Stop.
Lemma raw_events {F} {NF : Num F} us start stop int gap (inc d1 p1 : F) d2 rise calc ts last :
  shotNoiseRaw us start stop int gap inc d1 p1 d2 rise calc = Ok (ts, last) ->
  exists gaps, Forall2 (fun d g => gapOf (f1 / fofZ (gap / day))%n (fst d) = Ok g) (firstn (length gaps) us) gaps /\
    (forall k t, (k < length gaps)%nat -> nth_error (eventTimes start gaps) k = Some t -> (t < stop)%Z) /\
    nth_error (eventTimes start gaps) (length gaps) = Some last /\ (stop <= last)%Z.
Proof.
  intros H. unfold shotNoiseRaw in H. apply bind_ok in H as ([[[[rate p2] r1] r2] d2'] & S & H).
  assert (rate = f1 / fofZ (gap / day))%n as ->.
  { unfold shotSetup in S. apply bind_ok in S as (? & _ & S). apply bind_ok in S as (? & _ & S). apply bind_ok in S as (? & _ & S). apply bind_ok in S as (? & _ & S).
    destruct (_ =? 0)%Z; [discriminate|]. destruct d2; [|discriminate]. destruct (feqb _ _); [discriminate|].
    apply Ok_inj in S. pose proof (f_equal (fun p => fst (fst (fst (fst p)))) S) as Q. cbn [fst] in Q. symmetry. exact Q. }
  eapply loop_events. exact H.
Qed.

(** A draw whose gap is shorter than a nanosecond. *)
Lemma zero_gap rate : (0 < rate)%R -> exists u, (0 < u < 1)%R /\ gapOf (Fin rate) (Fin u) = Ok 0%Z.
Proof.
  intros Pr. set (e := (rate / (2 * IZR nsPerDay))%R).
  assert (PN : (0 < IZR nsPerDay)%R) by (apply IZR_lt; reflexivity).
  assert (Pe : (0 < e)%R) by (unfold e; apply Rdiv_lt_0_compat; lra).
  exists (exp (- e)). assert (U : (0 < exp (- e) < 1)%R).
  { split; [apply exp_pos|]. pose proof (exp_increasing (- e) 0 ltac:(lra)) as Q. rewrite exp_0 in Q. exact Q. }
  split; [exact U|]. unfold gapOf. xg. rdecide. f_equal. unfold xlog. destruct (Rlt_dec 0 (exp (- e))); [|lra]. xg. rewrite xdiv_fin by lra. xg.
  apply Rfloor_unique. rewrite ln_exp. unfold e. replace (- - (rate / (2 * IZR nsPerDay)) / rate * IZR nsPerDay)%R with (1 / 2)%R by (field; lra). lra.
Qed.
Lemma never_ends start stop int gap inc d1 p1 d2 rise calc :
  (0 < inc)%R -> (0 < d1)%R -> (0 < d2)%R -> (0 <= p1 <= 1)%R -> (0 < rise)%Z -> (0 < calc)%Z -> (day <= gap)%Z -> (start < stop)%Z ->
  exists u w, (0 < u < 1)%R /\ (0 <= w < 1)%R /\ forall n,
    shotNoise (repeat (Fin u, Fin w) n) start stop int gap (Fin inc) (Fin d1) (Fin p1) (Some (Fin d2)) rise (Some calc) = Exc EFuel.
Proof.
  intros Hinc Hd1 Hd2 Hp Hr Hc Hg L.
  assert (Pd : (1 <= gap / day)%Z) by (unfold day in *; apply Z.div_le_lower_bound; lia).
  pose proof (IZR_le _ _ Pd) as Pd'. set (rate := (1 / IZR (gap / day))%R).
  assert (Prate : (0 < rate)%R) by (unfold rate; apply Rdiv_lt_0_compat; lra).
  destruct (zero_gap rate Prate) as (u & Hu & Z0). exists u, 0%R. split; [exact Hu|]. split; [lra|]. intros n.
  assert (D : Forall draw (repeat (Fin u, Fin 0) n)).
  { apply Forall_forall. intros x Hx. apply repeat_spec in Hx. subst x. exists u, 0%R. split; [reflexivity|]. split; [exact Hu|lra]. }
  unfold shotNoise. destruct (raw_good _ start stop int gap inc d1 p1 d2 rise calc D Hinc Hd1 Hd2 Hp Hr Hc Hg) as [(ts & l & c1 & c2 & E & G & S)|E]; [|now rewrite E].
  exfalso. destruct (raw_events _ _ _ _ _ _ _ _ _ _ _ _ _ E) as (gaps & A & _ & C & _).
  assert (Forall (eq 0%Z) gaps) as AZ.
  { apply Forall_forall. intros g Hin. apply In_nth_error in Hin as [k Hk]. assert (LA : length (firstn (length gaps) (repeat (Fin u, Fin 0) n)) = length gaps) by (clear -A; induction A; cbn [length]; congruence).
    destruct (nth_error (firstn (length gaps) (repeat (Fin u, Fin 0) n)) k) as [x|] eqn:Ex; [|apply nth_error_None in Ex; pose proof (nth_lt _ _ _ Hk); lia].
    assert (x = (Fin u, Fin 0)) as ->. { apply nth_error_In in Ex. apply (repeat_spec n). revert Ex. clear. intros I. rewrite <- (firstn_skipn (length gaps)). apply in_or_app. now left. }
    assert (P : forall (l : list (xr * xr)) m k x g, Forall2 (fun d g => gapOf (f1 / fofZ (gap / day))%n (fst d) = Ok g) l m -> nth_error l k = Some x -> nth_error m k = Some g ->
       gapOf (f1 / fofZ (gap / day))%n (fst x) = Ok g).
    { intros l0 m k0 x g0 F2. revert k0. induction F2; intros [|k0] X Y; try discriminate; cbn [nth_error] in X, Y; [injection X as ->; injection Y as ->; assumption|eauto]. }
    specialize (P _ _ _ _ _ A Ex Hk). cbn [fst] in P. revert P. xg. rewrite xdiv_fin by lra. fold rate. rewrite Z0. intros P. apply Ok_inj in P. exact P. }
  assert (Q : forall gs t k x, Forall (eq 0%Z) gs -> nth_error (eventTimes t gs) k = Some x -> x = t).
  { induction gs as [|g gs IH]; intros t [|k] x F2 X; cbn [eventTimes nth_error] in X; try (now injection X); [destruct k; discriminate|].
    inversion F2; subst. apply IH in X; [lia|assumption]. }
  apply Q in C; [lia|exact AZ].
Qed.
