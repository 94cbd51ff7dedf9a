(** The plan view over the real numbers. *)
From Coq Require Import ZArith List Bool Lia Reals Lra.
From Verif Require Import Base Num Xr MState MGeom MRiv MMor MOut MLoad MVis SLine SPlan PTrans PRate PVis PLine PPlan.
Import ListNotations.
Local Open Scope R_scope.

Lemma halfn r : (Fin r / f2)%n = Fin (r / 2).
Proof. unfold f2. rewrite xofZ, xdivf by lra. reflexivity. Qed.

Section Lines.
  Variable T : list (tsect xr).
  Variable c : tsect xr -> xr.
  Variable l : list (R * R).
  Hypothesis Hl : feature c T = nodes l.
  Hypothesis Hr : rightward l.

  Lemma feature_nth i t : nth_error T i = Some t -> exists p, nth_error l i = Some p /\ tX t = Fin (fst p) /\ c t = Fin (snd p).
  Proof.
    intros H. pose proof (f_equal (fun u => nth_error u i) Hl) as E. unfold feature, nodes in E. rewrite !nth_error_map, H in E.
    destruct (nth_error l i) as [p|]; cbn in E; [|discriminate]. exists p. split; [reflexivity|]. split; congruence.
  Qed.
  Lemma feature_in t : In t T -> exists x y, tX t = Fin x /\ c t = Fin y /\ In (x, y) l /\ on_line l x y.
  Proof.
    intros H. apply In_nth_error in H as [i H]. destruct (feature_nth _ _ H) as ([x y] & Hp & Hx & Hy). cbn in *. exists x, y. split; [exact Hx|]. split; [exact Hy|].
    split; [eapply nth_error_In; eauto|].
    destruct (nth_error l (S i)) as [q|] eqn:Eq.
    - assert (x < fst q) by (apply (rightward_nth l Hr i (S i) (x, y) q); auto). apply (ol_mid _ _ _ i (x, y) q); auto; cbn; [lra|ring].
    - apply nth_error_None in Eq. assert (i < length l)%nat by (apply nth_error_Some; congruence).
      apply (ol_right _ _ _ (x, y)); cbn; [|lra|reflexivity]. replace (length l - 1)%nat with i by lia. exact Hp.
  Qed.
  Lemma feature_at x : T <> [] -> exists y, interpN (col c T) (Fin x) = Fin y /\ on_line l x y.
  Proof.
    intros N. unfold interpN. change (fisnan (Fin x)) with false. cbv iota. change (col c T) with (feature c T). rewrite Hl. apply interp_spec; [exact Hr|].
    intros E. subst l. destruct T; [congruence|discriminate Hl].
  Qed.

  (** A part of the line, up to or from a given point. *)
  Lemma part_left x y : on_line l x y ->
    let L := col c (filter (fun t => tX t <=? Fin x)%n T) ++ [(Fin x, Fin y)] in
    along L l (fun a => a <= x) /\ ends L (Fin x, Fin y) /\ (forall a b, In (a, b) l -> a <= x -> In (Fin a, Fin b) L).
  Proof.
    intros O L. split; [|split; [apply ends_one|]].
    - intros i a Ha. apply nth_error_In in Ha. unfold L in Ha. apply in_app_or in Ha as [Ha|[<-|[]]].
      + apply in_map_iff in Ha as (t & <- & It). apply filter_In in It as [It Hx]. destruct (feature_in t It) as (u & v & E1 & E2 & _ & O').
        rewrite E1, E2. rewrite E1 in Hx. apply (proj1 (Rleb_true u x)) in Hx. exists u, v. auto.
      + exists x, y. split; [reflexivity|]. split; [exact O|lra].
    - intros a b I Hx. apply in_or_app. left.
      assert (J : In (Fin a, Fin b) (nodes l)) by (apply in_map_iff; exists (a, b); auto). rewrite <- Hl in J. apply in_map_iff in J as (t & E & It).
      injection E as E1 E2. apply in_map_iff. exists t. split; [congruence|]. apply filter_In. split; [exact It|]. rewrite E1. now apply (proj2 (Rleb_true a x)).
  Qed.
  Lemma part_right x y : on_line l x y ->
    let L := (Fin x, Fin y) :: col c (filter (fun t => Fin x <=? tX t)%n T) in
    along L l (fun a => x <= a) /\ starts L (Fin x, Fin y) /\ (forall a b, In (a, b) l -> x <= a -> In (Fin a, Fin b) L).
  Proof.
    intros O L. split; [|split; [reflexivity|]].
    - intros i a Ha. apply nth_error_In in Ha. destruct Ha as [<-|Ha].
      + exists x, y. split; [reflexivity|]. split; [exact O|lra].
      + apply in_map_iff in Ha as (t & <- & It). apply filter_In in It as [It Hx]. destruct (feature_in t It) as (u & v & E1 & E2 & _ & O').
        rewrite E1, E2. rewrite E1 in Hx. apply (proj1 (Rleb_true x u)) in Hx. exists u, v. auto.
    - intros a b I Hx. right.
      assert (J : In (Fin a, Fin b) (nodes l)) by (apply in_map_iff; exists (a, b); auto). rewrite <- Hl in J. apply in_map_iff in J as (t & E & It).
      injection E as E1 E2. apply in_map_iff. exists t. split; [congruence|]. apply filter_In. split; [exact It|]. rewrite E1. now apply (proj2 (Rleb_true x a)).
  Qed.
End Lines.

Lemma ends_fun {A} (l : list A) a b : ends l a -> ends l b -> a = b.
Proof. unfold ends. congruence. Qed.
Lemma starts_fun {A} (l : list A) a b : starts l a -> starts l b -> a = b.
Proof. unfold starts. congruence. Qed.

Lemma open_nonempty (T : list (tsect xr)) o rw spit e0 e1 w p : planView T o false rw spit e0 e1 w = Ok p -> T <> [].
Proof. intros H ->. destruct (proj1 (plan_ok [] o false rw spit e0 e1 w)) as [L _]; [eauto|]. cbn in L. lia. Qed.

(** Shoreline left and right of the mouth, nothing across it. *)
Lemma plan_shore T o rw spit e0 m d p shore :
  feature tY0 T = nodes shore -> rightward shore ->
  planView T o false rw spit e0 (Fin m) (Fin d) = Ok p ->
  exists L R yl yr, pieces (plShore p) L R /\ on_line shore (m - d / 2) yl /\ on_line shore (m + d / 2) yr /\
    along L shore (fun x => x <= m - d / 2) /\ ends L (Fin (m - d / 2), Fin yl) /\
    along R shore (fun x => m + d / 2 <= x) /\ starts R (Fin (m + d / 2), Fin yr) /\
    (forall x y, In (x, y) shore -> (x <= m - d / 2 -> In (Fin x, Fin y) L) /\ (m + d / 2 <= x -> In (Fin x, Fin y) R)) /\
    exists lb rb, pieces (plOutlet p) lb rb /\ ends lb (Fin (m - d / 2), Fin yl) /\ ends rb (Fin (m + d / 2), Fin yr).
Proof.
  intros Hs Hr H. pose proof (open_nonempty _ _ _ _ _ _ _ _ H) as N.
  destruct (open_inv _ _ _ _ _ _ _ _ H) as (b & a & z & Hb & _ & _ & l0 & r0 & l1 & r1 & rl & rr & _ & _ & E1 & E2 & _ & _ & _ & S & O & _).
  destruct (banks_inv _ _ _ _ _ _ _ Hb) as (? & ? & ? & ? & _ & _ & _ & _ & (_ & B & _) & (_ & C & _)).
  rewrite halfn in *. rewrite PRate.xsub in *. rewrite PRate.xadd in *.
  destruct (feature_at T tY0 shore Hs Hr (m - d / 2) N) as (yl & Yl & Ol). destruct (feature_at T tY0 shore Hs Hr (m + d / 2) N) as (yr & Yr & Or).
  rewrite Yl in B. rewrite Yr in C. pose proof (ends_fun _ _ _ E1 B). pose proof (ends_fun _ _ _ E2 C). subst l1 r1.
  destruct (part_left T tY0 shore Hs Hr _ _ Ol) as (P1 & P2 & P3). destruct (part_right T tY0 shore Hs Hr _ _ Or) as (Q1 & Q2 & Q3).
  do 2 eexists. exists yl, yr. split; [exact S|]. do 6 (split; [assumption|]). split; [intros ux uy I; split; [now apply P3|now apply Q3]|].
  do 2 eexists. split; [exact O|]. auto.
Qed.

(** The outermost transects with a lagoon. *)
Lemma outermost best (bestR : R -> R -> R) (le : R -> R -> Prop) :
  (forall a b, best (Fin a) (Fin b) = Fin (bestR a b)) -> (forall a b, (bestR a b = a \/ bestR a b = b) /\ le (bestR a b) a /\ le (bestR a b) b) ->
  (forall a b c, le a b -> le b c -> le a c) -> (forall a, le a a) ->
  forall l a, exists r, fold_left best (map Fin l) (Fin a) = Fin r /\ In r (a :: l) /\ forall b, In b (a :: l) -> le r b.
Proof.
  intros HB HR TR RF. induction l as [|b l IH]; intros a; cbn [map fold_left].
  - exists a. split; [reflexivity|]. split; [now left|]. intros b [<-|[]]. apply RF.
  - rewrite HB. destruct (IH (bestR a b)) as (r & E & I & M). destruct (HR a b) as (D & LA & LB). exists r. split; [exact E|]. split.
    + destruct I as [<-|I]; [|right; now right]. destruct D as [->| ->]; [now left|right; now left].
    + assert (le r (bestR a b)) by (apply M; now left). intros c [<-|[<-|I']]; [eapply TR; eauto|eapply TR; eauto|apply M; now right].
Qed.

Lemma lag_extent T lag (Hl : feature tY3 T = nodes lag) best bestR le :
  (forall a b, best (Fin a) (Fin b) = Fin (bestR a b)) -> (forall a b, (bestR a b = a \/ bestR a b = b) /\ le (bestR a b) a /\ le (bestR a b) b) ->
  (forall a b c : R, le a b -> le b c -> le a c) -> (forall a, le a a) ->
  (exists t, In t T /\ has_lagoon t) ->
  exists r, lagEnd best T = Fin r /\ (exists t, In t T /\ has_lagoon t /\ tX t = Fin r) /\
    forall t u, In t T -> has_lagoon t -> tX t = Fin u -> le r u.
Proof.
  intros HB HR TR RF HL. unfold lagEnd. apply lag_some in HL. set (f := filter _ T) in *.
  assert (X : exists xs, map tX f = map Fin xs).
  { assert (I : incl f T) by (intros t Ht; apply filter_In in Ht; tauto). clear HL. clearbody f. induction f as [|t f IH]; [now exists []|].
    destruct IH as [xs Ex]; [intros u Hu; apply I; now right|]. assert (It : In t T) by (apply I; now left). apply In_nth_error in It as [i Hi].
    destruct (feature_nth T tY3 lag Hl _ _ Hi) as (p & _ & E & _). exists (fst p :: xs). cbn. congruence. }
  destruct X as [xs EX]. destruct f as [|t f0] eqn:Ef; [congruence|]. destruct xs as [|x xs]; [discriminate|]. cbn in EX. injection EX as E0 EX.
  rewrite E0, EX. destruct (outermost best bestR le HB HR TR RF xs x) as (r & E & I & M). exists r. split; [exact E|].
  assert (Q : map tX (t :: f0) = map Fin (x :: xs)) by (cbn; congruence). split.
  - assert (J : In (Fin r) (map tX (t :: f0))) by (rewrite Q; now apply in_map). apply in_map_iff in J as (u & Eu & Iu). rewrite <- Ef in Iu; unfold f in Iu. apply filter_In in Iu as [Iu Lu]. exists u. auto.
  - intros u v Iu Lu Eu. apply M. assert (J : In u (t :: f0)) by (rewrite <- Ef; unfold f; apply filter_In; auto). apply (in_map tX) in J. rewrite Q, Eu in J.
    apply in_map_iff in J as (v' & Ev & Iv). injection Ev as <-. exact Iv.
Qed.

Lemma plan_lagoon T o rw spit x0 e1 w p lag o0 t0 y1 y2 :
  feature tY3 T = nodes lag -> rightward lag -> starts o o0 -> nth_error T o0 = Some t0 -> tY1 t0 = Fin y1 -> tY2 t0 = Fin y2 ->
  planView T o false rw spit (Fin x0) e1 w = Ok p ->
  exists L R xl xr yl yr dx ml mr, pieces (plLagoon p) L R /\
    (exists a b, nth_error lag 0 = Some a /\ nth_error lag 1 = Some b /\ dx = fst b - fst a) /\
    (exists t, In t T /\ has_lagoon t /\ tX t = Fin ml) /\ (exists t, In t T /\ has_lagoon t /\ tX t = Fin mr) /\
    (forall t u, In t T -> has_lagoon t -> tX t = Fin u -> ml <= u <= mr) /\
    xl = Rmax (x0 - (y1 - y2) / 2) (ml - dx) /\ xr = Rmin (x0 + (y1 - y2) / 2) (mr + dx) /\
    on_line lag xl yl /\ on_line lag xr yr /\
    along L lag (fun x => x <= xl) /\ ends L (Fin xl, Fin yl) /\
    along R lag (fun x => xr <= x) /\ starts R (Fin xr, Fin yr) /\
    (forall x y, In (x, y) lag -> (x <= xl -> In (Fin x, Fin y) L) /\ (xr <= x -> In (Fin x, Fin y) R)) /\
    exists lb rb, pieces (plOutlet p) lb rb /\ starts lb (Fin xl, Fin yl) /\ starts rb (Fin xr, Fin yr).
Proof.
  intros Hl Hr Ho Ht Y1 Y2 H. pose proof (open_nonempty _ _ _ _ _ _ _ _ H) as N.
  destruct (proj1 (plan_ok T o false rw spit (Fin x0) e1 w)) as (_ & HL & _); [eauto|].
  destruct (open_inv _ _ _ _ _ _ _ _ H) as (b & a & z & Hb & _ & _ & l0 & r0 & l1 & r1 & rl & rr & E1 & E2 & _ & _ & _ & _ & _ & _ & O & S & _).
  destruct (banks_inv _ _ _ _ _ _ _ Hb) as (ta & tc & o0' & t0' & Ta & Tc & Ho' & Ht' & (B & _) & (C & _)).
  pose proof (starts_fun _ _ _ Ho Ho'). subst o0'. rewrite Ht in Ht'. apply Some_inj in Ht'. subst t0'.
  destruct (feature_nth T tY3 lag Hl _ _ Ta) as (pa & Pa & Xa & _). destruct (feature_nth T tY3 lag Hl _ _ Tc) as (pc & Pc & Xc & _).
  destruct (lag_extent T lag Hl fminimum Rmin Rle) as (ml & Ml & Il & Al); auto using Rle_refl.
  { intros. apply xmin. } { intros u v. unfold Rmin. destruct (Rle_dec u v); (split; [auto|lra]). } { intros; lra. }
  destruct (lag_extent T lag Hl fmaximum Rmax (fun u v => v <= u)) as (mr & Mr & Ir & Ar); auto using Rle_refl.
  { intros. apply xmax. } { intros u v. unfold Rmax. destruct (Rle_dec u v); (split; [auto|lra]). } { intros; lra. } 
  rewrite Y1, Y2, Ml, Xa, Xc, !PRate.xsub, halfn, !PRate.xsub, pymax_fin in B.
  rewrite Y1, Y2, Mr, Xa, Xc, !PRate.xsub, halfn, !PRate.xadd, pymin_fin in C.
  set (xl := Rmax _ _) in B. set (xr := Rmin _ _) in C.
  destruct (feature_at T tY3 lag Hl Hr xl N) as (yl & Yl & Ol). destruct (feature_at T tY3 lag Hl Hr xr N) as (yr & Yr & Or).
  rewrite Yl in B. rewrite Yr in C. pose proof (starts_fun _ _ _ E1 B). pose proof (starts_fun _ _ _ E2 C). subst l0 r0. cbn [fst] in S.
  destruct (part_left T tY3 lag Hl Hr _ _ Ol) as (P1 & P2 & P3). destruct (part_right T tY3 lag Hl Hr _ _ Or) as (Q1 & Q2 & Q3).
  do 2 eexists. exists xl, xr, yl, yr, (fst pc - fst pa), ml, mr. split; [exact S|]. split; [exists pa, pc; auto|]. do 2 (split; [assumption|]).
  split; [intros t u A1 A2 A3; split; [eapply Al|eapply Ar]; eauto|]. do 2 (split; [reflexivity|]). do 6 (split; [assumption|]).
  split; [intros ux uy I; split; [now apply P3|now apply Q3]|].
  do 2 eexists. split; [exact O|]. auto.
Qed.

(** Cliff and river banks. *)
Lemma plan_cliff T o closed r spit e0 e1 w p cliff :
  feature tY4 T = nodes cliff -> rightward cliff ->
  planView T o closed (Fin r) spit e0 e1 w = Ok p ->
  exists L R yl yr, pieces (plCliff p) L R /\ on_line cliff (- r / 2) yl /\ on_line cliff (r / 2) yr /\
    along L cliff (fun x => x <= - r / 2) /\ ends L (Fin (- r / 2), Fin yl) /\
    along R cliff (fun x => r / 2 <= x) /\ starts R (Fin (r / 2), Fin yr) /\
    (forall x y, In (x, y) cliff -> (x <= - r / 2 -> In (Fin x, Fin y) L) /\ (r / 2 <= x -> In (Fin x, Fin y) R)) /\
    pieces (plRiver p) [(Fin (- r / 2), Fin (-5000)); (Fin (- r / 2), Fin yl)] [(Fin (r / 2), Fin (-5000)); (Fin (r / 2), Fin yr)].
Proof.
  intros Hs Hr H.
  assert (N : T <> []).
  { intros ->. assert (Q : exists p, planView ([] : list (tsect xr)) o closed (Fin r) spit e0 e1 w = Ok p) by eauto. apply plan_ok in Q. destruct closed; [congruence|]. destruct Q as [Q _]. cbn in Q. lia. }
  assert (K : exists rl rr, riverL T (Fin r) = Ok rl /\ riverR T (Fin r) = Ok rr /\ plCliff p = cliffL T (Fin r) ++ lifted :: cliffR T (Fin r) /\ plRiver p = rl ++ lifted :: rr).
  { destruct closed.
    - unfold planView in H. apply bind_ok in H as (rl & Rl & H). apply bind_ok in H as (rr & Rr & H). apply bind_ok in H as (h & _ & H).
      apply bind_ok in H as (a & _ & H). apply bind_ok in H as (z & _ & H). apply Ok_inj in H. subst p. exists rl, rr. auto.
    - destruct (open_inv _ _ _ _ _ _ _ _ H) as (b & a & z & _ & _ & _ & l0 & r0 & l1 & r1 & rl & rr & _ & _ & _ & _ & E1 & E2 & _ & _ & _ & _ & E3 & E4 & _). exists rl, rr. auto. }
  destruct K as (rl & rr & Rl & Rr & Ec & Er).
  destruct (feature_at T tY4 cliff Hs Hr (- r / 2) N) as (yl & Yl & Ol). destruct (feature_at T tY4 cliff Hs Hr (r / 2) N) as (yr & Yr & Or).
  destruct (part_left T tY4 cliff Hs Hr _ _ Ol) as (P1 & P2 & P3). destruct (part_right T tY4 cliff Hs Hr _ _ Or) as (Q1 & Q2 & Q3).
  assert (EL : cliffL T (Fin r) = col tY4 (filter (fun t => tX t <=? Fin (- r / 2))%n T) ++ [(Fin (- r / 2), Fin yl)]).
  { unfold cliffL. rewrite PRate.xopp, halfn, Yl. reflexivity. }
  assert (ER : cliffR T (Fin r) = (Fin (r / 2), Fin yr) :: col tY4 (filter (fun t => Fin (r / 2) <=? tX t)%n T)).
  { unfold cliffR. rewrite halfn, Yr. reflexivity. }
  unfold riverL in Rl. apply bind_ok in Rl as (z & Ez & Rl). apply last_ends in Ez. rewrite EL in Ez. pose proof (ends_fun _ _ _ Ez P2). subst z. cbn [snd] in Rl.
  unfold riverR in Rr. rewrite ER in Rr. cbn [ix nth_error of_opt bind snd] in Rr. apply Ok_inj in Rl, Rr. unfold far in *. rewrite ?xofZ, ?PRate.xopp, ?halfn in Rl, Rr. subst rl rr.
  rewrite EL, ER in Ec. do 2 eexists. exists yl, yr. split; [exact Ec|]. do 6 (split; [assumption|]). split; [intros ux uy I; split; [now apply P3|now apply Q3]|].
  unfold pieces. rewrite Er. change (- IZR 5000) with (-5000). reflexivity.
Qed.

(** Bank vertices over the channel, except the first two and the last three, are edges of the channel. *)
Lemma plan_banks {F} {NF : Num F} (T : list (tsect F)) o rw spit e0 e1 w p : planView T o false rw spit e0 e1 w = Ok p ->
  exists lb rb, pieces (plOutlet p) lb rb /\
    forall i a, (2 <= i)%nat -> (nth_error lb i = Some a /\ (i + 3 < length lb)%nat) \/ (nth_error rb i = Some a /\ (i + 3 < length rb)%nat) ->
      exists k t, In k o /\ nth_error T k = Some t /\ (a = (tX t, tY1 t) \/ a = (tX t, tY2 t)).
Proof.
  intros H. destruct (open_inv _ _ _ _ _ _ _ _ H) as (b & a & z & Hb & _ & _ & l0 & r0 & l1 & r1 & rl & rr & _ & _ & _ & _ & _ & _ & _ & _ & O & _).
  destruct (banks_inv _ _ _ _ _ _ _ Hb) as (? & ? & ? & ? & _ & _ & _ & _ & (_ & _ & _ & B) & (_ & _ & _ & C)).
  do 2 eexists. split; [exact O|]. intros i v H2 [[E L]|[E L]]; [destruct (B i H2 L) as (k & t & K1 & K2 & K3)|destruct (C i H2 L) as (k & t & K1 & K2 & K3)];
  exists k, t; (split; [exact K1|]); (split; [exact K2|]); destruct K3 as [K3|K3]; rewrite K3 in E; apply Some_inj in E; auto.
Qed.

(** The wave arrow. *)
Lemma arrow pw th s : 0 <= pw -> 0 < s ->
  exists dx dy wd, waveArrow (Fin pw) (Fin th) (Fin s) = (Fin dx, Fin dy, Fin wd) /\ 1 / 1000 <= wd /\
    (- (PI / 2) < th < PI / 2 -> dx = - (sin th) * (pw * s) /\ dy = - (cos th) * (pw * s) /\ dy <= 0 /\ dx * dx + dy * dy = (pw * s) * (pw * s)) /\
    (th <= - (PI / 2) \/ PI / 2 <= th -> dx * dx + dy * dy = (s / 100) * (s / 100)).
Proof.
  intros Hp Hs. unfold waveArrow. cbv zeta. change (@fpi xr xr_num) with (Fin PI). change (fsin (Fin th)) with (Fin (sin th)). change (fcos (Fin th)) with (Fin (cos th)).
  rewrite !PRate.xopp, !halfn. change (Fin (- PI / 2) <? Fin th)%n with (Rltb (- PI / 2) th). change (Fin th <? Fin (PI / 2))%n with (Rltb th (PI / 2)).
  rewrite !xq. pose proof (sin2_cos2 th) as SC. unfold Rsqr in SC.
  destruct (Rltb (- PI / 2) th) eqn:E1; [destruct (Rltb th (PI / 2)) eqn:E2|]; cbn [andb]; rewrite !PRate.xmul, ?xofZ, xdivf, xmax by lra; do 3 eexists; (split; [reflexivity|]).
  - apply Rltb_true in E1, E2. split; [eapply Rle_trans; [|apply Rmax_r]; lra|]. split; [|intros; lra]. intros _.
    assert (0 < cos th) by (apply cos_gt_0; lra). split; [ring|]. split; [ring|]. split; [assert (0 <= cos th * (pw * s)) by (apply Rmult_le_pos; [lra|apply Rmult_le_pos; lra]); lra|].
    replace (- sin th * pw * s * (- sin th * pw * s) + - cos th * pw * s * (- cos th * pw * s)) with ((sin th * sin th + cos th * cos th) * (pw * s * (pw * s))) by ring. rewrite SC. ring.
  - apply Rltb_false in E2. split; [eapply Rle_trans; [|apply Rmax_r]; lra|]. split; [intros; lra|]. intros _.
    match goal with |- ?l = _ => replace l with ((sin th * sin th + cos th * cos th) * (s / 100 * (s / 100))) by field end. rewrite SC. ring.
  - apply Rltb_false in E1. split; [eapply Rle_trans; [|apply Rmax_r]; lra|]. split; [intros; lra|]. intros _.
    match goal with |- ?l = _ => replace l with ((sin th * sin th + cos th * cos th) * (s / 100 * (s / 100))) by field end. rewrite SC. ring.
Qed.
