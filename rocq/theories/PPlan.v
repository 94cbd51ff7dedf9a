(** Proofs about the plan view. *)
From Coq Require Import ZArith List Bool Lia Reals Lra.
From Verif Require Import Base Num Xr MState MGeom MRiv MMor MOut MLoad MVis SLine SPlan PTrans.
Import ListNotations.

Local Tactic Notation "bok" hyp(H) ident(x) := let e := fresh "H" x in apply bind_ok in H; destruct H as (x & e & H).

Section Generic.
  Context {F : Type} {NF : Num F}.
  Implicit Type T : list (tsect F).

  Lemma last_some {A} (l : list A) : l <> [] -> exists z, last_ l = Ok z /\ ends l z.
  Proof.
    intros H. rewrite last_nth. unfold ends. destruct (nth_error l (length l - 1)) as [z|] eqn:E.
    - exists z. auto.
    - apply nth_error_None in E. destruct l; [congruence|]. cbn in E. lia.
  Qed.
  Lemma last_ends {A} (l : list A) z : last_ l = Ok z -> ends l z.
  Proof. rewrite last_nth. unfold ends. destruct (nth_error l (length l - 1)); cbn; congruence. Qed.

  Lemma gather_total {A} (l : list A) o : Forall (fun i => i < length l) o -> exists ts, gather l o = Ok ts /\ length ts = length o.
  Proof.
    intros H. assert (exists ts, gather l o = Ok ts) as [ts E].
    { induction H as [|i o Hi H [ts IH]]; [now exists []|]. apply nth_error_Some in Hi. destruct (nth_error l i) as [t|] eqn:E; [|congruence].
      exists (t :: ts). apply gather_ok. constructor; [exact E|]. now apply gather_ok. }
    exists ts. split; [exact E|]. now apply gather_length in E.
  Qed.

  (** The points of a bank. *)
  Definition shape (c : tsect F -> F) T ts us ds (lx ly : list F) k : Prop :=
    exists ok y1 yt, incl ok ts /\ length yt = k /\ (2 <= k <= 3) /\
      (exists xt, length xt = k /\ lx = us :: us :: map tX ok ++ xt /\ nth_error xt (k - 1) = Some ds) /\
      ly = interpN (col tY3 T) us :: y1 :: map c ok ++ yt /\
      nth_error yt (k - 1) = Some (interpN (col tY0 T) ds).

  Lemma leftBank_inv T o spit e1 w us ds lx ly : leftBank T o spit e1 w us ds = Ok (lx, ly) ->
    exists ts, gather T o = Ok ts /\ (shape tY1 T ts us ds lx ly 2 \/ shape tY2 T ts us ds lx ly 3).
  Proof.
    unfold leftBank. intros H. bok H ts. bok H t0. exists ts. split; [assumption|].
    destruct (us <? ds)%n; apply Ok_inj in H; injection H as <- <-; [left|right].
    - exists (filter (fun t => tX t <? ds)%n ts). do 2 eexists. split; [intros a Ha; apply filter_In in Ha; tauto|].
      split; [|split; [lia|split]]; [| |split; [reflexivity|]]; [reflexivity| |reflexivity].
      exists [ds; ds]. auto.
    - exists (filter (fun t => tX t <? us)%n ts). do 2 eexists. split; [intros a Ha; apply filter_In in Ha; tauto|].
      split; [|split; [lia|split]]; [| |split; [reflexivity|]]; [reflexivity| |reflexivity].
      exists [pymin e1 us; ds; ds]. auto.
  Qed.
  Lemma rightBank_inv T o spit e1 w us ds lx ly v : rightBank T o spit e1 w us ds = Ok (lx, ly, v) ->
    exists ts, gather T o = Ok ts /\ (shape tY1 T ts us ds lx ly 2 \/ shape tY2 T ts us ds lx ly 3).
  Proof.
    unfold rightBank. intros H. bok H ts. bok H t0. exists ts. split; [assumption|].
    destruct (us <? ds)%n; apply Ok_inj in H; injection H as <- <- _; [right|left].
    - exists (filter (fun t => us <? tX t)%n ts). do 2 eexists. split; [intros a Ha; apply filter_In in Ha; tauto|].
      split; [|split; [lia|split]]; [| |split; [reflexivity|]]; [reflexivity| |reflexivity].
      exists [pymax e1 us; ds; ds]. auto.
    - exists (filter (fun t => ds <? tX t)%n ts). do 2 eexists. split; [intros a Ha; apply filter_In in Ha; tauto|].
      split; [|split; [lia|split]]; [| |split; [reflexivity|]]; [reflexivity| |reflexivity].
      exists [ds; ds]. auto.
  Qed.

  Lemma squareEnds_ok (y : list F) : 2 <= length y -> exists y', squareEnds y = Ok y'.
  Proof.
    intros H. unfold squareEnds. destruct y as [|a [|b y]]; cbn in H; try lia. unfold ix at 1. cbn [nth_error of_opt bind].
    unfold ix at 1. cbn [nth_error of_opt bind]. unfold fromEnd, ix. set (l := rev _).
    assert (L : length l = length (a :: b :: y)) by (unfold l; rewrite rev_length, upd_length; reflexivity).
    destruct l as [|p [|q l]]; cbn in L; try lia. cbn. eauto.
  Qed.
  Lemma squareEnds_inv (y y' : list F) : squareEnds y = Ok y' ->
    length y' = length y /\ forall j, j <> 1 -> j <> length y - 2 -> nth_error y' j = nth_error y j.
  Proof.
    unfold squareEnds. intros H. bok H a. bok H b. bok H p. bok H q. apply Ok_inj in H. subst y'. unfold updEnd. rewrite !upd_length.
    split; [reflexivity|]. intros j H1 H2. rewrite !nth_error_upd_ne by auto. reflexivity.
  Qed.

  Lemma shape_len c T ts us ds lx ly k : shape c T ts us ds lx ly k -> length lx = length ly /\ 4 <= length ly.
  Proof.
    intros (ok & y1 & yt & _ & Lk & Hk & (xt & Lx & -> & _) & -> & _). cbn [length]. rewrite !app_length, !map_length. lia.
  Qed.

  Lemma lag_some T : (exists t, In t T /\ has_lagoon t) <-> filter (fun t => tY4 t <? tY3 t)%n T <> [].
  Proof.
    split.
    - intros (t & I & H) E. assert (J : In t (filter (fun t => tY4 t <? tY3 t)%n T)) by (apply filter_In; auto). rewrite E in J. destruct J.
    - destruct (filter _ T) as [|t l] eqn:E; [congruence|]. intros _. exists t. assert (J : In t (filter (fun t => tY4 t <? tY3 t)%n T)) by (rewrite E; now left).
      apply filter_In in J. exact J.
  Qed.

  Lemma banks_ok T o spit e0 e1 w :
    (exists b, outletBanks T o spit e0 e1 w = Ok b) <->
    2 <= length T /\ (exists t, In t T /\ has_lagoon t) /\ o <> [] /\ Forall (fun i => i < length T) o.
  Proof.
    split.
    - intros [b H]. unfold outletBanks in H. bok H a. bok H c. bok H l0. bok H o0. bok H t0. bok H l. destruct l as [lx ly].
      destruct (leftBank_inv _ _ _ _ _ _ _ _ _ Hl) as (ts & G & _). apply ix_ok in Hc.
      split; [apply nth_error_Some; congruence|]. split.
      + apply lag_some. intros E. rewrite E in Hl0. discriminate.
      + split; [intros ->; discriminate Ho0|]. apply gather_ok in G. clear -G. induction G; constructor; auto. apply nth_error_Some. congruence.
    - intros (L & Hl & No & Ho). apply lag_some in Hl. unfold outletBanks.
      destruct T as [|a [|c T]]; cbn in L; try lia. set (U := a :: c :: T) in *. change (ix U 0) with (Ok a). change (ix U 1) with (Ok c). cbn [bind].
      destruct (filter (fun t => tY4 t <? tY3 t)%n U) as [|l0 lag]; [congruence|]. cbn [nth_error of_opt bind].
      destruct o as [|o0 o]; [congruence|]. change (ix (o0 :: o) 0) with (Ok o0). cbn [bind].
      apply Forall_inv in Ho as H0. apply nth_error_Some in H0. unfold ix at 1. destruct (nth_error U o0) as [t0|]; [|congruence]. cbn [of_opt bind].
      destruct (gather_total U (o0 :: o) Ho) as (ts & G & Lt).
      match goal with |- context [leftBank U ?o ?s ?e ?w ?us ?ds] => set (usL := us); set (dsL := ds);
        destruct (leftBank U o s e w usL dsL) as [[lx ly]|ex] eqn:EL end.
      2:{ exfalso. unfold leftBank in EL. rewrite G in EL. destruct ts; [discriminate Lt|]. cbn [bind ix nth_error of_opt] in EL. destruct (usL <? dsL)%n; discriminate. }
      cbn [bind].
      match goal with |- context [rightBank U ?o ?s ?e ?w ?us ?ds] => set (usR := us); set (dsR := ds);
        destruct (rightBank U o s e w usR dsR) as [[[rx ry] v]|ex] eqn:ER end.
      2:{ exfalso. unfold rightBank in ER. rewrite G in ER. destruct ts; [discriminate Lt|]. cbn [bind ix nth_error of_opt] in ER. destruct (usR <? dsR)%n; discriminate. }
      cbn [bind].
      destruct (leftBank_inv _ _ _ _ _ _ _ _ _ EL) as (? & _ & SL). destruct (rightBank_inv _ _ _ _ _ _ _ _ _ _ ER) as (? & _ & SR).
      assert (L1 : 4 <= length ly) by (destruct SL as [S|S]; apply shape_len in S; tauto).
      assert (L2 : 4 <= length ry) by (destruct SR as [S|S]; apply shape_len in S; tauto).
      destruct (squareEnds_ok (match v with Some v => updEnd ly 3 v | None => ly end)) as [y1 ->].
      { destruct v; unfold updEnd; rewrite ?upd_length; lia. }
      destruct (squareEnds_ok ry) as [y2 ->]; [lia|]. cbn [bind]. eauto.
  Qed.

  (** What a bank looks like after all adjustments. *)
  Definition bank T o us ds (b : list (F * F)) : Prop :=
    starts b (us, interpN (col tY3 T) us) /\ ends b (ds, interpN (col tY0 T) ds) /\ 4 <= length b /\
    forall i, 2 <= i -> i + 3 < length b ->
      exists k t, In k o /\ nth_error T k = Some t /\ (nth_error b i = Some (tX t, tY1 t) \/ nth_error b i = Some (tX t, tY2 t)).

  Lemma combine_nth {A B} (a : list A) (b : list B) i x y : nth_error a i = Some x -> nth_error b i = Some y -> nth_error (combine a b) i = Some (x, y).
  Proof. revert b i. induction a; intros [|] [|] H1 H2; cbn in *; try discriminate; auto. congruence. Qed.

  Lemma gather_in {A} (l : list A) o ts t : gather l o = Ok ts -> In t ts -> exists k, In k o /\ nth_error l k = Some t.
  Proof.
    intros G. apply gather_ok in G. induction G as [|k t' o ts H G IH]; intros I; [destruct I|].
    destruct I as [->|I]; [exists k; split; [now left|exact H]|]. destruct (IH I) as (j & J1 & J2). exists j. split; [now right|exact J2].
  Qed.

  Lemma shape_bank T o ts us ds lx ly ly' : gather T o = Ok ts ->
    (shape tY1 T ts us ds lx ly 2 \/ shape tY2 T ts us ds lx ly 3) ->
    length ly' = length ly -> (forall j, j <> 1 -> j <> length ly - 2 -> j <> length ly - 3 -> nth_error ly' j = nth_error ly j) ->
    bank T o us ds (combine lx ly').
  Proof.
    intros G HSS L E.
    assert (K : forall c k, shape c T ts us ds lx ly k ->
       starts (combine lx ly') (us, interpN (col tY3 T) us) /\ ends (combine lx ly') (ds, interpN (col tY0 T) ds) /\ 4 <= length (combine lx ly') /\
       forall i, 2 <= i -> i + 3 < length (combine lx ly') -> exists t, In t ts /\ nth_error (combine lx ly') i = Some (tX t, c t)).
    { intros c k HS. pose proof (shape_len _ _ _ _ _ _ _ _ HS) as [L1 L2].
      destruct HS as (ok & y1 & yt & I & Lk & Hk & (xt & Lx & Ex & Nx) & Ey & Ny). unfold starts, ends.
      rewrite combine_length, L, L1, Nat.min_id. split; [|split; [|split; [exact L2|]]].
      - apply combine_nth; [now rewrite Ex|]. rewrite E by lia. now rewrite Ey.
      - apply combine_nth.
        + rewrite Ex in *. rewrite <- L1. cbn [length]. rewrite app_length. replace (S (S (length (map tX ok) + length xt)) - 1) with (S (S (length (map tX ok) + (k - 1)))) by lia.
          cbn [nth_error]. rewrite nth_error_app2 by lia. replace (_ + (k - 1) - _) with (k - 1) by lia. exact Nx.
        + rewrite E by lia. rewrite Ey. cbn [length]. rewrite app_length. replace (S (S (length (map c ok) + length yt)) - 1) with (S (S (length (map c ok) + (k - 1)))) by lia.
          cbn [nth_error]. rewrite nth_error_app2 by lia. replace (_ + (k - 1) - _) with (k - 1) by lia. exact Ny.
      - intros i H2 H3. destruct i as [|[|i]]; try lia.
        assert (Li : i < length ok) by (rewrite Ey in H3; cbn [length] in H3; rewrite app_length, map_length in H3; lia).
        apply nth_error_Some in Li as Ni. destruct (nth_error ok i) as [t|] eqn:Et; [|congruence]. exists t.
        split; [apply I; eapply nth_error_In; eauto|]. apply combine_nth.
        + rewrite Ex. cbn [nth_error]. rewrite nth_error_app1 by (now rewrite map_length). now rewrite nth_error_map, Et.
        + rewrite E by lia. rewrite Ey. cbn [nth_error]. rewrite nth_error_app1 by (now rewrite map_length). now rewrite nth_error_map, Et. }
    unfold bank. destruct HSS as [HS|HS]; destruct (K _ _ HS) as (K1 & K2 & K3 & K4); (split; [exact K1|]; split; [exact K2|]; split; [exact K3|];
      intros i I1 I2; destruct (K4 i I1 I2) as (t & T1 & T2); destruct (gather_in _ _ _ _ G T1) as (j & J1 & J2); exists j, t; auto).
  Qed.

  (** Where the banks leave the lagoon. *)
  Definition lagEnd (best : F -> F -> F) T : F :=
    match filter (fun t => tY4 t <? tY3 t)%n T with [] => fnan | t :: l => fold_left best (map tX l) (tX t) end.

  Lemma banks_inv T o spit e0 e1 w b : outletBanks T o spit e0 e1 w = Ok b ->
    exists a c o0 t0, nth_error T 0 = Some a /\ nth_error T 1 = Some c /\ nth_error o 0 = Some o0 /\ nth_error T o0 = Some t0 /\
      bank T o (pymax (e0 - (tY1 t0 - tY2 t0) / f2)%n (lagEnd fminimum T - (tX c - tX a))%n) (e1 - w / f2)%n (combine (bLX b) (bLY b)) /\
      bank T o (pymin (e0 + (tY1 t0 - tY2 t0) / f2)%n (lagEnd fmaximum T + (tX c - tX a))%n) (e1 + w / f2)%n (combine (bRX b) (bRY b)).
  Proof.
    intros H. unfold outletBanks in H. bok H a. bok H c. bok H l0. bok H o0. bok H t0. bok H l. destruct l as [lx ly]. bok H r. destruct r as [[rx ry] v].
    bok H yl. bok H yr. apply Ok_inj in H. subst b. cbn [bLX bLY bRX bRY].
    exists a, c, o0, t0. apply ix_ok in Ha, Hc, Ho0, Ht0. do 4 (split; [assumption|]).
    unfold lagEnd. destruct (filter (fun t => tY4 t <? tY3 t)%n T) as [|l1 lag]; [discriminate Hl0|]. cbn in Hl0. apply Ok_inj in Hl0. subst l1.
    cbn [tl] in Hl, Hr.
    destruct (leftBank_inv _ _ _ _ _ _ _ _ _ Hl) as (ts & G & SL). destruct (rightBank_inv _ _ _ _ _ _ _ _ _ _ Hr) as (ts' & G' & SR).
    apply squareEnds_inv in Hyl as [Y1 Y2]. apply squareEnds_inv in Hyr as [Z1 Z2]. split.
    - eapply shape_bank; [exact G|exact SL| |].
      + rewrite Y1. destruct v; unfold updEnd; now rewrite ?upd_length.
      + assert (LL : length (match v with Some v => updEnd ly 3 v | None => ly end) = length ly) by (destruct v; unfold updEnd; now rewrite ?upd_length).
        rewrite LL in Y2. intros j J1 J2 J3. rewrite Y2 by assumption. destruct v; [|reflexivity]. unfold updEnd. rewrite nth_error_upd_ne by auto. reflexivity.
    - eapply shape_bank; [exact G'|exact SR|exact Z1|]. intros j J1 J2 J3. now apply Z2.
  Qed.

  Lemma cliffs_ok T rw : T <> [] ->
    exists rl rr h, riverL T rw = Ok rl /\ riverR T rw = Ok rr /\ hatch T rw = Ok h.
  Proof.
    intros _. unfold hatch, riverL, riverR. destruct (last_some (cliffL T rw)) as (z & Ez & _); [unfold cliffL; now destruct (col _ _)|]. rewrite Ez. cbn [bind].
    unfold cliffR at 1 2. cbn [ix nth_error of_opt bind].
    destruct (cliffL T rw) as [|a l] eqn:E; [discriminate Ez|]. cbn [ix nth_error of_opt bind].
    destruct (last_some (cliffR T rw)) as (y & Ey & _); [discriminate|]. rewrite Ey. cbn [bind]. eauto 6.
  Qed.

  Lemma plan_ok T o closed rw spit e0 e1 w :
    (exists p, planView T o closed rw spit e0 e1 w = Ok p) <->
    if closed then T <> []
    else 2 <= length T /\ (exists t, In t T /\ has_lagoon t) /\ o <> [] /\ Forall (fun i => i < length T) o.
  Proof.
    unfold planView.
    destruct T as [|a T].
    { split.
      - intros [p H]. bok H rl. bok H rr. bok H h. discriminate H.
      - destruct closed; [congruence|]. cbn. lia. }
    set (U := a :: T). destruct (cliffs_ok U rw) as (rl & rr & h & -> & -> & ->); [discriminate|]. cbn [bind].
    change (ix U 0) with (Ok a). destruct (last_some U) as (z & -> & _); [discriminate|]. cbn [bind].
    destruct closed; [split; [discriminate|eauto]|]. rewrite <- (banks_ok U o spit e0 e1 w). split.
    - intros [p H]. bok H b. eauto.
    - intros [b H]. rewrite H. cbn [bind]. destruct (banks_inv _ _ _ _ _ _ _ H) as (? & ? & ? & ? & _ & _ & _ & _ & (B1 & B2 & _) & (C1 & C2 & _)).
      unfold ix. unfold starts in B1, C1. rewrite B1, C1. cbn [of_opt bind]. rewrite !last_nth. unfold ends in B2, C2. rewrite B2, C2. cbn [of_opt bind]. eauto.
  Qed.

  (** The first drawing never knows that the outlet is closed. *)
  Lemma first_drawing T rw spit e0 e1 w aoi : exists e, modelView T [] rw spit e0 e1 w aoi = Exc e.
  Proof.
    unfold modelView. match goal with |- context [bind ?c _] => destruct c; [|eexists; reflexivity] end. cbn [bind].
    destruct (planView T [] false rw spit e0 e1 w) as [p|e] eqn:E; [|eauto].
    destruct (proj1 (plan_ok T [] false rw spit e0 e1 w)) as (_ & _ & H & _); [eauto|congruence].
  Qed.

  Lemma open_inv T o rw spit e0 e1 w p : planView T o false rw spit e0 e1 w = Ok p ->
    exists b a z, outletBanks T o spit e0 e1 w = Ok b /\ starts T a /\ ends T z /\
    let lb := combine (bLX b) (bLY b) in let rb := combine (bRX b) (bRY b) in
    exists l0 r0 l1 r1 rl rr, starts lb l0 /\ starts rb r0 /\ ends lb l1 /\ ends rb r1 /\
      riverL T rw = Ok rl /\ riverR T rw = Ok rr /\ hatch T rw = Ok (plHatch p) /\
      plShore p = (col tY0 (filter (fun t => tX t <=? (e1 - w / f2))%n T) ++ [l1]) ++ lifted :: (r1 :: col tY0 (filter (fun t => (e1 + w / f2) <=? tX t)%n T)) /\
      plOutlet p = lb ++ lifted :: rb /\
      plLagoon p = (col tY3 (filter (fun t => tX t <=? fst l0)%n T) ++ [l0]) ++ lifted :: (r0 :: col tY3 (filter (fun t => fst r0 <=? tX t)%n T)) /\
      plCliff p = cliffL T rw ++ lifted :: cliffR T rw /\ plRiver p = rl ++ lifted :: rr /\
      (exists m, plWater p = r0 :: m ++ rev rb).
  Proof.
    intros H. unfold planView in H. bok H rl. bok H rr. bok H h. bok H a. bok H z. bok H b. bok H l0. bok H r0. bok H l1. bok H r1. apply Ok_inj in H. subst p.
    exists b, a, z. split; [assumption|]. apply ix_ok in Ha. split; [exact Ha|]. split; [now apply last_ends|]. cbv zeta.
    exists l0, r0, l1, r1, rl, rr. apply ix_ok in Hl0, Hr0. apply last_ends in Hl1, Hr1. cbn [plShore plOutlet plLagoon plCliff plRiver plWater plHatch].
    repeat (split; [assumption || reflexivity|]). eexists. rewrite !app_assoc, app_comm_cons. f_equal. reflexivity.
  Qed.

  (** Closed outlines. *)
  Lemma ends_app {A} (l r : list A) z : ends r z -> r <> [] -> ends (l ++ r) z.
  Proof.
    unfold ends. intros H N. rewrite app_length, nth_error_app2; destruct r; try congruence; cbn [length] in *; [|lia].
    replace (length l + S (length r) - 1 - length l) with (S (length r) - 1) by lia. exact H.
  Qed.
  Lemma ends_one {A} (l : list A) z : ends (l ++ [z]) z.
  Proof. apply ends_app; [reflexivity|discriminate]. Qed.
  Lemma ends_rev {A} (l : list A) a : starts l a -> ends (rev l) a.
  Proof. destruct l; intros H; [discriminate|]. cbn in *. injection H as ->. apply ends_one. Qed.

  Lemma water_open T o rw spit e0 e1 w p : planView T o false rw spit e0 e1 w = Ok p -> loop (plWater p).
  Proof.
    intros H. destruct (open_inv _ _ _ _ _ _ _ _ H) as (b & a & z & _ & _ & _ & l0 & r0 & l1 & r1 & rl & rr & _ & S & _ & _ & _ & _ & _ & _ & _ & _ & _ & _ & m & E).
    exists r0. rewrite E. split; [reflexivity|]. assert (N : rev (combine (bRX b) (bRY b)) <> []) by (intros N; apply ends_rev in S; rewrite N in S; discriminate).
    split; [apply (ends_app (r0 :: m)); [now apply ends_rev|exact N]|]. cbn [length]. rewrite app_length. destruct (rev (combine (bRX b) (bRY b))); [congruence|]. cbn. lia.
  Qed.
  Lemma closed_inv T o rw spit e0 e1 w p : planView T o true rw spit e0 e1 w = Ok p ->
    plShore p = feature tY0 T /\ plLagoon p = feature tY3 T /\ plOutlet p = [lifted] /\
    exists lag sea, pieces (plWater p) lag sea /\ loop lag /\ loop sea /\
      incl (plLagoon p) lag /\ incl (plShore p) sea.
  Proof.
    intros H. unfold planView in H. bok H rl. bok H rr. bok H h. bok H a. bok H z. apply Ok_inj in H. subst p. cbn [plShore plLagoon plOutlet plWater].
    apply ix_ok in Ha. destruct T as [|a' T]; [discriminate|]. cbn in Ha. apply Some_inj in Ha. subst a'.
    do 3 (split; [reflexivity|]). set (U := a :: T) in *.
    exists (col tY3 U ++ rev (cliffR U rw) ++ rev rr ++ rl ++ rev (cliffL U rw) ++ [(tX a, tY3 a)]).
    exists (col tY0 U ++ [(tX z, fofZ 10000); (tX a, fofZ 10000)] ++ [(tX a, tY0 a)]). split; [|split; [|split; [|split]]].
    - unfold pieces. rewrite <- !app_assoc. reflexivity.
    - exists (tX a, tY3 a). split; [reflexivity|]. split; [rewrite !app_assoc; apply ends_one|]. rewrite !app_length. cbn. lia.
    - exists (tX a, tY0 a). split; [reflexivity|]. split; [rewrite !app_assoc; apply ends_one|]. rewrite !app_length. cbn. lia.
    - intros x Hx. apply in_or_app. now left.
    - intros x Hx. apply in_or_app. now left.
  Qed.

  (** The hatched land: one corner is at (x, x). *)
  Lemma hatch_corner T o closed rw spit e0 e1 w p : planView T o closed rw spit e0 e1 w = Ok p ->
    forall z, ends T z -> (rw / f2 <=? tX z)%n = true -> In (tX z, tX z) (plHatch p).
  Proof.
    intros H z Hz Hr. assert (Hh : hatch T rw = Ok (plHatch p)).
    { unfold planView in H. bok H rl. bok H rr. bok H h. bok H a. bok H z0. destruct closed; [apply Ok_inj in H; subst p; exact Hh|].
      bok H b. bok H l0. bok H r0. bok H l1. bok H r1. apply Ok_inj in H. subst p. exact Hh. }
    unfold hatch in Hh. bok Hh rl. bok Hh rr. bok Hh a. bok Hh y. apply Ok_inj in Hh. rewrite <- Hh.
    apply last_ends in Hy. assert (E : ends (cliffR T rw) (tX z, tY4 z)).
    { unfold cliffR. destruct T as [|z' U] using rev_ind; [destruct z; discriminate|]. pose proof (ends_one U z') as Q. unfold ends in Q, Hz. rewrite Q in Hz. apply Some_inj in Hz. subst z'.
      rewrite filter_app. cbn [filter]. rewrite Hr. unfold col at 2. rewrite map_app. cbn [map]. apply (ends_one (_ :: _)). }
    unfold ends in *. rewrite E in Hy. apply Some_inj in Hy. subst y. cbn [fst]. apply in_or_app. right. apply in_or_app. right. right. right. right. now left.
  Qed.
End Generic.
