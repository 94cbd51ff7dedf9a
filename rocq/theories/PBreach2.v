(** Proofs about breaches and the outcome of the whole update (mor.py:546-692). *)
From Coq Require Import ZArith List Bool Lia Reals Lra.
From Verif Require Import Base Num Xr XEval MState MCoast MRiv MMor SMor SPost PCoast PGeom PLag PCore PFill PRate PPost PTrunc PBreach.
Import ListNotations.
Local Open Scope R_scope.

(** ** A transect chosen for breaching from the relic channel *)
Lemma gather_map_fin {A} (T : list A) (f : A -> xr) (g : A -> R) : forall o ts, gather T o = Ok ts ->
  (forall i t, In i o -> nth_error T i = Some t -> f t = Fin (g t)) -> map f ts = map Fin (map g ts).
Proof.
  induction o as [|i o IH]; intros ts H HF; cbn [gather] in H.
  - apply Ok_inj in H. subst. reflexivity.
  - bok H x. bok H xs. apply Ok_inj in H. subst. cbn [map]. apply ix_ok in Ex.
    rewrite (HF i x) by (auto; left; auto). rewrite (IH xs) by (auto; intros; eapply HF; eauto; right; auto). reflexivity.
Qed.
Lemma gather_at {A} (T : list A) o ts j i : gather T o = Ok ts -> nth_error o j = Some i ->
  exists t, nth_error ts j = Some t /\ nth_error T i = Some t.
Proof.
  intros H Hj. assert (L : (j < length o)%nat) by (apply nth_error_Some; congruence).
  rewrite <- (Base.gather_length _ _ H) in L. destruct (nth_error ts j) as [t|] eqn:E; [|apply nth_error_None in E; lia].
  exists t. split; [auto|]. eapply gather_nth; eauto.
Qed.
(** The first nearest of a list of transects in increasing order. *)
Lemma argmin_nearest (T : list (tsect xr)) (e : R) (f : tsect xr -> xr) (S : nat -> Prop) o ts k b :
  (forall i t, nth_error T i = Some t -> f t = Fin (Rabs (rv (tX t) - e))) ->
  (forall i, In i o <-> S i) -> (forall a c i j, nth_error o a = Some i -> nth_error o c = Some j -> (a < c)%nat -> (i < j)%nat) ->
  gather T o = Ok ts -> argmin (map f ts) = Ok k -> ix o k = Ok b -> nearest T e S b.
Proof.
  intros Hf HS HO HG HA HB. apply ix_ok in HB.
  rewrite (gather_map_fin T f (fun t => Rabs (rv (tX t) - e)) o ts HG) in HA by (intros; eauto).
  apply argmin_spec in HA as (a & Ha & Hmin & Hfst). rewrite nth_error_map in Ha.
  destruct (nth_error ts k) as [tb|] eqn:Ek; [|discriminate]. cbn in Ha. apply Some_inj in Ha. subst a.
  assert (Hb : nth_error T b = Some tb) by (eapply gather_nth; eauto).
  split; [apply HS; eapply nth_error_In; eauto|]. intros i t u Si Ht Hu. rewrite Hb in Ht. apply Some_inj in Ht. subst t.
  apply HS in Si. apply In_nth_error in Si as (j & Hj). destruct (gather_at _ _ _ _ _ HG Hj) as (u' & Hj' & Hu').
  rewrite Hu in Hu'. apply Some_inj in Hu'. subst u'.
  assert (Q : nth_error (map (fun t => Rabs (rv (tX t) - e)) ts) j = Some (Rabs (rv (tX u) - e))) by (rewrite nth_error_map, Hj'; reflexivity).
  split; [eapply Hmin; eauto|]. intros L. eapply Hfst; [|exact Q].
  destruct (Nat.lt_trichotomy j k) as [Z|[Z|Z]]; [auto| |].
  - exfalso. subst j. rewrite HB in Hj. apply Some_inj in Hj. lia.
  - exfalso. pose proof (HO _ _ _ _ HB Hj Z). lia.
Qed.
Section Relic.
  Variables (P : phys xr) (junk : nat -> bool) (T : list (tsect xr)) (pres : list bool) (e0 : R) (cc : option (Z * Z)).
  Hypothesis fx : finX T.
  (** The sea has reached the channel of a transect connected to the lagoon. *)
  Definition reached (i : nat) : Prop :=
    (exists t, nth_error T i = Some t /\ shoreIntersect junk i t = true) /\ joined cc i.
  Notation mask := (mapi (shoreIntersect junk) T).
  Notation poss := (where_ (fun b => b) (mapi (fun i b => b && connected cc i) mask)).
  Lemma poss_spec i : In i poss <-> reached i.
  Proof.
    rewrite where_spec. unfold reached. rewrite nth_error_mapi, nth_error_mapi. split.
    - intros (w & Hw & ->). destruct (nth_error T i) as [t|] eqn:Ht; [|discriminate]. cbn in Hw. apply Some_inj, andb_true_iff in Hw as [H1 H2].
      split; [exists t; auto|now apply connected_joined].
    - intros [(t & Ht & H1) H2]. apply connected_joined in H2. exists true. rewrite Ht. cbn. rewrite H1, H2. auto.
  Qed.
  Lemma relic_index b : nearest T e0 reached b -> (b = 1%nat \/ (b = 0%nat /\ exists i t, nth_error T i = Some t /\ shoreIntersect junk i t = false)) ->
    shoreFill P junk T pres (Fin e0) true cc = Exc EIndex.
  Proof.
    intros HN HB. destruct HN as [Rb Hn]. pose proof Rb as Rb'. apply poss_spec in Rb'.
    unfold shoreFill. destruct Rb as [(t & Ht & Hm) Hc].
    replace (existsb (fun b => b) mask) with true.
    2:{ symmetry. apply existsb_exists. exists true. split; [|auto]. apply (nth_error_In _ b). rewrite nth_error_mapi, Ht. cbn. now rewrite Hm. }
    assert (NE : poss <> []) by (intros E; rewrite E in Rb'; destruct Rb').
    replace (true && negb (Nat.eqb (length poss) 0)) with true.
    2:{ destruct poss; [congruence|reflexivity]. }
    destruct (gather_all T poss) as (ts & Hts).
    { intros i Hi. apply poss_spec in Hi as [(u & Hu & _) _]. apply nth_error_Some. congruence. }
    rewrite Hts. cbn [bind].
    assert (Hf : forall i t, nth_error T i = Some t -> fabs (tX t - Fin e0)%n = Fin (Rabs (rv (tX t) - e0))).
    { intros i u Hu. destruct (fx _ _ Hu) as (x & ->). reflexivity. }
    assert (MM : map (fun t => fabs (tX t - Fin e0)%n) ts = map Fin (map (fun t => Rabs (rv (tX t) - e0)) ts)).
    { eapply gather_map_fin; eauto. }
    destruct (argmin_ok (map (fun t => Rabs (rv (tX t) - e0)) ts)) as (k & Hk).
    { intros E. apply map_eq_nil in E. subst ts. apply Base.gather_length in Hts. cbn in Hts. destruct poss; [congruence|discriminate]. }
    rewrite MM, Hk. cbn [bind].
    assert (Lk : (k < length poss)%nat).
    { rewrite <- (Base.gather_length _ _ Hts), <- (map_length (fun t => Rabs (rv (tX t) - e0)) ts).
      apply argmin_spec in Hk as (a & Ha & _). apply nth_error_Some. congruence. }
    destruct (ix poss k) as [b'|] eqn:Eb; [|unfold ix in Eb; destruct (nth_error poss k) eqn:Q; [discriminate|apply nth_error_None in Q; lia]].
    cbn [bind].
    assert (b' = b) as ->.
    { rewrite <- MM in Hk. destruct (argmin_nearest T e0 _ reached poss ts k b' Hf poss_spec
        (fun a c i j Ha Hb Hab => proj2 (where_lists _ _) a c i j Ha Hb Hab) Hts Hk Eb) as [Rb2 Hn2].
      pose proof Rb2 as Rb3. destruct Rb3 as [(t2 & Ht2 & _) _].
      destruct (Nat.lt_trichotomy b b') as [Z|[Z|Z]]; [exfalso|auto|exfalso].
      - destruct (Hn2 b t2 t (conj (ex_intro _ t (conj Ht Hm)) Hc) Ht2 Ht) as [A B]. destruct (Hn b' t t2 Rb2 Ht Ht2) as [A' B']. specialize (B Z). lra.
      - destruct (Hn2 b t2 t (conj (ex_intro _ t (conj Ht Hm)) Hc) Ht2 Ht) as [A B]. destruct (Hn b' t t2 Rb2 Ht Ht2) as [A' B']. specialize (B' Z). lra. }
    destruct (negb (Nat.eqb _ _)) eqn:L; [reflexivity|]. exfalso. apply negb_false_iff, Nat.eqb_eq in L.
    destruct (filter_id (fun m => negb (b2z m =? Z.of_nat b)%Z) mask) as [_ FA]; [rewrite mapi_length; auto|].
    rewrite Forall_forall in FA. destruct HB as [->|[-> (i & u & Hu & Hi)]].
    - assert (In true mask) by (apply (nth_error_In _ 1); rewrite nth_error_mapi, Ht; cbn; now rewrite Hm). apply FA in H. discriminate.
    - assert (In false mask) by (apply (nth_error_In _ i); rewrite nth_error_mapi, Hu; cbn; now rewrite Hi). apply FA in H. discriminate.
  Qed.
End Relic.

(** ** Restoring an eroded barrier *)
Lemma restore_spec h t x y0 y3 z0 z3 : tX t = Fin x -> tY0 t = Fin y0 -> tY3 t = Fin y3 -> tZ0 t = Fin z0 -> tZ3 t = Fin z3 ->
  0 < h -> z3 < z0 -> y0 <= y3 ->
  exists a b, restoreT (Fin h) t = mkT (tX t) (Fin (y0 + a)) (tY1 t) (tY2 t) (Fin (y3 - b)) (tY4 t) (tZ0 t) (tZ1 t) (tZ2 t) (tZ3 t) /\
    0 < a /\ 0 < b /\ (y0 + a) - (y3 - b) = 1/1000 /\ a * h = b * (z0 - z3) /\
    0 < a * h + b * (z0 - z3).
Proof.
  intros Hx H0 H3 Hz0 Hz3 Hh Hz Hy.
  set (o := 1/1000 + (y3 - y0)). set (s := o / (1 + h / (z0 - z3))).
  assert (D : 0 < h / (z0 - z3)) by (apply Rmult_lt_0_compat; [lra|apply Rinv_0_lt_compat; lra]).
  assert (HS : s * (z0 - z3 + h) = o * (z0 - z3)) by (unfold s; field; split; lra).
  assert (O : 0 < o) by (unfold o; lra).
  assert (S0 : 0 < s) by (unfold s; apply Rmult_lt_0_compat; [lra|apply Rinv_0_lt_compat; lra]).
  assert (S1 : s < o).
  { apply (Rmult_lt_reg_r (z0 - z3 + h)); [lra|]. rewrite HS. apply Rmult_lt_compat_l; lra. }
  assert (E : s * h = (o - s) * (z0 - z3)) by lra.
  assert (0 < s * h) by (apply Rmult_lt_0_compat; lra).
  exists s, (o - s). split.
  - unfold restoreT. rewrite H0, H3, Hz0, Hz3, xofQ. cbv zeta. rewrite x1. xf. fold o. fold s.
    unfold setY3, setY0. fl. rewrite Hz0, Hz3. reflexivity.
  - repeat split; try lra. unfold o. lra.
Qed.

(** ** Erosion breach *)
Lemma slice_In {A} (l : list A) a b v : In v (slice l a b) <-> exists j, (a <= j < b)%nat /\ nth_error l j = Some v.
Proof.
  unfold slice. split.
  - intros H. apply In_nth_error in H as (k & Hk). rewrite nth_error_firstn in Hk. destruct (Nat.ltb k (b - a)) eqn:E; [|discriminate].
    apply Nat.ltb_lt in E. rewrite nth_error_skipn in Hk. exists (a + k)%nat. split; [lia|auto].
  - intros (j & Hj & H). apply (nth_error_In _ (j - a)). rewrite nth_error_firstn.
    replace (Nat.ltb (j - a) (b - a)) with true by (symmetry; apply Nat.ltb_lt; lia). rewrite nth_error_skipn.
    replace (a + (j - a))%nat with j by lia. exact H.
Qed.
Section Erosion.
  Context {F : Type} {NF : Num F}.
  Variables (P : phys F) (T0 T : list (tsect F)) (lagOpen : list bool) (x0 : nat) (e0 : F) (Closed : bool) (breach : option nat).
  Lemma erosion_nth T' b' : erosionBreach P T0 T lagOpen x0 e0 Closed breach = Ok (T', b') -> length T0 = length T ->
    length T' = length T /\
    forall i t0 t, nth_error T0 i = Some t0 -> nth_error T i = Some t ->
      nth_error T' i = Some (if eroded t && negb (match breach, b' with None, Some b => Nat.eqb i b | _, _ => false end)
                             then restoreT (shorefaceHeight P t0) t else t).
  Proof.
    unfold erosionBreach. intros H L. cbv zeta in H. apply bind_ok in H as (b & Eb & H). apply Ok_inj in H.
    pose proof (f_equal snd H) as H2. pose proof (f_equal fst H) as H1. cbn [fst snd] in H1, H2. subst b' T'. clear H.
    split; [rewrite mapi_length, combine_length; lia|]. intros i t0 t Ht0 Ht.
    rewrite nth_error_mapi.
    assert (C : nth_error (combine T0 T) i = Some (t0, t)).
    { clear -Ht0 Ht. revert T i Ht0 Ht. induction T0 as [|a l IH]; intros [|c m] [|i] H1 H2; cbn in *; try discriminate; [congruence|eauto]. }
    rewrite C. cbn [option_map fst snd]. f_equal.
    assert (K : memb i (where_ eroded T) = eroded t).
    { destruct (eroded t) eqn:E; [apply memb_In, where_spec; eauto|].
      destruct (memb i _) eqn:Q; [|auto]. apply memb_In, where_spec in Q as (u & Hu & Hq). rewrite Ht in Hu. apply Some_inj in Hu. congruence. }
    destruct breach as [b1|]; [rewrite K, andb_true_r; reflexivity|]. destruct b as [b1|]; [|rewrite K, andb_true_r; reflexivity].
    replace (memb i (filter (fun i => negb (Nat.eqb i b1)) (where_ eroded T))) with (eroded t && negb (Nat.eqb i b1)); [reflexivity|].
    rewrite <- K. clear. destruct (memb i (filter _ _)) eqn:E.
    - apply memb_In, filter_In in E as [E1 E2]. apply memb_In in E1. now rewrite E1, E2.
    - destruct (memb i (where_ eroded T)) eqn:E1; [|auto]. destruct (negb (Nat.eqb i b1)) eqn:E2; [|auto]. exfalso.
      assert (memb i (filter (fun i => negb (Nat.eqb i b1)) (where_ eroded T)) = true); [|congruence].
      apply memb_In, filter_In. split; [now apply memb_In|auto].
  Qed.
  Lemma reach_open i : reachable lagOpen x0 i = true -> (i < length lagOpen)%nat -> (x0 <= length lagOpen)%nat -> openTo lagOpen x0 i.
  Proof.
    intros H L L0 j Hj. unfold reachable in H.
    destruct (nth_error lagOpen j) as [v|] eqn:E; [|apply nth_error_None in E; lia].
    destruct (Nat.ltb x0 i) eqn:C; [|destruct (Nat.ltb i x0) eqn:D]; rewrite ?Nat.ltb_lt, ?Nat.ltb_ge in *; [| |lia];
      rewrite forallb_forall in H; rewrite (H v); auto; apply slice_In; exists j; split; auto; lia.
  Qed.
  Lemma open_reach i : openTo lagOpen x0 i -> reachable lagOpen x0 i = true.
  Proof.
    intros H. unfold reachable. destruct (Nat.ltb x0 i) eqn:C; [|destruct (Nat.ltb i x0) eqn:D; [|reflexivity]];
      rewrite ?Nat.ltb_lt, ?Nat.ltb_ge in *; apply forallb_forall; intros v Hv; apply slice_In in Hv as (j & Hj & Hv);
      rewrite H in Hv by lia; apply Some_inj in Hv; auto.
  Qed.
  (** A breach by erosion: some transect's barrier is gone and open lagoon leads to it. *)
  Lemma erosion_breach T' b : erosionBreach P T0 T lagOpen x0 e0 Closed None = Ok (T', Some b) ->
    exists t, nth_error T b = Some t /\ eroded t = true /\ reachable lagOpen x0 b = true.
  Proof.
    unfold erosionBreach. intros H. cbv zeta in H. apply bind_ok in H as (b' & Eb & H). apply Ok_inj in H.
    pose proof (f_equal snd H) as H2. cbn [snd] in H2. subst b'. clear H.
    destruct (filter (reachable lagOpen x0) (where_ eroded T)) as [|a l] eqn:E; [discriminate|].
    assert (K : forall bi, In bi (a :: l) -> exists t, nth_error T bi = Some t /\ eroded t = true /\ reachable lagOpen x0 bi = true).
    { intros bi Hi. rewrite <- E in Hi. apply filter_In in Hi as [Hi Hr]. apply where_spec in Hi as (t & ? & ?). eauto. }
    bok Eb ts. bok Eb k. bok Eb bi. apply ix_ok in Ebi. apply nth_error_In in Ebi.
    destruct Closed; [injection Eb as ->; auto|]. bok Eb m. destruct (_ <? _)%n; [injection Eb as ->; auto|discriminate].
  Qed.
  Lemma erosion_closed T' b : erosionBreach P T0 T lagOpen x0 e0 true None = Ok (T', b) ->
    (exists i t, nth_error T i = Some t /\ eroded t = true /\ reachable lagOpen x0 i = true) -> b <> None.
  Proof.
    unfold erosionBreach. intros H (i & t & Ht & He & Hr) ->. cbv zeta in H. apply bind_ok in H as (b' & Eb & H). apply Ok_inj in H.
    pose proof (f_equal snd H) as H2. cbn [snd] in H2. subst b'. clear H.
    assert (I : In i (filter (reachable lagOpen x0) (where_ eroded T))) by (apply filter_In; split; [apply where_spec; eauto|auto]).
    destruct (filter (reachable lagOpen x0) (where_ eroded T)) as [|a l]; [destruct I|].
    bok Eb ts. bok Eb k. bok Eb bi. discriminate.
  Qed.
  Lemma erosion_keeps T' b b0 : erosionBreach P T0 T lagOpen x0 e0 Closed (Some b0) = Ok (T', b) -> b = Some b0.
  Proof. unfold erosionBreach. intros H. cbv zeta in H. cbn [bind] in H. apply Ok_inj in H. pose proof (f_equal snd H) as H2. cbn [snd] in H2. auto. Qed.
End Erosion.

(** ** Crests *)
Lemma raise_nth {F} {NF : Num F} pres (T T' : list (tsect F)) : raiseCrests pres T = Ok T' -> length pres = length T ->
  length T' = length T /\
  forall i p t, nth_error pres i = Some p -> nth_error T i = Some t ->
    nth_error T' i = Some (if (p : bool) then setZ0 (fmaximum (tZ0 t) (tZ2 t)) t else t) /\
    fisnan (if p then fmaximum (tZ0 t) (tZ2 t) else tZ0 t) = false.
Proof.
  unfold raiseCrests. intros H L. cbv zeta in H. bok H u. apply assert_ok in Eu. apply Ok_inj in H. subst T'.
  split; [rewrite map2_length; lia|]. intros i p t Hp Ht.
  assert (N : nth_error (map2 raiseCrest pres T) i = Some (raiseCrest p t)) by (rewrite nth_error_map2, Hp, Ht; reflexivity).
  split; [exact N|]. destruct (fisnan _) eqn:E; [exfalso|auto]. apply negb_true_iff in Eu.
  assert (existsb (fun t => fisnan (tZ0 t)) (map2 raiseCrest pres T) = true); [|congruence].
  apply existsb_exists. exists (raiseCrest p t). split; [eapply nth_error_In; eauto|]. unfold raiseCrest. destruct p; exact E.
Qed.

(** ** Overtopping *)
Section Spill.
  Context {F : Type} {NF : Num F}.
  Variables (P : phys F) (T : list (tsect F)) (x0 : nat) (Closed : bool) (cc : option (Z * Z)) (WL : list F).
  Definition overtopped (i : nat) : Prop := exists t w, nth_error T i = Some t /\ nth_error WL i = Some w /\ (tZ0 t <? w)%n = true.
  Notation spill := (where_ (fun b => b) (map2 (fun t w => (tZ0 t <? w)%n) T WL)).
  Lemma spill_In i : In i spill <-> overtopped i.
  Proof.
    rewrite where_spec. unfold overtopped. rewrite nth_error_map2. split.
    - intros (v & Hv & ->). destruct (nth_error T i) as [t|]; [|discriminate]. destruct (nth_error WL i) as [w|]; [|discriminate].
      apply Some_inj in Hv. eauto.
    - intros (t & w & Ht & Hw & H). rewrite Ht, Hw. eauto.
  Qed.
  Notation open := (map (lagoonOpen P) T).
  Definition canBreach (i : nat) : Prop := overtopped i /\ (joined cc i \/ reachable open x0 i = true).
  Notation poss := (concat (map (fun i => (if connected cc i then [i] else []) ++ (if reachable open x0 i then [i] else [])) spill)).
  Lemma poss_In i : In i poss <-> canBreach i.
  Proof.
    rewrite in_concat. unfold canBreach. split.
    - intros (l & Hl & Hi). apply in_map_iff in Hl as (j & <- & Hj). apply in_app_or in Hi.
      destruct Hi as [Hi|Hi].
      + destruct (connected cc j) eqn:E; [|destruct Hi]. destruct Hi as [<-|[]]. split; [now apply spill_In|left; now apply connected_joined].
      + destruct (reachable open x0 j) eqn:E; [|destruct Hi]. destruct Hi as [<-|[]]. split; [now apply spill_In|auto].
    - intros [H1 H2]. exists ((if connected cc i then [i] else []) ++ (if reachable open x0 i then [i] else [])).
      split; [apply in_map_iff; exists i; split; [auto|now apply spill_In]|]. apply in_or_app. destruct H2 as [H2|H2].
      + left. apply connected_joined in H2. rewrite H2. left; auto.
      + right. rewrite H2. left; auto.
  Qed.
  Lemma spill_some b : spillBreach P T x0 Closed cc WL None = Ok (Some b) -> canBreach b.
  Proof.
    unfold spillBreach. intros H. destruct spill as [|s0 s] eqn:ES; [discriminate|].
    cbv zeta in H. match type of H with match ?p with _ => _ end = _ => assert (EP : p = poss) by (rewrite ES; reflexivity); destruct p as [|a l] eqn:EQ end; [destruct Closed; discriminate|].
    bok H ts. bok H ws. bok H k. bok H bi. injection H as ->. apply ix_ok in Ebi. apply nth_error_In in Ebi. rewrite EP in Ebi. now apply poss_In.
  Qed.
  Lemma spill_none : spillBreach P T x0 Closed cc WL None = Ok None -> forall i, ~ canBreach i.
  Proof.
    unfold spillBreach. intros H i C. pose proof C as I. apply poss_In in I. destruct spill as [|s0 s] eqn:ES; [destruct I|].
    cbv zeta in H. rewrite <- ES in H. rewrite <- ES in I. destruct poss as [|a l] eqn:EQ; [destruct I|].
    bok H ts. bok H ws. bok H k. bok H bi. discriminate.
  Qed.
  Lemma spill_keeps b b0 : spillBreach P T x0 Closed cc WL (Some b0) = Ok b -> b = Some b0.
  Proof. unfold spillBreach. intros H. apply Ok_inj in H. auto. Qed.
  (** Overtopping at a disconnected place of an open lagoon stops the program. *)
  Lemma spill_stuck : (exists i, overtopped i) -> (forall i, ~ canBreach i) -> spillBreach P T x0 false cc WL None = Exc EIndex.
  Proof.
    intros (i & Hi) N. unfold spillBreach. apply spill_In in Hi. destruct spill as [|s0 s] eqn:ES; [destruct Hi|].
    cbv zeta. rewrite <- ES. destruct poss as [|a l] eqn:EQ; [reflexivity|].
    exfalso. apply (N a). apply poss_In. rewrite EQ. left; auto.
  Qed.
End Spill.
