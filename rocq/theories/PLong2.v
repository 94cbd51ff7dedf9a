(** Models loaded with a later end. *)
From Coq Require Import ZArith List Bool String Ascii Lia Sorting.Sorted.
From Verif Require Import Base Num SSame MState MGeom MOut MCoast MRiv MMor MCore MLoad MSynth MConf SConf SLoad SRun SLong PConf PConf2 PCore PLoad PLoad2 PSynth PConf3 PSame PLong.
From Verif Require Import SLoad.
Import ListNotations.
Local Open Scope Z_scope.

(** ** Trimming *)
Section Trim.
  Context {A : Type}.
  Fixpoint tk (S p : Z) (r : list (Z * A)) : list (Z * A) :=
    match r with [] => [] | x :: r' => if p <? S then x :: tk S (fst x) r' else tk S (fst x) r' end.
  Lemma mask_tk st S (ts : list Z) : forall (r : list (Z * A)) p k, skipn k ts = p :: map fst r ->
    filter2 (mapi_from (Datatypes.S k) (fun i _ => match i with O => match nth_error ts 1 with Some t => st <? t | None => false end
      | Datatypes.S j => match nth_error ts j with Some t => t <? S | None => false end end) (map fst r)) r = tk S p r.
  Proof.
    induction r as [|x r IH]; intros p k H; [reflexivity|]. cbn [map mapi_from filter2 tk].
    assert (N : nth_error ts k = Some p).
    { clear -H. revert k H. induction ts as [|t ts IH]; intros [|k] H; cbn in *; try discriminate; [injection H as -> _; reflexivity|apply IH; exact H]. }
    rewrite N. rewrite (IH (fst x) (Datatypes.S k)); [reflexivity|].
    clear -H. cbn [map] in H. revert k H. induction ts as [|t ts IH]; intros [|k] H; try discriminate; [cbn in H; injection H as _ ->; reflexivity|apply IH; exact H].
  Qed.
  Lemma trim_shape st e d (a x : Z * A) r t : trimSeries st e d (a :: x :: r) = Ok t ->
    t = (if st <? fst x then [a] else []) ++ tk (e + d) (fst a) (x :: r).
  Proof.
    unfold trimSeries. intros H. bok H u. bok H z. bok H w. apply Ok_inj in H. subst t. unfold keepMask, mapi.
    rewrite <- (mask_tk st (e + d) (fst a :: fst x :: map fst r) (x :: r) (fst a) 0 eq_refl).
    assert (K : forall (b : bool) (l : list (Z * A)), (if b then a :: l else l) = (if b then [a] else []) ++ l) by (intros [|] l; reflexivity).
    exact (K (st <? fst x) _).
  Qed.
  Lemma tk_incl S : forall (r : list (Z * A)) p, incl (tk S p r) r.
  Proof. induction r as [|x r IH]; intros p y H; cbn in H; [exact H|]. destruct (p <? S); [destruct H as [->|H]; [left; reflexivity|]|]; right; eapply IH; eauto. Qed.
  Lemma tk_nil S : forall (r : list (Z * A)) p, StronglySorted Z.lt (p :: map fst r) -> S <= p -> tk S p r = [].
  Proof.
    induction r as [|x r IH]; intros p O L; [reflexivity|]. cbn [tk map] in *. apply Z.ltb_ge in L. rewrite L. apply Z.ltb_ge in L.
    apply StronglySorted_inv in O. destruct O as [O G]. apply Forall_inv in G. apply IH; [exact O|lia].
  Qed.
  Lemma tk_more S S' e more : e <= S <= S' -> Forall (fun q => e < fst q) more -> forall (r : list (Z * A)) p, StronglySorted Z.lt (p :: map fst (r ++ more)) ->
    exists post, tk S' p (r ++ more) = tk S p r ++ post /\ Forall (fun q => e < fst q) post.
  Proof.
    intros L M. induction r as [|x r IH]; intros p O.
    - exists (tk S' p more). split; [reflexivity|]. apply Forall_forall. intros y Hy. apply tk_incl in Hy. rewrite Forall_forall in M. auto.
    - destruct (Z.ltb_spec p S) as [Q|Q].
      + cbn [app tk]. assert (Q1 : p <? S = true) by (apply Z.ltb_lt; lia). assert (Q2 : p <? S' = true) by (apply Z.ltb_lt; lia). rewrite Q1, Q2.
        cbn [app map] in O. apply StronglySorted_inv in O. destruct (IH (fst x) (proj1 O)) as (post & E & P). exists post. rewrite E. split; [reflexivity|exact P].
      + exists (tk S' p ((x :: r) ++ more)). rewrite (tk_nil S); [split; [reflexivity|]| |exact Q].
        * apply Forall_forall. intros y Hy. apply tk_incl in Hy. apply StronglySorted_inv in O. destruct O as [_ O]. rewrite Forall_forall in O.
          assert (p < fst y) by (apply O, in_map, Hy). lia.
        * revert O. change (p :: map fst (x :: r)) with ([p] ++ map fst (x :: r)). rewrite map_app. intros O.
          clear -O. revert O. generalize (map fst (x :: r)) (map fst more). intros l m O. change (p :: l ++ m) with ((p :: l) ++ m) in O. clear -O.
          cbn [app]. revert O. generalize (p :: l). clear. intros l. induction l as [|y l IH]; intros O; [constructor|]. cbn in O. apply StronglySorted_inv in O. destruct O as [O G].
          constructor; [apply IH; exact O|]. apply Forall_app in G. apply G.
  Qed.
  Lemma ord_sorted (s : list (Z * A)) : ordered_times s -> StronglySorted Z.lt (map fst s).
  Proof.
    induction s as [|a s IH]; intros O; [constructor|]. cbn [map]. constructor.
    - apply IH. intros i x y Hx Hy. apply (O (S i)); assumption.
    - apply Forall_forall. intros t Ht. apply in_map_iff in Ht. destruct Ht as (b & <- & Hb). apply In_nth_error in Hb. destruct Hb as (j & Hj).
      apply (ordered_lt _ O 0 (S j)); [reflexivity|exact Hj|lia].
  Qed.
  Lemma trim_more st e e' d (s more t t' : list (Z * A)) : ordered_times (s ++ more) -> Forall (fun q => e < fst q) more -> st < e -> e <= e' -> 0 <= d ->
    trimSeries st e d s = Ok t -> trimSeries st e' d (s ++ more) = Ok t' -> exists post, t' = t ++ post /\ Forall (fun q => e < fst q) post.
  Proof.
    intros O M L1 L2 L3 H H'. destruct (trim_asserts _ _ _ _ _ H) as [(a & Ha & La) (z & Hz & Lz)].
    destruct s as [|a0 [|x r]]; [discriminate| |].
    - cbn in Ha, Hz. injection Ha as ->. injection Hz as ->. lia.
    - cbn [app] in H'. rewrite (trim_shape _ _ _ _ _ _ _ H), (trim_shape _ _ _ _ _ _ _ H').
      apply ord_sorted in O. cbn [app map] in O.
      destruct (tk_more (e + d) (e' + d) e more ltac:(lia) M (x :: r) (fst a0)) as (post & E & P); [exact O|].
      exists post. split; [|exact P]. cbn [app] in E. rewrite E, app_assoc. reflexivity.
  Qed.
End Trim.

Lemma ordered_app_l {A} (s more : list (Z * A)) : ordered_times (s ++ more) -> ordered_times s.
Proof.
  intros O i a b Ha Hb. apply (O i); rewrite nth_error_app1; auto; apply nth_error_Some; congruence.
Qed.
Lemma covers_exists {A} st e (t : list (Z * A)) : covers st e t -> Exists (fun p => fst p <= st) t /\ Exists (fun p => e <= fst p) t.
Proof. intros [(a & Ha & La) (z & Hz & Lz)]. apply nth_error_In in Ha, Hz. split; apply Exists_exists; eauto. Qed.

Section Load.
  Context {F : Type} {NF : Num F}.
  Lemma trim_alike {A} (f : A -> F) st e e' d (s more t t' : list (Z * A)) : ordered_times (s ++ more) -> Forall (fun q => e < fst q) more -> st < e -> e <= e' -> 0 <= d ->
    trimSeries st e d s = Ok t -> trimSeries st e' d (s ++ more) = Ok t' -> alike st e (map (fun p => (fst p, f (snd p))) t) (map (fun p => (fst p, f (snd p))) t').
  Proof.
    intros O M L1 L2 L3 H H'. destruct (trim_more _ _ _ _ _ _ _ _ O M L1 L2 L3 H H') as (post & -> & P).
    destruct (covers_exists _ _ _ (trim_covers _ _ _ _ _ (ordered_app_l _ _ O) L1 L3 H)) as [C1 C2].
    exists [], [], (map (fun p => (fst p, f (snd p))) t), [], (map (fun p => (fst p, f (snd p))) post).
    split; [rewrite app_nil_r; reflexivity|]. split; [rewrite map_app; reflexivity|]. split; [constructor|]. cbn [app].
    split; [apply Forall_forall; intros y Hy; apply in_map_iff in Hy; destruct Hy as (q & <- & Hq); rewrite Forall_forall in P; cbn [fst]; auto|].
    apply Exists_exists in C1, C2. destruct C1 as (q & Q1 & Q2), C2 as (w & W1 & W2).
    split; apply Exists_exists; [exists (fst q, f (snd q)) | exists (fst w, f (snd w))]; (split; [apply (in_map (fun p => (fst p, f (snd p)))); assumption|assumption]).
  Qed.
  Lemma map_pair_id (l : list (Z * F)) : map (fun p => (fst p, snd p)) l = l.
  Proof. induction l as [|[a b] l IH]; cbn; [|rewrite IH]; reflexivity. Qed.

  (** ** The tide *)
  Lemma date_more a b b' f : 0 < f -> a <= b <= b' -> exists more, dateRange a b' f = dateRange a b f ++ more /\ Forall (fun t => b < t) more.
  Proof.
    intros P L. unfold dateRange. rewrite (proj2 (Z.ltb_ge b a)), (proj2 (Z.ltb_ge b' a)) by lia.
    set (n := Z.to_nat ((b - a) / f)). set (n' := Z.to_nat ((b' - a) / f)).
    assert (N : (n <= n')%nat) by (apply Z2Nat.inj_le; [apply Z.div_pos; lia|apply Z.div_pos; lia|apply Z.div_le_mono; lia]).
    replace (S n') with (S n + (n' - n))%nat by lia. rewrite seq_app, map_app. eexists. split; [reflexivity|].
    apply Forall_forall. intros t Ht. apply in_map_iff in Ht. destruct Ht as (k & <- & Hk). apply in_seq in Hk.
    pose proof (last_step a b f ltac:(lia) P). fold n in H. nia.
  Qed.
  Lemma date_ordered a b f : 0 < f -> forall i x y, nth_error (dateRange a b f) i = Some x -> nth_error (dateRange a b f) (S i) = Some y -> x < y.
  Proof. intros P i x y Hx Hy. apply dateRange_nth in Hx, Hy. nia. Qed.
  Lemma tide_more a b b' f (ms ra : F) : 0 < f -> a <= b <= b' -> exists more, harmonicTide a b' f ms ra = harmonicTide a b f ms ra ++ more /\
    Forall (fun q => b < fst q) more /\ ordered_times (harmonicTide a b f ms ra ++ more).
  Proof.
    intros P L. destruct (date_more a b b' f P L) as (more & E & M). exists (map (fun t => (t, tideAt a ms ra t)) more).
    assert (E' : harmonicTide a b' f ms ra = harmonicTide a b f ms ra ++ map (fun t => (t, tideAt a ms ra t)) more) by (unfold harmonicTide; rewrite E, map_app; reflexivity).
    split; [exact E'|]. split.
    - apply Forall_forall. intros q Hq. apply in_map_iff in Hq. destruct Hq as (t & <- & Ht). rewrite Forall_forall in M. cbn [fst]. auto.
    - rewrite <- E'. intros i x y Hx Hy. unfold harmonicTide in Hx, Hy. rewrite nth_error_map in Hx, Hy.
      destruct (nth_error _ i) as [u|] eqn:U in Hx; [|discriminate]. destruct (nth_error _ (S i)) as [w|] eqn:V in Hy; [|discriminate].
      cbn in Hx, Hy. injection Hx as <-. injection Hy as <-. cbn [fst]. eapply date_ordered; eauto.
  Qed.
End Load.
