(** Proofs about relic channels and breaches (mor.py:443-692). *)
From Coq Require Import ZArith List Bool Lia Reals Lra.
From Verif Require Import Base Num Xr XEval MState MCoast MRiv MMor SMor SPost PCoast PGeom PLag PCore PFill PRate PPost PTrunc.
Import ListNotations.
Local Open Scope R_scope.

(** ** Merging into the lagoon *)
Lemma dissolve_spec x y0 y1 y2 y3 y4 z0 z1 z2 z3 : y4 < y1 ->
  exists z, dissolve (withChannel x y0 y1 y2 y3 y4 z0 z1 z2 z3) =
    mkT (Fin x) (Fin y0) NaN NaN (Fin (y3 + (y1 - y2))) (Fin y4) (Fin z0) NaN (Fin z2) (Fin z) /\
    z * (y1 - y4) = z1 * (y1 - y2) + z3 * (y3 - y4) /\
    z * (y3 + (y1 - y2) - y4) = (z1 * (y1 - y2) + z3 * (y3 - y4)) + z * (y3 - y2).
Proof.
  intros H. eexists. split.
  - unfold dissolve, withChannel. fl. rewrite !PRate.xsub, !PRate.xmul, !PRate.xadd, xdivf by lra. reflexivity.
  - split; field; lra.
Qed.
Lemma dissolve_nth {F} {NF : Num F} junk (T : list (tsect F)) i :
  nth_error (dissolveStep junk T) i = option_map (fun t => if lagoonIntersect junk i t then dissolve t else t) (nth_error T i).
Proof. unfold dissolveStep. apply nth_error_mapi. Qed.

(** ** Filling from the shoreface *)
Lemma fill_spec P D x y0 y1 y2 y3 y4 z0 z1 z2 z3 : pClosureDepth P = Fin D -> 0 < z2 + D ->
  exists y, fillT P (withChannel x y0 y1 y2 y3 y4 z0 z1 z2 z3) =
    mkT (Fin x) (Fin y) NaN NaN (Fin y3) (Fin y4) (Fin z2) NaN NaN (Fin z3) /\
    (y0 - y) * (z2 + D) = (y1 - y2) * (z2 - z1).
Proof.
  intros HD H. eexists. split.
  - unfold fillT, withChannel. fl. rewrite HD. xf. reflexivity.
  - field. lra.
Qed.
Lemma filter_id {A} (p : A -> bool) l : length (filter p l) = length l -> filter p l = l /\ Forall (fun x => p x = true) l.
Proof.
  induction l as [|a l IH]; cbn [filter]; intros H; [split; [auto|constructor]|].
  destruct (p a) eqn:E.
  - cbn [length] in H. destruct IH as [IH1 IH2]; [lia|]. rewrite IH1. split; [auto|constructor; auto].
  - exfalso. assert (length (filter p l) <= length l)%nat by (clear; induction l as [|b l IH]; cbn; [lia|destruct (p b); cbn; lia]).
    cbn [length] in H. lia.
Qed.
Lemma connected_joined cc i : connected cc i = true <-> joined cc i.
Proof. unfold connected, joined. destruct cc as [[lo hi]|]; [rewrite andb_true_iff, !Z.leb_le; tauto|split; [discriminate|tauto]]. Qed.
Section Fill.
  Context {F : Type} {NF : Num F}.
  Variables (P : phys F) (junk : nat -> bool) (T : list (tsect F)) (pres : list bool) (e0 : F) (Closed : bool) (cc : option (Z * Z)).
  Notation mask := (mapi (shoreIntersect junk) T).

  Lemma mask_id (b : nat) : length (filter (fun m => negb (b2z m =? Z.of_nat b)%Z) mask) = length T ->
    filter (fun m => negb (b2z m =? Z.of_nat b)%Z) mask = mask.
  Proof. intros H. apply filter_id. rewrite H. symmetry. apply mapi_length. Qed.

  Lemma shore_ok T' pres' b : shoreFill P junk T pres e0 Closed cc = Ok (T', pres', b) ->
    T' = map2 (fun (m : bool) t => if m then fillT P t else t) mask T /\
    pres' = map2 (fun (m : bool) p => if m then false else p) mask pres \/ (T' = T /\ pres' = pres /\ b = None /\ existsb (fun b => b) mask = false).
  Proof.
    unfold shoreFill. destruct (existsb _ _) eqn:E.
    - intros H. left. apply bind_ok in H as ([m q] & Em & H).
      destruct (negb (Nat.eqb (length m) (length T))) eqn:L; [discriminate|]. apply negb_false_iff, Nat.eqb_eq in L.
      assert (m = mask) as ->.
      { destruct (Closed && _); [|congruence]. bok Em ts. bok Em k. bok Em bi. injection Em as <- _. now apply mask_id. }
      injection H as <- <- _. auto.
    - intros H. right. injection H as <- <- <-. auto.
  Qed.
  Lemma shore_nth T' pres' b : shoreFill P junk T pres e0 Closed cc = Ok (T', pres', b) ->
    length T' = length T /\
    forall i t, nth_error T i = Some t -> nth_error T' i = Some (if shoreIntersect junk i t then fillT P t else t).
  Proof.
    intros H. apply shore_ok in H as [[-> _]|(-> & _ & _ & E)].
    - split; [rewrite map2_length, mapi_length; lia|]. intros i t Ht.
      rewrite nth_error_map2, nth_error_mapi, Ht. reflexivity.
    - split; [auto|]. intros i t Ht. destruct (shoreIntersect junk i t) eqn:Q; [|auto]. exfalso.
      assert (existsb (fun b => b) mask = true); [|congruence]. apply existsb_exists. exists true. split; [|auto].
      apply (nth_error_In _ i). rewrite nth_error_mapi, Ht. cbn. now rewrite Q.
  Qed.
  Lemma shore_pres T' pres' b : shoreFill P junk T pres e0 Closed cc = Ok (T', pres', b) -> length pres = length T ->
    length pres' = length pres /\
    forall i t p, nth_error T i = Some t -> nth_error pres i = Some p -> nth_error pres' i = Some (negb (shoreIntersect junk i t) && p).
  Proof.
    intros H L. apply shore_ok in H as [[_ ->]|(_ & -> & _ & E)].
    - split; [rewrite map2_length, mapi_length; lia|]. intros i t p Ht Hp.
      rewrite nth_error_map2, nth_error_mapi, Ht, Hp. cbn. destruct (shoreIntersect junk i t); reflexivity.
    - split; [auto|]. intros i t p Ht Hp. destruct (shoreIntersect junk i t) eqn:Q; [|auto]. exfalso.
      assert (existsb (fun b => b) mask = true); [|congruence]. apply existsb_exists. exists true. split; [|auto].
      apply (nth_error_In _ i). rewrite nth_error_mapi, Ht. cbn. now rewrite Q.
  Qed.
  (** The breach is where the sea has reached the connected relic channel, and that
      transect is filled like the others. *)
  Lemma breach_filled T' pres' b : shoreFill P junk T pres e0 Closed cc = Ok (T', pres', Some b) ->
    Closed = true /\ joined cc b /\ b <> 1%nat /\ (b = 0%nat -> forall i t, nth_error T i = Some t -> shoreIntersect junk i t = true) /\
    exists t, nth_error T b = Some t /\ shoreIntersect junk b t = true /\ nth_error T' b = Some (fillT P t).
  Proof.
    intros H. pose proof (shore_nth _ _ _ H) as [_ N]. unfold shoreFill in H. destruct (existsb _ _) eqn:E; [|discriminate].
    apply bind_ok in H as ([m q] & Em & H).
    destruct (negb (Nat.eqb (length m) (length T))) eqn:L; [discriminate|]. apply negb_false_iff, Nat.eqb_eq in L.
    injection H as _ _ ->.
    destruct (Closed && _) eqn:C; [|discriminate]. bok Em ts. bok Em k. bok Em bi. injection Em as <- ->.
    apply andb_true_iff in C as [-> _]. apply ix_ok in Ebi. apply nth_error_In in Ebi.
    apply where_spec in Ebi as (w & Hw & ->). rewrite nth_error_mapi in Hw.
    destruct (nth_error mask b) as [mb|] eqn:Hm; [|discriminate]. cbn in Hw. apply Some_inj in Hw.
    apply andb_true_iff in Hw as [-> Hc]. rewrite nth_error_mapi in Hm.
    destruct (nth_error T b) as [t|] eqn:Ht; [|discriminate]. cbn in Hm. apply Some_inj in Hm.
    destruct (filter_id (fun m => negb (b2z m =? Z.of_nat b)%Z) mask) as [_ FA]; [rewrite mapi_length; auto|].
    rewrite Forall_forall in FA.
    split; [auto|]. split; [now apply connected_joined|]. split; [|split].
    - intros ->. assert (In true mask) by (apply (nth_error_In _ 1); rewrite nth_error_mapi, Ht; cbn; now rewrite Hm).
      apply FA in H. discriminate.
    - intros -> i u Hu. destruct (shoreIntersect junk i u) eqn:Q; [auto|exfalso].
      assert (In false mask) by (apply (nth_error_In _ i); rewrite nth_error_mapi, Hu; cbn; now rewrite Q).
      apply FA in H. discriminate.
    - exists t. split; [auto|]. split; [auto|]. rewrite (N b t Ht), Hm. reflexivity.
  Qed.
End Fill.

(** ** argmin and argmax on numbers *)
Lemma argBest_spec (better : R -> R -> bool) : (forall a b c, better a b = false -> better b c = false -> better a c = false) ->
  (forall a b, better a b = true -> better b a = false) ->
  (forall a b c, better a b = true -> better b c = true -> better a c = true) ->
  (forall a b c, better a b = true -> better c b = false -> better a c = true) ->
  forall (fb : xr -> xr -> bool), (forall a b, fb (Fin a) (Fin b) = better a b) ->
  forall l k best v, (best < k)%nat ->
  let r := argBest fb k best (Fin v) (map Fin l) in
  (r = best /\ forall j a, nth_error l j = Some a -> better a v = false) \/
  exists j a, r = (k + j)%nat /\ nth_error l j = Some a /\ better a v = true /\
    (forall i b, nth_error l i = Some b -> better b a = false) /\ (forall i b, (i < j)%nat -> nth_error l i = Some b -> better a b = true).
Proof.
  intros Htr Has Htt Htm fb Hfb. induction l as [|x l IH]; intros k best v Hb r.
  - left. split; [reflexivity|]. intros [|j]; discriminate.
  - unfold r. cbn [map argBest]. change (fisnan (Fin v)) with false. change (fisnan (Fin x)) with false. cbn [orb]. cbv iota. rewrite Hfb.
    destruct (better x v) eqn:E.
    + right. destruct (IH (S k) k x ltac:(lia)) as [[-> H]|(j & a & -> & H1 & H2 & H3 & H4)].
      * exists 0%nat, x. split; [lia|]. split; [reflexivity|]. split; [auto|]. split.
        -- intros [|i] b Hi; cbn in Hi; [apply Some_inj in Hi; subst; destruct (better b b) eqn:Q; [rewrite (Has _ _ Q) in Q; discriminate|auto]|eauto].
        -- intros; lia.
      * exists (S j), a. split; [lia|]. split; [auto|]. split; [eauto|]. split.
        -- intros [|i] b Hi; cbn in Hi; [apply Some_inj in Hi; subst; auto|eauto].
        -- intros [|i] b Hi Hn; cbn in Hn; [apply Some_inj in Hn; subst; auto|]. apply (H4 i); auto. lia.
    + destruct (IH (S k) best v ltac:(lia)) as [[-> H]|(j & a & -> & H1 & H2 & H3 & H4)].
      * left. split; [auto|]. intros [|j] b Hj; cbn in Hj; [apply Some_inj in Hj; subst; auto|eauto].
      * right. exists (S j), a. split; [lia|]. split; [auto|]. split; [auto|]. split.
        -- intros [|i] b Hi; cbn in Hi; [apply Some_inj in Hi; subst|eauto]. apply Has. eauto.
        -- intros [|i] b Hi Hn; cbn in Hn; [apply Some_inj in Hn; subst; eauto|]. apply (H4 i); auto. lia.
Qed.
Lemma argmin_spec l k : argmin (map Fin l) = Ok k ->
  exists a, nth_error l k = Some a /\ (forall i b, nth_error l i = Some b -> a <= b) /\
            (forall i b, (i < k)%nat -> nth_error l i = Some b -> a < b).
Proof.
  destruct l as [|x l]; [discriminate|]. unfold argmin. cbn [map]. intros H. apply Ok_inj in H.
  pose proof (argBest_spec Rltb) as S. destruct (S) with (fb := fun a b : xr => (a <? b)%n) (l := l) (k := 1%nat) (best := 0%nat) (v := x)
    as [[E H1]|(j & a & E & H1 & H2 & H3 & H4)]; try (intros; rb; apply Rltb_false; lra); try (intros; rb; apply Rltb_true; lra); try lia; try reflexivity.
  - rewrite E in H. subst k. exists x. split; [reflexivity|]. split; [|intros; lia].
    intros [|i] b Hi; cbn in Hi; [apply Some_inj in Hi; subst; lra|]. specialize (H1 _ _ Hi). rb. auto.
  - rewrite E in H. subst k. exists a. split; [auto|]. rb. split.
    + intros [|i] b Hi; cbn in Hi; [apply Some_inj in Hi; subst; lra|]. specialize (H3 _ _ Hi). rb. auto.
    + intros [|i] b Hk Hi; cbn in Hi; [apply Some_inj in Hi; subst; auto|]. assert (Hk' : (i < j)%nat) by lia. specialize (H4 _ _ Hk' Hi). rb. auto.
Qed.
Lemma argmax_spec l k : argmax (map Fin l) = Ok k ->
  exists a, nth_error l k = Some a /\ (forall i b, nth_error l i = Some b -> b <= a) /\
            (forall i b, (i < k)%nat -> nth_error l i = Some b -> b < a).
Proof.
  destruct l as [|x l]; [discriminate|]. unfold argmax. cbn [map]. intros H. apply Ok_inj in H.
  pose proof (argBest_spec (fun a b => Rltb b a)) as S. destruct (S) with (fb := fun a b : xr => (b <? a)%n) (l := l) (k := 1%nat) (best := 0%nat) (v := x)
    as [[E H1]|(j & a & E & H1 & H2 & H3 & H4)]; try (intros; rb; apply Rltb_false; lra); try (intros; rb; apply Rltb_true; lra); try lia; try reflexivity.
  - rewrite E in H. subst k. exists x. split; [reflexivity|]. split; [|intros; lia].
    intros [|i] b Hi; cbn in Hi; [apply Some_inj in Hi; subst; lra|]. specialize (H1 _ _ Hi). cbn in H1. rb. auto.
  - rewrite E in H. subst k. exists a. split; [auto|]. cbn in H2. rb. split.
    + intros [|i] b Hi; cbn in Hi; [apply Some_inj in Hi; subst; lra|]. specialize (H3 _ _ Hi). cbn in H3. rb. auto.
    + intros [|i] b Hk Hi; cbn in Hi; [apply Some_inj in Hi; subst; auto|]. assert (Hk' : (i < j)%nat) by lia. specialize (H4 _ _ Hk' Hi). cbn in H4. rb. auto.
Qed.
Lemma argmin_ok l : l <> [] -> exists k, argmin (map Fin l) = Ok k.
Proof. destruct l; [congruence|]. intros _. eexists. reflexivity. Qed.
