(** Proofs about the validation of the configuration. *)
From Coq Require Import ZArith List Bool String Ascii Lia.
From Verif Require Import Base Num MState MConf SConf.
Import ListNotations.
Local Open Scope string_scope.

(** ** Words *)
Lemma lowc_spec c : (65 <= nat_of_ascii c <= 90 /\ nat_of_ascii (lowc c) = nat_of_ascii c + 32) \/
  (~ 65 <= nat_of_ascii c <= 90 /\ lowc c = c).
Proof.
  unfold lowc. destruct (Nat.leb 65 (nat_of_ascii c) && Nat.leb (nat_of_ascii c) 90) eqn:E.
  - apply andb_true_iff in E as [A B]. apply Nat.leb_le in A, B. left. split; [lia|]. apply nat_ascii_embedding. lia.
  - right. split; [|reflexivity]. intros [A B]. apply Nat.leb_le in A, B. rewrite A, B in E. discriminate.
Qed.
Definition small (c : ascii) : Prop := ~ 65 <= nat_of_ascii c <= 90.
Fixpoint allSmall (s : string) : Prop := match s with "" => True | String c r => small c /\ allSmall r end.
Lemma lower_same s w : allSmall w -> (sameWord s w <-> lower s = w).
Proof.
  revert w. induction s as [|c s IH]; intros w Hw.
  - split; [inversion 1; reflexivity|intros <-; constructor].
  - split.
    + intros HS. inversion HS as [|c0 a b HS1|c0 d a b HC HD HS1]; subst; cbn [lower]; cbn in Hw; destruct Hw as [S1 S2].
      * f_equal; [|apply IH; auto]. destruct (lowc_spec c) as [[A _]|[_ B]]; [contradiction|exact B].
      * f_equal; [|apply IH; auto]. destruct (lowc_spec c) as [[_ A]|[B _]]; [|contradiction].
        rewrite <- (ascii_nat_embedding (lowc c)), <- (ascii_nat_embedding d). f_equal. lia.
    + cbn [lower]. intros <-. cbn in Hw. destruct Hw as [H1 H2]. specialize (IH _ H2).
      destruct (lowc_spec c) as [[A B]|[A B]]; [apply same_capital; auto; apply IH; reflexivity|].
      rewrite B. apply same_char. apply IH. reflexivity.
Qed.
Lemma word_bool (l : list string) s : Forall allSmall l -> (existsb (String.eqb (lower s)) l = true <-> exists w, In w l /\ sameWord s w).
Proof.
  intros Hl. rewrite Forall_forall in Hl. rewrite existsb_exists. split; intros (w & Hi & H); exists w; (split; [exact Hi|]).
  - apply String.eqb_eq in H. apply lower_same; auto.
  - apply String.eqb_eq. apply lower_same; auto.
Qed.
Ltac smalls := repeat constructor; cbn; unfold small; cbn; lia.
Lemma txB_spec t : (txB t = Some true <-> saysTrue t) /\ (txB t = Some false <-> saysFalse t) /\
  (txB t = None <-> ~ saysTrue t /\ ~ saysFalse t).
Proof.
  unfold txB, saysTrue, saysFalse.
  assert (A := word_bool ["on"; "1"; "true"; "yes"] t ltac:(smalls)).
  assert (B := word_bool ["off"; "0"; "false"; "no"] t ltac:(smalls)).
  assert (D : existsb (String.eqb (lower t)) ["on"; "1"; "true"; "yes"] = true -> existsb (String.eqb (lower t)) ["off"; "0"; "false"; "no"] = true -> False).
  { rewrite !existsb_exists. intros (w & W1 & W2) (v & V1 & V2). apply String.eqb_eq in W2, V2. rewrite W2 in V2. subst v.
    cbn in W1, V1. intuition congruence. }
  destruct (existsb _ ["on"; "1"; "true"; "yes"]); destruct (existsb _ ["off"; "0"; "false"; "no"]); try (exfalso; tauto).
  - split; [|split]; split; try congruence; try tauto; try (intros; exfalso; assert (false = true) by tauto; congruence).
  - split; [|split]; split; try congruence; try tauto; try (intros; exfalso; assert (false = true) by tauto; congruence).
  - split; [|split]; split; try congruence; try tauto; try (intros; exfalso; assert (false = true) by tauto; congruence).
Qed.

(** ** The table *)
Definition keyOf (e : centry) : string * string := (cSec e, cKey e).
Lemma keys_nodup : NoDup (map keyOf cspec).
Proof.
  assert (D : forall x y : string * string, {x = y} + {x <> y}) by (intros [a b] [c d]; destruct (string_dec a c), (string_dec b d); subst; auto; right; congruence).
  assert (E : nodup (fun x y : string * string =>
     match string_dec (fst x) (fst y), string_dec (snd x) (snd y) with
     | left a, left b => left (match x, y return fst x = fst y -> snd x = snd y -> x = y with (p, q), (u, v) => fun a b => f_equal2 pair a b end a b)
     | right a, _ => right (fun e => a (f_equal fst e)) | _, right b => right (fun e => b (f_equal snd e)) end) (map keyOf cspec) = map keyOf cspec) by (vm_compute; reflexivity).
  rewrite <- E. apply NoDup_nodup.
Qed.
Lemma find_key e : In e cspec -> find (fun x => String.eqb (cSec x) (cSec e) && String.eqb (cKey x) (cKey e)) cspec = Some e.
Proof.
  generalize keys_nodup. generalize cspec. intros l. induction l as [|x l IH]; [intros _ []|].
  intros N Hi. cbn [map] in N. apply NoDup_cons_iff in N as [N1 N2]. cbn [find].
  destruct (String.eqb (cSec x) (cSec e) && String.eqb (cKey x) (cKey e)) eqn:E.
  - destruct Hi as [->|Hi]; [reflexivity|]. exfalso. apply N1. apply andb_true_iff in E as [A B]. apply String.eqb_eq in A, B.
    replace (keyOf x) with (keyOf e) by (unfold keyOf; congruence). apply in_map. exact Hi.
  - destruct Hi as [->|Hi]; [|auto]. rewrite !String.eqb_refl in E. discriminate.
Qed.
Lemma key_inj e e' : In e cspec -> In e' cspec -> keyOf e = keyOf e' -> e = e'.
Proof.
  intros A B E. apply find_key in A, B. unfold keyOf in E. inversion E as [[E1 E2]]. rewrite E1, E2 in A. congruence.
Qed.

Definition isReq e := match cDef e with DReq => true | _ => false end.
Definition isStr e := match cTyp e with TStr => true | _ => false end.
Definition isBool e := match cTyp e with TBool => true | _ => false end.
Lemma required_tab : requiredKeys = map keyOf (filter isReq cspec).
Proof. reflexivity. Qed.
Lemma text_tab : textKeys = map keyOf (filter isStr cspec).
Proof. reflexivity. Qed.
Lemma bool_tab : booleanKeys = map keyOf (filter isBool cspec).
Proof. reflexivity. Qed.
Lemma int_tab : intLimits = flat_map (fun e => match cTyp e with TInt lo => [(cSec e, cKey e, lo)] | _ => [] end) cspec.
Proof. reflexivity. Qed.
Lemma float_tab : floatLimits = flat_map (fun e => match cTyp e with TFloat lo hi => [(cSec e, cKey e, lo, hi)] | _ => [] end) cspec.
Proof. reflexivity. Qed.

Section Conf.
  Context {F : Type} {NF : Num F}.
  Lemma default_tab : defaultValues = flat_map (fun e => match defVal (cDef e) with Some v => [(cSec e, cKey e, v)] | None => [] end) cspec.
  Proof. reflexivity. Qed.

  Lemma in_required s k : In (s, k) requiredKeys <-> exists e, In e cspec /\ keyOf e = (s, k) /\ cDef e = DReq.
  Proof.
    rewrite required_tab, in_map_iff. split.
    - intros (e & E & H). apply filter_In in H as [H1 H2]. exists e. repeat split; auto. unfold isReq in H2. destruct (cDef e); congruence.
    - intros (e & H & E & D). exists e. split; [auto|]. apply filter_In. split; [auto|]. unfold isReq. rewrite D. reflexivity.
  Qed.
  Lemma in_text s k : In (s, k) textKeys <-> exists e, In e cspec /\ keyOf e = (s, k) /\ cTyp e = TStr.
  Proof.
    rewrite text_tab, in_map_iff. split.
    - intros (e & E & H). apply filter_In in H as [H1 H2]. exists e. repeat split; auto. unfold isStr in H2. destruct (cTyp e); congruence.
    - intros (e & H & E & D). exists e. split; [auto|]. apply filter_In. split; [auto|]. unfold isStr. rewrite D. reflexivity.
  Qed.
  Lemma in_bool s k : In (s, k) booleanKeys <-> exists e, In e cspec /\ keyOf e = (s, k) /\ cTyp e = TBool.
  Proof.
    rewrite bool_tab, in_map_iff. split.
    - intros (e & E & H). apply filter_In in H as [H1 H2]. exists e. repeat split; auto. unfold isBool in H2. destruct (cTyp e); congruence.
    - intros (e & H & E & D). exists e. split; [auto|]. apply filter_In. split; [auto|]. unfold isBool. rewrite D. reflexivity.
  Qed.
  Lemma in_int s k lo : In (s, k, lo) intLimits <-> exists e, In e cspec /\ keyOf e = (s, k) /\ cTyp e = TInt lo.
  Proof.
    rewrite int_tab, in_flat_map. split.
    - intros (e & H & E). exists e. destruct (cTyp e); cbn in E; try tauto. destruct E as [E|[]]. inversion E; subst. auto.
    - intros (e & H & E & D). exists e. split; [auto|]. rewrite D. left. unfold keyOf in E. inversion E; subst. reflexivity.
  Qed.
  Lemma in_float s k lo hi : In (s, k, lo, hi) floatLimits <-> exists e, In e cspec /\ keyOf e = (s, k) /\ cTyp e = TFloat lo hi.
  Proof.
    rewrite float_tab, in_flat_map. split.
    - intros (e & H & E). exists e. destruct (cTyp e); cbn in E; try tauto. destruct E as [E|[]]. inversion E; subst. auto.
    - intros (e & H & E & D). exists e. split; [auto|]. rewrite D. left. unfold keyOf in E. inversion E; subst. reflexivity.
  Qed.
  Lemma in_default s k v : In (s, k, v) defaultValues <-> exists e, In e cspec /\ keyOf e = (s, k) /\ defVal (cDef e) = Some v.
  Proof.
    rewrite default_tab, in_flat_map. split.
    - intros (e & H & E). exists e. destruct (defVal (cDef e)) eqn:D; cbn in E; [|tauto]. destruct E as [E|[]]. inversion E; subst. auto.
    - intros (e & H & E & D). exists e. split; [auto|]. rewrite D. left. unfold keyOf in E. inversion E; subst. reflexivity.
  Qed.
  Lemma known_key s k : knownKey s k <-> exists e, In e cspec /\ keyOf e = (s, k).
  Proof.
    unfold knownKey. setoid_rewrite in_text. setoid_rewrite in_bool. setoid_rewrite in_int. setoid_rewrite in_float. split.
    - intros [(e & A & B & _)|[(e & A & B & _)|[(? & e & A & B & _)|(? & ? & e & A & B & _)]]]; eauto.
    - intros (e & A & B). destruct (cTyp e) eqn:E.
      + left. exists e. auto.
      + right. right. right. exists lo, hi, e. auto.
      + right. right. left. exists lo, e. auto.
      + right. left. exists e. auto.
  Qed.

  (** ** One value *)
  Lemma check_float (X : conv F) lo hi t v : checkVal X (TFloat lo hi) t = Some v <-> exists x, txF X t = Some x /\ within lo hi x /\ v = CF x.
  Proof.
    cbn [checkVal]. destruct (txF X t) as [x|].
    2: { split; [discriminate|intros (x & E & _); discriminate]. }
    unfold within. split.
    - intros H. exists x. split; [reflexivity|].
      destruct (match lo with Some l => fltb x (litF l) | None => false end) eqn:E1; [discriminate|].
      destruct (match hi with Some h => fltb (litF h) x | None => false end) eqn:E2; [discriminate|].
      apply Some_inj in H. split; [|auto]. split; intros z p ->; cbn in *; auto.
    - intros (y & E & [A B] & ->). apply Some_inj in E. subst y.
      destruct lo as [[z p]|]; [rewrite (A z p eq_refl : fltb x (litF (z, p)) = false)|]; (destruct hi as [[z' p']|]; [rewrite (B z' p' eq_refl : fltb (litF (z', p')) x = false)|]); reflexivity.
  Qed.
  Lemma check_int (X : conv F) lo t v : checkVal X (TInt lo) t = Some v <-> exists z, txI X t = Some z /\ (forall l, lo = Some l -> (l <= z)%Z) /\ v = CI z.
  Proof.
    cbn [checkVal]. destruct (txI X t) as [x|].
    2: { split; [discriminate|intros (x & E & _); discriminate]. }
    split.
    - intros H. exists x. split; [reflexivity|]. destruct lo as [l|].
      + destruct (x <? l)%Z eqn:E; [discriminate|]. apply Z.ltb_ge in E. split; [intros ? [= <-]; auto|congruence].
      + split; [discriminate|congruence].
    - intros (y & E & A & ->). apply Some_inj in E. subst y. destruct lo as [l|]; [|reflexivity].
      replace (x <? l)%Z with false by (symmetry; apply Z.ltb_ge; auto). reflexivity.
  Qed.
  Lemma check_bool (X : conv F) t v : checkVal X TBool t = Some v <-> exists b, v = CB b /\ if b then saysTrue t else saysFalse t.
  Proof.
    cbn [checkVal]. destruct (txB_spec t) as (A & B & C). split.
    - destruct (txB t) as [b|] eqn:E; [|discriminate]. intros H. apply Some_inj in H. subst v. exists b. split; [reflexivity|]. destruct b; tauto.
    - intros (b & -> & H). destruct b; [apply A in H|apply B in H]; rewrite H; reflexivity.
  Qed.

  Lemma entry_means (X : conv F) r e v : In e cspec -> (entryVal X r e = Some v <-> (means X r (cSec e) (cKey e) v /\
     forall lo hi x, cTyp e = TFloat lo hi -> v = CF x -> r (cSec e) (cKey e) <> None -> within lo hi x) /\ 
     forall lo z, cTyp e = TInt lo -> v = CI z -> r (cSec e) (cKey e) <> None -> forall l, lo = Some l -> (l <= z)%Z).
  Proof.
    intros He. unfold entryVal, means.
    assert (U : forall e', In e' cspec -> keyOf e' = (cSec e, cKey e) -> e' = e) by (intros e' H' E'; apply key_inj; auto).
    destruct (r (cSec e) (cKey e)) as [[t|]|] eqn:R.
    - split.
      + intros H. split; [split|].
        * right. exists t. split; [reflexivity|]. destruct (cTyp e) eqn:T.
          -- left. split; [apply in_text; eauto|]. cbn in H. congruence.
          -- right. right. right. split; [exists lo, hi; apply in_float; eauto|]. apply check_float in H as (x & A & _ & B). eauto.
          -- right. right. left. split; [exists lo; apply in_int; eauto|]. apply check_int in H as (x & A & _ & B). eauto.
          -- right. left. split; [apply in_bool; eauto|]. apply check_bool in H. exact H.
        * intros lo hi x T -> _. rewrite T in H. apply check_float in H as (y & _ & A & B). congruence.
        * intros lo z T -> _. rewrite T in H. apply check_int in H as (y & _ & A & B). inversion B; subst. exact A.
      + intros [[[[C _]|(t' & Et & H)] W1] W2]; [discriminate|]. inversion Et; subst t'. clear Et.
        destruct H as [[H ->]|[[H B]|[[[lo H] (z & Z1 & ->)]|[(lo & hi & H) (x & X1 & ->)]]]].
        * apply in_text in H as (e' & A & B & C). apply U in B; auto. subst e'. rewrite C. reflexivity.
        * apply in_bool in H as (e' & A & B' & C). apply U in B'; auto. subst e'. rewrite C. apply check_bool. exact B.
        * apply in_int in H as (e' & A & B' & C). apply U in B'; auto. subst e'. rewrite C. apply check_int. exists z. split; [auto|]. split; [|reflexivity].
          apply (W2 lo z C eq_refl). discriminate.
        * apply in_float in H as (e' & A & B' & C). apply U in B'; auto. subst e'. rewrite C. apply check_float. exists x. split; [auto|]. split; [|reflexivity].
          apply (W1 lo hi x C eq_refl). discriminate.
    - split; [discriminate|]. intros [[[[C _]|(t' & Et & _)] _] _]; discriminate.
    - split.
      + intros H. split; [split|].
        * left. split; [reflexivity|]. apply in_default. eauto.
        * intros; congruence.
        * intros; congruence.
      + intros [[[[_ H]|(t' & Et & _)] _] _]; [|discriminate]. apply in_default in H as (e' & A & B & C). apply U in B; auto. subst e'. exact C.
  Qed.

  Lemma entry_formed (X : conv F) r : wellFormed X r <-> forall e, In e cspec -> entryVal X r e <> None.
  Proof.
    split.
    - intros (W1 & W2 & W3 & W4 & W5) e He. unfold entryVal. destruct (r (cSec e) (cKey e)) as [v|] eqn:R.
      + destruct (cTyp e) eqn:T.
        * destruct (W2 (cSec e) (cKey e) v) as (t & ->); [apply in_text; eauto|auto|]. cbn. congruence.
        * destruct (W5 (cSec e) (cKey e) lo hi v) as (t & x & -> & A & B); [apply in_float; eauto|auto|].
          assert (E : checkVal X (TFloat lo hi) t = Some (CF x)) by (apply check_float; eauto). congruence.
        * destruct (W4 (cSec e) (cKey e) lo v) as (t & x & -> & A & B); [apply in_int; eauto|auto|].
          assert (E : checkVal X (TInt lo) t = Some (CI x)) by (apply check_int; eauto). congruence.
        * destruct (W3 (cSec e) (cKey e) v) as (t & -> & A); [apply in_bool; eauto|auto|].
          assert (exists b, checkVal X TBool t = Some (CB b)) as (b & E). { destruct A as [A|A]; [exists true|exists false]; apply check_bool; eauto. } congruence.
      + destruct (cDef e) eqn:D; cbn; try congruence. exfalso. apply (W1 (cSec e) (cKey e)); [apply in_required; eauto|auto].
    - intros H. unfold wellFormed. split; [|split; [|split; [|split]]].
      + intros s k Hi R. apply in_required in Hi as (e & A & B & C). specialize (H e A). unfold keyOf in B. inversion B; subst s k.
        unfold entryVal in H. rewrite R, C in H. cbn in H. congruence.
      + intros s k v Hi R. apply in_text in Hi as (e & A & B & C). specialize (H e A). unfold keyOf in B. inversion B; subst s k.
        unfold entryVal in H. rewrite R, C in H. destruct v; [eauto|congruence].
      + intros s k v Hi R. apply in_bool in Hi as (e & A & B & C). specialize (H e A). unfold keyOf in B. inversion B; subst s k.
        unfold entryVal in H. rewrite R, C in H. destruct v as [t|]; [|congruence]. exists t. split; [auto|].
        destruct (checkVal X TBool t) eqn:E; [|congruence]. apply check_bool in E as ([|] & _ & E); auto.
      + intros s k lo v Hi R. apply in_int in Hi as (e & A & B & C). specialize (H e A). unfold keyOf in B. inversion B; subst s k.
        unfold entryVal in H. rewrite R, C in H. destruct v as [t|]; [|congruence]. 
        destruct (checkVal X (TInt lo) t) eqn:E; [|congruence]. apply check_int in E as (z & E1 & E2 & _). exists t, z. auto.
      + intros s k lo hi v Hi R. apply in_float in Hi as (e & A & B & C). specialize (H e A). unfold keyOf in B. inversion B; subst s k.
        unfold entryVal in H. rewrite R, C in H. destruct v as [t|]; [|congruence]. 
        destruct (checkVal X (TFloat lo hi) t) eqn:E; [|congruence]. apply check_float in E as (z & E1 & E2 & _). exists t, z. auto.
  Qed.

  (** ** The file *)
  Lemma valid_iff (X : conv F) r : (exists c, validate X r = Ok c) <-> wellFormed X r.
  Proof.
    rewrite entry_formed. unfold validate.
    destruct (forallb (fun e => match entryVal X r e with Some _ => true | None => false end) cspec) eqn:E.
    - split; [|intros _; eexists; reflexivity]. intros _ e He. rewrite forallb_forall in E. apply E in He. destruct (entryVal X r e); congruence.
    - split; [intros (c & C); discriminate|]. intros H. exfalso.
      assert (T : forallb (fun e => match entryVal X r e with Some _ => true | None => false end) cspec = true); [|congruence].
      apply forallb_forall. intros e He. apply H in He. destruct (entryVal X r e); congruence.
  Qed.
  Lemma valid_exc (X : conv F) r e : validate X r = Exc e -> e = EConfig.
  Proof. unfold validate. destruct (forallb _ cspec); [discriminate|congruence]. Qed.
  Lemma conf_entry (X : conv F) r c e : validate X r = Ok c -> In e cspec -> c (cSec e) (cKey e) = entryVal X r e.
  Proof.
    unfold validate. destruct (forallb _ cspec); [|discriminate]. intros H He. apply Ok_inj in H. subst c. cbv beta.
    rewrite (find_key e He). reflexivity.
  Qed.
  Lemma conf_means (X : conv F) r c s k v : validate X r = Ok c -> knownKey s k -> (c s k = Some v <-> means X r s k v).
  Proof.
    intros H K. apply known_key in K as (e & He & E). unfold keyOf in E. inversion E; subst s k. rewrite (conf_entry X r c e H He).
    split; [intros A; apply entry_means in A; auto; tauto|]. intros M.
    assert (N : entryVal X r e <> None). { apply entry_formed; [|exact He]. apply valid_iff. eauto. }
    destruct (entryVal X r e) as [w|] eqn:Ew; [|congruence]. f_equal.
    pose proof Ew as Ew'. apply entry_means in Ew'; auto. destruct Ew' as [[M' _] _].
    assert (U : forall e', In e' cspec -> keyOf e' = (cSec e, cKey e) -> e' = e) by (intros e' H' E'; apply key_inj; auto).
    destruct M as [[R M]|(t & R & M)]; destruct M' as [[R' M']|(t' & R' & M')]; try congruence.
    - apply in_default in M as (e1 & A1 & B1 & C1). apply in_default in M' as (e2 & A2 & B2 & C2). apply U in B1, B2; auto. subst. congruence.
    - rewrite R in R'. inversion R'; subst t'.
      rewrite !in_text, !in_bool in M, M'. setoid_rewrite in_int in M. setoid_rewrite in_int in M'. setoid_rewrite in_float in M. setoid_rewrite in_float in M'.
      assert (TB : saysTrue t -> saysFalse t -> False). { destruct (txB_spec t) as (A & B & _). intros p q. apply A in p. apply B in q. congruence. }
      destruct M as [[(e1 & A1 & B1 & C1) M]|[[(e1 & A1 & B1 & C1) (b1 & D1 & M)]|[[(lo1 & e1 & A1 & B1 & C1) (z1 & D1 & M)]|[(lo1 & hi1 & e1 & A1 & B1 & C1) (z1 & D1 & M)]]]];
      (destruct M' as [[(e2 & A2 & B2 & C2) M']|[[(e2 & A2 & B2 & C2) (b2 & D2 & M')]|[[(lo2 & e2 & A2 & B2 & C2) (z2 & D2 & M')]|[(lo2 & hi2 & e2 & A2 & B2 & C2) (z2 & D2 & M')]]]];
        apply U in B1, B2; auto; subst e1 e2; try congruence).
      subst. f_equal. destruct b1, b2; auto; exfalso; auto.
  Qed.
  Lemma conf_known (X : conv F) r c s k : validate X r = Ok c -> ~ knownKey s k -> c s k = None.
  Proof.
    unfold validate. destruct (forallb _ cspec); [|discriminate]. intros H K. apply Ok_inj in H. subst c. cbv beta.
    destruct (find _ cspec) as [e|] eqn:E; [|reflexivity]. exfalso. apply K. apply find_some in E as [A B]. apply andb_true_iff in B as [B C].
    apply String.eqb_eq in B, C. apply known_key. exists e. split; [auto|]. unfold keyOf. congruence.
  Qed.

  Lemma unknown_ignored (X : conv F) r r' : (forall s k, knownKey s k -> r s k = r' s k) ->
    match validate X r, validate X r' with
    | Ok c, Ok c' => forall s k, c s k = c' s k
    | Exc e, Exc e' => e = e'
    | _, _ => False
    end.
  Proof.
    intros H. assert (E : forall e, In e cspec -> entryVal X r e = entryVal X r' e).
    { intros e He. unfold entryVal. rewrite (H (cSec e) (cKey e)); [reflexivity|]. apply known_key. exists e. split; auto. }
    destruct (validate X r) as [c|x] eqn:V.
    - destruct (proj2 (valid_iff X r')) as (c' & V').
      { apply entry_formed. intros e He. rewrite <- E by auto. apply entry_formed; [|auto]. apply valid_iff. eauto. }
      rewrite V'. intros s k. unfold validate in V, V'.
      destruct (forallb _ cspec) in V; [|discriminate]. destruct (forallb _ cspec) in V'; [|discriminate]. apply Ok_inj in V, V'. subst c c'. cbv beta.
      destruct (find _ cspec) as [e|] eqn:Fe; [|reflexivity]. apply find_some in Fe as [A _]. auto.
    - destruct (validate X r') as [c'|x'] eqn:V'.
      + assert (exists c, validate X r = Ok c) as (c & C); [|congruence]. apply valid_iff. apply entry_formed. intros e He. rewrite E by auto.
        apply entry_formed; [|auto]. apply valid_iff. eauto.
      + apply valid_exc in V, V'. congruence.
  Qed.
  Lemma required_missing (X : conv F) r s k : In (s, k) requiredKeys -> r s k = None -> validate X r = Exc EConfig.
  Proof.
    intros H R. destruct (validate X r) as [c|e] eqn:V; [|f_equal; eapply valid_exc; eauto].
    exfalso. destruct (proj1 (valid_iff X r) (ex_intro _ c V)) as (W & _). exact (W s k H R).
  Qed.
End Conf.
