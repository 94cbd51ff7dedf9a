(** What happens to each transect after the movement of an update, in order
    (mor.py:217-692), and the sediment it makes. *)
From Coq Require Import ZArith List Bool Lia Reals Lra.
From Verif Require Import Base Num Xr MState MCoast MRiv MMor SMor SVol STouch SLedger PCore PPost PUpdate.
Import ListNotations.

Section Story.
  Context {F : Type} {NF : Num F}.
  Section One.
    Variables (P : phys F) (W Z : F) (t0 : tsect F).
    Definition may k t t' : Prop := t' = t \/ reworked P W Z t0 k t t'.
    Lemma story_weak n m t l u : (n <= m)%nat -> story P W Z t0 m t l u -> story P W Z t0 n t l u.
    Proof. intros L H. inversion H; subst; [constructor|]. econstructor; eauto. lia. Qed.
    Lemma story_may n k t t' u : (n <= rank k)%nat -> may k t t' -> (exists l, story P W Z t0 (S (rank k)) t' l u) -> exists l, story P W Z t0 n t l u.
    Proof.
      intros L [->|R] (l & H).
      - exists l. eapply story_weak; [|exact H]. lia.
      - exists ((k, t) :: l). econstructor; eauto.
    Qed.
    Lemma cliff_may t : may Cliff t (cliffCollision P (shorefaceHeight P t0) t).
    Proof.
      unfold may, cliffCollision. destruct (_ <=? _)%n eqn:E; [|auto]. right. cbv zeta.
      eapply (rwCliff P W Z t0 t); [exact E|reflexivity|reflexivity].
    Qed.
    Lemma squeeze_may p t t' lev : negWidth p (backBarHeight t0) (crestWidth t0) t = Ok (t', lev) -> may Squeeze t t'.
    Proof.
      unfold negWidth, may. intros H. destruct (p && _) eqn:E; [|injection H as <- _; auto]. apply andb_true_iff in E as [_ E]. right.
      cbv zeta in H. bok H u. bok H v. apply assert_ok in Eu, Ev. clear u v.
      set (d := (tZ2 t - tZ0 t)%n) in *. destruct (f0 <=? d)%n eqn:EF.
      - destruct (_ <? _)%n eqn:EL in H; apply Ok_inj in H; apply (f_equal fst) in H; cbn [fst] in H; rewrite <- H; clear H.
        + eapply (rwFlat P W Z t0 t); [exact E|reflexivity|exact EL|]. left. split; [exact EF|reflexivity].
        + eapply (rwFront P W Z t0 t); [exact E|exact EF|reflexivity|exact EL].
      - destruct (d <? f0)%n eqn:ER.
        + destruct (_ <? _)%n eqn:EL in H; apply Ok_inj in H; apply (f_equal fst) in H; cbn [fst] in H; rewrite <- H; clear H.
          * eapply (rwFlat P W Z t0 t); [exact E|reflexivity|exact EL|]. right. split; [exact ER|reflexivity].
          * eapply (rwRear P W Z t0 t); [exact E|exact ER|reflexivity|exact EL].
        + congruence.
    Qed.
    Lemma seaward_may t : may Seaward t (seawardFirst t).
    Proof.
      unfold may, seawardFirst. destruct (_ <=? _)%n eqn:E; [|auto]. right. cbv zeta. eapply (rwSeaward P W Z t0 t); [exact E|reflexivity].
    Qed.
    Lemma crowd_may t : may Crowd t (lagoonLast P t).
    Proof.
      unfold may, lagoonLast. destruct (_ <=? _)%n eqn:E; [|auto]. right. cbv zeta. cbn [setY3 tY3 tY4 tY2]. destruct (_ <? _)%n eqn:E2.
      - eapply (rwCrowdCliff P W Z t0 t); [exact E|reflexivity|exact E2|reflexivity|reflexivity].
      - eapply (rwCrowd P W Z t0 t); [exact E|reflexivity|exact E2].
    Qed.
  End One.

  Lemma correct_story_full (P : phys F) Dx T0 T e0 e1 W Zend outlet closed T' pres' e0' e1' outlet' :
    morCorrect P Dx T0 T e0 e1 W Zend outlet closed = Ok (T', pres', e0', e1', outlet') -> length T0 = length T ->
    forall i t0 t, nth_error T0 i = Some t0 -> nth_error T i = Some t ->
    exists a b c d e t', nth_error T' i = Some t' /\ a = cliffCollision P (shorefaceHeight P t0) t /\ may P W Zend t0 Squeeze a b /\ may P W Zend t0 Elongate b c /\
      may P W Zend t0 Seaward c d /\ may P W Zend t0 Swallow d e /\ may P W Zend t0 Crowd e t'.
  Proof.
    intros H L i t0 t Ht0 Ht. unfold morCorrect in H. bok H dd. apply bind_ok in H as ([TA pA] & EA & H). apply bind_ok in H as ([TB oB] & EB & H).
    apply bind_ok in H as (TC & EC & H). apply bind_ok in H as ([[[TD pD] eD] oD] & ED & H). apply bind_ok in H as ([eE oE] & EE & H).
    apply bind_ok in H as (TF & EF & H). injection H as <- <- <- <- <-.
    set (TZ := map2 (fun t0 t => cliffCollision P (shorefaceHeight P t0) t) T0 T) in *.
    assert (Ha : nth_error TZ i = Some (cliffCollision P (shorefaceHeight P t0) t)) by (unfold TZ; rewrite nth_error_map2, Ht0, Ht; reflexivity).
    assert (LZ : length T0 = length TZ) by (unfold TZ; rewrite map2_length; lia).
    destruct (neg_step _ _ _ _ _ EA (map_length _ _) LZ) as [_ HN].
    destruct (HN i (outletPresent t0) t0 _ (map_nth_error _ _ _ Ht0) Ht0 Ha) as (b & lev & Hb & NB). clear HN.
    assert (QC : exists c, nth_error TB i = Some c /\ may P W Zend t0 Elongate b c).
    { destruct closed; [injection EB as <- _; exists b; split; [auto|left; auto]|]. unfold extendStep in EB. bok EB il. bok EB tl_.
      assert (KK : forall m, (if existsb m TA then Ok (map (fun t => if m t then extendT P W Zend t else t) TA, outletIx (map (fun t => if m t then extendT P W Zend t else t) TA) e0 dd) else Exc EIndex) = Ok (TB, oB) -> exists c, nth_error TB i = Some c /\ may P W Zend t0 Elongate b c).
      { intros m K. destruct (existsb m TA); [|discriminate]. injection K as <- _. rewrite nth_error_map, Hb. cbn [option_map]. eexists. split; [reflexivity|].
        destruct (m b); [|left; auto]. right. apply rwElongate. }
      destruct (e0 <? dd)%n; bok EB nx; (destruct (_ <=? _)%n; [eapply KK; exact EB|injection EB as <- _; exists b; split; [auto|left; auto]]). }
    destruct QC as (c & Hc & MC).
    assert (QD : exists d, nth_error TC i = Some d /\ may P W Zend t0 Seaward c d).
    { destruct closed; [apply Ok_inj in EC; subst; exists c; split; [auto|left; auto]|]. apply seaward_step in EC as (j & u & Hj & Hu & Hu' & LL & HO).
      destruct (Nat.eq_dec i j) as [->|N].
      - rewrite Hc in Hu. apply Some_inj in Hu. subst u. eexists. split; [exact Hu'|]. apply seaward_may.
      - rewrite (HO i N). exists c. split; [auto|left; auto]. }
    destruct QD as (d & Hd & MD).
    assert (QE : exists e, nth_error TD i = Some e /\ may P W Zend t0 Swallow d e).
    { unfold lagoonTrunc in ED. assert (Z0 : forall T' : list (tsect F), TC = T' -> exists e, nth_error T' i = Some e /\ may P W Zend t0 Swallow d e) by (intros ? <-; exists d; split; [auto|left; auto]).
      destruct (Nat.ltb 1 _); [|injection ED as E _ _ _; auto]. bok ED ts.
      destruct (filter2 _ _) as [|k r]; [injection ED as E _ _ _; auto|]. bok ED nx. bok ED u. bok ED tk.
      destruct (_ <=? _)%n; [|injection ED as E _ _ _; auto]. bok ED ext. injection ED as <- _ _ _. rewrite nth_error_mapi, Hd. cbn [option_map].
      eexists. split; [reflexivity|]. destruct (memb i ext); [right; apply rwSwallow|left; auto]. }
    destruct QE as (e & He & ME).
    assert (QF : exists f, nth_error TF i = Some f /\ may P W Zend t0 Crowd e f).
    { destruct closed; [apply Ok_inj in EF; subst; exists e; split; [auto|left; auto]|]. unfold lagoonLastStep in EF. bok EF j. bok EF u. apply Ok_inj in EF. subst TF.
      apply ix_ok in Eu. destruct (Nat.eq_dec j i) as [->|N].
      - rewrite He in Eu. apply Some_inj in Eu. subst u. rewrite nth_error_upd_eq by (apply nth_error_Some; congruence). eexists. split; [reflexivity|]. apply crowd_may.
      - rewrite nth_error_upd_ne by auto. exists e. split; [auto|left; auto]. }
    destruct QF as (f & Hf & MF).
    exists (cliffCollision P (shorefaceHeight P t0) t), b, c, d, e, f. repeat (split; [first [assumption|reflexivity|eapply squeeze_may; eauto]|]). exact MF.
  Qed.
  Lemma correct_story (P : phys F) Dx T0 T e0 e1 W Zend outlet closed T' pres' e0' e1' outlet' :
    morCorrect P Dx T0 T e0 e1 W Zend outlet closed = Ok (T', pres', e0', e1', outlet') -> length T0 = length T ->
    forall i t0 t, nth_error T0 i = Some t0 -> nth_error T i = Some t ->
    exists a b c d e t', nth_error T' i = Some t' /\ may P W Zend t0 Cliff t a /\ may P W Zend t0 Squeeze a b /\ may P W Zend t0 Elongate b c /\
      may P W Zend t0 Seaward c d /\ may P W Zend t0 Swallow d e /\ may P W Zend t0 Crowd e t'.
  Proof.
    intros H L i t0 t Ht0 Ht. destruct (correct_story_full _ _ _ _ _ _ _ _ _ _ _ _ _ _ _ H L i t0 t Ht0 Ht) as (a & b & c & d & e & t' & H1 & -> & H2).
    exists (cliffCollision P (shorefaceHeight P t0) t), b, c, d, e, t'. split; [exact H1|]. split; [apply cliff_may|exact H2].
  Qed.

  Section Tail.
    Context {P : phys F} {j1 j2 : nat -> bool} {T0 T : list (tsect F)} {pres : list bool} {x0 : nat} {e0 e1 W Zend : F} {outlet : list nat}
      {Closed : bool} {WL : list F} {T' : list (tsect F)} {e0' e1' W' Zend' : F} {br : bool}.
    Variable g : stages P j1 j2 T0 T pres x0 e0 e1 W Zend outlet Closed WL T' e0' e1' W' Zend' br.
    Hypothesis (L0 : length T0 = length T) (LP : length pres = length T).
    Lemma breach_story i t : nth_error T i = Some t -> exists t0 d f f' c q t',
      nth_error T0 i = Some t0 /\ nth_error T' i = Some t' /\ may P W Zend t0 Merge t d /\ may P W Zend t0 Fill d f /\ may P W Zend t0 Restore f f' /\
      may P W Zend t0 Raise f' c /\ may P W Zend t0 Breach c q /\ may P W Zend t0 Keep q t'.
    Proof.
      intros Ht. destruct (rows g L0 LP i t Ht) as (t0 & p & f' & c & q & t' & R1 & R2 & R3 & R4 & R5 & R6 & R7 & R8 & R9 & R10).
      set (d := if lagoonIntersect j1 i t then dissolve t else t) in *. set (f := if shoreIntersect j2 i d then fillT P d else d) in *.
      exists t0, d, f, f', c, q, t'. split; [auto|]. split; [auto|]. split; [|split; [|split; [|split; [|split]]]].
      - unfold d. destruct (lagoonIntersect _ _ _); [right; apply rwMerge|left; auto].
      - unfold f. destruct (shoreIntersect _ _ _); [right; apply rwFill|left; auto].
      - rewrite R4. destruct (eroded f) eqn:E; [|left; auto]. cbn [andb]. unfold eroded in E. apply andb_true_iff in E as [E _].
        match goal with |- may _ _ _ _ _ _ (if ?b then _ else _) => destruct b end; [|left; auto]. right. eapply (rwRestore P W Zend t0 f); [exact E|reflexivity|reflexivity].
      - rewrite R5. match goal with |- may _ _ _ _ _ _ (if ?b then _ else _) => destruct b end; [|left; auto]. right. apply rwRaise.
      - destruct R8 as [->|[B ->]]; [left; auto|].
        pose proof (s6 _ _ _ _ _ _ _ _ _ _ _ _ _ _ _ _ _ _ _ _ g) as C. rewrite B in C. apply create_inv in C as (u & Hu & [(_ & E & _)|(_ & _ & _ & _ & EW & EZ)]).
        + rewrite E, R6 in R7. apply Some_inj in R7. left. auto.
        + rewrite EW, EZ. right. eapply (rwBreach P W Zend t0 c); reflexivity.
      - rewrite R9. destruct (Nat.eqb i x0); [|left; auto]. unfold keepLagoon. destruct (_ <? _)%n eqn:E; [|left; auto]. right. eapply (rwKeep P W Zend t0 q). exact E.
    Qed.
  End Tail.

  (** Every transect of an update is its moved transect reworked in order. *)
  Lemma update_story fuel junk1 junk2 (P : phys F) N TP T e0 e1 W Zend RiverElev online outlet LagoonWL OutletDep CW CD fl closed LST q CST OW dt0 m a :
    updateMorphology fuel junk1 junk2 P N TP T e0 e1 W Zend RiverElev online outlet LagoonWL OutletDep CW CD fl closed LST q CST OW dt0 = Ok m ->
    morApply fuel P N TP T e0 e1 W Zend RiverElev online outlet LagoonWL OutletDep CW CD fl closed LST q CST OW dt0 = Ok a ->
    length (aT a) = length T /\ length (oT m) = length T /\
    forall i t0 t, nth_error T i = Some t0 -> nth_error (aT a) i = Some t ->
    exists t' l, nth_error (oT m) i = Some t' /\ story P (aW a) (aZ a) t0 0 t l t'.
  Proof.
    intros H HA. destruct (update_inv _ _ _ _ _ _ _ _ _ _ _ _ _ _ _ _ _ _ _ _ _ _ _ _ _ _ H) as (a' & T1 & pres & eA & eB & o1 & EA & EC & EB & HR & _ & L1 & LP & SX & X0).
    rewrite HA in EA. apply Ok_inj in EA. subst a'.
    pose proof (apply_sameX _ _ _ _ _ _ _ _ _ _ _ _ _ _ _ _ _ _ _ _ _ _ _ _ HA) as (SA & _). apply sameX_len in SA.
    destruct (breach_inv _ _ _ _ _ _ _ _ _ _ _ _ _ _ _ _ _ _ _ _ EB) as [g].
    pose proof (len5 g (eq_sym L1) LP) as L5.
    split; [exact SA|]. split; [congruence|]. intros i t0 t Ht0 Ht.
    destruct (correct_story _ _ _ _ _ _ _ _ _ _ _ _ _ _ _ EC (eq_sym SA) i t0 t Ht0 Ht) as (x1 & x2 & x3 & x4 & x5 & x6 & H6 & M1 & M2 & M3 & M4 & M5 & M6).
    destruct (breach_story g (eq_sym L1) LP i x6 H6) as (t0' & x7 & x8 & x9 & x10 & x11 & x12 & E0 & H12 & M7 & M8 & M9 & M10 & M11 & M12).
    rewrite Ht0 in E0. apply Some_inj in E0. subst t0'.
    assert (X : exists l, story P (aW a) (aZ a) t0 0 t l x12).
    { eapply story_may; [|exact M1|]; [cbn; lia|]. eapply story_may; [|exact M2|]; [cbn; lia|]. eapply story_may; [|exact M3|]; [cbn; lia|].
      eapply story_may; [|exact M4|]; [cbn; lia|]. eapply story_may; [|exact M5|]; [cbn; lia|]. eapply story_may; [|exact M6|]; [cbn; lia|].
      eapply story_may; [|exact M7|]; [cbn; lia|]. eapply story_may; [|exact M8|]; [cbn; lia|]. eapply story_may; [|exact M9|]; [cbn; lia|].
      eapply story_may; [|exact M10|]; [cbn; lia|]. eapply story_may; [|exact M11|]; [cbn; lia|]. eapply story_may; [|exact M12|]; [cbn; lia|].
      exists []. constructor. }
    destruct X as (l & Hl). exists x12, l. auto.
  Qed.
End Story.
