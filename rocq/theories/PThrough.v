(** Proofs: updates with a closed outlet and without channels get through. *)
From Coq Require Import ZArith List Bool Lia Reals Lra.
From Verif Require Import Base Num Xr MState MCoast MRiv MMor SMor SVol SAdapt STouch SLedger SFrame SNext SThrough PCoast PLag PCore PRate PBudget PShore PRateEx PCap PAdapt PVol PBreach PUpdate PQuiet PLedger PLedger2 PLedger3 PFrame PNext.
Import ListNotations.
Local Open Scope R_scope.

Section Any.
  Context {F : Type} {NF : Num F}.
  Lemma argBest_lt better : forall (l : list F) k best v, (best < k)%nat -> (argBest better k best v l < k + length l)%nat.
  Proof.
    induction l as [|x l IH]; intros k best v H; cbn [argBest length]; [lia|]. destruct (fisnan v); [lia|].
    destruct (fisnan x || better x v); [pose proof (IH (S k) k x)|pose proof (IH (S k) best v)]; lia.
  Qed.
  Lemma argmin_in (l : list F) : l <> [] -> exists k, argmin l = Ok k /\ (k < length l)%nat.
  Proof. destruct l as [|x l]; [congruence|]. intros _. eexists. split; [reflexivity|]. cbn [length]. apply (argBest_lt _ l 1 0 x). lia. Qed.
  Lemma argmax_in (l : list F) : l <> [] -> exists k, argmax l = Ok k /\ (k < length l)%nat.
  Proof. destruct l as [|x l]; [congruence|]. intros _. eexists. split; [reflexivity|]. cbn [length]. apply (argBest_lt _ l 1 0 x). lia. Qed.
  Lemma gather_in {A} (l : list A) : forall idx, (forall i, In i idx -> (i < length l)%nat) -> exists xs, gather l idx = Ok xs /\ length xs = length idx.
  Proof.
    induction idx as [|i r IH]; intros H; cbn [gather]; [exists []; auto|]. destruct (nth_error l i) as [x|] eqn:E.
    - destruct IH as (xs & E1 & E2); [intros j Hj; apply H; right; exact Hj|]. exists (x :: xs). unfold ix. rewrite E. cbn [of_opt bind]. rewrite E1. split; [reflexivity|cbn; lia].
    - apply nth_error_None in E. specialize (H i (or_introl eq_refl)). lia.
  Qed.
  Lemma ix_in {A} (l : list A) i : (i < length l)%nat -> exists x, ix l i = Ok x /\ nth_error l i = Some x.
  Proof. intros H. unfold ix. destruct (nth_error l i) as [x|] eqn:E; [exists x; auto|]. apply nth_error_None in E. lia. Qed.
  Lemma pick_one {A} (T : list A) (poss : list nat) (l : list F) k : (forall i, In i poss -> (i < length T)%nat) -> length l = length poss -> (k < length l)%nat ->
    exists bi, ix poss k = Ok bi /\ In bi poss /\ (bi < length T)%nat.
  Proof. intros H L K. destruct (ix_in poss k) as (b & E1 & E2); [lia|]. exists b. split; [exact E1|]. apply nth_error_In in E2. auto. Qed.

  (** No channel anywhere. *)
  Definition none (T : list (tsect F)) : Prop := forall t, In t T -> hasChannel t = false.
  Lemma none_pres T : none T -> forall p, In p (map outletPresent T) -> p = false.
  Proof. intros H p Hp. apply in_map_iff in Hp as (t & <- & Ht). exact (H t Ht). Qed.
  Lemma negWidths_none : forall (pres : list bool) (T0 T : list (tsect F)), (forall p, In p pres -> p = false) -> length pres = length T -> length T0 = length T ->
    negWidths pres T0 T = Ok (map (fun t => (t, false)) T).
  Proof.
    induction pres as [|p pres IH]; intros [|t0 T0] [|t T] H L1 L2; try discriminate; [reflexivity|]. cbn [negWidths]. rewrite (H p (or_introl eq_refl)). unfold negWidth at 1. cbn [andb bind].
    rewrite IH; [reflexivity|intros q Hq; apply H; right; exact Hq|cbn in L1; lia|cbn in L2; lia].
  Qed.
  Lemma correct_none P Dx (T0 T : list (tsect F)) e0 e1 W Z : none T0 -> length T0 = length T -> (2 <= length T)%nat ->
    exists e, morCorrect P Dx T0 T e0 e1 W Z [] true = Ok (map2 (fun t0 t => cliffCollision P (shorefaceHeight P t0) t) T0 T, map outletPresent T0, e0, e, []).
  Proof.
    intros HN HL H2. unfold morCorrect, domainCheck. destruct T as [|a [|b r]]; cbn [length] in H2; try lia. cbn [ix nth_error of_opt bind].
    assert (exists tn, pynth (a :: b :: r) (-2) = Ok tn) as (tn & ->).
    { unfold pynth, pyix. change (-2 <? 0)%Z with true. cbv iota. cbn [length]. rewrite (proj2 (Z.leb_le _ _)) by lia.
      destruct (ix_in (a :: b :: r) (Z.to_nat (Z.of_nat (S (S (length r))) + -2))) as (x & Ex & _); [cbn [length]; lia|]. exists x. exact Ex. }
    cbn [bind]. unfold negWidthStep. rewrite negWidths_none; [|apply none_pres; exact HN|rewrite map_length, map2_length; cbn [length] in *; lia|rewrite map2_length; cbn [length] in *; lia].
    cbn [bind]. rewrite map_map. cbn [fst]. rewrite map_id.
    assert (existsb snd (map (fun t : tsect F => (t, false)) (map2 (fun t0 t => cliffCollision P (shorefaceHeight P t0) t) T0 (a :: b :: r))) = false) as ->.
    { apply not_true_iff_false. intros K. apply existsb_exists in K as (p & Hp & Hs). apply in_map_iff in Hp as (t & <- & _). discriminate Hs. }
    cbn [bind]. unfold lagoonTrunc, seaTrunc. cbn [length Nat.ltb Nat.leb bind]. eexists. reflexivity.
  Qed.
End Any.

Lemma Rabs_def2x x a : Rabs x <= a -> - a <= x <= a.
Proof. intros H. unfold Rabs in H. destruct (Rcase_abs x); lra. Qed.
Lemma nth_error_combine2 {A B} (l : list A) : forall (m : list B) i x y, nth_error l i = Some x -> nth_error m i = Some y -> nth_error (combine l m) i = Some (x, y).
Proof. induction l as [|a l IH]; intros [|b m] [|i] x y H1 H2; try discriminate; cbn in *; [congruence|auto]. Qed.
(** ** The movement *)
Lemma fmaxl_in {F} {NF : Num F} (l : list F) : (0 < length l)%nat -> exists m, fmaxl l = Ok m.
Proof. destruct l; cbn [length]; [lia|]. eexists. reflexivity. Qed.
Lemma rates_none (P : phys xr) d T e0 e1 W Zend RiverElev online LagoonWL CW CD fl l q c OW :
  soundInputs P d T e1 W Zend online [] CW CD fl true (length q) -> fits T RiverElev online LagoonWL fl l c OW ->
  exists RR, changeRates P (Fin d) T e0 e1 W Zend online [] CW CD fl None (map Fin l) (map Fin q) (map Fin c) OW = Ok RR /\
    length (rRiv RR) = length (flagged true fl 0) /\ length (rT RR) = length T.
Proof.
  intros SI (H2 & _ & Hl & Hc & Ho & Hon & Hin & _). destruct SI as (_ & _ & _ & _ & _ & _ & _ & _ & _ & L1 & L2 & L3).
  destruct (gather_in T online Hin) as (xs & G & _).
  unfold changeRates. cbv zeta. rewrite !sel_form by assumption. rewrite !map_length, Hon, !Nat.eqb_refl. cbn [length]. rewrite Hl, Hc, Ho, !Nat.eqb_refl. cbn [andb negb Nat.eqb].
  rewrite G. cbn [bind gather]. eexists. split; [reflexivity|]. cbn [rRiv rT]. rewrite !map_length, mapi_length. auto.
Qed.
Lemma maxRate_in (RR : rates xr) : (0 < length (rRiv RR))%nat -> (0 < length (rT RR))%nat -> exists m, maxRate RR = Ok m.
Proof.
  intros H1 H2. unfold maxRate. destruct (fmaxl_in (map fabs (rRiv RR))) as (a & ->); [rewrite map_length; exact H1|]. cbn [bind].
  destruct (rT RR) as [|r rs]; [cbn in H2; lia|].
  destruct (fmaxl_in (concat (map rowMax (r :: rs)))) as (b & ->); [cbn [map concat rowMax]; rewrite app_length; cbn; lia|]. cbn [bind].
  destruct (fmaxl_in (concat (map rowMaxZ (r :: rs)))) as (e & ->); [cbn [map concat rowMaxZ]; rewrite app_length; cbn; lia|]. cbn [bind]. eexists. reflexivity.
Qed.
Lemma level_none (T : list (tsect xr)) LagoonWL OutletDep : length LagoonWL = length T -> Forall is_fin LagoonWL ->
  exists WL, waterLevel T LagoonWL OutletDep [] true = Ok WL /\ existsb fisnan WL = false /\ length WL = length T.
Proof.
  intros L Hf. unfold waterLevel. rewrite L, Nat.eqb_refl. cbn [negb bind].
  assert (K : existsb fisnan (map2 (fun t w => if lagoonPresent t then w else fofQ (-99999) 10) T LagoonWL) = false).
  { apply not_true_iff_false. intros K. apply existsb_exists in K as (x & Hx & Hn). apply In_nth_error in Hx as (i & Hi). rewrite nth_error_map2 in Hi.
    destruct (nth_error T i) as [t|]; [|discriminate]. destruct (nth_error LagoonWL i) as [w|] eqn:Ew; [|discriminate]. apply Some_inj in Hi. subst x.
    rewrite Forall_forall in Hf. destruct (Hf w (nth_error_In _ _ Ew)) as (r & ->). destruct (lagoonPresent t); [discriminate Hn|]. rewrite xq in Hn. discriminate Hn. }
  rewrite K. cbn [negb assert_ bind]. eexists. split; [reflexivity|]. split; [exact K|]. rewrite map2_length. lia.
Qed.
Lemma pow_pos n : (0 < 2 ^ Z.of_nat n)%Z. Proof. apply Z.pow_pos_nonneg; lia. Qed.
Lemma apply_none fuel P N TP T e0 e1 W Zend RiverElev online LagoonWL OutletDep CW CD fl l q c OW d cap a k j :
  nDx N = Fin d -> nMaxMorChange N = Fin cap -> 0 <= cap ->
  soundInputs P d T e1 W Zend online [] CW CD fl true (length q) -> fits T RiverElev online LagoonWL fl l c OW ->
  forallb stands T = true ->
  (1 <= a)%Z -> (a * 2 ^ Z.of_nat k <= 43200)%Z -> tMorDtMin TP = sec a -> tMorDtMax TP = sec (a * 2 ^ Z.of_nat k) -> (j <= k)%nat -> (k <= fuel)%nat ->
  exists r, morApply fuel P N TP T e0 e1 W Zend RiverElev online [] LagoonWL OutletDep CW CD fl true (map Fin l) (map Fin q) (map Fin c) OW (sec (a * 2 ^ Z.of_nat j)) = Ok r /\
    existsb fisnan (aWL r) = false /\ length (aWL r) = length T /\ (aX0 r < length T)%nat.
Proof.
  intros HD HM Hc SI FT ST Ha Hk H1 H2 Hj Hf. destruct (rates_none P d T e0 e1 W Zend RiverElev online LagoonWL CW CD fl l q c OW SI FT) as (RR & ER & L0 & L1).
  destruct FT as (F2 & F3 & _ & _ & _ & _ & _ & F8 & F9 & (t0 & F10 & X0) & F11).
  unfold morApply. rewrite HD.
  assert (exists x0, x0Ix T = Ok x0 /\ (x0 < length T)%nat) as (x0 & E0 & B0).
  { unfold x0Ix. destruct (first_where _ T) as [x0|] eqn:E.
    - exists x0. split; [reflexivity|]. apply first_where_Some in E as ((x & Hx & _) & _). apply nth_error_Some. congruence.
    - exfalso. rewrite first_where_None in E. apply In_nth_error in F10 as (i & Hi). specialize (E i t0 Hi). cbv beta in E. rewrite X0 in E. cbn in E. rb. lra. }
  rewrite E0. cbn [bind]. destruct (level_none T LagoonWL OutletDep F3 F11) as (WL & -> & NW & LW). cbn [bind].
  change (forallb (fun t => f0 <? crestWidth t)%n T) with (forallb stands T). rewrite ST. cbn [assert_ bind]. rewrite ER. cbn [bind].
  destruct (maxRate_in RR) as (m & EM); [lia|lia|]. rewrite EM. cbn [bind].
  assert (FR : finRates RR) by (eapply rates_finite; [exact SI|]; unfold ratesFor; cbn [bind]; exact ER).
  destruct (max_bound _ _ FR EM) as (M & -> & _).
  destruct (adapt_quality N a k TP M cap j fuel Ha Hk H1 H2 Hj Hf HM) as (i & Hi & -> & Q & _). cbv zeta in Q. cbn [bind].
  pose proof (pow_pos i) as Pi. pose proof (Z.pow_le_mono_r 2 (Z.of_nat i) (Z.of_nat k) ltac:(lia) ltac:(lia)) as Pk.
  assert (B : (1 <= a * 2 ^ Z.of_nat i <= 43200)%Z) by nia.
  assert (ES : seconds (sec (a * 2 ^ Z.of_nat i)) = (a * 2 ^ Z.of_nat i)%Z) by (apply seconds_sec; lia).
  assert (exists R', limitRates N TP (Fin M) (sec (a * 2 ^ Z.of_nat i)) RR = Ok R' /\ length (rRiv R') = length (rRiv RR)) as (R' & -> & LR).
  { unfold limitRates. rewrite HM, ES. change (Fin cap <? Fin M * fofZ (a * 2 ^ Z.of_nat i))%n with (Rltb cap (M * IZR (a * 2 ^ Z.of_nat i))).
    destruct (Rltb cap _) eqn:E; [|eexists; split; reflexivity]. apply Rltb_true in E. destruct Q as [->|Q]; [|lra].
    rewrite H1, seconds_sec by (cbn in *; lia). rewrite (proj2 (Z.leb_le _ _)) by (cbn; lia). cbn [assert_ bind]. rewrite (proj2 (Z.eqb_neq _ _)) by lia.
    eexists. split; [reflexivity|]. cbn [clipRates rRiv]. apply map_length. }
  cbn [bind]. rewrite L0 in LR. assert (exists river, applyRiver (fofZ (seconds (sec (a * 2 ^ Z.of_nat i)))) RiverElev (rRiv R') = Ok river) as (river & ->).
  { unfold applyRiver. destruct RiverElev as [|z zs]; [discriminate F8|]. cbn [length] in F8. rewrite LR. injection F8 as <-. rewrite Nat.eqb_refl. eexists. reflexivity. }
  cbn [bind]. eexists. split; [reflexivity|]. cbn [aWL aX0]. auto.
Qed.

(** ** Relic channels and breaches *)
Section Breach.
  Context {P : phys xr} {T0 T : list (tsect xr)}.
  Hypothesis HN : none T.
  Hypothesis L0 : length T0 = length T.
  Hypothesis L1 : (0 < length T)%nat.
  Lemma dissolve_none j1 : (forall i, j1 i = true) -> dissolveStep j1 T = T.
  Proof.
    intros J. unfold dissolveStep. apply nth_error_ext. intros i. rewrite nth_error_mapi. destruct (nth_error T i) as [t|] eqn:E; [|reflexivity]. cbn [option_map].
    pose proof (HN t (nth_error_In _ _ E)) as H. unfold hasChannel in H. unfold lagoonIntersect. rewrite H, J. reflexivity.
  Qed.
  Lemma connect_none pres lagOpen x0 e0 outlet WL : (forall p, In p pres -> p = false) -> length pres = length T -> existsb fisnan WL = false ->
    exists e, connect P T pres lagOpen x0 e0 true outlet WL = Ok (None, WL, e).
  Proof.
    intros HP LP HW. unfold connect. cbv zeta. destruct (argmin_in (map (fun t => fabs (tX t - e0)%n) T)) as (us & -> & B); [destruct T; [cbn in L1; lia|discriminate]|].
    rewrite map_length in B. cbn [bind negb]. destruct (fisnan e0) eqn:E; cbn [negb bind].
    - rewrite HW. cbn [negb assert_ bind]. eexists. reflexivity.
    - destruct (ix_in (map2 (wideEnough P) pres T) us) as (w & -> & Hw); [rewrite map2_length; lia|]. cbn [bind]. rewrite nth_error_map2 in Hw.
      destruct (nth_error pres us) as [p|] eqn:Ep; [|discriminate]. destruct (nth_error T us) as [t|]; [|discriminate]. apply Some_inj in Hw. subst w.
      unfold wideEnough. rewrite (HP p (nth_error_In _ _ Ep)). cbn [andb negb bind]. rewrite HW. cbn [negb assert_ bind]. eexists. reflexivity.
  Qed.
  Lemma fill_none j2 pres e0 cc : (forall i, j2 i = true) -> shoreFill P j2 T pres e0 true cc = Ok (T, pres, None).
  Proof.
    intros J. unfold shoreFill. cbv zeta. assert (existsb (fun b => b) (mapi (shoreIntersect j2) T) = false) as ->; [|reflexivity].
    apply not_true_iff_false. intros K. apply existsb_exists in K as (b & Hb & ->). apply In_nth_error in Hb as (i & Hi). rewrite nth_error_mapi in Hi.
    destruct (nth_error T i) as [t|] eqn:E; [|discriminate]. cbn [option_map] in Hi. apply Some_inj in Hi. pose proof (HN t (nth_error_In _ _ E)) as H. unfold hasChannel in H.
    unfold shoreIntersect in Hi. rewrite H, J in Hi. discriminate Hi.
  Qed.
  Definition at_ (b : option nat) (i : nat) : bool := match b with Some k => Nat.eqb i k | None => false end.
  Lemma erosion_none lagOpen x0 e0 : exists E b, erosionBreach P T0 T lagOpen x0 e0 true None = Ok (E, b) /\ length E = length T /\ (forall k, b = Some k -> (k < length T)%nat) /\
    forall i t0 t, nth_error T0 i = Some t0 -> nth_error T i = Some t ->
      nth_error E i = Some (if eroded t && negb (at_ b i) then restoreT (shorefaceHeight P t0) t else t).
  Proof.
    unfold erosionBreach. cbv zeta. set (ero := where_ eroded T). set (poss := filter (reachable lagOpen x0) ero).
    assert (HE : forall i, In i poss -> (i < length T)%nat).
    { intros i Hi. apply filter_In in Hi as [Hi _]. apply where_spec in Hi as (x & Hx & _). apply nth_error_Some. congruence. }
    match goal with |- exists E b, bind ?r _ = _ /\ _ => assert (exists b, r = Ok b /\ (forall k, b = Some k -> (k < length T)%nat)) as (b & EB & HB) end.
    { destruct poss as [|p ps]; [exists None; split; [reflexivity|discriminate]|]. destruct (gather_in T (p :: ps) HE) as (ts & -> & LT). cbn [bind]. cbv zeta.
      destruct (argmin_in (map (fun t => fabs (tX t)) ts)) as (k & -> & Bk); [destruct ts; [discriminate LT|discriminate]|]. cbn [bind].
      destruct (pick_one T (p :: ps) (map (fun t => fabs (tX t)) ts) k HE) as (bi & -> & _ & Bb); [rewrite map_length; exact LT|exact Bk|]. cbn [bind].
      exists (Some bi). split; [reflexivity|]. intros k' Ek. injection Ek as <-. exact Bb. }
    rewrite EB. cbn [bind]. do 2 eexists. split; [reflexivity|]. split; [rewrite mapi_length, combine_length; lia|]. split; [exact HB|].
    intros i t0 t Ht0 Ht. rewrite nth_error_mapi. rewrite (nth_error_combine2 _ _ _ _ _ Ht0 Ht). cbn [option_map fst snd]. f_equal.
    match goal with |- (if ?x then _ else _) = (if ?y then _ else _) => assert (x = y) as ->; [|reflexivity] end.
    apply eq_true_iff_eq. rewrite memb_In. destruct b as [k|]; cbn [at_].
    - rewrite filter_In. unfold ero. rewrite where_spec. rewrite andb_true_iff. split.
      + intros ((x & Hx & He) & Hn). rewrite Ht in Hx. apply Some_inj in Hx. subst x. auto.
      + intros (He & Hn). split; [exists t; auto|exact Hn].
    - unfold ero. rewrite where_spec, andb_true_r. split; [intros (x & Hx & He); rewrite Ht in Hx; apply Some_inj in Hx; subst x; exact He|intros He; exists t; auto].
  Qed.
End Breach.
Section Breach2.
  Context {P : phys xr} {E : list (tsect xr)}.
  Hypothesis HN : none E.
  Hypothesis NE : Forall numbers E.
  Lemma raise_none pres : (forall p, In p pres -> p = false) -> length pres = length E -> raiseCrests pres E = Ok E.
  Proof.
    intros HP LP. unfold raiseCrests. cbv zeta. assert (map2 raiseCrest pres E = E) as ->.
    { apply nth_error_ext. intros i. rewrite nth_error_map2. destruct (nth_error pres i) as [p|] eqn:Ep.
      - rewrite (HP p (nth_error_In _ _ Ep)). destruct (nth_error E i); reflexivity.
      - apply nth_error_None in Ep. symmetry. apply nth_error_None. lia. }
    assert (existsb (fun t => fisnan (tZ0 t)) E = false) as ->; [|reflexivity].
    apply not_true_iff_false. intros K. apply existsb_exists in K as (t & Ht & Hn). rewrite Forall_forall in NE. destruct (NE t Ht) as (_ & _ & _ & (z & Hz) & _). rewrite Hz in Hn. discriminate Hn.
  Qed.
  Lemma spill_none x0 WL b : length WL = length E -> (forall k, b = Some k -> (k < length E)%nat) ->
    exists b', spillBreach P E x0 true None WL b = Ok b' /\ (forall k, b = Some k -> b' = Some k) /\ (forall k, b' = Some k -> (k < length E)%nat).
  Proof.
    intros LW HB. destruct b as [b|]; [exists (Some b); cbn [spillBreach]; auto|]. unfold spillBreach. cbv zeta.
    set (spill := where_ (fun b => b) _). set (poss := concat _).
    assert (HS : forall i, In i poss -> (i < length E)%nat).
    { intros i Hi. apply in_concat in Hi as (l & Hl & Hi). apply in_map_iff in Hl as (k & <- & Hk). apply where_spec in Hk as (x & Hx & _).
      assert (k < length E)%nat. { rewrite nth_error_map2 in Hx. apply nth_error_Some. intros K. rewrite K in Hx. discriminate. }
      apply in_app_iff in Hi as [Hi|Hi]; [destruct (connected None k)|destruct (reachable _ _ _)]; cbn [In] in Hi; try contradiction; destruct Hi as [<-|[]]; assumption. }
    destruct spill as [|s sp]; [exists None; split; [reflexivity|split; discriminate]|].
    destruct poss as [|p ps]; [exists None; split; [reflexivity|split; discriminate]|].
    destruct (gather_in E (p :: ps) HS) as (ts & -> & LT). cbn [bind]. destruct (gather_in WL (p :: ps)) as (ws & -> & LS); [intros i Hi; rewrite LW; auto|]. cbn [bind].
    destruct (argmax_in (map2 (fun w t => w - tZ0 t)%n ws ts)) as (k & -> & Bk); [destruct ws; [discriminate LS|destruct ts; [discriminate LT|discriminate]]|]. cbn [bind].
    destruct (pick_one E (p :: ps) (map2 (fun w t => w - tZ0 t)%n ws ts) k HS) as (bi & -> & _ & Bb); [rewrite map2_length; lia|exact Bk|]. cbn [bind].
    exists (Some bi). split; [reflexivity|]. split; [discriminate|]. intros k' Ek. injection Ek as <-. exact Bb.
  Qed.
  Lemma in_connected_none n k : inConnected n None k = true -> k = 0%nat.
  Proof. intros H. unfold inConnected in H. apply existsb_exists in H as (i & _ & H). apply Z.eqb_eq in H. unfold connected in H. cbn in H. lia. Qed.
  Lemma create_in e0 e1 w z b : numberedPars P -> (forall k, b = Some k -> (k < length E)%nat) ->
    exists T4 e0' e1' w' z', createBreach P E e0 e1 (Fin w) (Fin z) None b = Ok (T4, e0', e1', Fin w', Fin z') /\ length T4 = length E /\
      (forall i c, nth_error E i = Some c -> nth_error T4 i = Some c /\ (at_ b i = true -> i = 0%nat) \/
         at_ b i = true /\ nth_error T4 i = Some (breachT P (Fin w') (Fin z') c) /\ reworked P (Fin w) (Fin z) c Breach c (breachT P (Fin w') (Fin z') c)).
  Proof.
    intros NP HB. destruct b as [k|]; cbn [createBreach at_]; [|do 5 eexists; split; [reflexivity|split; [reflexivity|intros i c Hc; left; split; [exact Hc|discriminate]]]].
    destruct (ix_in E k (HB k eq_refl)) as (t & -> & Ht). cbn [bind]. destruct (inConnected (length E) None k) eqn:IC.
    - apply in_connected_none in IC. do 5 eexists. split; [reflexivity|]. split; [reflexivity|]. intros i c Hc. left. split; [exact Hc|]. intros Q. apply Nat.eqb_eq in Q. lia.
    - cbv zeta. destruct NP as (_ & _ & _ & _ & (mw & MW) & (me & ME)).
      assert (breachWidth P (Fin w) = Fin (Rmax w (2 * mw))) as EW by (unfold breachWidth; rewrite MW, x2, PRate.xmul, pmax_fin; reflexivity).
      assert (breachElev P (Fin z) = Fin (Rmin z me)) as EZ by (unfold breachElev; rewrite ME, pmin_fin; reflexivity).
      rewrite EW, EZ. do 5 eexists. split; [reflexivity|]. split; [apply upd_length|]. intros i c Hc. destruct (Nat.eqb i k) eqn:Q.
      + right. apply Nat.eqb_eq in Q. subst i. rewrite Ht in Hc. apply Some_inj in Hc. subst t. split; [reflexivity|]. split; [apply nth_error_upd_eq; apply nth_error_Some; congruence|].
        rewrite <- EW, <- EZ. eapply (rwBreach P (Fin w) (Fin z) c c); reflexivity.
      + left. apply Nat.eqb_neq in Q. split; [|discriminate]. rewrite nth_error_upd_ne by congruence. exact Hc.
  Qed.
End Breach2.

(** What is asked of a barrier that is restored. *)
Definition footing (P : phys xr) (t0 t : tsect xr) : Prop :=
  numbers t0 /\ numbers t /\ ahead t /\ 0 < rv (pClosureDepth P) + rv (tZ0 t0) /\ rv (tZ3 t) < rv (tZ0 t).
Lemma breach_none P j1 j2 (T0 T : list (tsect xr)) pres x0 e0 e1 w z WL :
  numberedPars P -> 0 < rv (pSpitWidth P) -> (forall i, j1 i = true) -> (forall i, j2 i = true) -> none T -> (forall p, In p pres -> p = false) ->
  length pres = length T -> length T0 = length T -> (0 < length T)%nat -> existsb fisnan WL = false -> length WL = length T ->
  (forall i t0 t, nth_error T0 i = Some t0 -> nth_error T i = Some t -> footing P t0 t) ->
  exists T' e0' e1' W' Z' br, morBreach P j1 j2 T0 T pres x0 e0 e1 (Fin w) (Fin z) [] true WL = Ok (T', e0', e1', W', Z', br) /\ length T' = length T /\
    forall i t0 t, nth_error T0 i = Some t0 -> nth_error T i = Some t -> exists t', nth_error T' i = Some t' /\
      numbers t' /\ (up t' \/ i = 0%nat /\ br = true) /\ (br = false -> hasChannel t' = false) /\ tX t' = tX t /\ tZ0 t' = tZ0 t /\ tZ3 t' = tZ3 t.
Proof.
  intros NP SP J1 J2 HN HP LP L0 L1 HW LW HF. unfold morBreach. cbv zeta. rewrite (dissolve_none HN j1 J1).
  destruct (connect_none (P := P) HN L0 L1 pres (map (lagoonOpen P) T0) x0 e0 [] WL HP LP HW) as (e & ->). cbn [bind].
  rewrite (fill_none (P := P) HN j2 pres e None J2). cbn [bind].
  destruct (erosion_none (P := P) (T0 := T0) (T := T) L0 L1 (map (lagoonOpen P) T0) x0 e) as (E & b & -> & LE & HB & HE). cbn [bind].
  assert (At0 : forall i c, nth_error E i = Some c -> exists t0 t, nth_error T0 i = Some t0 /\ nth_error T i = Some t /\ c = (if eroded t && negb (at_ b i) then restoreT (shorefaceHeight P t0) t else t)).
  { intros i c Hc. assert (i < length E)%nat by (apply nth_error_Some; congruence).
    destruct (nth_error T0 i) as [t0|] eqn:E0; [|apply nth_error_None in E0; lia]. destruct (nth_error T i) as [t|] eqn:E1; [|apply nth_error_None in E1; lia].
    exists t0, t. split; [reflexivity|]. split; [reflexivity|]. rewrite (HE i t0 t E0 E1) in Hc. apply Some_inj in Hc. auto. }
  assert (NoE : none E).
  { intros c Hc. apply In_nth_error in Hc as (i & Hi). destruct (At0 i c Hi) as (t0 & t & _ & Ht & ->). pose proof (HN t (nth_error_In _ _ Ht)) as K.
    destruct (eroded t && _); [|exact K]. unfold restoreT, hasChannel in *. exact K. }
  assert (HC : forall i t0 t c, nth_error T0 i = Some t0 -> nth_error T i = Some t -> nth_error E i = Some c ->
    numbers c /\ (up c \/ at_ b i = true) /\ tX c = tX t /\ tZ0 c = tZ0 t /\ tZ3 c = tZ3 t).
  { intros i t0 t c H0 H1 Hc. rewrite (HE i t0 t H0 H1) in Hc. apply Some_inj in Hc. destruct (HF i t0 t H0 H1) as (N0 & N & A & G & D).
    assert (NC : hasChannel t = true -> (tY1 t <? tY0 t)%n = true) by (intros K; rewrite (HN t (nth_error_In _ _ H1)) in K; discriminate).
    destruct (eroded t) eqn:ER; cbn [andb] in Hc; [destruct (at_ b i) eqn:B; cbn [negb] in Hc|].
    - subst c. auto.
    - assert (PR : proper P t0 Restore t) by (cbn [proper]; split; lra). assert (FR : firm P t0 Restore t) by (cbn [firm]; split; lra).
      assert (E1 : (tY0 t <=? tY3 t)%n = true) by (unfold eroded in ER; apply andb_true_iff in ER; tauto).
      assert (RW : reworked P (Fin w) (Fin z) t0 Restore t c) by (rewrite <- Hc; eapply (rwRestore P (Fin w) (Fin z) t0 t); [exact E1|reflexivity|reflexivity]).
      split; [exact (proj1 (worth_section P w z t0 NP N0 _ _ _ RW N PR))|]. split; [left; rewrite <- Hc; apply (restored_up P t0 NP N0); assumption|]. subst c. auto.
    - subst c. split; [exact N|]. split; [left; apply uneroded_up; assumption|auto]. }
  assert (NE : Forall numbers E).
  { apply Forall_forall. intros c Hc. apply In_nth_error in Hc as (i & Hi). destruct (At0 i c Hi) as (t0 & t & H0 & H1 & _). exact (proj1 (HC i t0 t c H0 H1 Hi)). }
  rewrite (raise_none NE pres HP) by lia. cbn [bind].
  destruct (spill_none (P := P) (E := E) x0 WL b) as (b' & -> & HS & HB'); [lia|intros k Hk; rewrite LE; auto|]. cbn [bind].
  destruct (create_in (P := P) (E := E) e e1 w z b' NP HB') as (T4 & e0' & e1' & w' & z' & -> & L4 & H4). cbn [bind].
  assert (HC4 : forall i t0 t, nth_error T0 i = Some t0 -> nth_error T i = Some t -> exists q, nth_error T4 i = Some q /\ numbers q /\
    (up q \/ i = 0%nat /\ (match b' with Some _ => true | None => false end) = true) /\ ((match b' with Some _ => true | None => false end) = false -> hasChannel q = false) /\ tX q = tX t /\ tZ0 q = tZ0 t /\ tZ3 q = tZ3 t).
  { intros i t0 t H0 H1. destruct (nth_error E i) as [c|] eqn:Ec; [|apply nth_error_None in Ec; assert (i < length T)%nat by (apply nth_error_Some; congruence); lia].
    destruct (HC i t0 t c H0 H1 Ec) as (C1 & C2 & C3 & C4 & C5). destruct (H4 i c Ec) as [(K1 & K2)|(K1 & K2 & K3)].
    - exists c. split; [exact K1|]. split; [exact C1|]. split.
      + destruct C2 as [C2|C2]; [left; exact C2|right]. destruct b as [k|]; [|discriminate]. rewrite (HS k eq_refl) in *. split; [apply K2; exact C2|reflexivity].
      + split; [intros _; exact (NoE c (nth_error_In _ _ Ec))|auto].
    - eexists. split; [exact K2|]. split; [exact (proj1 (worth_section P w z c NP C1 _ _ _ K3 C1 I))|]. split; [left; apply (breached_up P NP); [exact SP|exact C1|eexists; reflexivity]|].
      split; [destruct b'; [discriminate|discriminate K1]|]. unfold breachT. cbv zeta. cbn [tX tZ0 tZ3]. auto. }
  assert (HC5 : forall i t0 t, nth_error T0 i = Some t0 -> nth_error T i = Some t -> exists q, nth_error (upd_with T4 x0 (keepLagoon P)) i = Some q /\ numbers q /\
    (up q \/ i = 0%nat /\ (match b' with Some _ => true | None => false end) = true) /\ ((match b' with Some _ => true | None => false end) = false -> hasChannel q = false) /\ tX q = tX t /\ tZ0 q = tZ0 t /\ tZ3 q = tZ3 t).
  { intros i t0 t H0 H1. destruct (HC4 i t0 t H0 H1) as (q & Q1 & Q2 & Q3). destruct (Nat.eq_dec i x0) as [->|NX]; [|exists q; rewrite nth_error_upd_with_ne by congruence; auto].
    exists (keepLagoon P q). split; [rewrite nth_error_upd_with_eq, Q1; reflexivity|]. unfold keepLagoon. destruct (_ <? _)%n eqn:EK; [|auto].
    assert (KW : reworked P (Fin w) (Fin z) q Keep q (setY4 (tY3 q - pMinOutletWidth P - fofQ 1 1000)%n q)) by (eapply (rwKeep P (Fin w) (Fin z) q q); exact EK).
    split; [exact (proj1 (worth_section P w z q NP Q2 _ _ _ KW Q2 I))|exact Q3]. }
  assert (forallb rowOk (upd_with T4 x0 (keepLagoon P)) = true) as ->.
  { apply forallb_forall. intros q Hq. apply In_nth_error in Hq as (i & Hi). assert (i < length T)%nat by (rewrite <- LE, <- L4, <- (upd_with_length T4 x0 (keepLagoon P)); apply nth_error_Some; congruence).
    destruct (nth_error T0 i) as [t0|] eqn:E0; [|apply nth_error_None in E0; lia]. destruct (nth_error T i) as [t|] eqn:E1; [|apply nth_error_None in E1; lia].
    destruct (HC5 i t0 t E0 E1) as (q' & Q1 & ((y0 & Y0) & (y3 & Y3) & (y4 & Y4) & _) & _). rewrite Hi in Q1. apply Some_inj in Q1. subst q'. unfold rowOk. rewrite Y0, Y3, Y4. reflexivity. }
  cbn [assert_ bind]. do 6 eexists. split; [reflexivity|]. split; [rewrite upd_with_length; lia|]. exact HC5.
Qed.

Lemma update_through fuel j1 j2 (P : phys xr) N TP T e0 e1 W Zend RiverElev online LagoonWL OutletDep CW CD fl l q c OW d cap a k j :
  nDx N = Fin d -> nMaxMorChange N = Fin cap -> 0 <= cap -> numberedPars P -> 0 < rv (pSpitWidth P) -> cap < rv (pBackshoreElev P) + rv (pClosureDepth P) ->
  soundInputs P d T e1 W Zend online [] CW CD fl true (length q) -> fits T RiverElev online LagoonWL fl l c OW -> Forall (sturdy P cap) T ->
  (1 <= a)%Z -> (a * 2 ^ Z.of_nat k <= 43200)%Z -> tMorDtMin TP = sec a -> tMorDtMax TP = sec (a * 2 ^ Z.of_nat k) -> (j <= k)%nat -> (k <= fuel)%nat ->
  (forall i, j1 i = true) -> (forall i, j2 i = true) ->
  exists o, updateMorphology fuel j1 j2 P N TP T e0 e1 W Zend RiverElev online [] LagoonWL OutletDep CW CD fl true (map Fin l) (map Fin q) (map Fin c) OW (sec (a * 2 ^ Z.of_nat j)) = Ok o /\
    length (oT o) = length T /\
    forall i t, nth_error T i = Some t -> exists t', nth_error (oT o) i = Some t' /\ numbers t' /\ (0 < rv (barWidth t') \/ i = 0%nat /\ oBreach o = true) /\
      (oBreach o = false -> hasChannel t' = false) /\ tX t' = tX t /\ moved cap (tZ0 t) (tZ0 t') /\ moved cap (tZ3 t) (tZ3 t').
Proof.
  intros HD HM Hc NP SP HB SI FT ST Ha Hk H1 H2 Hj Hf J1 J2. pose proof SI as (_ & _ & SDT & _ & ((w & -> & _) & (z & -> & _)) & _).
  assert (HSt : forallb stands T = true).
  { apply forallb_forall. intros t Ht. rewrite Forall_forall in ST, SDT. destruct (ST t Ht) as (S1 & S2 & _). pose proof (sound_numbers _ _ (SDT t Ht)) as Nt.
    unfold stands. destruct (proj1 (bar_fin t Nt)) as (bw & Eb). rewrite Eb in *. cbn [rv] in S2. rewrite x0. change (Fin 0 <? Fin bw)%n with (Rltb 0 bw). apply Rltb_true. exact S2. }
  destruct (apply_none fuel P N TP T e0 e1 (Fin w) (Fin z) RiverElev online LagoonWL OutletDep CW CD fl l q c OW d cap a k j HD HM Hc SI FT HSt Ha Hk H1 H2 Hj Hf) as (r & HA & NW & LW & BX).
  assert (HM' : is_fin (nMaxMorChange N) /\ 0 <= rv (nMaxMorChange N)) by (rewrite HM; split; [eexists; reflexivity|exact Hc]).
  destruct (moved_numbers fuel P N TP T e0 e1 (Fin w) (Fin z) RiverElev online [] LagoonWL OutletDep CW CD fl true l q c OW _ r d HD SI HA HM') as (NT & NA & _).
  destruct (cap_transects fuel P N TP T e0 e1 (Fin w) (Fin z) RiverElev online [] LagoonWL OutletDep CW CD fl true l q c OW _ r d cap HD HM Hc SI HA 0 0 ltac:(discriminate)) as (LA & MV).
  pose proof (apply_sameX _ _ _ _ _ _ _ _ _ _ _ _ _ _ _ _ _ _ _ _ _ _ _ _ HA) as (_ & _ & _ & AX).
  destruct (apply_inv _ _ _ _ _ _ _ _ _ _ _ _ _ _ _ _ _ _ _ _ _ _ _ _ HA) as (_ & _ & _ & _ & _ & _ & _ & _ & _ & _ & _ & (AE & AW & AZ)).
  rewrite Forall_forall in ST, NT, NA. assert (HN0 : none T) by (intros t Ht; exact (proj1 (ST t Ht))).
  assert (L2 : (2 <= length T)%nat) by (destruct FT; assumption).
  unfold updateMorphology. rewrite HA. cbn [bind].
  destruct (correct_none P (nDx N) T (aT r) e0 (aE1 r) (aW r) (aZ r) HN0 (eq_sym LA)) as (eB & ->); [lia|]. cbn [bind].
  set (T1 := map2 (fun t0 t => cliffCollision P (shorefaceHeight P t0) t) T (aT r)).
  assert (LT1 : length T1 = length T) by (unfold T1; rewrite map2_length; lia).
  assert (HT1 : forall i t0 t1, nth_error T i = Some t0 -> nth_error T1 i = Some t1 -> exists t, nth_error (aT r) i = Some t /\ t1 = cliffCollision P (shorefaceHeight P t0) t).
  { intros i t0 t1 H0 Ht1. unfold T1 in Ht1. rewrite nth_error_map2, H0 in Ht1. destruct (nth_error (aT r) i) as [t|]; [|discriminate]. apply Some_inj in Ht1. eauto. }
  assert (Cols : forall h t, tX (cliffCollision P h t) = tX t /\ tY1 (cliffCollision P h t) = tY1 t /\ tZ0 (cliffCollision P h t) = tZ0 t /\ tZ3 (cliffCollision P h t) = tZ3 t).
  { intros h t. unfold cliffCollision. destruct (tY0 t <=? tY4 t)%n; auto. }
  assert (Ch : forall i t0 t, nth_error T i = Some t0 -> nth_error (aT r) i = Some t -> hasChannel t = false).
  { intros i t0 t H0 Ht. destruct (AX i ltac:(congruence)) as (u & u' & U1 & U2 & rr & U3). rewrite H0 in U1. apply Some_inj in U1. subst u. rewrite Ht in U2. apply Some_inj in U2. subst u'.
    pose proof (HN0 t0 (nth_error_In _ _ H0)) as K. unfold hasChannel in *. apply negb_false_iff in K. rewrite U3. destruct (tY1 t0); try discriminate K. reflexivity. }
  assert (HN1 : none T1).
  { intros t1 Hi. apply In_nth_error in Hi as (i & Hi). assert (i < length T)%nat by (rewrite <- LT1; apply nth_error_Some; congruence).
    destruct (nth_error T i) as [t0|] eqn:E0; [|apply nth_error_None in E0; lia]. destruct (HT1 i t0 t1 E0 Hi) as (t & Ht & ->). destruct (Cols (shorefaceHeight P t0) t) as (_ & C1 & _).
    pose proof (Ch i t0 t E0 Ht) as K. unfold hasChannel in *. rewrite C1. exact K. }
  assert (FO : forall i t0 t1, nth_error T i = Some t0 -> nth_error T1 i = Some t1 -> footing P t0 t1 /\ tX t1 = tX t0 /\ moved cap (tZ0 t0) (tZ0 t1) /\ moved cap (tZ3 t0) (tZ3 t1)).
  { intros i t0 t1 H0 Ht1. destruct (HT1 i t0 t1 H0 Ht1) as (t & Ht & ->). pose proof (NT t0 (nth_error_In _ _ H0)) as N0. pose proof (NA t (nth_error_In _ _ Ht)) as Nt.
    destruct (ST t0 (nth_error_In _ _ H0)) as (_ & _ & S3 & S4). destruct (MV i t0 t H0 Ht) as (MX & _ & _ & _ & _ & _ & M0 & _ & _ & M3).
    destruct (Cols (shorefaceHeight P t0) t) as (CX & _ & C0 & C3).
    pose proof N0 as (_ & _ & _ & (z00 & Z00) & (z30 & Z30) & _). pose proof Nt as (_ & _ & _ & (z01 & Z01) & (z31 & Z31) & _).
    rewrite CX, C0, C3. split; [|auto]. destruct M0 as (m0 & M0 & M0'). destruct M3 as (m3 & M3 & M3').
    rewrite Z00, Z01, PRate.xadd in M0'. injection M0' as M0'. rewrite Z30, Z31, PRate.xadd in M3'. injection M3' as M3'.
    rewrite Z00 in S3. rewrite Z00, Z30 in S4. cbn [rv] in S3, S4. apply Rabs_def2x in M0. apply Rabs_def2x in M3.
    assert (PQ : proper P t0 Cliff t) by (cbn [proper]; rewrite Z00, Z01; cbn [rv]; split; lra).
    destruct (cliff_piece P w z t0 t) as (h & PC & DC).
    assert (PH : properAll P t0 h).
    { destruct PC as [(-> & _)|(-> & _)]; [constructor|]. apply Forall_cons; [exact PQ|constructor]. }
    split; [exact N0|]. split; [eapply (piece_numbers P w z t0 NP N0 Cliff); [exact PC|exact Nt|exact PH]|].
    split; [apply (cliff_ahead P t0 NP N0 t h); assumption|]. rewrite C0, C3, Z00, Z01, Z31. cbn [rv]. split; lra. }
  rewrite AW, AZ.
  destruct (breach_none P j1 j2 T T1 (map outletPresent T) (aX0 r) e0 eB w z (aWL r) NP SP J1 J2 HN1 (none_pres T HN0)) as (T' & e0' & e1' & W' & Z' & br & -> & LT' & HR);
    [rewrite map_length; lia|lia|lia|exact NW|lia|intros i t0 t A B; exact (proj1 (FO i t0 t A B))|].
  cbn [bind]. eexists. split; [reflexivity|]. cbn [oT oBreach]. split; [lia|]. intros i t0 H0.
  destruct (nth_error T1 i) as [t1|] eqn:E1; [|apply nth_error_None in E1; assert (i < length T)%nat by (apply nth_error_Some; congruence); lia].
  destruct (HR i t0 t1 H0 E1) as (t' & R1 & R2 & R3 & R4 & R5 & R6 & R7). destruct (FO i t0 t1 H0 E1) as (_ & F1 & F2 & F3).
  exists t'. split; [exact R1|]. split; [exact R2|]. split; [exact R3|]. split; [exact R4|]. rewrite R5, R6, R7. auto.
Qed.
