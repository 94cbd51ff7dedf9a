(** Proofs that an update leaves a coast from which the next one can start, and when it does not. *)
From Coq Require Import ZArith List Bool Lia Reals Lra.
From Verif Require Import Base Num Xr MState MCoast MRiv MMor SMor SVol STouch SLedger SFrame SNext PCoast PLag PCore PRate PBudget PShore PRateEx PCap PVol PLevel PUpdate PQuiet PLedger PLedger2 PLedger3 PFrame.
Import ListNotations.

Section Gen.
  Context {F : Type} {NF : Num F}.
  Lemma update_stood fuel j1 j2 (P : phys F) N TP T e0 e1 W Zend RiverElev online outlet LagoonWL OutletDep CW CD fl closed LST q CST OW dt m :
    updateMorphology fuel j1 j2 P N TP T e0 e1 W Zend RiverElev online outlet LagoonWL OutletDep CW CD fl closed LST q CST OW dt = Ok m ->
    forallb stands T = true.
  Proof.
    intros H. unfold updateMorphology in H. apply bind_ok in H as (a & HA & _). unfold morApply in HA. cbv zeta in HA.
    apply bind_ok in HA as (x0 & _ & HA). apply bind_ok in HA as (rbq & _ & HA). apply bind_ok in HA as (WL & _ & HA).
    apply bind_ok in HA as (u & A & _). apply assert_ok in A. exact A.
  Qed.
  (** A reworking that may have been done, as a piece of the story. *)
  Definition piece (P : phys F) W Z t0 k t t' (h : list (kind * tsect F)) : Prop := (h = [] /\ t' = t) \/ (h = [(k, t)] /\ reworked P W Z t0 k t t').
  Lemma piece_of (P : phys F) W Z t0 k t t' : may P W Z t0 k t t' -> exists h, piece P W Z t0 k t t' h.
  Proof. intros [->|R]; [exists []; left; auto|exists [(k, t)]; right; auto]. Qed.
  Lemma piece_story (P : phys F) W Z t0 n k t t' h l u : (n <= rank k)%nat -> piece P W Z t0 k t t' h -> story P W Z t0 (S (rank k)) t' l u -> story P W Z t0 n t (h ++ l) u.
  Proof.
    intros L [(-> & ->)|(-> & R)] S; cbn [app]; [eapply story_weak; [|exact S]; lia|]. eapply tell; eauto.
  Qed.
  Lemma piece_place (P : phys F) W Z t0 k t t' h : piece P W Z t0 k t t' h -> tX t' = tX t.
  Proof. intros [(_ & ->)|(_ & R)]; [reflexivity|]. destruct R; reflexivity. Qed.
End Gen.

Local Open Scope R_scope.
Section Stands.
  Variables (P : phys xr) (w z : R) (t0 : tsect xr).
  Hypothesis NP : numberedPars P.
  Hypothesis N0 : numbers t0.
  Ltac cols := cbn [tX tY0 tY1 tY2 tY3 tY4 tZ0 tZ1 tZ2 tZ3 hasChannel] in *.
  Notation pc := (piece P (Fin w) (Fin z) t0).
  Lemma piece_numbers k t t' h : pc k t t' h -> numbers t -> properAll P t0 h -> numbers t'.
  Proof.
    intros [(-> & ->)|(-> & R)] N Q; [exact N|]. inversion Q; subst. exact (proj1 (worth_section P w z t0 NP N0 _ _ _ R N ltac:(assumption))).
  Qed.
  (** The sea lies in front of the cliff. *)
  Definition ahead (t : tsect xr) : Prop := rv (tY4 t) < rv (tY0 t).
  Lemma frame_ahead k t t' h : pc k t t' h -> ~ In Shoreline (changes k) -> ~ In CliffFoot (changes k) -> ahead t -> ahead t'.
  Proof.
    intros [(-> & ->)|(-> & R)] A B H; [exact H|]. unfold ahead. pose proof (rework_frame P (Fin w) (Fin z) t0 k t t' Shoreline R A) as E.
    pose proof (rework_frame P (Fin w) (Fin z) t0 k t t' CliffFoot R B) as E'. cbn [colOf] in E, E'. rewrite E, E'. exact H.
  Qed.
  Lemma crowd_ahead t t' h : pc Crowd t t' h -> numbers t -> properAll P t0 h -> firmAll P t0 h -> ahead t -> ahead t'.
  Proof.
    intros [(-> & ->)|(-> & R)] N Q C H; [exact H|]. inversion Q as [|? ? Q1 _]; subst. inversion C as [|? ? C1 _]; subst. cbn [fst snd] in *.
    destruct (rework_mono P w z t0 NP N0 Crowd t t' R N Q1 C1) as (M & _). unfold ahead in *.
    pose proof (rework_frame P (Fin w) (Fin z) t0 Crowd t t' Shoreline R ltac:(cbn; intuition discriminate)) as E. cbn [colOf] in E. rewrite E. lra.
  Qed.
  Lemma cliff_piece t : exists h, pc Cliff t (cliffCollision P (shorefaceHeight P t0) t) h /\ ((tY0 t <=? tY4 t)%n = true -> h = [(Cliff, t)]).
  Proof.
    destruct (tY0 t <=? tY4 t)%n eqn:E.
    - exists [(Cliff, t)]. split; [|auto]. right. split; [reflexivity|]. destruct (cliff_may P (Fin w) (Fin z) t0 t) as [A|A]; [|exact A].
      unfold cliffCollision. rewrite E. cbv zeta. eapply (rwCliff P (Fin w) (Fin z) t0 t); [exact E|reflexivity|reflexivity].
    - exists []. split; [|discriminate]. left. split; [reflexivity|]. unfold cliffCollision. rewrite E. reflexivity.
  Qed.
  Lemma cliff_ahead t h : ((tY0 t <=? tY4 t)%n = true -> h = [(Cliff, t)]) -> numbers t -> properAll P t0 h -> ahead (cliffCollision P (shorefaceHeight P t0) t).
  Proof.
    intros HP N Q. unfold ahead. destruct (row_cases t N) as (x & y0 & y3 & y4 & z0 & z3 & R).
    assert (Z : tZ0 t = Fin z0 /\ tY4 t = Fin y4 /\ tY0 t = Fin y0) by (destruct R as [(y1 & y2 & z1 & z2 & ->)|(q & z1 & z2 & ->)]; repeat split).
    destruct Z as (Z & Z4 & Z0'). destruct (tY0 t <=? tY4 t)%n eqn:E.
    - rewrite (HP eq_refl) in Q. assert (HQ : proper P t0 Cliff t) by (inversion Q; subst; assumption).
      cbn [proper] in HQ. destruct HQ as (Q1 & Q2). unfold cliffCollision. rewrite E. cbv zeta. cbn [setY0 setY3 setY4 tY4 tY0].
      destruct NP as ((cl & CL) & (B & HB) & _). destruct N0 as (_ & _ & _ & (z00 & Z00) & _). unfold shorefaceHeight. rewrite Z, Z4, Z0', CL, HB, Z00 in *. cbn [rv] in *.
      assert (D : 1 + (B - z0) / (cl + z00) = (cl + z00 + (B - z0)) / (cl + z00)) by (field; lra).
      assert (1 + (B - z0) / (cl + z00) <> 0).
      { rewrite D. intros K. apply Q2. apply (f_equal (fun u => u * (cl + z00))) in K. field_simplify in K; lra. }
      rewrite xq. xf. cbn. lra.
    - unfold cliffCollision. rewrite E, Z4, Z0'. rewrite Z4, Z0', leb_fin in E. rb. cbn [rv]. lra.
  Qed.
  (** The barrier has a width. *)
  Definition up (t : tsect xr) : Prop := 0 < rv (barWidth t).
  Lemma fill_ahead d : numbers d -> proper P t0 Fill d -> firm P t0 Fill d -> ahead (fillT P d).
  Proof.
    intros N Q C. destruct NP as ((cl & CL) & _). cbn [proper firm] in Q, C. destruct Q as (Q1 & Q2).
    destruct (row_cases d N) as (x & y0 & y3 & y4 & z0 & z3 & [(y1 & y2 & z1 & z2 & ->)|(q & z1 & z2 & ->)]); [|discriminate Q1].
    unfold ahead, fillT. cols. rewrite CL in *. cbn [rv] in *. xf. cbn. exact C.
  Qed.
  Lemma uneroded_up f : numbers f -> ahead f -> (hasChannel f = true -> (tY1 f <? tY0 f)%n = true) -> eroded f = false -> up f.
  Proof.
    intros N A H E. unfold up, barWidth. unfold eroded in E. unfold ahead in A.
    destruct (row_cases f N) as (x & y0 & y3 & y4 & z0 & z3 & [(y1 & y2 & z1 & z2 & ->)|(q & z1 & z2 & ->)]); cols.
    - specialize (H eq_refl). rewrite ltb_fin in H. rb. cbn. lra.
    - cbn [rv] in A. rewrite leb_fin, ltb_fin in E. cbn. apply andb_false_iff in E as [E|E]; rb; lra.
  Qed.
  Lemma restored_up f : numbers f -> (hasChannel f = true -> (tY1 f <? tY0 f)%n = true) -> eroded f = true -> proper P t0 Restore f -> firm P t0 Restore f ->
    up (restoreT (shorefaceHeight P t0) f).
  Proof.
    intros N H E Q C. unfold up, barWidth, restoreT, hasChannel. cbv zeta. cbn [setY0 setY3 tY0 tY1 tY3]. unfold eroded in E. apply andb_true_iff in E as (E & _).
    destruct NP as ((cl & CL) & _). destruct N0 as (_ & _ & _ & (z00 & Z00) & _). cbn [proper firm] in Q, C. unfold shorefaceHeight. rewrite CL, Z00 in *. destruct C as (C1 & C2). destruct Q as (Q1 & Q2).
    destruct (row_cases f N) as (x & y0 & y3 & y4 & z0 & z3 & [(y1 & y2 & z1 & z2 & ->)|(q & z1 & z2 & ->)]); cols; rewrite leb_fin in E; rb; cbn [rv] in *;
      assert (D : 1 + (cl + z00) / (z0 - z3) = (z0 - z3 + (cl + z00)) / (z0 - z3)) by (field; lra);
      assert (Dp : 0 < 1 + (cl + z00) / (z0 - z3)) by (rewrite D; apply Rdiv_lt_0_compat; lra).
    - specialize (H eq_refl). rewrite ltb_fin in H. rb. cbn [fisnan xr_num xisnan negb]. rewrite xq. xf. cbn.
      assert (0 < (1 / 1000 + (y3 - y0)) / (1 + (cl + z00) / (z0 - z3))) by (apply Rdiv_lt_0_compat; lra). lra.
    - cbn [fisnan xr_num xisnan negb]. rewrite xq. xf. cbn. lra.
  Qed.
  Lemma breached_up W Z c : 0 < rv (pSpitWidth P) -> numbers c -> is_fin W -> up (breachT P W Z c).
  Proof.
    intros SPp N (w' & ->). destruct NP as (_ & _ & _ & (sp & SP) & _). rewrite SP in SPp. cbn [rv] in SPp. unfold up, barWidth, breachT, hasChannel. cbv zeta. cbn [tY0 tY1 tY3].
    assert (Z0 : exists y0 y3, tY0 c = Fin y0 /\ tY3 c = Fin y3) by (destruct N as ((y0 & Y0) & (y3 & Y3) & _); eauto).
    destruct Z0 as (y0 & y3 & -> & ->). rewrite SP, x2. xf. rewrite pmin_fin. cbn [fisnan xr_num xisnan negb]. xf. cbn.
    pose proof (Rmin_l (y0 - sp) ((y0 + y3) / 2 + w' / 2)). lra.
  Qed.
End Stands.

Section Tail.
  Context {P : phys xr} {j1 j2 : nat -> bool} {T0 T : list (tsect xr)} {pres : list bool} {x0 : nat} {e0 e1 : xr} {w z : R} {outlet : list nat}
    {Closed : bool} {WL : list xr} {T' : list (tsect xr)} {e0' e1' W' Zend' : xr} {br : bool}.
  Variable g : stages P j1 j2 T0 T pres x0 e0 e1 (Fin w) (Fin z) outlet Closed WL T' e0' e1' W' Zend' br.
  Hypothesis (L0 : length T0 = length T) (LP : length pres = length T).
  Hypothesis NP : numberedPars P.
  Hypothesis SPp : 0 < rv (pSpitWidth P).
  Ltac parts H := repeat match type of H with properAll _ _ (_ ++ _) => apply Forall_app in H; let A := fresh "Q" in destruct H as (A & H) | firmAll _ _ (_ ++ _) => apply Forall_app in H; let A := fresh "C" in destruct H as (A & H) end.
  Lemma tail_stands i t t0 : nth_error T i = Some t -> nth_error T0 i = Some t0 -> numbers t0 ->
    exists t' h, nth_error T' i = Some t' /\ story P (Fin w) (Fin z) t0 6 t h t' /\
      (numbers t -> ahead t -> properAll P t0 h -> firmAll P t0 h -> up t' \/ ((i <= 1)%nat /\ br = true /\ e1' = tX t')).
  Proof.
    intros Ht Ht0 N0. destruct (rows g L0 LP i t Ht) as (t0' & p & f' & c & q & t' & R1 & R2 & R3 & R4 & R5 & R6 & R7 & R8 & R9 & R10).
    rewrite Ht0 in R1. apply Some_inj in R1. subst t0'.
    set (d := if lagoonIntersect j1 i t then dissolve t else t) in *. set (f := if shoreIntersect j2 i d then fillT P d else d) in *.
    assert (H7 : exists h, piece P (Fin w) (Fin z) t0 Merge t d h).
    { apply piece_of. unfold d. destruct (lagoonIntersect _ _ _); [right; apply rwMerge|left; auto]. }
    assert (H8 : exists h, piece P (Fin w) (Fin z) t0 Fill d f h /\ (shoreIntersect j2 i d = true -> h = [(Fill, d)])).
    { unfold f. destruct (shoreIntersect _ _ _); [exists [(Fill, d)]; split; [right; split; [auto|apply rwFill]|auto]|exists []; split; [left; auto|discriminate]]. }
    set (here := match gB1 _ _ _ _ _ _ _ _ _ _ _ _ _ _ _ _ _ _ _ _ g, gB2 _ _ _ _ _ _ _ _ _ _ _ _ _ _ _ _ _ _ _ _ g with None, Some b => Nat.eqb i b | _, _ => false end) in *.
    assert (H9 : exists h, piece P (Fin w) (Fin z) t0 Restore f f' h /\ (eroded f && negb here = true -> h = [(Restore, f)])).
    { rewrite R4. destruct (eroded f && negb here) eqn:E; [|exists []; split; [left; auto|discriminate]]. exists [(Restore, f)]. split; [right; split; [auto|]|auto].
      apply andb_true_iff in E as [E _]. unfold eroded in E. apply andb_true_iff in E as [E _]. eapply (rwRestore P (Fin w) (Fin z) t0 f); [exact E|reflexivity|reflexivity]. }
    assert (H10 : exists h, piece P (Fin w) (Fin z) t0 Raise f' c h).
    { apply piece_of. rewrite R5. match goal with |- may _ _ _ _ _ _ (if ?b then _ else _) => destruct b end; [|left; auto]. right. apply rwRaise. }
    assert (H11 : exists h, piece P (Fin w) (Fin z) t0 Breach c q h).
    { apply piece_of. destruct R8 as [->|[B ->]]; [left; auto|].
      pose proof (s6 _ _ _ _ _ _ _ _ _ _ _ _ _ _ _ _ _ _ _ _ g) as C. rewrite B in C. apply create_inv in C as (u & Hu & [(_ & E & _)|(_ & _ & _ & _ & EW & EZ)]).
      + rewrite E, R6 in R7. apply Some_inj in R7. left. auto.
      + rewrite EW, EZ. right. eapply (rwBreach P (Fin w) (Fin z) t0 c); reflexivity. }
    assert (H12 : exists h, piece P (Fin w) (Fin z) t0 Keep q t' h).
    { apply piece_of. rewrite R9. destruct (Nat.eqb i x0); [|left; auto]. unfold keepLagoon. destruct (_ <? _)%n eqn:E; [|left; auto]. right. eapply (rwKeep P (Fin w) (Fin z) t0 q). exact E. }
    destruct H7 as (h7 & H7). destruct H8 as (h8 & H8 & D8). destruct H9 as (h9 & H9 & D9). destruct H10 as (h10 & H10). destruct H11 as (h11 & H11). destruct H12 as (h12 & H12).
    exists t', (h7 ++ h8 ++ h9 ++ h10 ++ h11 ++ h12 ++ []). split; [exact R10|]. split.
    { eapply piece_story; [|exact H7|]; [cbn; lia|]. eapply piece_story; [|exact H8|]; [cbn; lia|]. eapply piece_story; [|exact H9|]; [cbn; lia|].
      eapply piece_story; [|exact H10|]; [cbn; lia|]. eapply piece_story; [|exact H11|]; [cbn; lia|]. eapply piece_story; [|exact H12|]; [cbn; lia|]. constructor. }
    intros N A Q C. unfold properAll in Q. unfold firmAll in C. rewrite !Forall_app in Q, C.
    destruct Q as (Q7 & Q8 & Q9 & Q10 & Q11 & Q12 & _). destruct C as (C7 & C8 & C9 & C10 & C11 & C12 & _).
    assert (Nd : numbers d) by (eapply (piece_numbers P w z t0 NP N0 Merge); eauto). assert (Nf : numbers f) by (eapply (piece_numbers P w z t0 NP N0 Fill); eauto).
    assert (Nf' : numbers f') by (eapply (piece_numbers P w z t0 NP N0 Restore); eauto). assert (Nc : numbers c) by (eapply (piece_numbers P w z t0 NP N0 Raise); eauto).
    assert (Ad : ahead d) by (eapply frame_ahead; [exact H7|cbn; intuition discriminate|cbn; intuition discriminate|exact A]).
    assert (Af : ahead f).
    { unfold f. destruct (shoreIntersect j2 i d); [|exact Ad]. rewrite (D8 eq_refl) in Q8, C8. inversion Q8 as [|? ? Q8' _]; subst. inversion C8 as [|? ? C8' _]; subst. apply (fill_ahead P t0 NP); assumption. }
    assert (Bf : hasChannel f = true -> (tY1 f <? tY0 f)%n = true).
    { unfold f. destruct (shoreIntersect j2 i d) eqn:E; [discriminate|]. intros Hc. unfold shoreIntersect in E. unfold hasChannel in Hc. rewrite Hc in E. apply negb_false_iff in E. exact E. }
    assert (Kq : forall y, piece P (Fin w) (Fin z) t0 Keep q t' h12 -> (up q \/ y) -> (up t' \/ y)).
    { intros y [(_ & ->)|(_ & R)] [U|U]; auto. left. unfold up, barWidth, hasChannel in *. inversion R; subst. exact U. }
    apply (Kq _ H12). clear Kq.
    assert (Wf : is_fin W').
    { pose proof (s6 _ _ _ _ _ _ _ _ _ _ _ _ _ _ _ _ _ _ _ _ g) as C. destruct (gB3 _ _ _ _ _ _ _ _ _ _ _ _ _ _ _ _ _ _ _ _ g) as [b|].
      - apply create_inv in C as (u & _ & [(_ & _ & _ & _ & -> & _)|(_ & _ & _ & _ & -> & _)]); [eexists; reflexivity|]. unfold breachWidth. destruct NP as (_ & _ & _ & _ & (mw & ->) & _).
        rewrite x2, PRate.xmul, pmax_fin. eexists; reflexivity.
      - apply create_none in C as (_ & _ & _ & -> & _). eexists; reflexivity. }
    assert (Uc : up f' -> up q).
    { intros U. destruct R8 as [->|[_ ->]]; [|apply (breached_up P NP); assumption]. unfold up, barWidth, hasChannel in *. rewrite R5. match goal with |- context [if ?b && ?p then _ else f'] => destruct (b && p) end; exact U. }
    destruct (eroded f) eqn:E.
    - destruct here eqn:B.
      + (* the breach is here *)
        destruct R8 as [->|[_ ->]]; [|left; apply (breached_up P NP); assumption]. unfold here in B. destruct (gB1 _ _ _ _ _ _ _ _ _ _ _ _ _ _ _ _ _ _ _ _ g); [discriminate|]. destruct (gB2 _ _ _ _ _ _ _ _ _ _ _ _ _ _ _ _ _ _ _ _ g) as [b|] eqn:B2; [|discriminate].
        apply Nat.eqb_eq in B. subst b. pose proof (s5 _ _ _ _ _ _ _ _ _ _ _ _ _ _ _ _ _ _ _ _ g) as S5. rewrite B2 in S5. cbn [spillBreach] in S5. apply Ok_inj in S5.
        pose proof (s6 _ _ _ _ _ _ _ _ _ _ _ _ _ _ _ _ _ _ _ _ g) as S6. rewrite <- S5 in S6. apply create_inv in S6 as (u & Hu & [(IC & _ & _ & -> & _)|(_ & E4 & _)]).
        * rewrite R6 in Hu. apply Some_inj in Hu. subst u. right. split; [|split].
          -- destruct (le_lt_dec 2 i) as [K|K]; [|lia]. rewrite (in_connected _ _ _ K) in IC. discriminate.
          -- rewrite (s9 _ _ _ _ _ _ _ _ _ _ _ _ _ _ _ _ _ _ _ _ g), <- S5. reflexivity.
          -- symmetry. eapply piece_place. exact H12.
        * left. rewrite R6 in Hu. apply Some_inj in Hu. subst u. rewrite E4 in R7. rewrite nth_error_upd_eq in R7 by (apply nth_error_Some; congruence). apply Some_inj in R7.
          rewrite <- R7. apply (breached_up P NP); assumption.
      + left. apply Uc. rewrite R4. cbn [andb negb]. rewrite (D9 eq_refl) in Q9, C9. inversion Q9 as [|? ? Q9' _]; subst. inversion C9 as [|? ? C9' _]; subst.
        apply (restored_up P t0 NP N0); assumption.
    - left. apply Uc. rewrite R4. cbn [andb]. apply uneroded_up; assumption.
  Qed.
End Tail.

Lemma update_stands fuel j1 j2 (P : phys xr) N TP T e0 e1 W Zend RiverElev online outlet LagoonWL OutletDep CW CD fl closed l q c OW dt0 o d :
  nDx N = Fin d -> numberedPars P -> 0 < rv (pSpitWidth P) -> soundInputs P d T e1 W Zend online outlet CW CD fl closed (length q) ->
  is_fin (nMaxMorChange N) /\ 0 <= rv (nMaxMorChange N) ->
  updateMorphology fuel j1 j2 P N TP T e0 e1 W Zend RiverElev online outlet LagoonWL OutletDep CW CD fl closed (map Fin l) (map Fin q) (map Fin c) OW dt0 = Ok o ->
  exists w z, forall i t0 t', nth_error T i = Some t0 -> nth_error (oT o) i = Some t' ->
    exists t s, story P (Fin w) (Fin z) t0 0 t s t' /\
      (properAll P t0 s -> firmAll P t0 s -> 0 < rv (barWidth t') \/ ((i <= 1)%nat /\ oBreach o = true /\ oE1 o = tX t')).
Proof.
  intros HD NP SPp SI HM HU. destruct (update_inv _ _ _ _ _ _ _ _ _ _ _ _ _ _ _ _ _ _ _ _ _ _ _ _ _ _ HU) as (a & T1 & pres & eA & eB & o1 & HA & EC & EB & _ & _ & L1 & LP & _).
  destruct (moved_numbers fuel P N TP T e0 e1 W Zend RiverElev online outlet LagoonWL OutletDep CW CD fl closed l q c OW dt0 a d HD SI HA HM) as (NT & NA & (w & EW) & (z & EZ)).
  pose proof (apply_sameX _ _ _ _ _ _ _ _ _ _ _ _ _ _ _ _ _ _ _ _ _ _ _ _ HA) as (SA & _). apply sameX_len in SA.
  exists w, z. intros i t0 t' Ht0 Ht'. rewrite EW, EZ in EB, EC. destruct (breach_inv _ _ _ _ _ _ _ _ _ _ _ _ _ _ _ _ _ _ _ _ EB) as [g].
  assert (exists t, nth_error (aT a) i = Some t) as (t & Ht).
  { destruct (nth_error (aT a) i) eqn:E; [eauto|]. apply nth_error_None in E. assert (i < length T)%nat by (apply nth_error_Some; congruence). lia. }
  destruct (correct_story_full _ _ _ _ _ _ _ _ _ _ _ _ _ _ _ EC (eq_sym SA) i t0 t Ht0 Ht) as (x1 & x2 & x3 & x4 & x5 & x6 & H6 & E1 & M2 & M3 & M4 & M5 & M6). subst x1.
  rewrite Forall_forall in NT, NA. pose proof (NT _ (nth_error_In _ _ Ht0)) as N0. pose proof (NA _ (nth_error_In _ _ Ht)) as Nt.
  destruct (cliff_piece P w z t0 t) as (h1 & P1 & D1). destruct (piece_of _ _ _ _ _ _ _ M2) as (h2 & P2). destruct (piece_of _ _ _ _ _ _ _ M3) as (h3 & P3).
  destruct (piece_of _ _ _ _ _ _ _ M4) as (h4 & P4). destruct (piece_of _ _ _ _ _ _ _ M5) as (h5 & P5). destruct (piece_of _ _ _ _ _ _ _ M6) as (h6 & P6).
  (* the second half needs the first half's hypotheses *)
  assert (TS : exists t'' h, nth_error (oT o) i = Some t'' /\ story P (Fin w) (Fin z) t0 6 x6 h t'' /\
      (numbers x6 -> ahead x6 -> properAll P t0 h -> firmAll P t0 h -> up t'' \/ ((i <= 1)%nat /\ oBreach o = true /\ oE1 o = tX t''))).
  { apply (tail_stands g (eq_sym L1) LP NP SPp i x6 t0 H6 Ht0 N0). }
  destruct TS as (t'' & h & Ht'' & S & U). rewrite Ht' in Ht''. apply Some_inj in Ht''. subst t''.
  exists t, (h1 ++ h2 ++ h3 ++ h4 ++ h5 ++ h6 ++ h). split.
  { eapply piece_story; [|exact P1|]; [cbn; lia|]. eapply piece_story; [|exact P2|]; [cbn; lia|]. eapply piece_story; [|exact P3|]; [cbn; lia|].
    eapply piece_story; [|exact P4|]; [cbn; lia|]. eapply piece_story; [|exact P5|]; [cbn; lia|]. eapply piece_story; [|exact P6|]; [cbn; lia|]. exact S. }
  intros Q C. unfold properAll in Q. unfold firmAll in C. rewrite !Forall_app in Q, C.
  destruct Q as (Q1 & Q2 & Q3 & Q4 & Q5 & Q6 & Q). destruct C as (C1 & C2 & C3 & C4 & C5 & C6 & C).
  set (x1 := cliffCollision P (shorefaceHeight P t0) t) in *.
  assert (N1 : numbers x1) by (eapply (piece_numbers P w z t0 NP N0 Cliff); eauto). assert (N2 : numbers x2) by (eapply (piece_numbers P w z t0 NP N0 Squeeze); eauto).
  assert (N3 : numbers x3) by (eapply (piece_numbers P w z t0 NP N0 Elongate); eauto). assert (N4 : numbers x4) by (eapply (piece_numbers P w z t0 NP N0 Seaward); eauto).
  assert (N5 : numbers x5) by (eapply (piece_numbers P w z t0 NP N0 Swallow); eauto). assert (N6 : numbers x6) by (eapply (piece_numbers P w z t0 NP N0 Crowd); eauto).
  assert (A1 : ahead x1) by (apply (cliff_ahead P t0 NP N0 t h1); assumption).
  assert (A2 : ahead x2) by (eapply frame_ahead; [exact P2|cbn; intuition discriminate|cbn; intuition discriminate|exact A1]).
  assert (A3 : ahead x3) by (eapply frame_ahead; [exact P3|cbn; intuition discriminate|cbn; intuition discriminate|exact A2]).
  assert (A4 : ahead x4) by (eapply frame_ahead; [exact P4|cbn; intuition discriminate|cbn; intuition discriminate|exact A3]).
  assert (A5 : ahead x5) by (eapply frame_ahead; [exact P5|cbn; intuition discriminate|cbn; intuition discriminate|exact A4]).
  assert (A6 : ahead x6) by (eapply (crowd_ahead P w z t0 NP N0); eauto).
  exact (U N6 A6 Q C).
Qed.
