(** Proofs about the models of riv.py storeHydraulics and storeBedload. *)
From Coq Require Import Reals ZArith List Bool Lia Lra.
From Verif Require Import Base Num Xr MState MRiv SChan SHyd PCoast PChan PLag PFill.
Import ListNotations.
Local Open Scope num_scope.

Lemma filter2_nil {A} (m : list bool) : filter2 m (@nil A) = [].
Proof. destruct m; reflexivity. Qed.
Lemma filter2_repeat {A} (p : nat -> bool) k r (l m : list A) :
  filter2 (map p (repeat k (length l) ++ r)) (l ++ m) = (if p k then l else []) ++ filter2 (map p r) m.
Proof.
  induction l as [|x l IH]; cbn [length repeat app map filter2]; [destruct (p k); reflexivity|].
  rewrite IH. destruct (p k); reflexivity.
Qed.
Lemma filter2_repeat1 {A} (p : nat -> bool) k (l : list A) : filter2 (map p (repeat k (length l))) l = if p k then l else [].
Proof. pose proof (filter2_repeat p k [] l []) as H. rewrite !app_nil_r in H. rewrite H. reflexivity. Qed.

Lemma nth_error_map_seq {A} (f : nat -> A) n i : nth_error (map f (seq 0 n)) i = if Nat.ltb i n then Some (f i) else None.
Proof.
  rewrite nth_error_map. destruct (Nat.ltb i n) eqn:E.
  - apply Nat.ltb_lt in E. rewrite (proj2 (nth_error_seq 0 n i i)) by (split; [lia|reflexivity]). reflexivity.
  - apply Nat.ltb_ge in E. rewrite (proj2 (nth_error_None (seq 0 n) i)) by (rewrite seq_length; lia). reflexivity.
Qed.

Lemma fold_min_spec os o : let m := fold_left Nat.min os o in In m (o :: os) /\ forall j, In j (o :: os) -> (m <= j)%nat.
Proof.
  revert o; induction os as [|a os IH]; intros o; cbn [fold_left]; cbv zeta.
  - split; [left; auto|]. intros j [<-|[]]. lia.
  - destruct (IH (Nat.min o a)) as [H1 H2]. split.
    + destruct H1 as [H1|H1]; [|right; right; auto]. destruct (Nat.min_dec o a) as [E|E]; rewrite E in H1; [left|right; left]; auto.
      all: rewrite E; auto.
    + intros j Hj. pose proof (H2 _ (or_introl eq_refl)). destruct Hj as [<-|[<-|Hj]]; [lia|lia|]. apply H2. right. auto.
Qed.
Lemma fold_max_spec os o : let m := fold_left Nat.max os o in In m (o :: os) /\ forall j, In j (o :: os) -> (j <= m)%nat.
Proof.
  revert o; induction os as [|a os IH]; intros o; cbn [fold_left]; cbv zeta.
  - split; [left; auto|]. intros j [<-|[]]. lia.
  - destruct (IH (Nat.max o a)) as [H1 H2]. split.
    + destruct H1 as [H1|H1]; [|right; right; auto]. destruct (Nat.max_dec o a) as [E|E]; rewrite E in H1; [left|right; left]; auto.
      all: rewrite E; auto.
    + intros j Hj. pose proof (H2 _ (or_introl eq_refl)). destruct Hj as [<-|[<-|Hj]]; [lia|lia|]. apply H2. right. auto.
Qed.

Section Store.
  Context {F : Type} {NF : Num F}.

  Lemma scatterNew_holds n (d : F) idx v a : NoDup idx -> scatterNew n d idx v = Ok a -> holds n idx v d a.
  Proof.
    unfold scatterNew. intros Hnd H. destruct (forallb _ idx) eqn:E1; cbn [negb] in H; [|discriminate].
    destruct (Nat.eqb _ _) eqn:E2; cbn [negb] in H; [|discriminate]. apply Nat.eqb_eq in E2. apply Ok_inj in H. subst a.
    rewrite forallb_forall in E1.
    split; [rewrite map_length, seq_length; auto|]. split.
    - intros k i Hk. pose proof (E1 i (nth_error_In _ _ Hk)) as Hi. rewrite nth_error_map_seq, Hi.
      rewrite (@scat_nth _ idx v k i) by (auto; lia). destruct (nth_error v k) eqn:E; [auto|].
      apply nth_error_None in E. assert (k < length idx)%nat by (apply nth_error_Some; congruence). lia.
    - intros i Hi Hn. rewrite nth_error_map_seq, (proj2 (Nat.ltb_lt i n) Hi), scat_notin by auto. reflexivity.
  Qed.
  Lemma scatterNew_ok n (d : F) idx (v : list F) : (forall i, In i idx -> (i < n)%nat) -> length idx = length v -> exists a, scatterNew n d idx v = Ok a.
  Proof.
    intros H1 H2. unfold scatterNew. rewrite (proj2 (forallb_forall _ _)) by (intros; apply Nat.ltb_lt; auto).
    rewrite (proj2 (Nat.eqb_eq _ _) H2). cbn [negb]. eauto.
  Qed.

  Lemma sections_length closed (R L O E : list F) : (closed = false -> length E = 2%nat) -> length (flagsOf closed R L O) = length (sections closed R L O E).
  Proof.
    intros H. unfold flagsOf, sections. rewrite !app_length, !repeat_length. destruct closed; [reflexivity|].
    rewrite !app_length, repeat_length, (H eq_refl). reflexivity.
  Qed.
  Lemma sel closed (R L O E : list F) p : (closed = false -> length E = 2%nat) ->
    selFlag (flagsOf closed R L O) p (sections closed R L O E) =
    Ok ((if p 0%nat then R else []) ++ (if p 1%nat then L else []) ++
        (if closed then [] else (if p 2%nat then O else []) ++ filter2 (map p [3; 4]%nat) E)).
  Proof.
    intros H. unfold selFlag. rewrite (proj2 (Nat.eqb_eq _ _) (sections_length closed R L O E H)). f_equal.
    unfold flagsOf, sections. rewrite filter2_repeat. f_equal. rewrite filter2_repeat. f_equal.
    destruct closed; [reflexivity|]. rewrite filter2_repeat. reflexivity.
  Qed.
  Lemma sel_end (p : nat -> bool) (E : list F) : length E = 2%nat -> p 3%nat = true -> p 4%nat = true -> filter2 (map p [3; 4]%nat) E = E.
  Proof. destruct E as [|a [|b [|c E]]]; cbn; intros H H3 H4; try lia. rewrite H3, H4. reflexivity. Qed.

  Section Hyd.
    Variables (closed : bool) (R L O E R' L' O' E' : list F) (online outlet : list nat) (Z : list F).
    Hypothesis HE : closed = false -> length E = 2%nat /\ length E' = 2%nat.
    Hypothesis HR : length R' = length R.
    Hypothesis HL : length L = length online /\ length L' = length online.
    Hypothesis HO : closed = false -> length O = length outlet /\ length O' = length outlet.
    Hypothesis Hon : NoDup online. Hypothesis Hout : NoDup outlet.
    Notation store := (storeHydraulics (sections closed R L O E) (sections closed R' L' O' E') online outlet (flagsOf closed R L O) Z closed).

    Lemma flagsOf' : flagsOf closed R L O = flagsOf closed R' L' O'.
    Proof. unfold flagsOf. destruct HL as [-> ->]. rewrite HR. destruct closed; [reflexivity|]. destruct (HO eq_refl) as [-> ->]. reflexivity. Qed.
    Lemma sel1 p : selFlag (flagsOf closed R L O) p (sections closed R L O E) =
      Ok ((if p 0%nat then R else []) ++ (if p 1%nat then L else []) ++ (if closed then [] else (if p 2%nat then O else []) ++ filter2 (map p [3; 4]%nat) E)).
    Proof. apply sel. intros C. apply (HE C). Qed.
    Lemma sel2 p : selFlag (flagsOf closed R L O) p (sections closed R' L' O' E') =
      Ok ((if p 0%nat then R' else []) ++ (if p 1%nat then L' else []) ++ (if closed then [] else (if p 2%nat then O' else []) ++ filter2 (map p [3; 4]%nat) E')).
    Proof. rewrite flagsOf'. apply sel. intros C. apply (HE C). Qed.

    Definition stored (wl lv od ov ed ev : list F) : Prop :=
      let n := length Z in
      length wl = n /\
      (forall k i z d, nth_error online k = Some i -> nth_error Z i = Some z -> nth_error L k = Some d -> nth_error wl i = Some (z + d)) /\
      (forall m i, In m online -> (forall j, In j online -> (m <= j)%nat) -> (i < m)%nat -> nth_error wl i = nth_error wl m) /\
      (forall m i, In m online -> (forall j, In j online -> (j <= m)%nat) -> (m < i < n)%nat -> nth_error wl i = nth_error wl m) /\
      holds n online L' fnan lv /\
      (if closed then od = repeat fnan n /\ ov = repeat fnan n /\ ed = [fnan; fnan] /\ ev = [fnan; fnan]
       else holds n outlet O fnan od /\ holds n outlet O' fnan ov /\ ed = E /\ ev = E').

    Lemma tail1 : (if closed then [] else (if Nat.eqb 1 2 then O else []) ++ filter2 (map (Nat.eqb 1) [3; 4]%nat) E) = [].
    Proof. destruct closed; [reflexivity|]. destruct E as [|a [|b E0]]; reflexivity. Qed.
    Lemma tail1' : (if closed then [] else (if Nat.eqb 1 2 then O' else []) ++ filter2 (map (Nat.eqb 1) [3; 4]%nat) E') = [].
    Proof. destruct closed; [reflexivity|]. destruct E' as [|a [|b E0]]; reflexivity. Qed.

    Lemma store_spec wl lv od ov ed ev : store = Ok (wl, lv, od, ov, ed, ev) -> stored wl lv od ov ed ev.
    Proof.
      pose proof sel1 as S1. pose proof sel2 as S2.
      unfold storeHydraulics. intros H. rewrite S1 in H. rewrite S2 in H. cbn [bind] in H.
      change (Nat.eqb 1 0) with false in H. change (Nat.eqb 1 1) with true in H. cbn [app] in H.
      rewrite tail1, tail1', !app_nil_r in H.
      destruct (forallb _ online) eqn:E1; cbn [negb] in H; [|discriminate].
      destruct (Nat.eqb (length online) (length L)) eqn:E2; cbn [negb] in H; [|discriminate]. rewrite forallb_forall in E1.
      set (w0 := mapi _ Z) in H.
      assert (W0 : length w0 = length Z) by (unfold w0; apply mapi_length).
      destruct online as [|o os] eqn:Eon; [discriminate|]. rewrite <- Eon in *.
      set (mn := fold_left Nat.min os o) in *. set (mx := fold_left Nat.max os o) in *.
      destruct (fold_min_spec os o) as [Mn1 Mn2]. fold mn in Mn1, Mn2. rewrite <- Eon in Mn1, Mn2.
      destruct (fold_max_spec os o) as [Mx1 Mx2]. fold mx in Mx1, Mx2. rewrite <- Eon in Mx1, Mx2.
      apply bind_ok in H as (lo & Hlo & H). apply bind_ok in H as (hi & Hhi & H). apply ix_ok in Hlo, Hhi.
      set (w1 := mapi _ w0) in H.
      apply bind_ok in H as (lv' & Hlv & H).
      assert (Hw1 : forall i w, nth_error w0 i = Some w -> nth_error w1 i = Some (if Nat.ltb i mn then lo else if Nat.ltb mx i then hi else w)).
      { intros i w Hw. unfold w1. rewrite nth_error_mapi, Hw. reflexivity. }
      assert (Hin : forall i, In i online -> nth_error w1 i = nth_error w0 i).
      { intros i Hi. pose proof (Mn2 i Hi). pose proof (Mx2 i Hi).
        destruct (nth_error w0 i) as [w|] eqn:Ew.
        - rewrite (Hw1 i w Ew). rewrite (proj2 (Nat.ltb_ge i mn)), (proj2 (Nat.ltb_ge mx i)) by lia. reflexivity.
        - apply nth_error_None. unfold w1. rewrite mapi_length. apply nth_error_None. auto. }
      assert (G : length w1 = length Z /\
        (forall k i z d, nth_error online k = Some i -> nth_error Z i = Some z -> nth_error L k = Some d -> nth_error w1 i = Some (z + d)) /\
        (forall m i, In m online -> (forall j, In j online -> (m <= j)%nat) -> (i < m)%nat -> nth_error w1 i = nth_error w1 m) /\
        (forall m i, In m online -> (forall j, In j online -> (j <= m)%nat) -> (m < i < length Z)%nat -> nth_error w1 i = nth_error w1 m)).
      { split; [unfold w1; rewrite mapi_length; auto|]. split; [|split].
        - intros k i z d Hk Hz Hd. rewrite Hin by (eapply nth_error_In; eauto). unfold w0. rewrite nth_error_mapi, Hz. cbn [option_map]. rewrite <- ?Eon.
          rewrite (@scat_nth _ online L k i), Hd by (auto; lia). reflexivity.
        - intros m i Hm Hmin Hi. assert (m = mn) by (pose proof (Mn2 m Hm); pose proof (Hmin mn Mn1); lia). subst m.
          rewrite (Hin mn Mn1), Hlo. pose proof (E1 mn Mn1) as Hlt. apply Nat.ltb_lt in Hlt.
          destruct (nth_error w0 i) as [w|] eqn:Ew; [|apply nth_error_None in Ew; lia]. rewrite (Hw1 i w Ew), (proj2 (Nat.ltb_lt i mn) Hi). reflexivity.
        - intros m i Hm Hmax Hi. assert (m = mx) by (pose proof (Mx2 m Hm); pose proof (Hmax mx Mx1); lia). subst m.
          rewrite (Hin mx Mx1), Hhi. pose proof (Mx2 mn Mn1).
          destruct (nth_error w0 i) as [w|] eqn:Ew; [|apply nth_error_None in Ew; lia].
          rewrite (Hw1 i w Ew), (proj2 (Nat.ltb_ge i mn)), (proj2 (Nat.ltb_lt mx i)) by lia. reflexivity. }
      destruct G as (G1 & G2 & G3 & G4). apply (scatterNew_holds _ _ _ _ _ Hon) in Hlv.
      unfold stored. destruct closed.
      - apply Ok_inj in H. injection H as <- <- <- <- <- <-. repeat split; auto; apply Hlv.
      - destruct (HE eq_refl) as [HE1 HE2].
        rewrite S1 in H. rewrite S2 in H. cbn [bind] in H. change (Nat.eqb 2 0) with false in H. change (Nat.eqb 2 1) with false in H.
        change (Nat.eqb 2 2) with true in H. cbn [app] in H.
        assert (T2 : filter2 (map (Nat.eqb 2) [3; 4]%nat) E = []) by (destruct E as [|a [|b E0]]; reflexivity).
        assert (T2' : filter2 (map (Nat.eqb 2) [3; 4]%nat) E' = []) by (destruct E' as [|a [|b E0]]; reflexivity).
        rewrite T2, T2', !app_nil_r in H.
        apply bind_ok in H as (od' & Hod & H). apply bind_ok in H as (ov' & Hov & H).
        rewrite S1 in H. rewrite S2 in H. cbn [bind] in H. cbn [Nat.eqb orb app] in H.
        rewrite !sel_end in H by auto.
        apply (scatterNew_holds _ _ _ _ _ Hout) in Hod, Hov.
        apply Ok_inj in H. injection H as <- <- <- <- <- <-. split; [auto|]. split; [auto|]. split; [auto|]. split; [auto|]. auto.
    Qed.

    Lemma store_ok : online <> [] -> (forall i, In i online -> (i < length Z)%nat) ->
      (closed = false -> forall i, In i outlet -> (i < length Z)%nat) -> exists r, store = Ok r.
    Proof.
      pose proof sel1 as S1. pose proof sel2 as S2.
      intros Hne H1 H2. unfold storeHydraulics. rewrite S1. rewrite S2. cbn [bind].
      change (Nat.eqb 1 0) with false. change (Nat.eqb 1 1) with true. cbn [app]. rewrite tail1, tail1', !app_nil_r.
      rewrite (proj2 (forallb_forall _ _)) by (intros; apply Nat.ltb_lt; auto).
      destruct HL as [HL1 HL2]. rewrite (proj2 (Nat.eqb_eq (length online) (length L))) by auto. cbn [negb].
      set (w0 := mapi _ Z). assert (W0 : length w0 = length Z) by (unfold w0; apply mapi_length).
      destruct online as [|o os] eqn:Eon; [easy|]. rewrite <- Eon in *.
      destruct (fold_min_spec os o) as [Mn1 _]. destruct (fold_max_spec os o) as [Mx1 _]. rewrite <- Eon in Mn1, Mx1.
      cbv zeta in Mn1, Mx1. apply H1 in Mn1, Mx1. rewrite <- W0 in Mn1, Mx1.
      destruct (nth_error w0 (fold_left Nat.min os o)) as [lo|] eqn:Elo; [|apply nth_error_None in Elo; lia].
      destruct (nth_error w0 (fold_left Nat.max os o)) as [hi|] eqn:Ehi; [|apply nth_error_None in Ehi; lia].
      rewrite (proj2 (ix_ok _ _ _) Elo), (proj2 (ix_ok _ _ _) Ehi). cbn [bind].
      destruct (scatterNew_ok (length Z) fnan online L') as (a & ->); [auto|auto|]. cbn [bind].
      destruct closed; [eauto|]. destruct (HO eq_refl) as [HO1 HO2].
      rewrite !S1, !S2. cbn [bind]. change (Nat.eqb 2 0) with false. change (Nat.eqb 2 1) with false. change (Nat.eqb 2 2) with true. cbn [app].
      assert (T2 : filter2 (map (Nat.eqb 2) [3; 4]%nat) E = []) by (destruct E as [|? [|? ?]]; reflexivity).
      assert (T2' : filter2 (map (Nat.eqb 2) [3; 4]%nat) E' = []) by (destruct E' as [|? [|? ?]]; reflexivity).
      rewrite T2, T2', !app_nil_r.
      destruct (scatterNew_ok (length Z) fnan outlet O) as (b & ->); [auto|auto|]. cbn [bind].
      destruct (scatterNew_ok (length Z) fnan outlet O') as (c & ->); [auto|auto|]. cbn [bind]. eauto.
    Qed.
  End Hyd.
End Store.
