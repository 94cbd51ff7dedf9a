(** Proofs about result files. *)
From Coq Require Import String ZArith List Bool Lia Sorted.
From Verif Require Import Base Num MState MRiv MOut MLoad SOut.
Import List ListNotations.
Local Open Scope string_scope.
Local Open Scope list_scope.

Lemma accepted_consent w : accepted w = true <-> consent w.
Proof.
  unfold accepted, consent. cbn [existsb]. rewrite !orb_true_iff, !String.eqb_eq.
  split; [intros [H|[H|[H|[H|[H|H]]]]]; try discriminate; tauto | tauto].
Qed.

Section Gen.
  Context {F : Type} {NF : Num F}.
  Local Open Scope num_scope.

  Section Open.
    Variables (fs : fsys F) (name : string) (new : ncfile F) (overwrite : bool) (answer : string).
    Lemma open_new fs' r : openNew fs name new overwrite answer = (fs', r) ->
      (forall m, m <> name -> fs' m = fs m) /\
      ((r = Ok tt /\ fs' name = Some new /\ (fs name = None \/ overwrite = true \/ consent answer)) \/
       (r = Exc EConflict /\ fs' name = fs name /\ fs name <> None /\ overwrite = false /\ ~ consent answer)).
    Proof.
      unfold openNew, fset. intros H. destruct (fs name) as [old|] eqn:E.
      - destruct (overwrite || accepted answer) eqn:C; injection H as <- <-.
        + split.
          * intros m Hm. destruct (String.eqb_spec m name); [contradiction|reflexivity].
          * left. rewrite String.eqb_refl. repeat split. right.
            apply orb_true_iff in C as [C|C]; [left; exact C|right; apply accepted_consent, C].
        + split; [reflexivity|]. right. apply orb_false_iff in C as [C D].
          rewrite E. repeat split; [discriminate | exact C |]. rewrite <- accepted_consent. congruence.
      - injection H as <- <-. split.
        + intros m Hm. destruct (String.eqb_spec m name); [contradiction|reflexivity].
        + left. rewrite String.eqb_refl. repeat split. left. reflexivity.
    Qed.
  End Open.

  Lemma new_out (r32 : F -> F) fs name X nriv overwrite answer fs' r : newOutFile r32 fs name X nriv overwrite answer = (fs', r) ->
    (forall m, m <> name -> fs' m = fs m) /\
    ((r = Ok tt /\ fs' name = Some (mkNc (map r32 X) nriv [] (fun _ _ => None)) /\ (fs name = None \/ overwrite = true \/ consent answer)) \/
     (r = Exc EConflict /\ fs' name = fs name /\ fs name <> None /\ overwrite = false /\ ~ consent answer)).
  Proof. apply open_new. Qed.
  Lemma new_ts fs name overwrite answer (fs' : fsys F) r : newTsOutFile fs name overwrite answer = (fs', r) ->
    (forall m, m <> name -> fs' m = fs m) /\
    ((r = Ok tt /\ fs' name = Some (mkNc [] 0 [] (fun _ _ => None)) /\ (fs name = None \/ overwrite = true \/ consent answer)) \/
     (r = Exc EConflict /\ fs' name = fs name /\ fs name <> None /\ overwrite = false /\ ~ consent answer)).
  Proof. apply open_new. Qed.

  Definition lookup (v : string) (rows : list (string * list F)) : option (list F) :=
    fold_left (fun acc p => if String.eqb v (fst p) then Some (snd p) else acc) rows None.

  Lemma fold_rows r32 k rows : forall d v j,
    fold_left (fun d p => setRow d k (fst p) (stored r32 (fst p) (snd p))) rows d v j =
    if Nat.eqb j k then match lookup v rows with Some row => Some (stored r32 v row) | None => d v j end else d v j.
  Proof.
    unfold lookup. induction rows as [|p rows IH] using rev_ind; intros d v j.
    - cbn. destruct (Nat.eqb j k); reflexivity.
    - rewrite !fold_left_app. cbn [fold_left].
      transitivity (setRow (fold_left (fun d p => setRow d k (fst p) (stored r32 (fst p) (snd p))) rows d) k (fst p) (stored r32 (fst p) (snd p)) v j); [reflexivity|].
      unfold setRow at 1. rewrite IH. destruct (String.eqb_spec v (fst p)) as [->|N]; cbn [andb].
      + destruct (Nat.eqb j k); reflexivity.
      + reflexivity.
  Qed.

  Lemma zip_length x y0 y1 y2 y3 y4 z0 z1 z2 z3 : forall n : nat, length x = n -> length y0 = n -> length y1 = n -> length y2 = n ->
    length y3 = n -> length y4 = n -> length z0 = n -> length z1 = n -> length z2 = n -> length z3 = n ->
    length (@zipT F x y0 y1 y2 y3 y4 z0 z1 z2 z3) = n.
  Proof.
    intros n; revert x y0 y1 y2 y3 y4 z0 z1 z2 z3. induction n as [|n IH]; intros.
    - destruct x; [reflexivity|discriminate].
    - destruct x, y0, y1, y2, y3, y4, z0, z1, z2, z3; try discriminate. cbn in *. f_equal. apply IH; lia.
  Qed.
  Lemma zip_nth r32 : forall (T : list (tsect F)) X i x t, nth_error X i = Some x -> nth_error T i = Some t ->
    nth_error (zipT X (map r32 (map tY0 T)) (map r32 (map tY1 T)) (map r32 (map tY2 T)) (map r32 (map tY3 T)) (map r32 (map tY4 T))
                      (map r32 (map tZ0 T)) (map r32 (map tZ1 T)) (map r32 (map tZ2 T)) (map r32 (map tZ3 T))) i = Some (storedT r32 x t).
  Proof.
    induction T as [|t0 T IH]; intros X i x t HX HT; [destruct i; discriminate|].
    destruct X as [|x0 X]; [destruct i; discriminate|].
    destruct i as [|i]; cbn in *.
    - injection HX as ->. injection HT as ->. reflexivity.
    - apply IH; assumption.
  Qed.

  Section Write.
    Variables (r32 : F -> F) (f : ncfile F) (a : wargs F) (f' : ncfile F).
    Hypothesis H : writeCurrent r32 f a = Ok f'.

    Lemma write_inv : f' = mkNc (ncX f) (ncRiv f) (ncTimes f ++ [wTime a])
                  (fold_left (fun d p => setRow d (length (ncTimes f)) (fst p) (stored r32 (fst p) (snd p))) (currentRows a) (ncVar f))
      /\ ((2 <= length (wEDep a))%nat /\ (2 <= length (wEVel a))%nat) /\
      (length (wODep a) = length (wT a) /\ length (wRiv a) = length (wRDep a)) /\
      forall v row, In (v, row) (currentRows a) -> length row = rowLen f v.
    Proof.
      pose proof H as H0. unfold writeCurrent in H0. cbv zeta in H0.
      destruct (Nat.leb 2 _ && _) eqn:E1; cbn [negb] in H0; [|discriminate].
      destruct (Nat.eqb _ _ && _) eqn:E3; cbn [negb] in H0; [|discriminate].
      destruct (forallb _ _) eqn:E2; cbn [negb] in H0; [|discriminate].
      apply Ok_inj in H0. split; [symmetry; exact H0|].
      apply andb_true_iff in E1 as [A B]. apply Nat.leb_le in A, B.
      apply andb_true_iff in E3 as [C D]. apply Nat.eqb_eq in C, D. repeat split; try assumption.
      intros v row I. apply (proj1 (forallb_forall _ _)) with (x := (v, row)) in E2; [|exact I].
      apply Nat.eqb_eq, E2.
    Qed.
    Lemma write_row v row : lookup v (currentRows a) = Some row -> ncVar f' v (length (ncTimes f)) = Some (stored r32 v row).
    Proof.
      destruct write_inv as [-> _]. intros E. cbn [ncVar]. rewrite fold_rows, Nat.eqb_refl, E. reflexivity.
    Qed.
    Lemma write_other v j : j <> length (ncTimes f) -> ncVar f' v j = ncVar f v j.
    Proof.
      destruct write_inv as [-> _]. intros N. cbn [ncVar]. rewrite fold_rows.
      rewrite (proj2 (Nat.eqb_neq j (length (ncTimes f))) N). reflexivity.
    Qed.
    Lemma write_unknown v j : lookup v (currentRows a) = None -> ncVar f' v j = ncVar f v j.
    Proof.
      destruct write_inv as [-> _]. intros N. cbn [ncVar]. rewrite fold_rows, N. destruct (Nat.eqb _ _); reflexivity.
    Qed.
    Lemma write_frame : ncX f' = ncX f /\ ncRiv f' = ncRiv f /\ ncTimes f' = ncTimes f ++ [wTime a].
    Proof. destruct write_inv as [-> _]. repeat split. Qed.

    Lemma read_earlier j : (j < length (ncTimes f))%nat -> readTimestep f' j = readTimestep f j.
    Proof.
      intros L. destruct write_frame as (EX & ER & ET).
      unfold readTimestep, getScalar, getRow. rewrite !write_other by lia. rewrite EX, ET.
      replace (ix (ncTimes f ++ [wTime a]) j) with (ix (ncTimes f) j); [reflexivity|].
      unfold ix. rewrite nth_error_app1 by exact L. reflexivity.
    Qed.

    Hypotheses (Z0 : (f0 =? f0)%n = true) (Z1 : (f1 =? f0)%n = false).

    Lemma get_row v row : lookup v (currentRows a) = Some row -> getRow f' (length (ncTimes f)) v = Ok (stored r32 v row).
    Proof. intros E. unfold getRow. rewrite (write_row _ _ E). reflexivity. Qed.
    Lemma get_scalar v x : lookup v (currentRows a) = Some [x] -> String.eqb v "outlet_closed" = false ->
      getScalar f' (length (ncTimes f)) v = Ok (r32 x).
    Proof. intros E N. unfold getScalar. rewrite (get_row _ _ E). unfold stored. rewrite N. reflexivity. Qed.

    Lemma len_in v row : In (v, row) (currentRows a) -> length row = rowLen f v.
    Proof. apply write_inv. Qed.

    Ltac mem := cbn [In currentRows]; solve [repeat (first [left; reflexivity | right])].
    Lemma write_shape : shaped (length (ncX f)) (ncRiv f) a.
    Proof.
      destruct write_inv as (_ & [A B] & [C D] & _).
      assert (K : forall v l, In (v, l) (currentRows a) -> forall n, rowLen f v = n -> length l = n).
      { intros v l I n E. rewrite (len_in _ _ I). exact E. }
      pose proof (K "shoreline_y" _ ltac:(mem) (length (ncX f)) eq_refl) as LT. rewrite map_length in LT.
      pose proof (K "river_bed_z" _ ltac:(mem) (ncRiv f) eq_refl) as LR.
      pose proof (K "lst" _ ltac:(mem) (length (ncX f) - 1)%nat eq_refl) as LL. rewrite map_length in LL.
      pose proof (K "cst" _ ltac:(mem) (length (ncX f)) eq_refl) as LC. rewrite map_length in LC.
      pose proof (K "lagoon_wl" _ ltac:(mem) (length (ncX f)) eq_refl) as L1.
      pose proof (K "lagoon_vel" _ ltac:(mem) (length (ncX f)) eq_refl) as L2.
      pose proof (K "lagoon_bedload" _ ltac:(mem) (length (ncX f)) eq_refl) as L3.
      pose proof (K "outlet_vel" _ ltac:(mem) (length (ncX f)) eq_refl) as L4.
      pose proof (K "outlet_bedload" _ ltac:(mem) (length (ncX f)) eq_refl) as L5.
      pose proof (K "overwash_proportion" _ ltac:(mem) (length (ncX f)) eq_refl) as L6.
      pose proof (K "river_vel" _ ltac:(mem) (ncRiv f) eq_refl) as L7.
      pose proof (K "river_bedload" _ ltac:(mem) (ncRiv f) eq_refl) as L8.
      unfold shaped. repeat split; try assumption; congruence.
    Qed.

    Lemma read_back : exists r, readTimestep f' (length (ncTimes f)) = Ok r /\ readsAs r32 (ncX f) a r /\ rdDir r = f0.
    Proof.
      destruct write_shape as (LT & L1 & L2 & L3 & LO & L4 & L5 & L6 & L7 & LL & LR & LRD & LRV & LRB & LE & LV).
      destruct write_frame as (EX & ER & ET).
      destruct (wEDep a) as [|d0 [|d1 ld]] eqn:ED; try (cbn in LE; lia).
      destruct (wEVel a) as [|v0 [|v1 lv]] eqn:EV; try (cbn in LV; lia).
      unfold readTimestep.
      rewrite (get_scalar "sea_level" _ eq_refl eq_refl), (get_scalar "river_flow" _ eq_refl eq_refl),
        (get_scalar "hs_offshore" _ eq_refl eq_refl), (get_scalar "wave_dir" _ eq_refl eq_refl). cbn [bind].
      replace (ix (ncTimes f') (length (ncTimes f))) with (Ok (wTime a)).
      2:{ rewrite ET. unfold ix. rewrite nth_error_app2, Nat.sub_diag by lia. reflexivity. }
      cbn [bind].
      rewrite (get_row "shoreline_y" _ eq_refl), (get_row "outlet_bank1_y" _ eq_refl), (get_row "outlet_bank2_y" _ eq_refl),
        (get_row "lagoon_y" _ eq_refl), (get_row "cliff_y" _ eq_refl), (get_row "barrier_crest_z" _ eq_refl),
        (get_row "outlet_bed_z" _ eq_refl), (get_row "inner_barrier_crest_z" _ eq_refl), (get_row "lagoon_bed_z" _ eq_refl),
        (get_row "lagoon_wl" _ eq_refl), (get_row "lagoon_vel" _ eq_refl), (get_row "outlet_wl" _ eq_refl), (get_row "outlet_vel" _ eq_refl),
        (get_row "outlet_end_x" _ eq_refl). cbn [bind].
      change (stored r32 "outlet_end_x" [wE0 a; wE1 a]) with [r32 (wE0 a); r32 (wE1 a)].
      change (ix [r32 (wE0 a); r32 (wE1 a)] 0) with (Ok (r32 (wE0 a))).
      change (ix [r32 (wE0 a); r32 (wE1 a)] 1) with (Ok (r32 (wE1 a))). cbn [bind].
      rewrite (get_scalar "outlet_end_width" _ eq_refl eq_refl), (get_scalar "outlet_end_z" _ eq_refl eq_refl),
        (get_scalar "outlet_end_vel" _ eq_refl eq_refl), (get_scalar "outlet_end_wl" _ eq_refl eq_refl),
        (get_scalar "dummy_xs_dep" _ eq_refl eq_refl), (get_scalar "dummy_xs_vel" _ eq_refl eq_refl). cbn [bind].
      replace (getScalar f' (length (ncTimes f)) "outlet_closed") with (@Ok F (fofb (wClosed a))).
      2:{ unfold getScalar. rewrite (get_row "outlet_closed" _ eq_refl). reflexivity. }
      cbn [bind]. rewrite (get_row "lst" _ eq_refl), (get_row "cst" _ eq_refl), (get_row "river_bed_z" _ eq_refl),
        (get_row "river_wl" _ eq_refl), (get_row "river_vel" _ eq_refl). cbn [bind]. rewrite EX.
      eexists. split; [reflexivity|]. split; [|reflexivity].
      split; cbn [rdTime rdSea rdFlow rdHs rdT rdLWL rdLVel rdOWL rdOVel rdE0 rdE1 rdW rdZend rdEVel rdEWL rdDDep rdDVel rdLST rdCST rdClosed rdRiv rdRWL rdRVel]; try reflexivity.
      - split; [apply zip_length; try reflexivity; unfold stored; cbn [String.eqb Ascii.eqb Bool.eqb]; cbn [snd]; rewrite ?map_length; exact LT |].
        intros i x t. apply zip_nth.
      - intros i d t Hd Ht. unfold stored. cbn [String.eqb Ascii.eqb Bool.eqb snd].
        rewrite nth_error_map, nth_error_map2, Hd, nth_error_map, Ht. reflexivity.
      - split; reflexivity.
      - split; reflexivity.
      - rewrite ED. intros x0 x1 l E. injection E as <- <- <-. split; reflexivity.
      - rewrite EV. intros x0 x1 l E. injection E as <- <- <-. split; reflexivity.
      - unfold stored. cbn [String.eqb Ascii.eqb Bool.eqb snd]. rewrite !map_map. reflexivity.
      - unfold stored. cbn [String.eqb Ascii.eqb Bool.eqb snd]. rewrite !map_map. reflexivity.
      - destruct (wClosed a); cbn [fofb]; [rewrite Z1 | rewrite Z0]; reflexivity.
      - intros i z d Hz Hd. unfold stored. cbn [String.eqb Ascii.eqb Bool.eqb snd].
        rewrite nth_error_map, nth_error_map2, Hz, Hd. reflexivity.
    Qed.
  End Write.

  Lemma write_ok r32 (f : ncfile F) a : shaped (length (ncX f)) (ncRiv f) a -> exists f', writeCurrent r32 f a = Ok f'.
  Proof.
    intros (LT & L1 & L2 & L3 & LO & L4 & L5 & L6 & L7 & LL & LR & LRD & LRV & LRB & LE & LV).
    unfold writeCurrent. cbv zeta.
    rewrite (proj2 (Nat.leb_le _ _) LE), (proj2 (Nat.leb_le _ _) LV). cbn [andb negb].
    rewrite (proj2 (Nat.eqb_eq _ _) (eq_trans LO (eq_sym LT))), (proj2 (Nat.eqb_eq _ _) (eq_trans LR (eq_sym LRD))). cbn [andb negb].
    replace (forallb _ _) with true; [eexists; reflexivity|].
    symmetry. apply forallb_forall. intros p I. apply Nat.eqb_eq.
    unfold currentRows in I. cbn [In] in I.
    repeat (destruct I as [<-|I]; [cbn [fst snd]; unfold rowLen; cbn [existsb String.eqb Ascii.eqb Bool.eqb orb];
      rewrite ?map2_length, ?map_length, ?LT, ?LO, ?LR, ?LRD, ?Nat.min_id; first [reflexivity | assumption] |]).
    destruct I.
  Qed.

  (** Any number of records. *)
  Section All.
    Variable r32 : F -> F.
    Hypotheses (Z0 : (f0 =? f0)%n = true) (Z1 : (f1 =? f0)%n = false).
    Lemma all_frame : forall l (f f' : ncfile F), writeAll r32 f l = Ok f' ->
      ncX f' = ncX f /\ ncRiv f' = ncRiv f /\ ncTimes f' = ncTimes f ++ map wTime l.
    Proof.
      induction l as [|a l IH]; intros f f' H; cbn [writeAll] in H.
      - apply Ok_inj in H as <-. rewrite app_nil_r. repeat split.
      - apply bind_ok in H as (g & Hg & H). destruct (write_frame _ _ _ _ Hg) as (A & B & C).
        destruct (IH _ _ H) as (A' & B' & C'). rewrite A', B', C', A, B, C, <- app_assoc. repeat split.
    Qed.
    Lemma all_earlier : forall l (f f' : ncfile F), writeAll r32 f l = Ok f' ->
      forall j, (j < length (ncTimes f))%nat -> readTimestep f' j = readTimestep f j.
    Proof.
      induction l as [|a l IH]; intros f f' H j L; cbn [writeAll] in H.
      - apply Ok_inj in H as <-. reflexivity.
      - apply bind_ok in H as (g & Hg & H). destruct (write_frame _ _ _ _ Hg) as (A & B & C).
        rewrite (IH _ _ H j) by (rewrite C, app_length; cbn; lia). apply (read_earlier _ _ _ _ Hg), L.
    Qed.
    Lemma all_back : forall l (f f' : ncfile F), writeAll r32 f l = Ok f' ->
      forall k a, nth_error l k = Some a ->
      exists r, readTimestep f' (length (ncTimes f) + k) = Ok r /\ readsAs r32 (ncX f) a r /\ rdDir r = f0.
    Proof.
      induction l as [|b l IH]; intros f f' H k a Hk; [destruct k; discriminate|].
      cbn [writeAll] in H. apply bind_ok in H as (g & Hg & H). destruct (write_frame _ _ _ _ Hg) as (A & B & C).
      destruct k as [|k]; cbn in Hk.
      - injection Hk as ->. rewrite Nat.add_0_r.
        rewrite (all_earlier _ _ _ H) by (rewrite C, app_length; cbn; lia).
        apply (read_back _ _ _ _ Hg Z0 Z1).
      - destruct (IH _ _ H k a Hk) as (r & Hr & Ha & Hd). exists r. rewrite A in Ha. split; [|tauto].
        rewrite <- Hr. f_equal. rewrite C, app_length. cbn. lia.
    Qed.
    Lemma all_ok_shaped : forall l (f : ncfile F), Forall (shaped (length (ncX f)) (ncRiv f)) l -> exists f', writeAll r32 f l = Ok f'.
    Proof.
      induction l as [|a l IH]; intros f HF; [eexists; reflexivity|].
      inversion HF as [|? ? Ha Hl]; subst. destruct (write_ok r32 f a Ha) as (g & Hg).
      destruct (write_frame _ _ _ _ Hg) as (A & B & _). rewrite <- A, <- B in Hl.
      destruct (IH g Hl) as (f' & Hf). exists f'. cbn [writeAll]. rewrite Hg. exact Hf.
    Qed.
    Lemma all_shaped : forall l (f f' : ncfile F), writeAll r32 f l = Ok f' -> Forall (shaped (length (ncX f)) (ncRiv f)) l.
    Proof.
      induction l as [|a l IH]; intros f f' H; [constructor|].
      cbn [writeAll] in H. apply bind_ok in H as (g & Hg & H). destruct (write_frame _ _ _ _ Hg) as (A & B & _).
      constructor; [apply (write_shape _ _ _ _ Hg)|]. rewrite <- A, <- B. apply (IH _ _ H).
    Qed.
    Lemma all_bedload : forall l (f f' : ncfile F), writeAll r32 f l = Ok f' ->
      forall j, ncVar f' "outlet_end_bedload" j = ncVar f "outlet_end_bedload" j.
    Proof.
      induction l as [|a l IH]; intros f f' H j; cbn [writeAll] in H.
      - apply Ok_inj in H as <-. reflexivity.
      - apply bind_ok in H as (g & Hg & H). rewrite (IH _ _ H j). apply (write_unknown _ _ _ _ Hg). reflexivity.
    Qed.
  End All.

  Lemma bed_ignored r32 f a b : writeCurrent r32 f (withEndBed b a) = writeCurrent r32 f a.
  Proof. reflexivity. Qed.
  Lemma dir_zero f k r : readTimestep f k = Ok r -> rdDir r = f0.
  Proof.
    unfold readTimestep. intros H.
    repeat (apply bind_ok in H as (? & _ & H)). apply Ok_inj in H as <-. reflexivity.
  Qed.

  (** closestTimeIx *)
  Lemma fold_zmin os o : let m := fold_left Z.min os o in In m (o :: os) /\ forall j, In j (o :: os) -> (m <= j)%Z.
  Proof.
    revert o; induction os as [|a os IH]; intros o; cbn [fold_left]; cbv zeta.
    - split; [left; auto|]. intros j [<-|[]]. lia.
    - destruct (IH (Z.min o a)) as [H1 H2]. split.
      + destruct H1 as [H1|H1]; [|right; right; exact H1].
        destruct (Z.min_spec o a) as [[_ E]|[_ E]]; rewrite E in H1; rewrite E; [left|right; left]; exact H1.
      + intros j Hj. pose proof (H2 _ (or_introl eq_refl)). destruct Hj as [<-|[<-|Hj]]; [lia|lia|].
        apply H2. right. exact Hj.
  Qed.
  Lemma closest_spec times want idx t : closestTimeIx times want = Ok (idx, t) ->
    (forall i, In i idx <-> closest times want i) /\ StronglySorted lt idx /\
    exists i, hd_error idx = Some i /\ nth_error times i = Some t.
  Proof.
    unfold closestTimeIx. cbv zeta. set (d := map (fun t => Z.abs (t - want)) times).
    destruct d as [|x r] eqn:Ed; [discriminate|]. intros H.
    apply bind_ok in H as (i & Hi & H). apply bind_ok in H as (u & Hu & H). apply Ok_inj in H. injection H as <- <-.
    destruct (fold_zmin r x) as [M1 M2]. set (m := fold_left Z.min r x) in *. cbv zeta in M1, M2.
    assert (D : forall j y, nth_error (x :: r) j = Some y <-> exists t, nth_error times j = Some t /\ y = Z.abs (t - want)).
    { intros j y. rewrite <- Ed. unfold d. rewrite nth_error_map. destruct (nth_error times j); cbn [option_map].
      - split; [intros E; injection E as <-; eexists; split; reflexivity | intros (t & E & ->); injection E as <-; reflexivity].
      - split; [discriminate | intros (t & E & _); discriminate]. }
    split; [|split].
    - intros j. rewrite where_spec. split.
      + intros (y & Hy & E). apply Z.eqb_eq in E as <-. apply D in Hy as (t & Ht & Em).
        exists t. split; [exact Ht|]. intros k v Hv. rewrite <- Em. apply M2.
        apply nth_error_In with (n := k). apply D. eauto.
      + intros (t & Ht & Hm). exists (Z.abs (t - want)). split; [apply D; eauto|]. apply Z.eqb_eq.
        apply In_nth_error in M1 as (k & Hk). pose proof (nth_error_In _ _ (proj2 (D j _) (ex_intro _ t (conj Ht eq_refl)))) as I.
        apply M2 in I. apply D in Hk as (v & Hv & Ev). apply Hm in Hv. lia.
    - apply where_from_sorted.
    - exists i. split; [|unfold ix in Hu; destruct (nth_error times i); cbn in Hu; [f_equal; apply Ok_inj, Hu|discriminate]].
      unfold ix in Hi. destruct (where_ _ _) as [|k l]; cbn in Hi |- *; [discriminate|]. f_equal. apply Ok_inj, Hi.
  Qed.
  Lemma closest_ok times want : times <> [] -> exists idx t, closestTimeIx times want = Ok (idx, t).
  Proof.
    intros N. unfold closestTimeIx. cbv zeta. destruct times as [|t0 times]; [contradiction|].
    cbn [map]. set (x := Z.abs (t0 - want)). set (r := map (fun t => Z.abs (t - want)) times).
    destruct (fold_zmin r x) as [M1 M2]. set (m := fold_left Z.min r x) in *. cbv zeta in M1, M2.
    apply In_nth_error in M1 as (k & Hk).
    assert (I : In k (where_ (Z.eqb m) (x :: r))) by (apply where_spec; exists m; split; [exact Hk|apply Z.eqb_refl]).
    destruct (where_ (Z.eqb m) (x :: r)) as [|j l] eqn:E; [destruct I|].
    assert (J : In j (where_ (Z.eqb m) (x :: r))) by (rewrite E; left; reflexivity).
    apply where_spec in J as (y & Hy & _).
    change (x :: r) with (map (fun t => Z.abs (t - want)) (t0 :: times)) in Hy. rewrite nth_error_map in Hy.
    unfold ix. cbn [nth_error of_opt bind]. destruct (nth_error (t0 :: times) j) eqn:Ej; [|discriminate].
    cbn [of_opt bind]. eexists; eexists; reflexivity.
  Qed.
End Gen.

Lemma closest_two times want idx t : NoDup times -> closestTimeIx times want = Ok (idx, t) -> (length idx = 1 \/ length idx = 2)%nat.
Proof.
  intros ND H. destruct (closest_spec _ _ _ _ H) as (S & SS & i & Hi & _).
  destruct idx as [|a [|b [|c l]]]; cbn in Hi; try discriminate; [left; reflexivity | right; reflexivity|].
  exfalso. pose proof (proj1 (S a) ltac:(cbn; tauto)) as (ta & Ha & Ma).
  pose proof (proj1 (S b) ltac:(cbn; tauto)) as (tb & Hb & Mb).
  pose proof (proj1 (S c) ltac:(cbn; tauto)) as (tc & Hc & Mc).
  pose proof (Ma _ _ Hb). pose proof (Mb _ _ Ha). pose proof (Ma _ _ Hc). pose proof (Mc _ _ Ha).
  inversion SS as [|? ? S1 F1]; subst. inversion S1 as [|? ? S2 F2]; subst.
  inversion F1 as [|? ? ab F1']; subst. inversion F1' as [|? ? ac F1'']; subst. inversion F2 as [|? ? bc _]; subst.
  assert (N : forall x y u v, nth_error times x = Some u -> nth_error times y = Some v -> (x < y)%nat -> u <> v).
  { intros x y u v Hu Hv L E. subst v. pose proof (proj1 (NoDup_nth_error times) ND x y) as Q.
    rewrite Hu, Hv in Q. specialize (Q ltac:(apply nth_error_Some; congruence) eq_refl). lia. }
  pose proof (N _ _ _ _ Ha Hb ab). pose proof (N _ _ _ _ Ha Hc ac). pose proof (N _ _ _ _ Hb Hc bc). lia.
Qed.
