(** Storing hydraulics and assembling the channel again (riv.py storeHydraulics, assembleChannel). *)
From Coq Require Import Reals ZArith List Bool Lia Lra Sorted.
From Verif Require Import Base Num Xr MState MRiv SChan PCoast PChan PLag PFill SHyd PHyd.
Import ListNotations.

Section Geometry.
  Context {F : Type} {NF : Num F}.
  Local Open Scope num_scope.
  Variables (T : list (tsect F)) (e0 e1 eW eElev : F) (Closed : bool).
  Variables (RE RD RV LW LV OD OV ED EV : list F) (Dx : F) (P : phys F).
  Notation asm := (assembleChannel T e0 e1 eW eElev Closed RE RD RV LW LV OD OV ED EV Dx P).

  Lemma online_distinct ch : asm = Ok ch -> NoDup (chOnline ch) /\ chOnline ch <> [] /\ forall i, In i (chOnline ch) -> (i < length T)%nat.
  Proof.
    intros H. destruct (online_run T e0 e1 eW eElev Closed RE RD RV LW LV OD OV ED EV Dx P ch H) as (x0 & t0 & _ & _ & _ & H0 & HJ).
    split; [|split].
    - apply NoDup_nth_error. intros i j Hi E.
      destruct (nth_error (chOnline ch) i) as [a|] eqn:Ea; [|apply nth_error_None in Ea; lia]. symmetry in E.
      destruct (HJ _ _ Ea) as [A _]. destruct (HJ _ _ E) as [B _]. destruct ((e0 =? f0) || (f0 <? e0)); lia.
    - intros C. rewrite C in H0. discriminate.
    - intros i Hi. apply In_nth_error in Hi as (j & Hj). destruct (HJ _ _ Hj) as (_ & t & Ht & _). apply nth_error_Some. congruence.
  Qed.

  Lemma sorted_NoDup l : StronglySorted lt l -> NoDup l.
  Proof.
    induction 1 as [|a l S IH Hf]; constructor; auto. intros C. rewrite Forall_forall in Hf. specialize (Hf _ C). lia.
  Qed.

  Lemma outlet_distinct ch : asm = Ok ch -> NoDup (chOutlet ch) /\ forall i, In i (chOutlet ch) -> (i < length T)%nat.
  Proof.
    intros H. apply assemble_inv in H as [x0 t0 ow cl1 on1 sa sl ea1 el1 ea el lts dep0 vel0].
    assert (G : forall p : tsect F -> bool, NoDup (where_ p T) /\ forall i, In i (where_ p T) -> (i < length T)%nat).
    { intros p. split; [apply sorted_NoDup; apply where_from_sorted|]. intros i Hi. apply where_spec in Hi as (t & Ht & _). apply nth_error_Some. congruence. }
    assert (C : chOutlet ch = [] \/ chOutlet ch = outletIx T e0 e1).
    { unfold outletPart in a_out. destruct Closed; [apply Ok_inj in a_out; left; congruence|].
      apply bind_ok in a_out as (ts & _ & a_out). destruct (_ || _); [apply Ok_inj in a_out; left; congruence|].
      destruct (map outletWidth ts); [discriminate|]. apply Ok_inj in a_out. right. congruence. }
    destruct C as [->| ->]; [split; [constructor|intros i []]|].
    unfold outletIx. destruct (e0 <? e1).
    - apply G.
    - unfold ixRL. split; [apply NoDup_rev, G|]. intros i Hi. apply in_rev in Hi. eapply G; eauto.
  Qed.

  (** Geometry is independent of the hydraulic state. *)
  Lemma asm_again ch RD' RV' LW' LV' OD' OV' ED' EV' dep vel : asm = Ok ch ->
    chanHyd T (chClosed ch) RD' RV' LW' LV' OD' OV' (padEnd ED') (padEnd EV') (chOnline ch) (chOutlet ch) = Ok (dep, vel) ->
    existsb fisnan dep = false -> existsb fisnan vel = false ->
    assembleChannel T e0 e1 eW eElev Closed RE RD' RV' LW' LV' OD' OV' ED' EV' Dx P =
    Ok (mkChan (chDx ch) (chElev ch) (chWidth ch) (chLagArea ch) (chLagLen ch) dep vel (chOnline ch) (chOutlet ch) (chFlag ch) (chClosed ch)).
  Proof.
    intros H Hh Nd Nv. unfold assembleChannel in *.
    apply bind_ok in H as (x0 & Hx0 & H). rewrite Hx0. cbn [bind].
    apply bind_ok in H as ([[outlet ow] cl1] & Hout & H). rewrite Hout. cbn [bind].
    apply bind_ok in H as (t0 & Ht0 & H). rewrite Ht0. cbn [bind].
    apply bind_ok in H as (u1 & Hw0 & H). rewrite Hw0. cbn [bind].
    apply bind_ok in H as (u2 & Hnan & H). rewrite Hnan. cbn [bind].
    apply bind_ok in H as ([[[[on1 sa] sl] ea1] el1] & Hlag & H). rewrite Hlag. cbn [bind].
    apply bind_ok in H as (u3 & Hne1 & H). rewrite Hne1. cbn [bind].
    apply bind_ok in H as ([[[online ea] el] closed] & Hcut & H). rewrite Hcut. cbn [bind].
    apply bind_ok in H as (i0 & Hi0 & H). rewrite Hi0. cbn [bind].
    apply bind_ok in H as (il & Hil & H). rewrite Hil. cbn [bind].
    apply bind_ok in H as (u4 & Hu4 & H). rewrite Hu4. cbn [bind].
    apply bind_ok in H as (lts & Hlts & H). rewrite Hlts. cbn [bind].
    apply bind_ok in H as (u5 & Hwet & H). rewrite Hwet. cbn [bind].
    apply bind_ok in H as ([[[dx flag] elev] width] & Hshape & H). rewrite Hshape. cbn [bind].
    apply bind_ok in H as ([dep0 vel0] & Hhyd & H).
    apply bind_ok in H as (dep1 & Hdep & H). apply bind_ok in H as (vel1 & Hvel & H).
    apply bind_ok in H as (v1 & A1 & H). apply bind_ok in H as (v2 & A2 & H). apply bind_ok in H as (v3 & A3 & H).
    apply bind_ok in H as (v4 & A4 & H). apply bind_ok in H as (v5 & A5 & H). apply bind_ok in H as (v6 & A6 & H).
    apply Ok_inj in H. subst ch. cbn [chDx chElev chWidth chLagArea chLagLen chDep chVel chOnline chOutlet chFlag chClosed] in *.
    rewrite Hh. cbn [bind]. rewrite Nd. cbn [bind]. rewrite Nv. cbn [bind]. rewrite A1, A2, A3, A6, Nd, Nv. reflexivity.
  Qed.
End Geometry.

Lemma gather_map {A B} (f : A -> B) l idx xs : gather l idx = Ok xs -> gather (map f l) idx = Ok (map f xs).
Proof.
  rewrite !gather_ok. induction 1 as [|i x idx xs Hi _ IH]; constructor; auto. rewrite nth_error_map, Hi. reflexivity.
Qed.
Lemma gather_holds {F} {NF : Num F} n idx v d a : length v = length idx -> holds (F:=F) n idx v d a -> gather a idx = Ok v.
Proof.
  intros HL (_ & H & _). apply gather_ok.
  assert (G : forall idx' v' s, length v' = length idx' -> (forall k i, nth_error idx' k = Some i -> nth_error a i = nth_error v' k) ->
              s = 0%nat -> Forall2 (fun i x => nth_error a i = Some x) idx' v').
  { clear. induction idx' as [|i idx' IH]; intros [|x v'] s HL H Hs; try discriminate; constructor.
    - rewrite (H 0%nat i eq_refl). reflexivity.
    - apply (IH v' 0%nat); [now injection HL|intros k j Hk; apply (H (S k) j Hk)|reflexivity]. }
  apply (G idx v 0%nat); auto.
Qed.

Section Exact.
  Local Open Scope R_scope.
  Variables (T : list (tsect xr)) (e0 e1 eW eElev : xr) (Closed : bool).
  Variables (RE RD RV LW LV OD OV ED EV : list xr) (Dx : xr) (P : phys xr).
  Notation asm := (assembleChannel T e0 e1 eW eElev Closed RE RD RV LW LV OD OV ED EV Dx P).

  Lemma round_trip ch R L O E R' L' O' E' : asm = Ok ch -> chClosed ch = Closed ->
    (forall i t, In i (chOnline ch) -> nth_error T i = Some t -> is_fin (tZ3 t)) ->
    length R = length RE -> length R' = length RE ->
    length L = length (chOnline ch) -> length L' = length (chOnline ch) ->
    (Closed = false -> length O = length (chOutlet ch) /\ length O' = length (chOutlet ch) /\ length E = 2%nat /\ length E' = 2%nat) ->
    Forall is_fin (sections Closed R L O E) -> Forall is_fin (sections Closed R' L' O' E') ->
    exists wl lv od ov ed ev,
      storeHydraulics (sections Closed R L O E) (sections Closed R' L' O' E') (chOnline ch) (chOutlet ch) (chFlag ch) (map tZ3 T) Closed
      = Ok (wl, lv, od, ov, ed, ev) /\
      assembleChannel T e0 e1 eW eElev Closed RE R R' wl lv od ov ed ev Dx P =
      Ok (mkChan (chDx ch) (chElev ch) (chWidth ch) (chLagArea ch) (chLagLen ch) (sections Closed R L O E)
                 (if Closed then R' ++ removelast L' ++ [Fin 0] else sections Closed R' L' O' E')
                 (chOnline ch) (chOutlet ch) (chFlag ch) (chClosed ch)).
  Proof.
    intros H Hc Hz HR HR' HL HL' HO FD FV.
    destruct (online_distinct _ _ _ _ _ _ _ _ _ _ _ _ _ _ _ _ _ ch H) as (N1 & N2 & N3).
    destruct (outlet_distinct _ _ _ _ _ _ _ _ _ _ _ _ _ _ _ _ _ ch H) as (M1 & M2).
    pose proof (layout T _ _ _ _ _ _ _ _ _ _ _ _ _ _ _ _ _ H) as (HF & _).
    assert (EF : chFlag ch = flagsOf Closed R L O).
    { rewrite HF. unfold flags, flagsOf. rewrite HR, HL, Hc. destruct Closed; [reflexivity|]. destruct (HO eq_refl) as (-> & _). reflexivity. }
    assert (HE : Closed = false -> length E = 2%nat /\ length E' = 2%nat) by (intros C; destruct (HO C) as (_ & _ & ?); auto).
    assert (HO2 : Closed = false -> length O = length (chOutlet ch) /\ length O' = length (chOutlet ch)) by (intros C; destruct (HO C) as (? & ? & _); auto).
    assert (HRR : length R' = length R) by congruence.
    destruct (store_ok Closed R L O E R' L' O' E' (chOnline ch) (chOutlet ch) (map tZ3 T) HE HRR (conj HL HL') HO2 N1 N2)
      as ([[[[[wl lv] od] ov] ed] ev] & Hs).
    { intros i Hi. rewrite map_length. auto. }
    { intros _ i Hi. rewrite map_length. auto. }
    exists wl, lv, od, ov, ed, ev. rewrite EF. split; [exact Hs|].
    apply (store_spec Closed R L O E R' L' O' E' _ _ _ HE HRR (conj HL HL') HO2 N1 M1) in Hs as (W1 & W2 & _ & _ & HLv & HOE).
    rewrite <- EF.
    assert (HLT : exists lts, gather T (chOnline ch) = Ok lts).
    { destruct (assemble_inv _ _ _ _ _ _ _ _ _ _ _ _ _ _ _ _ _ _ H). eauto. }
    destruct HLT as (lts & Hlts). pose proof (gather_length _ _ Hlts) as Llts.
    assert (FL : forall d, In d L -> is_fin d).
    { intros d Hd. rewrite Forall_forall in FD. apply FD. unfold sections. apply in_or_app. right. apply in_or_app. left. auto. }
    (* levels back to depths *)
    assert (GW : gather wl (chOnline ch) = Ok (map2 fadd (map tZ3 lts) L)).
    { apply gather_ok. apply gather_ok in Hlts.
      assert (G : forall idx ts ds, Forall2 (fun i t => nth_error T i = Some t) idx ts -> length ds = length idx ->
                (forall k i z d, nth_error idx k = Some i -> nth_error (map tZ3 T) i = Some z -> nth_error ds k = Some d -> nth_error wl i = Some (z + d)%n) ->
                Forall2 (fun i x => nth_error wl i = Some x) idx (map2 fadd (map tZ3 ts) ds)).
      { clear. intros idx ts ds HF. revert ds. induction HF as [|i t idx ts Hi _ IH]; intros [|d ds] HL H; try discriminate; cbn [map map2]; constructor.
        - apply (H 0%nat i (tZ3 t) d); auto. rewrite nth_error_map, Hi. reflexivity.
        - apply IH; [now injection HL|]. intros k j z d' Hk Hz Hd. apply (H (S k) j z d'); auto. }
      apply G; auto. }
    assert (Eld : map2 fsub (map2 fadd (map tZ3 lts) L) (map tZ3 lts) = L).
    { assert (FZ : forall t, In t lts -> is_fin (tZ3 t)).
      { intros t Ht. apply In_nth_error in Ht as (k & Hk).
        assert (exists i, nth_error (chOnline ch) k = Some i) as (i & Hi).
        { destruct (nth_error (chOnline ch) k) eqn:E0; [eauto|]. apply nth_error_None in E0. assert (k < length lts)%nat by (apply nth_error_Some; congruence). lia. }
        apply (Hz i); [eapply nth_error_In; eauto|]. exact (gather_nth _ _ _ _ _ _ Hlts Hi Hk). }
      assert (LL : length L = length lts) by lia. clear - FL FZ LL.
      revert L FL LL. induction lts as [|t lts IH]; intros [|d L] FL LL; try discriminate; [reflexivity|]. cbn [map map2]. f_equal.
      - destruct (FL d (or_introl eq_refl)) as (r & ->). destruct (FZ t (or_introl eq_refl)) as (z & ->). xg. f_equal. lra.
      - apply IH; [intros; apply FZ; right; auto|intros; apply FL; right; auto|]. now injection LL. }
    assert (NN : forall l, Forall is_fin l -> existsb fisnan l = false).
    { intros l Hl. apply not_true_iff_false. intros C. apply existsb_exists in C as (x & Hx & Hn). rewrite Forall_forall in Hl.
      destruct (Hl x Hx) as (r & ->). discriminate. }
    apply (asm_again _ _ _ _ _ _ _ _ _ _ _ _ _ _ _ _ _ _ _ _ _ _ _ _ _ _ _ _ H).
    - unfold chanHyd. rewrite Hlts, GW, (gather_holds _ _ _ _ _ HL' HLv), Hc. cbn [bind]. rewrite Eld.
      destruct Closed.
      + unfold sections. rewrite app_nil_r. f_equal. f_equal. apply removelast_app_cons. intros C. subst L'. destruct (chOnline ch); [easy|discriminate].
      + destruct HOE as (O1 & O2 & -> & ->). destruct (HO eq_refl) as (Lo & Lo' & Le & Le').
        rewrite (gather_holds _ _ _ _ _ Lo O1), (gather_holds _ _ _ _ _ Lo' O2). cbn [bind].
        assert (PE : forall l : list xr, length l = 2%nat -> padEnd l = l) by (intros [|a [|b [|c l]]]; cbn; intros; try lia; reflexivity).
        rewrite !PE by auto. reflexivity.
    - apply NN. exact FD.
    - apply NN. destruct Closed; [|exact FV]. unfold sections in FV. rewrite app_nil_r in FV. apply Forall_app in FV as [F1 F2].
      apply Forall_app. split; [auto|]. apply Forall_app. split.
      + rewrite Forall_forall in F2 |- *. intros x Hx. apply F2. destruct L' as [|a L'] using rev_ind; [destruct Hx|].
        rewrite removelast_last in Hx. apply in_or_app. auto.
      + constructor; [exists 0; reflexivity|constructor].
  Qed.
End Exact.
