(** Proofs about the model of riv.py assembleChannel: layout, closure, online lagoon. *)
From Coq Require Import ZArith List Bool Lia.
From Verif Require Import Base Num Xr MState MRiv PCoast.
Local Open Scope num_scope.

Section Chan.
  Context {F : Type} {NF : Num F}.
  Variables (T : list (tsect F)) (e0 e1 eW eElev : F) (Closed : bool).
  Variables (RiverElev RivDep RivVel LagoonWL LagoonVel OutletDep OutletVel EndDep EndVel : list F).
  Variables (Dx : F) (P : phys F).
  Notation asm := (assembleChannel T e0 e1 eW eElev Closed RiverElev RivDep RivVel LagoonWL LagoonVel
                                   OutletDep OutletVel EndDep EndVel Dx P).

  (** The intermediate results of a successful call. *)
  Inductive assembled (ch : chan F) : Prop :=
  | Assembled (x0 : nat) (t0 : tsect F) (ow : list F) (cl1 : bool)
      (on1 : list nat) (sa sl ea1 el1 ea el : F) (lts : list (tsect F)) (dep0 vel0 : list F)
      (a_x0 : first_where (fun t => tX t =? f0) T = Some x0)
      (a_out : outletPart P T e0 e1 eW Closed = Ok (chOutlet ch, ow, cl1))
      (a_t0 : nth_error T x0 = Some t0)
      (a_w0 : (f0 <? lagoonWidth t0) = true)
      (a_nan : forall t, In t T -> fisnan (lagoonWidth t) = false)
      (a_lag : lagoonPart Dx T x0 e0 cl1 = Ok (on1, sa, sl, ea1, el1))
      (a_cut : lagoonCut P Dx T on1 ea1 el1 cl1 = Ok (chOnline ch, ea, el, chClosed ch))
      (a_ne : chOnline ch <> [])
      (a_lts : gather T (chOnline ch) = Ok lts)
      (a_wet : forall t, In t lts -> (f0 <? lagoonWidth t) = true)
      (a_shape : chanShape P Dx T e0 e1 eW eElev (chClosed ch) RiverElev (chOnline ch) (chOutlet ch) ow
                 = Ok (chDx ch, chFlag ch, chElev ch, chWidth ch))
      (a_area : chLagArea ch = upd (upd (map (fun _ => f0) (chElev ch)) (length RiverElev) sa)
                                   (length RiverElev + length (chOnline ch) - 1) ea)
      (a_len : chLagLen ch = upd_with (upd_with (map (fun k => fofb (Nat.eqb k 1) * Dx) (chFlag ch)) (length RiverElev)
                                                (fun x => x + sl))
                                      (length RiverElev + length (chOnline ch) - 1) (fun x => x + el))
      (a_hyd : chanHyd T (chClosed ch) RivDep RivVel LagoonWL LagoonVel OutletDep OutletVel (padEnd EndDep) (padEnd EndVel)
                       (chOnline ch) (chOutlet ch) = Ok (dep0, vel0))
      (a_dep : (if existsb fisnan dep0 then fillDep dep0 else Ok dep0) = Ok (chDep ch))
      (a_vel : (if existsb fisnan vel0 then fillVel (chDep ch) vel0 else Ok vel0) = Ok (chVel ch))
      (a_pos : existsb (fun w => w <=? f0) (chWidth ch) = false)
      (a_nw : existsb fisnan (chWidth ch) = false) (a_nz : existsb fisnan (chElev ch) = false)
      (a_nv : existsb fisnan (chVel ch) = false) (a_nd : existsb fisnan (chDep ch) = false).

  Lemma assemble_inv ch : asm = Ok ch -> assembled ch.
  Proof.
    unfold assembleChannel. intros H.
    apply bind_ok in H as (x0 & Hx0 & H).
    apply bind_ok in H as ([[outlet ow] cl1] & Hout & H).
    apply bind_ok in H as (t0 & Ht0 & H).
    apply bind_ok in H as (u1 & Hw0 & H). apply assert_ok in Hw0.
    apply bind_ok in H as (u2 & Hnan & H). apply assert_ok in Hnan.
    apply bind_ok in H as ([[[[on1 sa] sl] ea1] el1] & Hlag & H).
    apply bind_ok in H as (u3 & Hne1 & H).
    apply bind_ok in H as ([[[online ea] el] closed] & Hcut & H).
    apply bind_ok in H as (i0 & Hi0 & H). apply bind_ok in H as (il & Hil & H).
    apply bind_ok in H as (u4 & _ & H).
    apply bind_ok in H as (lts & Hlts & H).
    apply bind_ok in H as (u5 & Hwet & H). apply assert_ok in Hwet.
    apply bind_ok in H as ([[[dx flag] elev] width] & Hshape & H).
    apply bind_ok in H as ([dep0 vel0] & Hhyd & H).
    apply bind_ok in H as (dep & Hdep & H). apply bind_ok in H as (vel & Hvel & H).
    apply bind_ok in H as (v1 & A1 & H). apply assert_ok in A1.
    apply bind_ok in H as (v2 & A2 & H). apply assert_ok in A2.
    apply bind_ok in H as (v3 & A3 & H). apply assert_ok in A3.
    apply bind_ok in H as (v4 & A4 & H). apply assert_ok in A4.
    apply bind_ok in H as (v5 & A5 & H). apply assert_ok in A5.
    apply bind_ok in H as (v6 & _ & H). apply Ok_inj in H.
    apply negb_true_iff in A1, A2, A3, A4, A5. rewrite forallb_forall in Hnan, Hwet.
    subst ch.
    econstructor; cbn [chDx chElev chWidth chLagArea chLagLen chDep chVel chOnline chOutlet chFlag chClosed]; eauto.
    - unfold x0Ix in Hx0. destruct (first_where _ T); [apply Ok_inj in Hx0; congruence|discriminate].
    - apply ix_ok; exact Ht0.
    - intros t Ht. specialize (Hnan t Ht). apply negb_true_iff in Hnan. exact Hnan.
    - intros ->. discriminate.
  Qed.

  (** * C20: layout *)
  Lemma gather_Forall2 {A} (l : list A) idx xs : gather l idx = Ok xs -> Forall2 (fun i x => nth_error l i = Some x) idx xs.
  Proof. apply gather_ok. Qed.

  Lemma outlet_ow o ow cl : outletPart P T e0 e1 eW Closed = Ok (o, ow, cl) ->
    length ow = length o /\ (cl = false -> exists ots, gather T o = Ok ots /\ ow = map outletWidth ots).
  Proof.
    unfold outletPart. destruct Closed; intros H.
    - apply Ok_inj in H. injection H as <- <- <-. split; [reflexivity|discriminate].
    - apply bind_ok in H as (ts & Hg & H). destruct (_ || _).
      + apply Ok_inj in H. injection H as <- <- <-. split; [reflexivity|discriminate].
      + destruct (map outletWidth ts) as [|w ws] eqn:E; [discriminate|].
        apply Ok_inj in H. injection H as <- <- <-. rewrite <- E, map_length. split; [eapply gather_length; eauto|].
        intros _. exists ts. auto.
  Qed.

  Lemma cut_closed on ea el cl o ea' el' cl' : lagoonCut P Dx T on ea el cl = Ok (o, ea', el', cl') -> cl' = false -> cl = false.
  Proof.
    unfold lagoonCut. intros H ->. apply bind_ok in H as (ts & _ & H). destruct (first_where _ ts); apply Ok_inj in H; congruence.
  Qed.

  Definition flags (nr on out : nat) (closed : bool) : list nat :=
    repeat 0%nat nr ++ repeat 1%nat on ++ (if closed then [] else repeat 2%nat out ++ [3%nat; 4%nat]).

  Lemma layout ch : asm = Ok ch ->
    chFlag ch = flags (length RiverElev) (length (chOnline ch)) (length (chOutlet ch)) (chClosed ch) /\
    length (chElev ch) = length (chFlag ch) /\ length (chWidth ch) = length (chFlag ch) /\
    length (chLagArea ch) = length (chFlag ch) /\ length (chLagLen ch) = length (chFlag ch) /\
    S (length (chDx ch)) = length (chFlag ch).
  Proof.
    intros H. apply assemble_inv in H as [x0 t0 ow cl1 on1 sa sl ea1 el1 ea el lts dep0 vel0].
    assert (Hon : length (chOnline ch) <> 0%nat) by (destruct (chOnline ch); [easy|discriminate]).
    pose proof (outlet_ow _ _ _ a_out) as [Low _].
    assert (G : chFlag ch = flags (length RiverElev) (length (chOnline ch)) (length (chOutlet ch)) (chClosed ch) /\
                length (chElev ch) = length (chFlag ch) /\ length (chWidth ch) = length (chFlag ch) /\
                S (length (chDx ch)) = length (chFlag ch)).
    { unfold chanShape in a_shape. apply bind_ok in a_shape as (lts' & E & Hs). rewrite E in a_lts. apply Ok_inj in a_lts. subst lts'.
      apply gather_length in E. unfold flags.
      destruct (chClosed ch).
      - apply Ok_inj in Hs. injection Hs as <- <- <- <-. rewrite app_nil_r.
        repeat rewrite ?app_length, ?repeat_length, ?map_length. repeat split; lia.
      - apply bind_ok in Hs as (ots & Eo & Hs). apply gather_length in Eo. apply Ok_inj in Hs. injection Hs as <- <- <- <-.
        repeat rewrite ?app_length, ?repeat_length, ?map_length, ?upd_with_length. cbn [length]. repeat split; lia. }
    destruct G as (G1 & G2 & G3 & G4). split; [exact G1|]. split; [exact G2|]. split; [exact G3|].
    split; [|split; [|exact G4]].
    - rewrite a_area, !upd_length, map_length. exact G2.
    - rewrite a_len, !upd_with_length, map_length. reflexivity.
  Qed.

  Lemma all_ok_length {A} (l : list (res A)) xs : all_ok l = Ok xs -> length xs = length l.
  Proof.
    revert xs; induction l as [|r l IH]; intros xs H; cbn [all_ok] in H.
    - apply Ok_inj in H. subst. reflexivity.
    - apply bind_ok in H as (x & _ & H). apply bind_ok in H as (ys & Hy & H). apply Ok_inj in H. subst. cbn. f_equal. auto.
  Qed.
  Lemma fillNan_length mask vals old f r : fillNan mask vals old f = Ok r -> length r = length old.
  Proof. unfold fillNan. intros H. apply all_ok_length in H. rewrite mapi_length in H. exact H. Qed.

  Definition fits (ch : chan F) : Prop :=
    length RivDep = length RiverElev /\ length RivVel = length RiverElev /\
    (chClosed ch = false -> (length EndDep = 1 \/ length EndDep = 2)%nat /\ (length EndVel = 1 \/ length EndVel = 2)%nat).

  Lemma padEnd_length (l : list F) : (length l = 1 \/ length l = 2)%nat -> length (padEnd l) = 2%nat.
  Proof. destruct l as [|a [|b [|c l]]]; cbn; intros [?|?]; lia. Qed.

  Lemma chanHyd_length cl on out dep vel :
    (cl = false -> length (padEnd EndDep) = 2%nat /\ length (padEnd EndVel) = 2%nat) ->
    length RivDep = length RiverElev -> length RivVel = length RiverElev ->
    chanHyd T cl RivDep RivVel LagoonWL LagoonVel OutletDep OutletVel (padEnd EndDep) (padEnd EndVel) on out = Ok (dep, vel) ->
    length dep = (length RiverElev + length on + (if cl then 0 else length out + 2))%nat /\ length vel = length dep.
  Proof.
    intros He H1 H2 H. unfold chanHyd in H.
    apply bind_ok in H as (lts & Hl & H). apply bind_ok in H as (wl & Hw & H). apply bind_ok in H as (lv & Hv & H).
    apply gather_length in Hl, Hw, Hv.
    destruct cl.
    - apply Ok_inj in H. injection H as <- <-. rewrite upd_length. repeat rewrite ?app_length, ?map2_length, ?map_length.
      split; lia.
    - apply bind_ok in H as (od & Hod & H). apply bind_ok in H as (ov & Hov & H). apply gather_length in Hod, Hov.
      destruct (He eq_refl) as [E1 E2].
      apply Ok_inj in H. injection H as <- <-. repeat rewrite ?app_length, ?map2_length, ?map_length. split; lia.
  Qed.

  Lemma layout_hyd ch : asm = Ok ch -> fits ch ->
    length (chDep ch) = length (chFlag ch) /\ length (chVel ch) = length (chFlag ch).
  Proof.
    intros H (F1 & F2 & F3). pose proof (layout _ H) as (HF & _).
    apply assemble_inv in H as [x0 t0 ow cl1 on1 sa sl ea1 el1 ea el lts dep0 vel0].
    assert (He : chClosed ch = false -> length (padEnd EndDep) = 2%nat /\ length (padEnd EndVel) = 2%nat).
    { intros Hc. destruct (F3 Hc). split; apply padEnd_length; auto. }
    apply chanHyd_length in a_hyd as [L1 L2]; auto.
    assert (LF : length (chFlag ch) = (length RiverElev + length (chOnline ch) + (if chClosed ch then 0 else length (chOutlet ch) + 2))%nat).
    { rewrite HF. unfold flags. rewrite !app_length, !repeat_length. destruct (chClosed ch); cbn [length]; rewrite ?app_length, ?repeat_length; cbn [length]; lia. }
    split.
    - destruct (existsb fisnan dep0).
      + apply fillNan_length in a_dep. lia.
      + apply Ok_inj in a_dep. subst. lia.
    - destruct (existsb fisnan vel0).
      + apply fillNan_length in a_vel. lia.
      + apply Ok_inj in a_vel. subst. lia.
  Qed.

  (** Contents of the static arrays. *)
  Lemma contents ch : asm = Ok ch ->
    exists lts, Forall2 (fun i t => nth_error T i = Some t) (chOnline ch) lts /\
    if chClosed ch then
      chElev ch = RiverElev ++ map (@tZ3 F) lts /\
      chWidth ch = repeat (pRiverWidth P) (length RiverElev) ++ map (fun t => tY3 t - tY4 t) lts /\
      (forall d, In d (chDx ch) -> d = Dx)
    else exists ots, Forall2 (fun i t => nth_error T i = Some t) (chOutlet ch) ots /\
      chElev ch = RiverElev ++ map (@tZ3 F) lts ++ map (@tZ1 F) ots ++ [eElev; pymin (pMaxOutletElev P) eElev] /\
      chWidth ch = repeat (pRiverWidth P) (length RiverElev) ++ map (fun t => tY3 t - tY4 t) lts
                   ++ map (fun t => if fisnan (tY1 t - tY2 t) then f0 else tY1 t - tY2 t) ots ++ [eW; eW] /\
      (forall i d, nth_error (chDx ch) i = Some d -> d =
         if Nat.eqb i (length (chDx ch) - 2) then (if e0 <? e1 then Dx + fmod e1 Dx else Dx + (Dx - fmod e1 Dx)) else Dx).
  Proof.
    intros H. apply assemble_inv in H as [x0 t0 ow cl1 on1 sa sl ea1 el1 ea el lts dep0 vel0].
    exists lts. split; [apply gather_ok; exact a_lts|].
    unfold chanShape in a_shape. rewrite a_lts in a_shape. cbn [bind] in a_shape.
    destruct (chClosed ch) eqn:Ec.
    - apply Ok_inj in a_shape. injection a_shape as <- _ <- <-. split; [reflexivity|]. split; [reflexivity|].
      intros d Hd. apply repeat_spec in Hd. exact Hd.
    - apply bind_ok in a_shape as (ots & Eo & Hs). exists ots. split; [apply gather_ok; auto|].
      pose proof (outlet_ow _ _ _ a_out) as [_ How].
      destruct (How (cut_closed _ _ _ _ _ _ _ _ a_cut eq_refl)) as (ots' & Eo' & ->).
      rewrite Eo in Eo'. apply Ok_inj in Eo'. subst ots'.
      apply Ok_inj in Hs. injection Hs as E1 _ <- <-. split; [reflexivity|]. split; [reflexivity|].
      intros i d Hd. rewrite <- E1 in Hd |- *. rewrite upd_with_length, repeat_length.
      set (n := (length RiverElev + length (chOnline ch) + length (chOutlet ch) + 1)%nat) in *.
      destruct (Nat.eqb i (n - 2)) eqn:Ei.
      + apply Nat.eqb_eq in Ei. subst i. rewrite nth_error_upd_with_eq in Hd.
        destruct (nth_error (repeat Dx n) (n - 2)) as [x|] eqn:Ex; [|discriminate].
        apply nth_error_In, repeat_spec in Ex. subst x. cbn [option_map] in Hd. apply Some_inj in Hd. auto.
      + apply Nat.eqb_neq in Ei. rewrite nth_error_upd_with_ne in Hd by auto.
        apply nth_error_In, repeat_spec in Hd. exact Hd.
  Qed.
End Chan.
