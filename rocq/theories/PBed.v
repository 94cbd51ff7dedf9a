(** Proofs about the models of riv.py calcBedload and storeBedload. *)
From Coq Require Import Reals ZArith List Bool Lia Lra Psatz.
From Verif Require Import Base Num Xr MState MRiv SRiv SBed PCoast PSv PChan PLag SHyd PHyd.
Import ListNotations.
Local Open Scope R_scope.

Section Bed.
  Variables (b : sediment) (P : phys xr).
  Hypothesis HP : sedPars b P.
  Hypothesis Hb : sedOk b.

  Lemma dens_pos : 0 < (bRhoS b / bRho b - 1) * bG b * (bD b * bD b * bD b).
  Proof.
    destruct Hb as ([H1 H2] & H3 & H4 & _).
    assert (0 < bRhoS b / bRho b - 1).
    { apply Rmult_lt_reg_r with (bRho b); [auto|]. unfold Rdiv. rewrite Rmult_minus_distr_r, Rmult_assoc, Rinv_l by lra. lra. }
    repeat apply Rmult_lt_0_compat; auto.
  Qed.

  Lemma node_fin B h V : 0 < h -> bedloadNode P (Fin B) (Fin h) (Fin V) = Fin (transport b B h V).
  Proof.
    intros Hh. pose proof dens_pos as Hd. destruct HP as (E1 & E2 & E3 & E4 & E5 & E6 & E7 & E8 & E9).
    destruct Hb as ([H1 H2] & H3 & H4 & H5 & H6).
    unfold bedloadNode, fsq. rewrite E1, E2, E3, E4, E5, E6, E7, E8, E9. cbv zeta.
    change (fofQ 4 3 : xr) with (Fin (4 / 3)). change (fofQ 1 2 : xr) with (Fin (1 / 2)).
    change (fpow (Fin h) (Fin (4/3))) with (xpow (Fin h) (Fin (4/3))). rewrite xpow_pos by auto.
    change (Fin V * Fin V * (Fin (bN b) * Fin (bN b)))%n with (Fin (V * V * (bN b * bN b))).
    assert (Hr : Rpower h (4 / 3) <> 0) by (unfold Rpower; apply Rgt_not_eq, exp_pos).
    change (Fin (V * V * (bN b * bN b)) / Fin (Rpower h (4 / 3)))%n with (xdiv (Fin (V * V * (bN b * bN b))) (Fin (Rpower h (4 / 3)))).
    rewrite xdiv_fin by auto.
    set (S := V * V * (bN b * bN b) / Rpower h (4 / 3)) in *.
    change (Fin (bRho b) * Fin (bG b) * Fin h * Fin S)%n with (Fin (bRho b * bG b * h * S)).
    change ((Fin (bRhoS b) - Fin (bRho b)) * Fin (bG b) * Fin (bD b))%n with (Fin ((bRhoS b - bRho b) * bG b * bD b)).
    change (Fin (bRho b * bG b * h * S) / Fin ((bRhoS b - bRho b) * bG b * bD b))%n
      with (xdiv (Fin (bRho b * bG b * h * S)) (Fin ((bRhoS b - bRho b) * bG b * bD b))).
    rewrite xdiv_fin by (apply Rgt_not_eq; repeat apply Rmult_lt_0_compat; lra).
    change (bRho b * bG b * h * S / ((bRhoS b - bRho b) * bG b * bD b)) with (shields b h V).
    change (Fin (shields b h V) - Fin (bCrit b))%n with (Fin (shields b h V - bCrit b)).
    assert (EM : fpow (fmaximum (Fin (shields b h V - bCrit b)) f0) (Fin (bExp b)) =
                 Fin (if Rltb (bCrit b) (shields b h V) then Rpower (shields b h V - bCrit b) (bExp b) else 0)).
    { unfold fmaximum. change f0 with (Fin 0). change (fisnan (Fin (shields b h V - bCrit b))) with false. change (fisnan (Fin 0)) with false. cbv iota.
      change (Fin (shields b h V - bCrit b) <? Fin 0)%n with (Rltb (shields b h V - bCrit b) 0).
      destruct (Rltb (bCrit b) (shields b h V)) eqn:E; rb.
      - rewrite (proj2 (Rltb_false _ _)) by lra. cbv iota. change (fpow (Fin (shields b h V - bCrit b)) (Fin (bExp b))) with (xpow (Fin (shields b h V - bCrit b)) (Fin (bExp b))).
        rewrite xpow_pos by lra. reflexivity.
      - destruct (Rltb (shields b h V - bCrit b) 0) eqn:E'; rb.
        + apply xpow_zero. auto.
        + replace (shields b h V - bCrit b) with 0 by lra. apply xpow_zero. auto. }
    rewrite EM.
    change (Fin (bRhoS b) / Fin (bRho b))%n with (xdiv (Fin (bRhoS b)) (Fin (bRho b))). rewrite xdiv_fin by lra.
    change ((Fin (bRhoS b / bRho b) - f1) * Fin (bG b) * (Fin (bD b) * Fin (bD b) * Fin (bD b)))%n
      with (Fin ((bRhoS b / bRho b - 1) * bG b * (bD b * bD b * bD b))).
    change (fpow (Fin ((bRhoS b / bRho b - 1) * bG b * (bD b * bD b * bD b))) (Fin (1 / 2)))
      with (xpow (Fin ((bRhoS b / bRho b - 1) * bG b * (bD b * bD b * bD b))) (Fin (1 / 2))).
    rewrite xpow_pos, Rpower_half by auto.
    set (q := if Rltb (bCrit b) (shields b h V) then Rpower (shields b h V - bCrit b) (bExp b) else 0).
    set (r := sqrt _).
    change (Fin (bCoef b) * Fin q * Fin B * Fin r)%n with (Fin (bCoef b * q * B * r)). change (f1 - Fin (bVoid b))%n with (Fin (1 - bVoid b)).
    change (Fin (bCoef b * q * B * r) / Fin (1 - bVoid b))%n with (xdiv (Fin (bCoef b * q * B * r)) (Fin (1 - bVoid b))). rewrite xdiv_fin by lra.
    change (Fin V <? f0)%n with (Rltb V 0). unfold transport. cbv zeta. fold r.
    assert (Eq : bCoef b * q = if Rltb (bCrit b) (shields b h V) then bCoef b * Rpower (shields b h V - bCrit b) (bExp b) else 0).
    { unfold q. destruct (Rltb _ _); [reflexivity|lra]. }
    rewrite <- Eq. destruct (Rltb V 0); xg; f_equal; lra.
  Qed.

  Lemma nodes_fin n B h V : (forall k, (k < n)%nat -> 0 < h k) ->
    nodeBedloads P (tab n B) (tab n h) (tab n V) = tab n (fun k => transport b (B k) (h k) (V k)).
  Proof.
    change tab with (fun n f => gtab n (fun k => Fin (f k))). cbv beta.
    revert B h V; induction n as [|n IH]; intros B h V H; [reflexivity|]. rewrite !gtab_S. cbn [nodeBedloads].
    rewrite node_fin by (apply H; lia). f_equal. apply (IH (fun k => B (S k)) (fun k => h (S k)) (fun k => V (S k))). intros k Hk. apply H. lia.
  Qed.

  Lemma bedload_fin n B h V psi : (forall k, (k < n)%nat -> 0 < h k) ->
    calcBedload (tab n B) (tab n h) (tab n V) P (Fin psi) =
    tab (n - 1) (fun k => (1 - psi) * transport b (B k) (h k) (V k) + psi * transport b (B (S k)) (h (S k)) (V (S k))).
  Proof.
    intros H. unfold calcBedload. rewrite nodes_fin by auto. cbv zeta.
    change tab with (fun n f => gtab n (fun k => Fin (f k))). cbv beta.
    destruct n as [|n]; [reflexivity|]. set (f := fun k => Fin (transport b (B k) (h k) (V k))).
    assert (E1 : removelast (gtab (S n) f) = gtab n f) by (rewrite gtab_end; apply removelast_last).
    assert (E2 : tl (gtab (S n) f) = gtab n (fun k => f (S k))) by (rewrite gtab_S; reflexivity). rewrite E1, E2.
    rewrite gtab_map2. replace (S n - 1)%nat with n by lia. apply gtab_ext. intros k Hk. reflexivity.
  Qed.

  (** Consequences. *)
  Lemma shields_even h V : shields b h (- V) = shields b h V.
  Proof. unfold shields. replace (- V * - V) with (V * V) by ring. reflexivity. Qed.
  Lemma shields_zero h : shields b h 0 = 0.
  Proof. unfold shields, Rdiv. ring. Qed.

  Lemma transport_facts B h V : 0 <= bCrit b -> 0 <= bCoef b -> 0 <= B ->
    (shields b h V <= bCrit b -> transport b B h V = 0) /\
    (0 <= V -> 0 <= transport b B h V) /\ (V <= 0 -> transport b B h V <= 0) /\
    (bCrit b < shields b h V -> 0 < bCoef b -> 0 < B -> 0 < Rabs (transport b B h V)) /\
    transport b B h (- V) = - transport b B h V.
  Proof.
    intros Hc Hco HB. pose proof dens_pos as Hd. apply sqrt_lt_R0 in Hd. destruct Hb as (_ & _ & _ & _ & Hv).
    assert (Hz : shields b h V <= bCrit b -> transport b B h V = 0).
    { intros H. unfold transport. cbv zeta. rewrite (proj2 (Rltb_false (bCrit b) (shields b h V))) by auto. unfold Rdiv. ring. }
    set (M := let s := shields b h V in (if Rltb (bCrit b) s then bCoef b * Rpower (s - bCrit b) (bExp b) else 0) * B *
              sqrt ((bRhoS b / bRho b - 1) * bG b * (bD b * bD b * bD b)) / (1 - bVoid b)).
    assert (HM : 0 <= M).
    { unfold M. cbv zeta. apply Rmult_le_pos; [|apply Rlt_le, Rinv_0_lt_compat; lra].
      repeat apply Rmult_le_pos; auto; [|lra]. destruct (Rltb _ _); [|lra]. apply Rmult_le_pos; [auto|]. unfold Rpower. apply Rlt_le, exp_pos. }
    assert (HT : transport b B h V = (if Rltb V 0 then -1 else 1) * M) by reflexivity.
    split; [exact Hz|]. split; [|split; [|split]].
    - intros H. rewrite HT, (proj2 (Rltb_false V 0)) by lra. lra.
    - intros H. destruct (Rle_lt_dec 0 V) as [E|E].
      2:{ rewrite HT, (proj2 (Rltb_true V 0)) by lra. lra. }
      { assert (V = 0) by lra. subst V. rewrite Hz; [lra|]. rewrite shields_zero. lra. }
    - intros H H' HB'. rewrite HT. assert (0 < M).
      { unfold M. cbv zeta. rewrite (proj2 (Rltb_true (bCrit b) (shields b h V))) by auto. apply Rmult_lt_0_compat; [|apply Rinv_0_lt_compat; lra].
        repeat apply Rmult_lt_0_compat; auto. unfold Rpower. apply exp_pos. }
      destruct (Rltb V 0); [rewrite Rabs_left by lra|rewrite Rabs_right by lra]; lra.
    - assert (HT' : transport b B h (- V) = (if Rltb (- V) 0 then -1 else 1) * M).
      { unfold transport. rewrite shields_even. reflexivity. }
      destruct (Rtotal_order V 0) as [C|[C|C]].
      + rewrite HT, HT', (proj2 (Rltb_true V 0)), (proj2 (Rltb_false (- V) 0)) by lra. lra.
      + subst V. rewrite Ropp_0, Hz; [lra|]. rewrite shields_zero. lra.
      + rewrite HT, HT', (proj2 (Rltb_false V 0)), (proj2 (Rltb_true (- V) 0)) by lra. lra.
  Qed.

  Lemma reverse_bedload n B h V psi : (forall k, (k < n)%nat -> 0 < h k /\ 0 <= B k) -> 0 <= bCrit b -> 0 <= bCoef b ->
    calcBedload (tab n B) (tab n h) (tab n (fun k => - V k)) P (Fin psi) =
    map fopp (calcBedload (tab n B) (tab n h) (tab n V) P (Fin psi)).
  Proof.
    intros H Hc Hco. rewrite !bedload_fin by (intros k Hk; apply H; auto).
    change tab with (fun n f => gtab n (fun k => Fin (f k))). cbv beta. rewrite gtab_map. apply gtab_ext. intros k Hk.
    change (fopp (Fin ?x)) with (Fin (- x)).
    destruct (H k ltac:(lia)) as [_ HB1]. destruct (H (S k) ltac:(lia)) as [_ HB2].
    destruct (transport_facts (B k) (h k) (V k) Hc Hco HB1) as (_ & _ & _ & _ & ->).
    destruct (transport_facts (B (S k)) (h (S k)) (V (S k)) Hc Hco HB2) as (_ & _ & _ & _ & ->).
    change (- Fin ((1 - psi) * transport b (B k) (h k) (V k) + psi * transport b (B (S k)) (h (S k)) (V (S k))))%n
      with (Fin (- ((1 - psi) * transport b (B k) (h k) (V k) + psi * transport b (B (S k)) (h (S k)) (V (S k))))).
    f_equal. ring.
  Qed.

  Lemma between psi x y : 0 <= psi <= 1 -> Rmin x y <= (1 - psi) * x + psi * y <= Rmax x y.
  Proof. intros H. unfold Rmin, Rmax. destruct (Rle_dec x y); nra. Qed.
End Bed.

(** * storeBedload *)
Section Store.
  Context {F : Type} {NF : Num F}.

  Lemma removelast_app1 {A} (l m : list A) : m <> [] -> removelast (l ++ m) = l ++ removelast m.
  Proof. apply removelast_app. Qed.
  Lemma removelast_repeat {A} (x : A) n : removelast (repeat x (S n)) = repeat x n.
  Proof. induction n as [|n IH]; [reflexivity|]. cbn [repeat]. cbn [repeat removelast] in *. destruct n; cbn in *; congruence. Qed.

  Lemma split3 {A} (l : list A) a c : length l = (a + c)%nat -> exists l1 l2, l = l1 ++ l2 /\ length l1 = a /\ length l2 = c.
  Proof. intros H. exists (firstn a l), (skipn a l). rewrite firstn_skipn, firstn_length, skipn_length. split; [auto|lia]. Qed.

  Lemma nth_app2 {A} (l m : list A) k : nth_error (l ++ m) (length l + k) = nth_error m k.
  Proof. rewrite nth_error_app2 by lia. f_equal. lia. Qed.

  Lemma bedload_closed bed n online outlet nr lb ob eb : NoDup online -> online <> [] -> (forall i, In i online -> (i < n)%nat) ->
    length bed = (nr + length online - 1)%nat ->
    storeBedload bed n online outlet (repeat 0%nat nr ++ repeat 1%nat (length online)) true = Ok (lb, ob, eb) ->
    length lb = n /\
    (forall k i, nth_error online k = Some i ->
       nth_error lb i = Some (match nth_error bed (nr + k) with Some q => q | None => f0 end)) /\
    (forall i, (i < n)%nat -> ~ In i online -> nth_error lb i = Some f0) /\ ob = repeat f0 n /\ eb = [f0].
  Proof.
    intros Hnd Hne Hin HL H. destruct (exists_last Hne) as (on' & l & E).
    assert (Lon : length online = S (length on')) by (rewrite E, app_length; cbn; lia).
    unfold storeBedload in H. rewrite Lon in H. rewrite removelast_app in H by (intros C; discriminate C). rewrite removelast_repeat in H.
    destruct (split3 bed nr (length on') ltac:(lia)) as (RB & LB & -> & L1 & L2).
    assert (S1 : selFlag (repeat 0%nat nr ++ repeat 1%nat (length on')) (Nat.eqb 1) (RB ++ LB) = Ok LB).
    { pose proof (sel true RB LB [] [] (Nat.eqb 1)) as S. unfold flagsOf, sections in S. rewrite !app_nil_r in S. rewrite L1, L2 in S.
      rewrite S by discriminate. reflexivity. }
    rewrite S1 in H. cbn [bind] in H. apply bind_ok in H as (lb' & Hlb & H). apply Ok_inj in H. injection H as <- <- <-.
    assert (Er : removelast online = on') by (rewrite E; apply removelast_last). rewrite Er in Hlb.
    assert (Hnd' : NoDup on' /\ ~ In l on').
    { rewrite E in Hnd. apply NoDup_remove in Hnd. rewrite app_nil_r in Hnd. exact Hnd. }
    destruct Hnd' as [Hnd' Hl].
    destruct (scatterNew_holds _ _ _ _ _ Hnd' Hlb) as (A1 & A2 & A3).
    split; [auto|]. split; [|split; [|split; reflexivity]].
    - intros k i Hk. subst nr. rewrite nth_app2. rewrite E in Hk.
      destruct (Nat.lt_ge_cases k (length on')) as [C|C].
      + rewrite nth_error_app1 in Hk by auto. rewrite (A2 k i Hk). destruct (nth_error LB k) eqn:E'; [reflexivity|]. apply nth_error_None in E'. lia.
      + rewrite nth_error_app2 in Hk by auto. rewrite (proj2 (nth_error_None LB k)) by lia.
        destruct (k - length on')%nat eqn:Ek; [|destruct n0; discriminate]. cbn in Hk. apply Some_inj in Hk. subst i.
        apply A3; auto. apply Hin. rewrite E. apply in_or_app. right. left. reflexivity.
    - intros i Hi Hn. apply A3; auto. intros C''. apply Hn. rewrite E. apply in_or_app. auto.
  Qed.

  Lemma bedload_open bed n online outlet nr lb ob eb : NoDup online -> NoDup outlet ->
    length bed = (nr + length online + length outlet + 1)%nat ->
    storeBedload bed n online outlet (repeat 0%nat nr ++ repeat 1%nat (length online) ++ repeat 2%nat (length outlet) ++ [3; 4]%nat) false
      = Ok (lb, ob, eb) ->
    (length lb = n /\ (forall k i, nth_error online k = Some i -> nth_error lb i = nth_error bed (nr + k)) /\
                      (forall i, (i < n)%nat -> ~ In i online -> nth_error lb i = Some f0)) /\
    (length ob = n /\ (forall k i, nth_error outlet k = Some i -> nth_error ob i = nth_error bed (nr + length online + k)) /\
                      (forall i, (i < n)%nat -> ~ In i outlet -> nth_error ob i = Some f0)) /\
    exists q, eb = [q] /\ nth_error bed (nr + length online + length outlet) = Some q.
  Proof.
    intros Hnd Hnd2 HL H. unfold storeBedload in H.
    assert (Er : removelast (repeat 0%nat nr ++ repeat 1%nat (length online) ++ repeat 2%nat (length outlet) ++ [3; 4]%nat)
                 = repeat 0%nat nr ++ repeat 1%nat (length online) ++ repeat 2%nat (length outlet) ++ [3]%nat).
    { change [3; 4]%nat with ([3] ++ [4])%nat. rewrite !app_assoc. apply removelast_last. }
    rewrite Er in H.
    destruct (split3 bed nr (length online + (length outlet + 1)) ltac:(lia)) as (RB & r1 & -> & L1 & Lr1).
    destruct (split3 r1 (length online) (length outlet + 1) ltac:(lia)) as (LB & r2 & -> & L2 & Lr2).
    destruct (split3 r2 (length outlet) 1 ltac:(lia)) as (OB & r3 & -> & L3 & Lr3).
    destruct r3 as [|q [|? ?]]; cbn in Lr3; try lia.
    assert (S1 : forall p, selFlag (repeat 0%nat nr ++ repeat 1%nat (length online) ++ repeat 2%nat (length outlet) ++ [3%nat]) p
                             (RB ++ LB ++ OB ++ [q]) =
              Ok ((if p 0%nat then RB else []) ++ (if p 1%nat then LB else []) ++ (if p 2%nat then OB else []) ++ (if p 3%nat then [q] else []))).
    { intros p. unfold selFlag.
      assert (E : length (repeat 0%nat nr ++ repeat 1%nat (length online) ++ repeat 2%nat (length outlet) ++ [3%nat]) = length (RB ++ LB ++ OB ++ [q])).
      { rewrite !app_length, !repeat_length. cbn. lia. }
      rewrite (proj2 (Nat.eqb_eq _ _) E). f_equal. rewrite <- L1, <- L2, <- L3. rewrite !filter2_repeat.
      cbn [map filter2]. destruct (p 3%nat); reflexivity. }
    rewrite !S1 in H. cbn [Nat.eqb bind app] in H. rewrite !app_nil_r in H.
    apply bind_ok in H as (ob' & Hob & H). apply bind_ok in H as (lb' & Hlb & H). apply Ok_inj in H. injection H as <- <- <-.
    destruct (scatterNew_holds _ _ _ _ _ Hnd Hlb) as (A1 & A2 & A3).
    destruct (scatterNew_holds _ _ _ _ _ Hnd2 Hob) as (B1 & B2 & B3).
    split; [|split].
    - split; [auto|]. split; [|auto]. intros k i Hk. rewrite (A2 k i Hk). rewrite <- L1, nth_app2.
      symmetry. apply nth_error_app1. rewrite L2. apply nth_error_Some. congruence.
    - split; [auto|]. split; [|auto]. intros k i Hk. rewrite (B2 k i Hk). rewrite <- L1, <- L2, <- Nat.add_assoc, !nth_app2.
      symmetry. apply nth_error_app1. rewrite L3. apply nth_error_Some. congruence.
    - exists q. split; [reflexivity|]. rewrite <- L1, <- L2, <- L3, <- Nat.add_assoc, !nth_app2.
      rewrite nth_error_app2 by lia. rewrite Nat.sub_diag. reflexivity.
  Qed.
End Store.
