(** Proofs about drawings. *)
From Coq Require Import ZArith List Bool Lia Reals Lra.
From Verif Require Import Base Num Xr MState MCoast MRiv MMor MOut MLoad MVis SVis PCoast PRate.
Import ListNotations.
Local Open Scope R_scope.

Lemma cumsum_fin dx : forall a, cumsum (Fin a) (map Fin dx) = map (fun i => Fin (a + chainage dx (S i))) (seq 0 (length dx)).
Proof.
  induction dx as [|d r IH]; intros a; [reflexivity|]. cbn [map cumsum length seq]. rewrite PRate.xadd, IH. f_equal.
  - f_equal. cbn [chainage]; lra.
  - rewrite <- seq_shift, map_map. apply map_ext. intros i. f_equal. change (chainage (d :: r) (S (S i))) with (d + chainage r (S i)). lra.
Qed.
Lemma dist_fin dx : f0 :: cumsum f0 (map Fin dx) = map (fun i => Fin (chainage dx i)) (seq 0 (S (length dx))).
Proof.
  cbn [seq map]. f_equal. rewrite x0, cumsum_fin, <- seq_shift, map_map. apply map_ext. intros i. f_equal. lra.
Qed.
Lemma as_seq (l : list R) : l = map (at_ l) (seq 0 (length l)).
Proof.
  apply nth_ext with (d := 0) (d' := 0); [now rewrite map_length, seq_length|]. intros n H.
  rewrite (nth_indep (map _ _) 0 (at_ l 0)) by (rewrite map_length, seq_length; auto).
  rewrite map_nth, seq_nth; auto.
Qed.
Lemma fin_seq (l : list R) : map Fin l = map (fun i => Fin (at_ l i)) (seq 0 (length l)).
Proof. rewrite (as_seq l) at 1. now rewrite map_map. Qed.
Lemma map2_seq {A B C} (f : A -> B -> C) (g : nat -> A) (h : nat -> B) l :
  map2 f (map g l) (map h l) = map (fun i => f (g i) (h i)) l.
Proof. induction l; cbn; congruence. Qed.
Lemma op2_seq f (g h : nat -> xr) n : op2 f (map g (seq 0 n)) (map h (seq 0 n)) = Ok (map (fun i => f (g i) (h i)) (seq 0 n)).
Proof. unfold op2. now rewrite !map_length, Nat.eqb_refl, map2_seq. Qed.
Lemma mids_seq (g : nat -> R) n : mids (map (fun i => Fin (g i)) (seq 0 (S n))) = map (fun i => Fin (mean g i)) (seq 0 n).
Proof.
  unfold mids.
  assert (E : removelast (map (fun i => Fin (g i)) (seq 0 (S n))) = map (fun i => Fin (g i)) (seq 0 n)).
  { rewrite seq_S, map_app, removelast_app by discriminate. cbn [removelast map]. apply app_nil_r. }
  rewrite E. cbn [seq map tl]. rewrite <- seq_shift, map_map, map2_seq. apply map_ext. intros i.
  rewrite PRate.xadd, x2, xdivf by lra. reflexivity.
Qed.
Lemma line_seq (g h : nat -> R) n : exists l, line (map (fun i => Fin (g i)) (seq 0 n)) (map (fun i => Fin (h i)) (seq 0 n)) = Ok l /\ drawn l n g h.
Proof.
  unfold line. rewrite !map_length, Nat.eqb_refl. eexists; split; [reflexivity|].
  assert (E : forall m, combine (map (fun i => Fin (g i)) m) (map (fun i => Fin (h i)) m) = map (fun i => (Fin (g i), Fin (h i))) m)
    by (induction m; cbn; congruence).
  rewrite E. split; [now rewrite map_length, seq_length|]. intros i Hi. rewrite nth_error_map.
  rewrite (nth_error_nth' (seq 0 n) 0%nat) by (now rewrite seq_length). rewrite seq_nth by auto. reflexivity.
Qed.

Lemma fold_best (best : xr -> xr -> xr) (b : R -> R -> R) : (forall x y, best (Fin x) (Fin y) = Fin (b x y)) ->
  forall r x, fold_left best (map Fin r) (Fin x) = Fin (fold_left b r x).
Proof. intros H. induction r as [|y r IH]; intros x; [reflexivity|]. cbn. now rewrite H, IH. Qed.
Lemma filter_fin l : filter (fun x : xr => negb (fisnan x)) (map Fin l) = map Fin l.
Proof.
  induction l as [|x l IH]; [reflexivity|]. cbn [map filter]. change (fisnan (Fin x)) with false. cbn [negb]. now rewrite IH.
Qed.
Lemma nanmin_fin x l : nanmin (map Fin (x :: l)) = Ok (Fin (fold_left Rmin l x)).
Proof.
  unfold nanmin, nanBest. rewrite filter_fin. cbn [map]. rewrite (fold_best _ Rmin); auto. apply xmin.
Qed.
Lemma nanmax_fin x l : nanmax (map Fin (x :: l)) = Ok (Fin (fold_left Rmax l x)).
Proof.
  unfold nanmax, nanBest. rewrite filter_fin. cbn [map]. rewrite (fold_best _ Rmax); auto. apply xmax.
Qed.
Lemma fold_Rmin l : forall x, fold_left Rmin l x <= x /\ forall y, In y l -> fold_left Rmin l x <= y.
Proof.
  induction l as [|a l IH]; intros x; cbn; [split; [lra|tauto]|]. destruct (IH (Rmin x a)) as [H1 H2].
  pose proof (Rmin_l x a). pose proof (Rmin_r x a). split; [lra|]. intros y [<-|Hy]; [lra|auto].
Qed.
Lemma fold_Rmax l : forall x, x <= fold_left Rmax l x /\ forall y, In y l -> y <= fold_left Rmax l x.
Proof.
  induction l as [|a l IH]; intros x; cbn; [split; [lra|tauto]|]. destruct (IH (Rmax x a)) as [H1 H2].
  pose proof (Rmax_l x a). pose proof (Rmax_r x a). split; [lra|]. intros y [<-|Hy]; [lra|auto].
Qed.
Lemma xq a b : @fofQ xr xr_num a b = Fin (IZR a / IZR (Zpos b)).
Proof. reflexivity. Qed.
Lemma pymin_fin a b : pymin (Fin a) (Fin b) = Fin (Rmin a b).
Proof.
  unfold pymin. change (Fin b <? Fin a)%n with (Rltb b a). destruct (Rltb b a) eqn:E.
  - apply Rltb_true in E. rewrite Rmin_right by lra. auto.
  - apply Rltb_false in E. rewrite Rmin_left by lra. auto.
Qed.
Lemma pymax_fin a b : pymax (Fin a) (Fin b) = Fin (Rmax a b).
Proof.
  unfold pymax. change (Fin a <? Fin b)%n with (Rltb a b). destruct (Rltb a b) eqn:E.
  - apply Rltb_true in E. rewrite Rmax_right by lra. auto.
  - apply Rltb_false in E. rewrite Rmax_left by lra. auto.
Qed.
Lemma ylim_fin a b : ylim (Fin a) (Fin b) = Ok (Fin a, Fin b).
Proof. reflexivity. Qed.

Section Long.
  Variables dx z b h v : list R.
  Hypothesis Hz : length z = S (length dx).
  Hypothesis Hb : length b = length z.
  Hypothesis Hh : length h = length z.
  Hypothesis Hv : length v = length z.
  Variable qs : option (list R).
  Hypothesis Hq : forall q, qs = Some q -> length q = length dx /\ q <> [].
  Let n := length dx.

  Lemma long_section : exists s,
    longSection (map Fin dx) (map Fin z) (map Fin b) (map Fin h) (map Fin v) (option_map (map Fin) qs) = Ok s /\
    drawn (lsBed s) (S n) (chainage dx) (at_ z) /\
    drawn (lsWater s) (S n) (chainage dx) (fun i => at_ z i + at_ h i) /\
    drawn (lsEnergy s) n (mean (chainage dx)) (head (981 / 100) z h v) /\
    drawn (lsWidth s) (S n) (chainage dx) (at_ b) /\
    drawn (lsFlow s) (S n) (chainage dx) (fun i => at_ v i * at_ h i * at_ b i) /\
    drawn (lsVel s) (S n) (chainage dx) (at_ v) /\
    (length (lsFr s) = S n /\ forall i, (i < S n)%nat -> 0 < at_ h i ->
       nth_error (lsFr s) i = Some (Fin (chainage dx i), Fin (Rabs (at_ v i) / sqrt (981 / 100 * at_ h i)))) /\
    (match qs with
     | None => lsQs s = None /\ lsQsLim s = None
     | Some q => exists l hi, lsQs s = Some l /\ drawn l n (mean (chainage dx)) (fun i => hourly (at_ q i)) /\
         lsQsLim s = Some (Fin 0, Fin hi) /\ 55 <= hi /\ Forall (fun x => hourly x <= hi) q
     end) /\
    exists lo hi, lsFlowLim s = (Fin lo, Fin hi) /\ lo <= 0 /\
      forall i, (i < S n)%nat -> lo <= at_ v i * at_ h i * at_ b i <= hi.
  Proof.
    unfold longSection. rewrite dist_fin, mids_seq.
    rewrite (fin_seq z), (fin_seq b), (fin_seq h), (fin_seq v). rewrite Hb, Hh, Hv, Hz. fold n.
    rewrite op2_seq. cbn [bind].
    rewrite (map_ext (fun i => (Fin (at_ z i) + Fin (at_ h i))%n) (fun i => Fin (at_ z i + at_ h i))) by reflexivity.
    rewrite !mids_seq, op2_seq. cbn [bind]. cbv beta.
    rewrite (map_ext (fun i => (Fin (mean (fun i0 => at_ z i0 + at_ h i0)%R i) + fsq (Fin (mean (at_ v) i)) / (f2 * fofQ 981 100))%n)
                     (fun i => Fin (head (981 / 100) z h v i))).
    2:{ intros i. unfold fsq, head. rewrite x2, xq, !PRate.xmul, xdivf by lra. reflexivity. }
    rewrite op2_seq. cbn [bind]. rewrite op2_seq. cbn [bind].
    rewrite (map_ext (fun i => (Fin (at_ v i) * Fin (at_ h i))%n) (fun i => Fin (at_ v i * at_ h i))) by reflexivity.
    rewrite op2_seq. cbn [bind].
    rewrite (map_ext (fun i => (Fin (at_ v i * at_ h i)%R * Fin (at_ b i))%n) (fun i => Fin (at_ v i * at_ h i * at_ b i))) by reflexivity.
    edestruct (line_seq (chainage dx) (at_ z) (S n)) as (l1 & E1 & D1). rewrite E1. cbn [bind].
    edestruct (line_seq (chainage dx) (fun i => at_ z i + at_ h i) (S n)) as (l2 & E2 & D2). rewrite E2. cbn [bind].
    edestruct (line_seq (mean (chainage dx)) (head (981 / 100) z h v) n) as (l3 & E3 & D3). rewrite E3. cbn [bind].
    edestruct (line_seq (chainage dx) (at_ b) (S n)) as (l4 & E4 & D4). rewrite E4. cbn [bind].
    edestruct (line_seq (chainage dx) (fun i => at_ v i * at_ h i * at_ b i) (S n)) as (l5 & E5 & D5). rewrite E5. cbn [bind].
    edestruct (line_seq (chainage dx) (at_ v) (S n)) as (l6 & E6 & D6). rewrite E6. cbn [bind].
    set (fr := map (fun i => (fabs (Fin (at_ v i)) / fsqrt (fofQ 981 100 * Fin (at_ h i)))%n) (seq 0 (S n))).
    assert (E7 : exists l7, line (map (fun i => Fin (chainage dx i)) (seq 0 (S n))) fr = Ok l7 /\
      (length l7 = S n /\ forall i, (i < S n)%nat -> 0 < at_ h i ->
       nth_error l7 i = Some (Fin (chainage dx i), Fin (Rabs (at_ v i) / sqrt (981 / 100 * at_ h i))))).
    { unfold line, fr. rewrite !map_length, Nat.eqb_refl. eexists; split; [reflexivity|].
      assert (E : forall (f g : nat -> xr) m, combine (map f m) (map g m) = map (fun i => (f i, g i)) m)
        by (intros f g; induction m; cbn; congruence).
      rewrite E. split; [now rewrite map_length, seq_length|]. intros i Hi Hp. rewrite nth_error_map.
      rewrite (nth_error_nth' (seq 0 (S n)) 0%nat) by (now rewrite seq_length). rewrite seq_nth by auto. cbn [option_map Nat.add].
      rewrite PRate.xabs, xq, PRate.xmul. change (fsqrt (Fin (981 / 100 * at_ h i))) with (xsqrt (Fin (981 / 100 * at_ h i))).
      rewrite xsqrt_fin by lra. rewrite xdivf; [reflexivity|]. apply Rgt_not_eq, sqrt_lt_R0. lra. }
    destruct E7 as (l7 & E7 & D7). rewrite E7. cbn [bind].
    pose (Q := fun i => at_ v i * at_ h i * at_ b i).
    assert (EQ : map (fun i => Fin (at_ v i * at_ h i * at_ b i)) (seq 0 (S n)) = map Fin (Q 0%nat :: map Q (seq 1 n)))
      by (cbn [seq map]; rewrite map_map; reflexivity).
    rewrite EQ, nanmin_fin, nanmax_fin.
    set (qn := fold_left Rmin _ _). set (qx := fold_left Rmax _ _).
    assert (B : forall i, (i < S n)%nat -> qn <= Q i <= qx).
    { intros i Hi. pose proof (fold_Rmin (map Q (seq 1 n)) (Q 0%nat)) as [A1 A2]. pose proof (fold_Rmax (map Q (seq 1 n)) (Q 0%nat)) as [A3 A4].
      destruct i; [split; assumption|]. assert (In (Q (S i)) (map Q (seq 1 n))) by (apply in_map, in_seq; lia). split; auto. }
    assert (HL : exists lo hi, ylim (pymin f0 (Fin qn)) (Fin qx + fofQ 1 10 * (Fin qx - pymin f0 (Fin qn)))%n = Ok (Fin lo, Fin hi) /\
       lo <= 0 /\ forall i, (i < S n)%nat -> lo <= Q i <= hi).
    { rewrite x0, pymin_fin, xq, PRate.xsub, PRate.xmul, PRate.xadd, ylim_fin. do 2 eexists. split; [reflexivity|].
      pose proof (Rmin_l 0 qn). pose proof (Rmin_r 0 qn). split; [lra|]. intros i Hi. specialize (B i Hi). lra. }
    destruct HL as (lo & hi & HL & HL0 & HB).
    destruct qs as [q|] eqn:Eq; cbn [option_map].
    - destruct (Hq q eq_refl) as [Hq1 Hq2]. rewrite map_map.
      rewrite (map_ext (fun x => (Fin x * fofZ 3600)%n) (fun x => Fin (hourly x))) by reflexivity.
      rewrite <- (map_map hourly Fin).
      assert (E8 : exists l8, line (map (fun i => Fin (mean (chainage dx) i)) (seq 0 n)) (map Fin (map hourly q)) = Ok l8 /\
         drawn l8 n (mean (chainage dx)) (fun i => hourly (at_ q i))).
      { destruct (line_seq (mean (chainage dx)) (fun i => hourly (at_ q i)) n) as (l8 & E8 & D8).
        exists l8. split; auto. rewrite <- E8. f_equal. rewrite (as_seq q) at 1. rewrite !map_map, Hq1. fold n. reflexivity. }
      destruct E8 as (l8 & E8 & D8). rewrite E8. cbn [bind]. rewrite HL. cbn [bind].
      destruct q as [|q0 q']; [congruence|]. change (map hourly (q0 :: q')) with (hourly q0 :: map hourly q'). rewrite nanmax_fin. cbn [bind].
      rewrite xofZ, pymax_fin, xq, PRate.xmul, x0, ylim_fin. cbn [bind].
      set (m := fold_left Rmax _ _). eexists. split; [reflexivity|]. cbn [lsBed lsWater lsEnergy lsWidth lsFlow lsVel lsFr lsQs lsQsLim lsFlowLim].
      repeat (split; [assumption|]). split; [|exact (ex_intro _ lo (ex_intro _ hi (conj eq_refl (conj HL0 HB))))].
      exists l8. eexists. split; [reflexivity|]. split; [assumption|]. split; [reflexivity|].
      pose proof (Rmax_l m 50). pose proof (Rmax_r m 50). pose proof (fold_Rmax (map hourly q') (hourly q0)) as [A1 A2]. fold m in A1, A2.
      split; [lra|]. constructor; [lra|]. apply Forall_forall. intros x Hx. assert (hourly x <= m) by (apply A2, in_map; auto). lra.
    - cbn [bind]. rewrite HL. cbn [bind]. eexists. split; [reflexivity|]. cbn [lsBed lsWater lsEnergy lsWidth lsFlow lsVel lsFr lsQs lsQsLim lsFlowLim].
      repeat (split; [assumption|]). split; [|exact (ex_intro _ lo (ex_intro _ hi (conj eq_refl (conj HL0 HB))))]. auto.
  Qed.
End Long.

Lemma chainage_S dx : forall i, (i < length dx)%nat -> chainage dx (S i) = chainage dx i + at_ dx i.
Proof.
  induction dx as [|d r IH]; intros i H; [cbn in H; lia|]. destruct i.
  - unfold at_. cbn. lra.
  - change (chainage (d :: r) (S (S i))) with (d + chainage r (S i)). change (chainage (d :: r) (S i)) with (d + chainage r i).
    rewrite IH by (cbn in H; lia). unfold at_. cbn [nth]. lra.
Qed.
Lemma chainage_steps dx : chainage dx 0 = 0 /\ (forall i, (i < length dx)%nat -> chainage dx (S i) - chainage dx i = at_ dx i) /\
  (Forall (fun d => 0 < d) dx -> forall i j, (i < j <= length dx)%nat -> chainage dx i < chainage dx j).
Proof.
  split; [reflexivity|]. split; [intros i H; rewrite chainage_S by auto; lra|]. intros HP i j [H1 H2]. induction j as [|j IH]; [lia|].
  rewrite chainage_S by lia. assert (0 < at_ dx j). { apply (proj1 (Forall_forall _ dx) HP). apply nth_In. lia. }
  destruct (Nat.eq_dec i j) as [->|N]; [lra|]. specialize (IH ltac:(lia) ltac:(lia)). lra.
Qed.

Lemma nth_at l i : (i < length l)%nat -> nth_error (map Fin l) i = Some (Fin (at_ l i)).
Proof. intros H. rewrite nth_error_map, (nth_error_nth' l 0 H). reflexivity. Qed.
