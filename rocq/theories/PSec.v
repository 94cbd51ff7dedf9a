(** For how long the bed is moved in one update. *)
From Coq Require Import ZArith List Bool Lia Reals Lra.
From Verif Require Import Base Num Xr MState MCoast MRiv MMor SMor SAdapt PCoast PLag PCore PAdapt PRate PBudget PShore PRateEx PCap PCapEx.
Import ListNotations.

Lemma split_seconds ns : exists day f, (ns = (day * 86400 + seconds ns) * 1000000000 + f /\ 0 <= seconds ns < 86400 /\ 0 <= f < 1000000000)%Z.
Proof.
  exists (ns / 1000000000 / 86400)%Z, (ns mod 1000000000)%Z. unfold seconds.
  pose proof (Z.div_mod ns 1000000000 ltac:(lia)). pose proof (Z.div_mod (ns / 1000000000) 86400 ltac:(lia)).
  pose proof (Z.mod_pos_bound ns 1000000000 ltac:(lia)). pose proof (Z.mod_pos_bound (ns / 1000000000) 86400 ltac:(lia)). lia.
Qed.
Lemma seconds_sec m : (0 <= m < 86400)%Z -> seconds (sec m) = m.
Proof. intros H. unfold seconds, sec. rewrite Z.div_mul by lia. now apply Z.mod_small. Qed.

Lemma whole_seconds {F} {NF : Num F} fuel (P : phys F) N TP T e0 e1 W Zend RiverElev online outlet LagoonWL OutletDep CW CD fl (closed : bool) LST q CST OW dt0 a :
  morApply fuel P N TP T e0 e1 W Zend RiverElev online outlet LagoonWL OutletDep CW CD fl closed LST q CST OW dt0 = Ok a ->
  exists day n f RR, (aDt a = (day * 86400 + n) * 1000000000 + f /\ 0 <= n < 86400 /\ 0 <= f < 1000000000)%Z /\
    ratesFor P (nDx N) T e0 e1 W Zend online outlet CW CD fl closed LST q CST OW = Ok RR /\
    forall m, tMorDtMin TP = sec m -> (0 <= m < 86400)%Z -> (m < n)%Z ->
    (forall z zs, RiverElev = z :: zs -> length (rRiv RR) = length zs /\ aRiver a = z :: map2 (fun z r => z + r * fofZ n)%n zs (rRiv RR)) /\
    (closed = false -> aE1 a = (e1 + rMove RR * fofZ n)%n /\ aW a = (W + rWiden RR * fofZ n)%n /\ aZ a = (Zend + rAgg RR * fofZ n)%n) /\
    (closed = true -> forall i t r, nth_error T i = Some t -> nth_error (rT RR) i = Some r ->
       let s := fofZ n in nth_error (aT a) i =
       Some (mkT (tX t) (tY0 t + rY0 r * s) (tY1 t + rY1 r * s) (tY2 t + rY2 r * s) (tY3 t + rY3 r * s) (tY4 t + rY4 r * s)
                 (tZ0 t + rZ0 r * s) (tZ1 t + rZ1 r * s) (tZ2 t + rZ2 r * s) (tZ3 t + rZ3 r * s))%n).
Proof.
  intros H. destruct (apply_inv _ _ _ _ _ _ _ _ _ _ _ _ _ _ _ _ _ _ _ _ _ _ _ _ H) as (rbq & RR & rate & R' & A1 & A2 & A3 & A4 & A5 & A6 & A7 & A8).
  destruct (split_seconds (aDt a)) as (day & f & S). exists day, (seconds (aDt a)), f, RR. split; [exact S|]. split; [exact A2|].
  intros m Hm Bm Lm.
  assert (R' = RR) as ->.
  { unfold limitRates in A5. destruct (_ <? _)%n; [|apply Ok_inj in A5; auto]. exfalso. rewrite Hm, (seconds_sec m Bm) in A5.
    bok A5 u. apply assert_ok in Eu. apply Z.leb_le in Eu. lia. }
  split; [|split].
  - intros z zs ->. unfold applyRiver in A6. destruct (Nat.eqb _ _) eqn:E; [|discriminate]. apply Nat.eqb_eq in E. apply Ok_inj in A6. auto.
  - intros ->. exact A8.
  - intros ->. subst rbq. intros i t r Ht Hr. cbv zeta. rewrite A7, nth_error_map2, Ht, Hr. reflexivity.
Qed.

Local Open Scope R_scope.
(** Fifteen seconds halved: the bed of the river rises for 7 of the 7.5 seconds. *)
Lemma halved_case : exists cap a r, 0 <= cap /\ 0 < r /\ aDt a = 7500000000%Z /\ aRiver a = [Fin 5; Fin (4 + r * 7)] /\
  (exists RR, ratesFor (exP 40) (Fin 20) exT (Fin 0) (Fin 10) (Fin 10) (Fin 0) [2; 3]%nat [3]%nat exCW exCD exFl false (map Fin exLst) (map Fin exQ) (map Fin exCst) exOw = Ok RR /\ rRiv RR = [Fin r]) /\
  morApply 10 (exP 40) (slowNum cap) slowTP exT (Fin 0) (Fin 10) (Fin 10) (Fin 0) (map Fin [5; 4]) [2; 3]%nat [3]%nat capWL capWL exCW exCD exFl false
    (map Fin exLst) (map Fin exQ) (map Fin exCst) exOw (sec 15) = Ok a.
Proof.
  assert (Hs : 40 <> 0) by lra. destruct (exRates 40 exLst exQ exCst eq_refl) as (RR & HR); try reflexivity.
  pose proof (exSound 40 false Hs) as SI. change 6%nat with (length exQ) in SI.
  pose proof (rates_finite _ _ _ _ _ _ _ _ _ _ _ _ _ _ _ _ _ _ SI HR) as FR.
  pose proof (real _ _ _ _ _ _ _ _ _ _ _ _ _ _ _ _ _ _ SI HR) as G.
  pose proof (rf_len _ _ _ _ _ _ _ _ _ _ _ _ _ _ _ _ _ _ G) as LT.
  pose proof (rf_riv _ _ _ _ _ _ _ _ _ _ _ _ _ _ _ _ _ _ G) as RV. change (flagged false exFl 0) with [1%nat] in RV. cbn [map] in RV.
  assert (exists m, maxRate RR = Ok m) as (m & Hm).
  { unfold maxRate. rewrite RV. cbn [map fmaxl bind]. destruct (rT RR) as [|r rs]; [discriminate|]. cbn [map concat rowMax rowMaxZ app fmaxl bind]. eexists. reflexivity. }
  destruct (max_bound _ _ FR Hm) as (M & -> & HB).
  assert (exists r, 0 < r /\ rRiv RR = [Fin r]) as (r & R0 & RV').
  { rewrite RV. eexists. split; [|reflexivity]. unfold gain, exQ. cbn. lra. }
  assert (r <= M).
  { destruct HB as (HB & _). rewrite RV' in HB. inversion HB as [|x l (v & E & B)]. subst. injection E as <-. rewrite Rabs_right in B by lra. exact B. }
  set (cap := M * 7). exists cap.
  assert (C15 : Rltb cap (M * 15) = true) by (apply Rltb_true; unfold cap; lra).
  assert (C7 : Rltb cap (M * 7) = false) by (apply Rltb_false; unfold cap; lra).
  assert (C2 : Rltb (M * 7) (cap / 2) = false) by (apply Rltb_false; unfold cap; lra).
  pose proof HR as HR2.
  unfold ratesFor in HR. rewrite (proj1 (firstRight_Rb _ _ _) exRight) in HR. cbn [bind prevIx] in HR. unfold ix in HR. rewrite nth_error_map in HR.
  cbn [nth_error exLst option_map of_opt bind] in HR.
  assert (EA : adaptStep 10 (slowNum cap) slowTP (Fin M) (sec 15) = Ok 7500000000%Z).
  { unfold adaptStep. cbn [adaptDown]. change (nMaxMorChange (slowNum cap) <? Fin M * fofZ (seconds (sec 15)))%n with (Rltb cap (M * 15)). rewrite C15.
    change ((seconds (tMorDtMin slowTP) <? seconds (sec 15))%Z && true) with true. cbv iota.
    change (nMaxMorChange (slowNum cap) <? Fin M * fofZ (seconds (sec 15 / 2)))%n with (Rltb cap (M * 7)). rewrite C7, andb_false_r. cbn [bind].
    change (sec 15 / 2)%Z with 7500000000%Z. cbn [adaptUp].
    replace (Fin M * fofZ (seconds 7500000000) <? nMaxMorChange (slowNum cap) / f2)%n with (Rltb (M * 7) (cap / 2)).
    2:{ change (nMaxMorChange (slowNum cap)) with (Fin cap). change (@f2 xr xr_num) with (Fin 2). cbn [fdiv xr_num]. rewrite xdiv_fin by lra. reflexivity. }
    rewrite C2, andb_false_r. reflexivity. }
  destruct cap_wl as (wl & HW). eexists. exists r. split; [unfold cap; lra|]. split; [exact R0|].
  assert (forall A B C D : Prop, D -> (D -> A /\ B /\ C) -> A /\ B /\ C /\ D) as K by tauto. apply K; clear K.
  - unfold morApply. rewrite cap_x0. cbn [bind]. rewrite (proj1 (firstRight_Rb _ _ _) exRight). cbn [bind prevIx]. unfold ix. rewrite nth_error_map.
    cbn [nth_error exLst option_map of_opt bind]. rewrite HW. cbn [bind]. rewrite cap_crest. cbn [assert_ bind].
    change (nDx (slowNum cap)) with (Fin 20). rewrite HR. cbn [bind]. rewrite Hm. cbn [bind]. rewrite EA. cbn [bind].
    unfold limitRates. change (nMaxMorChange (slowNum cap) <? Fin M * fofZ (seconds 7500000000))%n with (Rltb cap (M * 7)). rewrite C7. cbn [bind].
    unfold applyRiver. cbn [map]. rewrite RV'. cbn [length Nat.eqb bind]. reflexivity.
  - intros _. split; [reflexivity|]. split; [reflexivity|]. exists RR. split; [exact HR2|exact RV'].
Qed.
Lemma elapsed_refuted : ~ (forall fuel (P : phys xr) N TP T e0 e1 W Zend z zs online outlet LagoonWL OutletDep CW CD fl (closed : bool) LST q CST OW dt0 a m RR,
  morApply fuel P N TP T e0 e1 W Zend (z :: zs) online outlet LagoonWL OutletDep CW CD fl closed LST q CST OW dt0 = Ok a ->
  tMorDtMin TP = sec m -> (0 <= m)%Z -> (sec m < aDt a < oneDay)%Z ->
  ratesFor P (nDx N) T e0 e1 W Zend online outlet CW CD fl closed LST q CST OW = Ok RR ->
  aRiver a = z :: map2 (fun z r => z + r * Fin (IZR (aDt a) / 1000000000))%n zs (rRiv RR)).
Proof.
  intros H. destruct halved_case as (cap & a & r & C0 & R0 & D & E & (RR & HR & RV) & HA).
  specialize (H _ _ _ _ _ _ _ _ _ _ _ _ _ _ _ _ _ _ _ _ _ _ _ _ a 5%Z RR HA eq_refl).
  rewrite E, D, RV in H. cbn [map2] in H.
  assert (K : [Fin 5; Fin (4 + r * 7)] = [Fin 5; Fin (4 + r * (IZR 7500000000 / 1000000000))]) by (apply H; [lia|split; reflexivity|exact HR]).
  injection K as K. lra.
Qed.
Lemma halved_example : exists cap a, aDt a = 7500000000%Z /\
  morApply 10 (exP 40) (slowNum cap) slowTP exT (Fin 0) (Fin 10) (Fin 10) (Fin 0) (map Fin [5; 4]) [2; 3]%nat [3]%nat capWL capWL exCW exCD exFl false
    (map Fin exLst) (map Fin exQ) (map Fin exCst) exOw (sec 15) = Ok a /\ tMorDtMin slowTP = sec 5.
Proof. destruct halved_case as (cap & a & r & _ & _ & D & _ & _ & HA). exists cap, a. auto. Qed.
