(** A quiet update of a small coast, and sediment made by the movement. *)
From Coq Require Import ZArith List Bool Lia Reals Lra.
From Verif Require Import Base Num Xr XEval MState MCoast MRiv MMor SMor SPost SVol SAdapt PCoast PGeom PLag PCore PFill PRate PBudget PShore PRateEx PCap PPost PTrunc PBreach PBreach2 PUpdate PUpdate2 PCapEx PPostEx PVol PQuiet.
Import ListNotations.
Local Open Scope R_scope.

Definition pushRow : trate xr := mkR (Fin 0.01) (Fin 0) (Fin 0) (Fin 0) (Fin 0) (Fin 0) (Fin 0) (Fin 0) (Fin 0.00025).
Definition pushRates : rates xr := mkRates [Fin 0.005] [zeroRow; pushRow; zeroRow; zeroRow] (Fin 0) (Fin 0) (Fin 0).
Definition pushCoast : list (tsect xr) :=
  [bare (-1) 0; mkT (Fin 0) (Fin 0.15) NaN NaN (Fin (-30)) (Fin (-50)) (Fin 3) NaN NaN (Fin (-1 + 0.00375)); bare 1 0; bare 2 0].
Definition pushNum : nump xr := slowNum 0.25.
Lemma push_rates : changeRates restP (Fin 20) (exCoast 0) NaN (Fin 1) (Fin 5) (Fin 0) [1]%nat [] [Fin 5; Fin 5; Fin 5] [Fin 1; Fin 1; Fin 1] [0;0;1]%nat None
   [Fin 0.8; Fin 0; Fin 0] [Fin 0.2; Fin 0.1] [Fin 0; Fin 0; Fin 0; Fin 0] [false;false;false;false] = Ok pushRates.
Proof.
  cbv beta zeta delta [changeRates]. repeat onbind; xev. unfold pushRates, zeroRow, pushRow.
  repeat match goal with |- Fin _ = Fin _ => apply (f_equal Fin); lra | |- ?x = ?x => reflexivity | |- _ => f_equal end.
Qed.
Lemma push_apply : morApply 10 restP pushNum slowTP (exCoast 0) NaN (Fin 1) (Fin 5) (Fin 0) [Fin 1; Fin 1] [1]%nat [] [Fin 2; Fin 2; Fin 2; Fin 2] [] [Fin 5; Fin 5; Fin 5] [Fin 1; Fin 1; Fin 1] [0;0;1]%nat true
   (map Fin [0.8; 0; 0]) (map Fin [0.2; 0.1]) (map Fin [0; 0; 0; 0]) [false;false;false;false] (sec 15) =
   Ok (mkApp pushCoast (Fin 1) (Fin 5) (Fin 0) [Fin 1; Fin 1.075] (sec 15) [Fin 2; Fin 2; Fin 2; Fin 2] 1).
Proof.
  unfold morApply. cbn [map]. do 3 onbind. match goal with |- bind ?r _ = _ => assert (EC : r = Ok pushRates) by exact push_rates; rewrite EC end. cbn [bind]. cbv zeta.
  assert (EM : maxRate pushRates = Ok (Fin 0.01)).
  { unfold maxRate, pushRates, zeroRow, pushRow. cbn [rRiv rT rWiden rAgg rMove]. unfold rowMax, rowMaxZ. cbn [map rY0 rY1 rY2 rY3 rY4 rZ0 rZ1 rZ2 rZ3]. rewrite !PRate.xabs, Rabs_R0, !Rabs_pos_eq by lra.
    cbn [concat app fmaxl bind fold_left]. rewrite !xmax.
    repeat first [rewrite (Rmax_left 0 0) by lra | rewrite (Rmax_right 0 0.01) by lra | rewrite (Rmax_left 0.01 0) by lra | rewrite (Rmax_right 0 0.00025) by lra | rewrite (Rmax_left 0.00025 0) by lra].
    rewrite !pymax_fin.
    repeat first [rewrite (Rmax_right 0.005 0.01) by lra | rewrite (Rmax_left 0.01 0.00025) by lra | rewrite (Rmax_left 0.01 0) by lra]. reflexivity. }
  rewrite EM. cbn [bind].
  assert (EA : adaptStep 10 pushNum slowTP (Fin 0.01) (sec 15) = Ok (sec 15)).
  { unfold adaptStep, adaptDown, adaptUp. change (nMaxMorChange pushNum) with (Fin 0.25). change (fofZ (seconds (sec 15))) with (Fin 15). rewrite PRate.xmul, xlt.
    replace (Rltb 0.25 (0.01 * 15)) with false by (symmetry; apply Rltb_false; lra). rewrite andb_false_r. cbn [bind].
    change (seconds (sec 15) <? seconds (tMorDtMax slowTP))%Z with false. reflexivity. }
  rewrite EA. cbn [bind].
  assert (EL : limitRates pushNum slowTP (Fin 0.01) (sec 15) pushRates = Ok pushRates).
  { unfold limitRates. change (nMaxMorChange pushNum) with (Fin 0.25). change (fofZ (seconds (sec 15))) with (Fin 15). rewrite PRate.xmul, xlt.
    replace (Rltb 0.25 (0.01 * 15)) with false by (symmetry; apply Rltb_false; lra). reflexivity. }
  rewrite EL. cbn [bind]. change (fofZ (seconds (sec 15))) with (Fin 15).
  assert (ER : applyRiver (Fin 15) [Fin 1; Fin 1] (rRiv pushRates) = Ok [Fin 1; Fin 1.075]).
  { unfold applyRiver, pushRates. cbn [rRiv length Nat.eqb map2]. rewrite PRate.xmul, PRate.xadd. do 4 f_equal. lra. }
  rewrite ER. cbn [bind]. unfold exCoast, pushRates, pushCoast. cbn [rT map2]. rewrite !still_row. do 4 f_equal.
  unfold applyRow, bare, pushRow. cbn [rY0 rY1 rY2 rY3 rY4 rZ0 rZ1 rZ2 rZ3 tX tY0 tY1 tY2 tY3 tY4 tZ0 tZ1 tZ2 tZ3]. rewrite !PRate.xmul, !xadd_nan_l, !PRate.xadd.
  f_equal; f_equal; lra.
Qed.
Lemma push_correct : morCorrect restP (nDx pushNum) (exCoast 0) pushCoast NaN (Fin 1) (Fin 5) (Fin 0) [] true = Ok (pushCoast, [false; false; false; false], NaN, Fin 1, []).
Proof. unfold morCorrect. xrun. Qed.
Lemma push_breach : exists e0' br, morBreach restP yes yes (exCoast 0) pushCoast [false; false; false; false] 1 NaN (Fin 1) (Fin 5) (Fin 0) [] true [Fin 2; Fin 2; Fin 2; Fin 2] = Ok (pushCoast, e0', Fin 1, Fin 5, Fin 0, br).
Proof. do 2 eexists. unfold morBreach; cbv zeta; xrun. Qed.
Lemma push_update : exists o, updateMorphology 10 yes yes restP pushNum slowTP (exCoast 0) NaN (Fin 1) (Fin 5) (Fin 0) [Fin 1; Fin 1] [1]%nat [] [Fin 2; Fin 2; Fin 2; Fin 2] [] [Fin 5; Fin 5; Fin 5] [Fin 1; Fin 1; Fin 1] [0;0;1]%nat true
   (map Fin [0.8; 0; 0]) (map Fin [0.2; 0.1]) (map Fin [0; 0; 0; 0]) [false;false;false;false] (sec 15) = Ok o /\ oT o = pushCoast.
Proof.
  destruct push_breach as (e & br & EB). eexists. split.
  - unfold updateMorphology. rewrite push_apply. cbn [bind aT aE1 aW aZ aX0 aWL aRiver aDt]. rewrite push_correct. cbn [bind]. rewrite EB. reflexivity.
  - reflexivity.
Qed.
Lemma push_calm : calm restP yes yes (exCoast 0) pushCoast NaN (Fin 1) [] true [Fin 2; Fin 2; Fin 2; Fin 2] [].
Proof.
  split; [|split; [reflexivity|split; [|split; [discriminate|split; [|split]]]]].
  - unfold pushCoast. repeat (apply Forall_cons; [|]); try apply Forall_nil;
      (split; [eexists; reflexivity|split; [eexists; reflexivity|split; [eexists; reflexivity|split; [eexists; reflexivity|split; [cbn; lra|split; [right; cbn; lra|reflexivity]]]]]]).
  - split; intros t Ht; injection Ht as <-; do 2 eexists; (split; [reflexivity|split; [reflexivity|lra]]).
  - exists 2. split; [lra|]. split; [|split].
    + intros i t w _ Hw _. exists 2. split; [|lra]. destruct i as [|[|[|[|i]]]]; cbn in Hw; try (injection Hw as <-; reflexivity). destruct i; discriminate.
    + discriminate.
    + intros g Hg. unfold pushCoast in Hg. cbn [In] in Hg. repeat destruct Hg as [<-|Hg]; cbn; try lra.
  - split; reflexivity.
  - intros g Hg Hx. split; [eexists; reflexivity|]. unfold pushCoast in Hg. cbn [In] in Hg. repeat destruct Hg as [<-|Hg]; cbn; try lra.
Qed.
Lemma push_sound : soundInputs restP 20 (exCoast 0) (Fin 1) (Fin 5) (Fin 0) [1]%nat [] [Fin 5; Fin 5; Fin 5] [Fin 1; Fin 1; Fin 1] [0;0;1]%nat true 2.
Proof.
  assert (B : forall x, soundT restP (bare x 0)).
  { intros x. unfold soundT. change (outletPresent (bare x 0)) with false. unfold crest, rear. change (outletPresent (bare x 0)) with false.
    cbn [bare tX tY0 tY1 tY2 tY3 tY4 tZ0 tZ1 tZ2 tZ3 pClosureDepth restP]. rewrite !xsub. cbn [rv]. repeat split; try (eexists; reflexivity); try discriminate; lra. }
  split; [|split; [lra|split; [unfold exCoast; repeat (apply Forall_cons; [apply B|]); apply Forall_nil|split; [eexists; reflexivity|split; [|split; [repeat constructor; cbn; intuition congruence|split; [constructor|split; [|split; [discriminate|repeat split]]]]]]]]].
  - unfold soundPars. repeat split; try (eexists; reflexivity); eexists; (split; [reflexivity|lra]).
  - split; eexists; (split; [reflexivity|cbn; lra]).
  - intros i t [<-|[]] Ht. injection Ht as <-. unfold soundLagoon, bankTop. change (outletPresent (bare 0 0)) with false. cbn. repeat split; lra.
Qed.
Lemma push_case :
  nDx pushNum = Fin 20 /\ is_fin (nMaxMorChange pushNum) /\ 0 <= rv (nMaxMorChange pushNum) /\
  soundInputs restP 20 (exCoast 0) (Fin 1) (Fin 5) (Fin 0) [1]%nat [] [Fin 5; Fin 5; Fin 5] [Fin 1; Fin 1; Fin 1] [0;0;1]%nat true (length [0.2; 0.1]) /\
  exists o a,
  updateMorphology 10 yes yes restP pushNum slowTP (exCoast 0) NaN (Fin 1) (Fin 5) (Fin 0) [Fin 1; Fin 1] [1]%nat [] [Fin 2; Fin 2; Fin 2; Fin 2] [] [Fin 5; Fin 5; Fin 5] [Fin 1; Fin 1; Fin 1] [0;0;1]%nat true
    (map Fin [0.8; 0; 0]) (map Fin [0.2; 0.1]) (map Fin [0; 0; 0; 0]) [false;false;false;false] (sec 15) = Ok o /\
  morApply 10 restP pushNum slowTP (exCoast 0) NaN (Fin 1) (Fin 5) (Fin 0) [Fin 1; Fin 1] [1]%nat [] [Fin 2; Fin 2; Fin 2; Fin 2] [] [Fin 5; Fin 5; Fin 5] [Fin 1; Fin 1; Fin 1] [0;0;1]%nat true
    (map Fin [0.8; 0; 0]) (map Fin [0.2; 0.1]) (map Fin [0; 0; 0; 0]) [false;false;false;false] (sec 15) = Ok a /\
  calm restP yes yes (exCoast 0) (aT a) NaN (aE1 a) [] true [Fin 2; Fin 2; Fin 2; Fin 2] [] /\
  (seconds (tMorDtMin slowTP) < seconds (aDt a))%Z /\ oT o <> exCoast 0 /\
  (forall j, In j (seq 1 (length [0;0;1]%nat - 1)) -> (nth j [0;0;1]%nat 9 <= 1)%nat).
Proof.
  split; [reflexivity|]. split; [eexists; reflexivity|]. split; [cbn; lra|]. split; [exact push_sound|].
  destruct push_update as (o & E1 & E2). exists o. eexists. split; [exact E1|]. split; [exact push_apply|]. cbn [aT aE1 aDt]. split; [exact push_calm|].
  split; [vm_compute; reflexivity|]. split.
  - rewrite E2. intros H. apply (f_equal (fun T => match T with _ :: t :: _ => rv (tY0 t) | _ => 0 end)) in H. cbn in H. lra.
  - cbn. intros j [<-|[<-|[]]]; cbn; lia.
Qed.

(** Drift from right to left past an open outlet: the bank gains it, nothing loses it. *)
Lemma made_refuted :
  ~ (forall P d T e0 e1 W Zend online outlet CW CD fl (closed : bool) (l q c : list R) OW RR s k,
      soundInputs P d T e1 W Zend online outlet CW CD fl closed (length q) ->
      ratesFor P (Fin d) T e0 e1 W Zend online outlet CW CD fl closed (map Fin l) (map Fin q) (map Fin c) OW = Ok RR ->
      (closed = false -> firstRight T e1 (S k)) ->
      (forall j, In j (seq 1 (length fl - (if closed then 1 else 2))) -> (nth j fl 9 <= (if closed then 1 else 3))%nat) -> 0 < s ->
      volume P d (map2 (shifted s) T (rT RR)) - volume P d T + s * (riverGain P d RR + (if closed then 0 else endGain P d W Zend RR)) =
      s * (nth 0 q 0 - (if closed then 0 else nth (length q - 1) q 0) + (nth 0 l 0 - nth (length l - 1) l 0) + endsGain P d c T
           + (if closed then 0 else landed P d (nth (length q - 1) q 0) e1 T))).
Proof.
  intros H. destruct budget_example as (SI & HR & HF & _). set (l := [0; 0; 0; -5; 0; 0]).
  destruct (exRates 40 l exQ exCst) as (RR & E); try reflexivity.
  pose proof (fun s => balance (exP 40) 20 exT (Fin 0) (Fin 10) (Fin 10) (Fin 0) [2; 3]%nat [3]%nat exCW exCD exFl false l exQ exCst exOw RR SI E s 3 (fun _ => HR) HF) as B.
  pose proof (H (exP 40) 20 exT (Fin 0) (Fin 10) (Fin 10) (Fin 0) [2; 3]%nat [3]%nat exCW exCD exFl false l exQ exCst exOw RR 1 3%nat SI E (fun _ => HR) HF ltac:(lra)) as H1.
  pose proof (H (exP 40) 20 exT (Fin 0) (Fin 10) (Fin 10) (Fin 0) [2; 3]%nat [3]%nat exCW exCD exFl false l exQ exCst exOw RR 2 3%nat SI E (fun _ => HR) HF ltac:(lra)) as H2.
  pose proof (B 1) as B1. pose proof (B 2) as B2. cbv beta iota in H1, H2, B1, B2. rewrite B1 in H1. rewrite B2 in H2.
  assert (K : Rabs (nth 3 l 0) - (if (5 <? length exT)%nat then Rmax (nth 3 l 0) 0 else 0) = 5).
  { change (5 <? length exT)%nat with true. cbv iota. change (nth 3 l 0) with (-5). rewrite Rabs_left, Rmax_right by lra. lra. }
  set (u := landed _ _ _ _ _) in *. set (m := Rabs _) in *. set (y := if (5 <? _)%nat then _ else _) in *. set (x := crossed _ _ _) in *. lra.
Qed.
