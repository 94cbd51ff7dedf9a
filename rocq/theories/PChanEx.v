(** Concrete channels for riv.py assembleChannel. *)
From Coq Require Import Reals ZArith List Bool Lia Lra.
From Verif Require Import Base Num Xr MState MRiv SChan PCoast PChan PLag PFill PStore XEval.
Import ListNotations.
Local Open Scope R_scope.

(** Lagoon 20, 30, 40, 50, 60 wide at X = -1 .. 3, outlet channel 10 wide at X = 0, 1, 2. *)
Definition tr (x w l : R) : tsect xr :=
  mkT (Fin x) (Fin 200) (Fin (100 + w)) (Fin 100) (Fin l) (Fin 0) (Fin 3) (Fin 0) (Fin 4) (Fin 1).
Definition exT : list (tsect xr) := [tr (-1) 0 20; tr 0 10 30; tr 1 10 40; tr 2 10 50; tr 3 0 60].
Definition exAsm (e0 e1 : R) (closed : bool) :=
  assembleChannel exT (Fin e0) (Fin e1) (Fin 5) (Fin 0) closed [Fin 2; Fin 2] [Fin 1; Fin 1] [Fin 1; Fin 1]
    (map Fin [2; 2; 2; 2; 2]) (map Fin [1; 1; 1; 1; 1]) (map Fin [1; 1; 1; 1; 1]) [NaN; Fin 1; NaN; Fin 1; Fin 1]
    [Fin 1] [Fin 1] (Fin 1) ones.

Lemma exT_grid : grid exT.
Proof.
  split.
  - unfold exT, tr. repeat constructor; cbn; eexists; reflexivity.
  - intros i j x y Hij Hx Hy. unfold exT in *. cbn [map] in *.
    do 5 (destruct i as [|i]; [cbn in Hx; apply Some_inj in Hx; do 5 (destruct j as [|j]; [cbn in Hy; try apply Some_inj in Hy; try lia; subst; cbn; lra|]); destruct j; discriminate|]).
    destruct i; discriminate.
Qed.

Ltac exrun := eexists; split; [unfold exAsm, assembleChannel; xrun|split; reflexivity].

Lemma ex_open : exists ch, exAsm 2 2 false = Ok ch /\ chOnline ch = [1; 2]%nat /\ chClosed ch = false. Proof. exrun. Qed.
Lemma ex_shut : exists ch, exAsm 2 2 true = Ok ch /\ chOnline ch = [1; 2; 3; 4]%nat /\ chClosed ch = true. Proof. exrun. Qed.
Lemma ex_single : exists ch, exAsm (1/2) 1 false = Ok ch /\ chOnline ch = [1]%nat /\ chClosed ch = false. Proof. exrun. Qed.
Lemma ex_inline : exists ch, exAsm 0 0 false = Ok ch /\ chOnline ch = [1]%nat /\ chClosed ch = false. Proof. exrun. Qed.
Lemma ex_notshut e0 e1 ch : exAsm e0 e1 false = Ok ch -> chClosed ch = false -> ~ shutAtOutlet exT e0 e1 (Fin 5) false (pMinOutletWidth ones).
Proof.
  intros H Hc Hs. assert (C : chClosed ch = true).
  { eapply (closure exT exT_grid); [exact H|]. unfold shutAtOutlet in Hs. tauto. }
  congruence.
Qed.
Lemma exT_wet t : In t exT -> 0 <= lagW t.
Proof. unfold exT. cbn [In]. intros [<-|[<-|[<-|[<-|[<-|[]]]]]]; unfold lagW, tr; cbn [tY3 tY4 rv]; lra. Qed.

Lemma storage_examples :
  grid exT /\ (forall t, In t exT -> 0 <= lagW t) /\
  (exists ch, exAsm 2 2 false = Ok ch /\ (2 <= length (chOnline ch))%nat /\
  ~ shutAtOutlet exT 2 2 (Fin 5) false (pMinOutletWidth ones)) /\
  (exists ch, exAsm 2 2 true = Ok ch /\ (2 <= length (chOnline ch))%nat /\
  shutAtOutlet exT 2 2 (Fin 5) true (pMinOutletWidth ones)) /\
  (exists ch, exAsm (1/2) 1 false = Ok ch /\ length (chOnline ch) = 1%nat /\
  ~ shutAtOutlet exT (1/2) 1 (Fin 5) false (pMinOutletWidth ones)) /\
  (exists ch, exAsm 0 0 false = Ok ch /\ ~ shutAtOutlet exT 0 0 (Fin 5) false (pMinOutletWidth ones)).
Proof.
  split; [apply exT_grid|]. split; [apply exT_wet|].
  split; [|split; [|split]].
  - destruct ex_open as (ch & H1 & H2 & H3). exists ch. split; [auto|]. split; [rewrite H2; cbn; auto|]. eapply ex_notshut; eauto.
  - destruct ex_shut as (ch & H1 & H2 & H3). exists ch. split; [auto|]. split; [rewrite H2; cbn; auto|]. left. reflexivity.
  - destruct ex_single as (ch & H1 & H2 & H3). exists ch. split; [auto|]. split; [rewrite H2; cbn; auto|]. eapply ex_notshut; eauto.
  - destruct ex_inline as (ch & H1 & H2 & H3). exists ch. split; [auto|]. eapply ex_notshut; eauto.
Qed.

Lemma conserved_refuted :
  ~ (forall T e0 e1 d eW eElev Closed RE RD RV LW LV OD OV ED EV (P : phys xr) ch,
       grid T -> (forall t, In t T -> 0 <= lagW t) ->
       assembleChannel T (Fin e0) (Fin e1) eW eElev Closed RE RD RV LW LV OD OV ED EV (Fin d) P = Ok ch ->
       areaOn d T (chOnline ch) + total (chLagArea ch) = areaWhere d (fun _ => true) T).
Proof.
  intros H. destruct ex_inline as (ch & H1 & H2 & H3).
  pose proof (ex_notshut _ _ _ H1 H3) as Hn. unfold exAsm in H1.
  specialize (H _ _ _ _ _ _ _ _ _ _ _ _ _ _ _ _ _ _ exT_grid exT_wet H1).
  destruct (total_inline _ exT_grid _ _ _ _ _ _ _ _ _ _ _ _ _ _ _ _ _ H1 Hn eq_refl) as (_ & E & _).
  rewrite E, H2 in H. unfold areaOn, areaWhere, exT, tr, posX, lagW in H. cbn [map fold_right nth_error tX tY3 tY4 rv] in H.
  assert (G1 : Rltb 0 (-1) = false) by (apply Rltb_false; lra). assert (G2 : Rltb 0 0 = false) by (apply Rltb_false; lra).
  assert (G3 : Rltb 0 1 = true) by (apply Rltb_true; lra). assert (G4 : Rltb 0 2 = true) by (apply Rltb_true; lra).
  assert (G5 : Rltb 0 3 = true) by (apply Rltb_true; lra). rewrite G1, G2, G3, G4, G5 in H. lra.
Qed.

Lemma ex_range : exists ch, exAsm 2 2 false = Ok ch /\ chOnline ch = [1; 2]%nat /\ chClosed ch = false /\
  forall raw, rawDepths exT (chClosed ch) [Fin 1; Fin 1] (map Fin [2; 2; 2; 2; 2]) (map Fin [1; 1; 1; 1; 1]) [Fin 1]
                        (chOnline ch) (chOutlet ch) raw ->
  forall i y, present raw i y -> exists r, y = Fin r /\ 1 <= r <= 1.
Proof.
  eexists. split; [unfold exAsm, assembleChannel; xrun|]. split; [reflexivity|]. split; [reflexivity|].
  cbn [chClosed chOnline chOutlet]. intros raw (ts & wl & od & H1 & H2 & H3 & ->). specialize (H3 eq_refl).
  unfold lookup in *.
  inversion H1 as [|? ? ? ? A1 H1']; subst. inversion H1' as [|? ? ? ? A2 H1'']; subst. inversion H1''; subst. cbn in A1, A2.
  inversion H2 as [|? ? ? ? B1 H2']; subst. inversion H2' as [|? ? ? ? B2 H2'']; subst. inversion H2''; subst. cbn in B1, B2.
  inversion H3 as [|? ? ? ? C1 H3']; subst. inversion H3'; subst. cbn in C1.
  apply Some_inj in A1, A2, B1, B2, C1. subst.
  intros i y [Hi Hn]. unfold tr in Hi. cbn [combine map fst snd tZ3 app] in Hi.
  change (Fin 2 - Fin 1)%n with (Fin (2 - 1)) in Hi.
  do 7 (destruct i as [|i]; [cbn [nth_error] in Hi; apply Some_inj in Hi; subst y; first [discriminate Hn|eexists; split; [reflexivity|lra]]|]).
  destruct i; discriminate.
Qed.
