Set Warnings "-inexact-float".
(** A pass with a closed outlet and its mirror image; the next pass. *)
From Coq Require Import ZArith List Bool Reals Lra Lia Floats.
From Verif Require Import Base Num Xr Flt MState MCoast MRiv MMor MOut MCore SAdapt STouch SMirror PCore PMirror PMirror2 PMirror6 Sim SimEx PCoreEx PMirrorEx.
Import ListNotations.

(** ** Without outlet the lagoon is followed to the left, whatever the coast *)
Lemma arange_down_le k j i : In i (arange_down k j) -> (i <= k)%nat.
Proof. unfold arange_down. intros H. apply in_rev in H. apply in_seq in H. lia. Qed.
Lemma leftwards (T : list (tsect xr)) e1 eW eE RE RD RV LWL LVel OD OV ED EV Dx P c k t : NoDup (map tX T) -> nth_error T k = Some t -> tX t = Fin 0 ->
  assembleChannel T NaN e1 eW eE true RE RD RV LWL LVel OD OV ED EV Dx P = Ok c -> forall i, In i (chOnline c) -> (i <= k)%nat.
Proof.
  intros ND Ht X H. unfold assembleChannel in H. bok H x0. cbv zeta in H. cbn [outletPart bind] in H.
  assert (E : x0 = k).
  { unfold x0Ix in Ex0. destruct (first_where _ T) as [y|] eqn:F; [|discriminate]. apply Ok_inj in Ex0. subst y. unfold first_where in F. apply nth_error_In in F. apply where_true in F as (u & Hu & Hx).
    assert (XU : tX u = Fin 0). { destruct (tX u) as [r| | |]; try discriminate Hx. unfold feqb in Hx. cbn in Hx. apply Reqb_true in Hx. rewrite Hx. reflexivity. }
    rewrite NoDup_nth_error in ND. apply ND; [rewrite map_length; apply nth_error_Some; congruence|]. rewrite !nth_error_map, Hu, Ht. cbn [option_map]. congruence. }
  subst x0. bok H t0. bok H u1. bok H u2. bok H lp. destruct lp as [[[[on sa] sl] ea] el].
  assert (D : forall i, In i on -> (i <= k)%nat).
  { unfold lagoonPart in Elp. cbv zeta in Elp. change (NaN =? f0)%n with false in Elp. change (f0 <? NaN)%n with false in Elp. cbv iota in Elp. bok Elp j. apply Ok_inj in Elp. injection Elp as <- _ _ _ _.
    intros i Hi. eapply arange_down_le. exact Hi. }
  bok H u3. bok H lc. destruct lc as [[[on' ea'] el'] cl'].
  assert (D' : forall i, In i on' -> (i <= k)%nat).
  { unfold lagoonCut in Elc. bok Elc ts. destruct (first_where _ ts); apply Ok_inj in Elc; injection Elc as <- _ _ _; [|exact D]. intros i Hi. apply D. rewrite <- (firstn_skipn n on). apply in_or_app. left. exact Hi. }
  bok H i0. bok H il. bok H u4. bok H lts. bok H u5. bok H sh. destruct sh as [[[dx flag] elev] width]. bok H hy. destruct hy as [dep vel]. bok H dep'. bok H vel'.
  bok H u6. bok H u7. bok H u8. bok H u9. bok H u10. bok H u11. apply Ok_inj in H. subst c. exact D'.
Qed.

(** ** In doubles: a bent shoreline without outlet *)
Definition bent (s : state float) : state float :=
  mkS (map (fun t => mkT (tX t) (tY0 t + tX t * tX t / 16384)%float (tY1 t) (tY2 t) (tY3 t) (tY4 t) (tZ0 t) (tZ1 t) (tZ2 t) (tZ3 t)) (gT s)) (gE0 s) (gE1 s) 30%float (gZ s) (gRiver s) (gRDep s) (gRVel s)
      (gLWL s) (gLVel s) (gODep s) (gOVel s) (gEDep s) (gEVel s) (gClosed s) (gTime s) (gDt s) (gOutT s) (gTsT s) (gOuts s) (gTs s).
Definition shutPass : res (state float * state float) :=
  let! s := simInit vFill 0 true in
  let! a := @step float sim_num 100 (simOr 0) vFill (bent s) in
  let! b := @step float sim_num 100 (simOr 0) (@acrossSetup float sim_num vFill) (@acrossRun float sim_num (bent s)) in Ok (a, b).
Definition nextPass (r : res (state float * state float)) : res (state float * state float) :=
  let! (a, b) := r in
  let! c := @step float sim_num 100 (simOr 0) vFill a in
  let! d := @step float sim_num 100 (simOr 0) (@acrossSetup float sim_num vFill) b in Ok (c, d).
Definition coastMirrored (r : res (state float * state float)) : bool :=
  match r with
  | Ok (a, b) => forallb (fun f => sameL (map f (gT b)) (rev (map f (gT a)))) [tY0; tY1; tY2; tY3; tY4; tZ0; tZ1; tZ2; tZ3] && sameL (map tX (gT b)) (rev (map (fun t => - tX t)%float (gT a))) &&
                 sameL (gRiver b) (gRiver a) && (gTime b =? gTime a)%Z && gClosed a && gClosed b
  | Exc _ => false
  end.
Definition movedF (r : res (state float * state float)) (i : nat) : bool :=
  match simInit vFill 0 true, r with Ok s, Ok (a, _) => match nth_error (gT (bent s)) i, nth_error (gT a) i with Some t, Some u => negb (PrimFloat.eqb (tY0 t) (tY0 u)) | _, _ => false end | _, _ => false end.
Lemma shut_coast : coastMirrored shutPass = true /\ waterMirrored shutPass = true /\ movedF shutPass 3 = true.
Proof. repeat split; vm_compute; reflexivity. Qed.
Definition levelsAt (i : nat) (r : res (state float * state float)) : option (float * float) :=
  match r with Ok (a, b) => match nth_error (gLWL a) i, nth_error (gLWL b) (fromEnd 9 i) with Some t, Some u => Some (t, u) | _, _ => None end | Exc _ => None end.
Lemma next_water : exists x y, levelsAt 0 (nextPass shutPass) = Some (x, y) /\ PrimFloat.ltb (x + 0.125)%float y = true.
Proof. eexists. eexists. split; vm_compute; reflexivity. Qed.

(** ** The hypotheses in exact arithmetic *)
Definition mirBare : list (tsect xr) := map (fun t => mkT (tX t) (tY0 t) NaN NaN (tY3 t) (tY4 t) (tZ0 t) NaN NaN NaN) mirCoast.
Definition mirShut (v : env xr) : state xr :=
  mkS mirBare (Fin 10) (Fin 30) (Fin 30) (Fin (-1)) [Fin 0; Fin 0] [Fin 2; Fin 2] [Fin 0; Fin 0] (mirRep 1) (mirRep 0) (mirRep 0) (mirRep 0) [Fin 0; Fin 0] [Fin 0; Fin 0] true
      0 60000000000 0 0 [] [].
Lemma shut_met v : twoSided v (mirShut v) /\ gClosed (mirShut v) = true /\ (forall t, In t (gT (mirShut v)) -> hasChannel t = false).
Proof.
  split; [|split; [reflexivity|]].
  - split; [change (NoDup (map tX mirBare)); unfold mirBare; rewrite map_map; exact mirCoast_nodup|]. split; [split; cbn; [intros H; injection H as H; lra|discriminate]|].
    split; [left; reflexivity|repeat split; reflexivity].
  - intros t H. cbn in H. repeat (destruct H as [<-|H]; [reflexivity|]). destruct H.
Qed.
