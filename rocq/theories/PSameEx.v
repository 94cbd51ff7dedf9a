Set Warnings "-inexact-float".
(** Replaced records: examples. *)
From Coq Require Import ZArith List Bool Reals Lia Lra Floats Sorting.Sorted.
From Verif Require Import Base Num Xr Flt MState MCoast MRiv MMor MOut MCore SAdapt SCore SSame PSame Sim SimEx PCoreEx.
Import ListNotations.
Local Open Scope Z_scope.

(** A year of other weather before and after. *)
Definition storms (s : series float) : series float := (sec (-2000000), 1e3%float) :: (sec (-7), nan) :: s ++ [(sec 1000001, (-5)%float); (sec 9000000, infinity)].
Definition vStorms : env float :=
  mkEnv (vP vFill) (vN vFill) (vTP vFill) (storms (vFlow vFill)) (storms (vSea vFill))
    (mkWaves (storms (wvDir (vWaves vFill))) (storms (wvPow (vWaves vFill))) (storms (wvPer (vWaves vFill))) (storms (wvLen (vWaves vFill))) (storms (wvHs (vWaves vFill))))
    (vOutInt vFill) (vTsInt vFill).
Lemma storms_alike c : alike 0 (sec 1000000) (flat c) (storms (flat c)).
Proof.
  exists [], [(sec (-2000000), 1e3%float); (sec (-7), nan)], (flat c), [], [(sec 1000001, (-5)%float); (sec 9000000, infinity)].
  split; [reflexivity|]. split; [reflexivity|]. unfold sec, flat.
  split; [repeat (apply Forall_cons; [cbn [fst]; lia|]); apply Forall_nil|]. split; [repeat (apply Forall_cons; [cbn [fst]; lia|]); apply Forall_nil|].
  split; [apply Exists_cons_hd; cbn [fst]; unfold sec; lia|apply Exists_cons_tl, Exists_cons_hd; cbn [fst]; unfold sec; lia].
Qed.
Lemma storms_case : drivenAlike (alike 0 (sec 1000000)) vFill vStorms /\ 0 < tHydDt (vTP vFill) /\ 0 <= tStart (vTP vFill) <= tEnd (vTP vFill) /\
  0 <= tMorDtMin (vTP vFill) /\ tEnd (vTP vFill) + (tEnd (vTP vFill) - tStart (vTP vFill)) <= sec 1000000 /\ tStart (vTP vFill) + tMorDtMin (vTP vFill) <= sec 1000000.
Proof.
  split; [|cbv; repeat split; discriminate].
  split; [reflexivity|]. split; [reflexivity|]. split; [reflexivity|]. split; [reflexivity|]. split; [reflexivity|].
  do 6 (split; [apply storms_alike|]). apply storms_alike.
Qed.
Lemma storms_run : clock (after vStorms true 6) = Ok (sec 360, sec 60, false, 6%nat, 6%nat).
Proof. vm_compute. reflexivity. Qed.
(** Without the record after the asked time there is no answer. *)
Lemma edge_refuted : @at1 float float_num [(0, 1%float); (10, 1%float)] 5 = Ok 1%float /\ @at1 float float_num [(0, 1%float)] 5 = Exc EIndex.
Proof. vm_compute. split; reflexivity. Qed.
(** With doubles a record that repeats what would have been interpolated changes other values. *)
Definition tenth : series float := [(0, 0%float); (10, 1%float)].
Definition tenth' (x : float) : series float := [(0, 0%float); (3, x); (10, 1%float)].
Lemma rounding_refuted : exists x, @at1 float float_num tenth 3 = Ok x /\ @at1 float float_num tenth 1 <> @at1 float float_num (tenth' x) 1.
Proof.
  exists (0x1.3333333333334p-2)%float. split; [vm_compute; reflexivity|]. intros H.
  apply (f_equal (fun r => match r with Ok x => PrimFloat.eqb x 0.1 | Exc _ => false end)) in H. vm_compute in H. discriminate.
Qed.
(** A hydrograph and the same with one more record on its line. *)
Definition gauge : list (Z * R) := [(0, 1%R); (10, 3%R); (30, 2%R)].
Definition gauge' : list (Z * R) := [(0, 1%R); (5, 2%R); (10, 3%R); (30, 2%R)].
Lemma gauge_refined : refined 0 30 (data gauge) (data gauge').
Proof.
  exists gauge, gauge'. split; [reflexivity|]. split; [reflexivity|].
  split; [unfold ordered, gauge; repeat constructor|]. split; [unfold ordered, gauge'; repeat constructor|]. split.
  - split; [intros p; cbn; tauto|]. unfold gauge'.
    apply Forall_cons; [constructor; cbn; auto|]. apply Forall_cons.
    + cbn [fst snd]. replace 2%R with (1 + (3 - 1) * (IZR (5 - 0) / IZR (10 - 0)))%R by (cbn; lra).
      apply (curve_between gauge 5 [] 0 1%R 10 3%R [(30, 2%R)]); [reflexivity|lia].
    + apply Forall_cons; [constructor; cbn; auto|]. apply Forall_cons; [constructor; cbn; auto|]. apply Forall_nil.
  - split; [apply Exists_cons_hd; cbn; lia|]. unfold gauge. do 2 apply Exists_cons_tl. apply Exists_cons_hd. cbn. lia.
Qed.
