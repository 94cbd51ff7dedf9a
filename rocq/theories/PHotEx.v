(** Example result files, and the hot start in exact arithmetic. *)
From Coq Require Import String ZArith List Bool Lia Sorted Reals Lra Floats.
From Verif Require Import Base Num Xr Flt MState MCoast MRiv MMor MOut MCore MLoad SOut POut PHot SRun PCore Sim SimEx SAdapt PCoreEx PRate.
Import List ListNotations.
Local Open Scope string_scope.
Local Open Scope list_scope.

Lemma xr_zero : (@f0 xr _ =? f0)%n = true.
Proof. cbn. apply Reqb_true. reflexivity. Qed.
Lemma xr_one : (@f1 xr _ =? f0)%n = false.
Proof. cbn. apply Reqb_false. lra. Qed.

(** Reading back finite depths in exact arithmetic without rounding on storage. *)
Lemma hot_exact X a h (d z : R) i t : resumes (fun x : xr => x) X a h -> nth_error (wODep a) i = Some (Fin d) ->
  nth_error (wT a) i = Some t -> tZ1 t = Fin z -> nth_error (htODep h) i = Some (Fin d).
Proof.
  intros [] Hd Ht Z. rewrite (rs_odep i _ t Hd Ht), Z. xf. apply f_equal, f_equal. lra.
Qed.
(** ... and off the channel (no bed level) they are missing, as they were. *)
Lemma hot_nan X a h i t : resumes (fun x : xr => x) X a h -> nth_error (wODep a) i = Some NaN -> nth_error (wT a) i = Some t ->
  nth_error (htODep h) i = Some NaN.
Proof.
  intros [] Hd Ht. rewrite (rs_odep i _ t Hd Ht). destruct (tZ1 t); reflexivity.
Qed.

Definition hX : list xr := [Fin 0; Fin 10; Fin 20].
Definition hT (y : R) : list (tsect xr) :=
  [mkT (Fin 0) (Fin y) NaN NaN (Fin 20) (Fin 10) (Fin 5) NaN NaN (Fin 1);
   mkT (Fin 10) (Fin y) (Fin 40) (Fin 30) (Fin 20) (Fin 10) (Fin 5) (Fin 2) (Fin 3) (Fin 1);
   mkT (Fin 20) (Fin y) NaN NaN (Fin 20) (Fin 10) (Fin 5) NaN NaN (Fin 1)].
Definition hW (t : Z) (y : R) (closed : bool) : wargs xr :=
  mkW t (Fin 0) (Fin 50) (Fin 1) (Fin 1) (hT y) [Fin 2; Fin 2; Fin 2] [Fin 1; Fin 1; Fin 1] [Fin 0; Fin 0; Fin 0]
      [NaN; Fin (1/3); NaN] [NaN; Fin 1; NaN] [NaN; Fin 0; NaN] [Fin (1/7); Fin 2] [Fin 0; Fin 0; Fin 0] [Fin 0; Fin 0; Fin 0]
      [Fin 2] [Fin 1] [Fin 1] [Fin 0] (Fin 5) (Fin 15) (Fin 0) (Fin 30) [Fin 1; Fin 1] [Fin 2; Fin 1] [Fin 0; Fin 0] closed.
Definition hFile : ncfile xr := mkNc hX 1 [] (fun _ _ => None).

Lemma hW_shaped t y c : shaped (length (ncX hFile)) (ncRiv hFile) (hW t y c).
Proof. cbv -[Nat.le]. repeat split; lia. Qed.
Lemma hist_ok r32 : exists f', writeAll r32 hFile [hW 0 100 false; hW 60 90 true; hW 120 80 false] = Ok f'.
Proof. apply all_ok_shaped. repeat constructor; apply hW_shaped. Qed.

Lemma hist_closest i : closest [0; 60; 120]%Z 50 i <-> i = 1%nat.
Proof.
  split.
  - intros (t & Ht & M). specialize (M 1%nat 60%Z eq_refl).
    destruct i as [|[|[|i]]]; [|reflexivity| |destruct i; discriminate]; injection Ht as <-; lia.
  - intros ->. exists 60%Z. split; [reflexivity|]. intros j u Hj.
    destruct j as [|[|[|j]]]; try (injection Hj as <-; lia). destruct j; discriminate.
Qed.
Lemma hist_tie : closest [0; 60; 120]%Z 90 1 /\ closest [0; 60; 120]%Z 90 2.
Proof.
  split; eexists; (split; [reflexivity|]); intros j u Hj;
    (destruct j as [|[|[|j]]]; [| | |destruct j; discriminate]); injection Hj as <-; lia.
Qed.

(** The hot start of the middle record, 10 s away from the time asked for. *)
Lemma hot_example : exists f' h, writeAll (fun x => x) hFile [hW 0 100 false; hW 60 90 true; hW 120 80 false] = Ok f' /\
  hotLoad (fun x => x) f' 50 7 true (Fin 10) = Ok h /\ resumes (fun x => x) hX (hW 60 90 true) h /\
  htStart h = 60%Z /\ htClosed h = true /\ nth_error (htODep h) 1 = Some (Fin (1/3)).
Proof.
  destruct (hist_ok (fun x => x)) as (f' & Hf). exists f'.
  destruct (hot_load (fun x => x) xr_zero xr_one hFile _ _ 50 7 true (Fin 10) 1 (hW 60 90 true) (Fin 0) (Fin 10) eq_refl Hf eq_refl eq_refl) as (h & H1 & H2 & H3).
  { cbn. apply Reqb_true. lra. }
  { reflexivity. } { apply hist_closest. reflexivity. } { apply hist_closest. }
  exists h. split; [exact Hf|]. split; [exact H1|]. split; [exact H2|]. split; [exact H3|]. split; [exact (rs_closed _ _ _ _ H2)|].
  eapply (hot_exact _ _ _ (1/3) 2 1 _ H2); reflexivity.
Qed.
Lemma tie_example : exists f', writeAll (fun x => x) hFile [hW 0 100 false; hW 60 90 true; hW 120 80 false] = Ok f' /\
  hotLoad (fun x => x) f' 90 7 true (Fin 10) = Exc EValue.
Proof.
  destruct (hist_ok (fun x => x)) as (f' & Hf). exists f'. split; [exact Hf|].
  destruct (all_frame _ _ _ _ Hf) as (_ & _ & AT). destruct hist_tie as [T1 T2].
  apply (hot_tie _ _ _ _ _ _ 1 2); [rewrite AT; exact T1|rewrite AT; exact T2|discriminate].
Qed.

(** A record written in the pass of a breach says closed. *)
Definition lastStatus (r : res (state float)) : res (bool * option bool) :=
  let! s := r in Ok (gClosed s, option_map (@wClosed float) (nth_error (gOuts s) 5)).
Lemma breach_status : lastStatus (after vFill true 6) = Ok (false, Some true).
Proof. vm_compute. reflexivity. Qed.
Lemma status_inv r c o : lastStatus r = Ok (c, o) -> exists s, r = Ok s /\ gClosed s = c /\ option_map (@wClosed float) (nth_error (gOuts s) 5) = o.
Proof. destruct r as [s|]; [|discriminate]. cbn [lastStatus bind]. intros H. apply Ok_inj in H. injection H as <- <-. exists s. auto. Qed.
Lemma clock_recs r t d c a b : clock r = Ok (t, d, c, a, b) -> exists s, r = Ok s /\ length (gOuts s) = a.
Proof. destruct r as [s|]; [|discriminate]. cbn [clock bind]. intros H. apply Ok_inj in H. injection H as <- <- <- <- <-. exists s. auto. Qed.
Lemma breach_record : exists s w, @run float sim_num 100 6 simOr vFill s /\ last (map Some (gOuts s)) None = Some w /\
  wTime w = gTime s /\ gClosed s = false /\ wClosed w = true.
Proof.
  destruct (clock_recs _ _ _ _ _ _ fill5) as (s1 & A1 & L1). destruct (status_inv _ _ _ breach_status) as (s3 & A3 & B1 & B2).
  pose proof (after_next _ _ 5 _ _ A1 A3) as ST.
  destruct (step_written _ _ _ _ _ ST) as [E|(w & E & T & _)].
  { exfalso. rewrite E in B2. rewrite (proj2 (nth_error_None (gOuts s1) 5)) in B2 by lia. discriminate. }
  exists s3, w. split; [exact (after_run _ _ _ _ A3)|].
  rewrite E, map_app. cbn [map]. rewrite last_last. split; [reflexivity|]. split; [exact T|]. split; [exact B1|].
  rewrite E, nth_error_app2, L1 in B2 by lia. cbn in B2. injection B2 as ->. reflexivity.
Qed.

(** Two files present, the first given up and the second kept. *)
Definition hTs : targs xr := mkTs 0 (Fin 0) (Fin 50) (Fin 1) (Fin 1) (Fin 2) (Fin 50) (Fin 0) (Fin 5) (Fin 15) false 60000000000.
Definition hFs : fsys xr := fun m => if (m =? "out.nc") || (m =? "ts.nc") then Some (mkNc [Fin 7] 3 [5%Z; 6%Z] (fun _ _ => None)) else None.
Lemma yes_consent : consent "y".
Proof. unfold consent. auto. Qed.
Lemma no_consent : ~ consent "n".
Proof. intros [Q|[Q|[Q|[Q|Q]]]]; discriminate. Qed.
Lemma refuse_example : exists fs', mainFiles (fun x => x) hFs "out.nc" "ts.nc" hX 1 false "y" "n" (hW 0 100 false) hTs = (fs', Exc EConflict) /\
  (exists f, hFs "out.nc" = Some f /\ ncTimes f = [5; 6]%Z) /\ (exists f, fs' "out.nc" = Some f /\ ncTimes f = [0]%Z).
Proof.
  destruct (mainFiles (fun x => x) hFs "out.nc" "ts.nc" hX 1 false "y" "n" (hW 0 100 false) hTs) as [fs' r] eqn:E.
  destruct (refuse_second (F:=xr) _ hFs "out.nc" "ts.nc" hX 1 "y" "n" _ _ _ _ (ltac:(discriminate) : "out.nc" <> "ts.nc") (ltac:(discriminate) : hFs "out.nc" <> None)
    (ltac:(discriminate) : hFs "ts.nc" <> None) yes_consent no_consent (hW_shaped 0 100 false) E)
    as (-> & _ & _ & f & Hf & Ht & _).
  exists fs'. split; [reflexivity|]. split; [eexists; split; reflexivity|]. exists f. split; [exact Hf|exact Ht].
Qed.
Lemma same_example : exists fs', mainFiles (fun x => x) (fun _ => None) "o.nc" "o.nc" hX 1 true "" "" (hW 0 100 false) hTs = (fs', Ok tt).
Proof. apply same_ok. exact (hW_shaped 0 100 false). Qed.

Lemma read_example : exists f' r, writeAll (fun x => x) hFile [hW 0 100 false; hW 60 90 true; hW 120 80 false] = Ok f' /\
  readTimestep f' 1 = Ok r /\ wDir (hW 60 90 true) = Fin 1 /\ wEBed (hW 60 90 true) = [Fin 0; Fin 0].
Proof.
  destruct (hist_ok (fun x => x)) as (f' & Hf). destruct (all_back _ xr_zero xr_one _ _ _ Hf 1 _ eq_refl) as (r & Hr & _).
  exists f', r. split; [exact Hf|]. split; [exact Hr|]. split; reflexivity.
Qed.
