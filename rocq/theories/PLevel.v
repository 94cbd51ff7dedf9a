(** The water levels against which the barrier is checked for overtopping. *)
From Coq Require Import ZArith List Bool Lia Reals.
From Verif Require Import Base Num Xr MState MCoast MRiv MMor PCore.
Import ListNotations.

Section Level.
  Context {F : Type} {NF : Num F}.
  Lemma scat_val {A} (idx : list nat) (vals : list A) (f : nat -> option A) i :
    Forall2 (fun j v => f j = Some v) idx vals -> In i idx -> scat idx vals i = f i.
  Proof.
    induction 1 as [|j v idx vals H HF IH]; cbn [In scat]; [tauto|]. intros [->|Hi]; [rewrite Nat.eqb_refl; auto|].
    destruct (Nat.eqb_spec j i); [subst; auto|auto].
  Qed.
  Lemma level_at (T : list (tsect F)) LWL OD outlet Closed WL : waterLevel T LWL OD outlet Closed = Ok WL ->
    length WL = length T /\ length LWL = length T /\ Forall (fun w => fisnan w = false) WL /\
    forall i t, nth_error T i = Some t ->
      (Closed = false -> In i outlet -> exists d, nth_error OD i = Some d /\ nth_error WL i = Some (d + tZ1 t)%n) /\
      (Closed = true \/ ~ In i outlet -> nth_error WL i = if (tY4 t <? tY3 t)%n then nth_error LWL i else Some (fofQ (-99999) 10)).
  Proof.
    unfold waterLevel. destruct (Nat.eqb (length LWL) (length T)) eqn:EL; cbn [negb]; [|discriminate]. apply Nat.eqb_eq in EL.
    intros H. bok H wl. bok H u. apply Ok_inj in H. subst wl. apply assert_ok in Eu. apply negb_true_iff in Eu.
    set (m := map2 _ T LWL) in Ewl.
    assert (Lm : length m = length T) by (unfold m; rewrite map2_length; lia).
    assert (Nm : forall i t, nth_error T i = Some t -> nth_error m i = if (tY4 t <? tY3 t)%n then nth_error LWL i else Some (fofQ (-99999) 10)).
    { intros i t Ht. assert (exists w, nth_error LWL i = Some w) as (w & Hw).
      { destruct (nth_error LWL i) eqn:E; [eauto|]. apply nth_error_None in E. assert (i < length T)%nat by (apply nth_error_Some; congruence). lia. }
      unfold m. rewrite nth_error_map2, Ht, Hw. unfold lagoonPresent. destruct (tY4 t <? tY3 t)%n; reflexivity. }
    clearbody m.
    assert (ND : Forall (fun w => fisnan w = false) WL).
    { rewrite Forall_forall. intros w Hw. destruct (fisnan w) eqn:E; [|auto]. rewrite <- Eu. symmetry. apply existsb_exists. eauto. }
    destruct Closed.
    - apply Ok_inj in Ewl. subst m. split; [auto|split; [auto|split; [auto|]]]. intros i t Ht. split; [discriminate|auto].
    - bok Ewl d. bok Ewl ts. apply Ok_inj in Ewl. subst WL. rewrite mapi_length. split; [auto|split; [auto|split; [auto|]]].
      apply gather_ok in Ed, Ets. set (f := fun j => match nth_error OD j, nth_error T j with Some a, Some t => Some (a + tZ1 t)%n | _, _ => None end).
      assert (SF : Forall2 (fun j v => f j = Some v) outlet (map2 (fun a t => (a + tZ1 t)%n) d ts)).
      { clear -Ed Ets. unfold f. clear f. revert ts Ets. induction Ed as [|j a idx d Ha Hd IH]; intros ts Ets; inversion Ets; subst; cbn [map2]; constructor; auto.
        rewrite Ha, H1. reflexivity. }
      intros i t Ht. split.
      + intros _ Hi. assert (exists a, nth_error OD i = Some a) as (a & Ha).
        { clear -Ed Hi. induction Ed; [destruct Hi|]. destruct Hi as [->|Hi]; eauto. }
        exists a. split; [auto|]. rewrite nth_error_mapi. destruct (nth_error m i) eqn:Em.
        2: { exfalso. apply nth_error_None in Em. assert (i < length T)%nat by (apply nth_error_Some; congruence). lia. }
        cbn [option_map]. rewrite (scat_val _ _ f i SF Hi). unfold f. rewrite Ha, Ht. reflexivity.
      + intros [C|C]; [discriminate|]. rewrite nth_error_mapi, (scat_notin outlet) by auto. rewrite (Nm _ _ Ht).
        destruct (tY4 t <? tY3 t)%n; [|reflexivity]. destruct (nth_error LWL i); reflexivity.
  Qed.
  Lemma apply_level fuel (P : phys F) N TP T e0 e1 W Zend RiverElev online outlet LWL OD CW CD fl Closed LST q CST OW dt a :
    morApply fuel P N TP T e0 e1 W Zend RiverElev online outlet LWL OD CW CD fl Closed LST q CST OW dt = Ok a ->
    length (aWL a) = length T /\ length LWL = length T /\ Forall (fun w => fisnan w = false) (aWL a) /\
    forall i t, nth_error T i = Some t ->
      (Closed = false -> In i outlet -> exists d, nth_error OD i = Some d /\ nth_error (aWL a) i = Some (d + tZ1 t)%n) /\
      (Closed = true \/ ~ In i outlet -> nth_error (aWL a) i = if (tY4 t <? tY3 t)%n then nth_error LWL i else Some (fofQ (-99999) 10)).
  Proof.
    unfold morApply. cbv zeta. intros H. bok H x0. bok H rbq. bok H WL. bok H u. bok H R. bok H rate. bok H d. bok H R'. bok H river.
    apply level_at in EWL. destruct Closed; apply Ok_inj in H; subst a; exact EWL.
  Qed.
End Level.
