(** Proofs: how far the boundary conditions must reach. *)
From Coq Require Import String ZArith List Bool Lia.
From Verif Require Import Base Num MState MCoast MRiv MMor MOut MCore MLoad MSynth MConf MMain SCore SConf SRun PInterp PCore PSynth PConf PConf2 PConf3 PConf4 PMain PMain2.
Import List ListNotations.
Local Open Scope string_scope.
Local Open Scope list_scope.
Local Open Scope Z_scope.

Section Gen.
  Context {F : Type} {NF : Num F}.

  Lemma interp_covered (s : series F) start dur freq x : 0 < freq -> interpolateAt s (hydTimes start dur freq) = Ok x ->
    exists p, In p s /\ start + dur / freq * freq <= fst p.
  Proof.
    intros P H. assert (L : freq <= dur).
    { destruct (Z.lt_ge_cases dur freq) as [Q|Q]; [|exact Q]. rewrite (proj2 (hydTimes_nil start dur freq P) Q) in H. discriminate. }
    unfold interpolateAt in H. bok H a. bok H b. bok H from. bok H to. rewrite (hydTimes_last _ _ _ P L) in Eb. apply Ok_inj in Eb. subst b.
    unfold of_opt in Eto. destruct (first_where _ s) as [k|] eqn:E; [|discriminate]. apply first_where_Some in E as ((p & K & Q) & _).
    exists p. split; [eapply nth_error_In; eauto|]. apply Z.leb_le, Q.
  Qed.
  Lemma pass_covered af o (v : env F) s s' : step af o v s = Ok s' -> 0 < tHydDt (vTP v) ->
    let reach := gTime s + gDt s / tHydDt (vTP v) * tHydDt (vTP v) in
    (exists p, In p (vFlow v) /\ reach <= fst p) /\ (exists p, In p (vSea v) /\ reach <= fst p).
  Proof.
    intros H P. cbv zeta. unfold step in H. cbv zeta in H. bok H c. bok H flow. bok H sea. split; eapply interp_covered; eauto.
  Qed.

  Lemma trim_sub {A} a z d (s s' : list (Z * A)) p : trimSeries a z d s = Ok s' -> In p s' -> In p s.
  Proof.
    unfold trimSeries. intros H I. bok H x. bok H y. bok H u. apply Ok_inj in H. subst s'. revert I. generalize (keepMask a z d (map fst s)). clear.
    induction s as [|q s IH]; intros m I; destruct m as [|b m]; cbn [filter2] in I; try contradiction.
    destruct b; [destruct I as [I|I]; [left; exact I|]|]; right; eapply IH; exact I.
  Qed.
  Lemma tide_dates start stop int msl range (p : Z * F) : 0 < int -> In p (harmonicTide start stop int msl range) -> fst p <= stop.
  Proof.
    unfold harmonicTide, dateRange. intros P I. apply in_map_iff in I as (t & <- & I). cbn [fst].
    destruct (Z.ltb_spec stop start) as [L|L]; [destruct I|]. apply in_map_iff in I as (k & <- & I). apply in_seq in I.
    assert (K : Z.of_nat k <= (stop - start) / int). { pose proof (Z.div_pos (stop - start) int ltac:(lia) P). lia. }
    pose proof (Z.div_mod (stop - start) int ltac:(lia)). pose proof (Z.mod_pos_bound (stop - start) int P). nia.
  Qed.
  (** With the synthetic tide a pass is completed only if its hydraulics end by EndTime. *)
  Lemma tide_pass (X : conv F) (W : world F) r32 file v s0 c n t0 af o s s' : start X W r32 file = Ok (v, s0) -> validate X (wdConf W file) = Ok c ->
    c "BoundaryConditions" "SeaLevel" = Some (CS n) -> sameWord n "harmonic" ->
    (exists t, c "Time" "StartTime" = Some (CS t) /\ txTime X t = Ok t0) -> 0 < tHydDt (vTP v) ->
    step af o v s = Ok s' -> gTime s + gDt s / tHydDt (vTP v) * tHydDt (vTP v) <= tEnd (vTP v).
  Proof.
    intros St V E Q T P H. unfold start in St. bok St m. bok St i. apply Ok_inj in St. injection St as <- <-.
    destruct (sea_tide _ _ _ _ _ _ _ _ Em V E Q T) as (x & int & msl & range & _ & _ & _ & _ & TS & Pi & _ & _).
    destruct (pass_covered _ _ _ _ _ H P) as (_ & p & I & L). cbn [envOf vSea vTP] in *.
    apply (trim_sub _ _ _ _ _ _ TS) in I. apply tide_dates in I; [lia|exact Pi].
  Qed.
  (** So a run whose step is not shorter than the time left never reaches EndTime. *)
  Lemma tide_stops (X : conv F) (W : world F) r32 file v s0 c n t0 af o s : start X W r32 file = Ok (v, s0) -> validate X (wdConf W file) = Ok c ->
    c "BoundaryConditions" "SeaLevel" = Some (CS n) -> sameWord n "harmonic" ->
    (exists t, c "Time" "StartTime" = Some (CS t) /\ txTime X t = Ok t0) -> 0 < tHydDt (vTP v) ->
    tEnd (vTP v) - gTime s + tHydDt (vTP v) <= gDt s -> forall s', step af o v s <> Ok s'.
  Proof.
    intros St V E Q T P L s' H. pose proof (tide_pass _ _ _ _ _ _ _ _ _ _ _ _ _ St V E Q T P H) as B.
    pose proof (Z.div_mod (gDt s) (tHydDt (vTP v)) ltac:(lia)). pose proof (Z.mod_pos_bound (gDt s) (tHydDt (vTP v)) P). nia.
  Qed.
End Gen.
