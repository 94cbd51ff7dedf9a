Set Warnings "-inexact-float".
(** A coast measured from two levels; where the level matters. *)
From Coq Require Import ZArith List Bool Reals Lra Floats.
From Verif Require Import Base Num Xr Flt MState MCoast MRiv MMor MOut MCore SAdapt SShift SRaise PShift PShift2 PRaiseH PRaise PRaise2 Sim SimEx PRate PCapEx PPostEx PQuietEx PLedgerEx.
Import ListNotations.
Local Open Scope R_scope.

Definition cutHigh (P : phys xr) (T : list (tsect xr)) (Z : xr) (River LWL : list xr) : res (morOut xr) :=
  updateMorphology 10 yes yes P pushNum slowTP T NaN (Fin 1) (Fin 5) Z River [1]%nat [] LWL [] [Fin 5; Fin 5; Fin 5] [Fin 1; Fin 1; Fin 1] [0;0;1]%nat true
   (map Fin [0.8; 0; 0]) (map Fin [0.2; 0.1]) (map Fin [0; 0; 0; 0]) [false;false;false;false] (sec 15).
Lemma bare_calm x y : calm (byMetres 100) (bare x y).
Proof. unfold calm, bare, above, byMetres. cbn. unfold Rltb. split; [discriminate|]. repeat destruct (Rlt_dec _ _); try lra; repeat split. Qed.
Lemma cut_calm T1 : corrected 10 restP pushNum slowTP (exCoast 0) NaN (Fin 1) (Fin 5) (Fin 0) [Fin 1; Fin 1] [1]%nat [] [Fin 2; Fin 2; Fin 4; Fin 2] [] [Fin 5; Fin 5; Fin 5] [Fin 1; Fin 1; Fin 1] [0;0;1]%nat true
   (map Fin [0.8; 0; 0]) (map Fin [0.2; 0.1]) (map Fin [0; 0; 0; 0]) [false;false;false;false] (sec 15) = Ok T1 -> Forall (calm (byMetres 100)) T1.
Proof.
  unfold corrected. rewrite cut_apply. cbn [bind aT aE1 aW aZ]. rewrite push_correct. cbn [bind fst]. intros H. apply Ok_inj in H. rewrite <- H. unfold pushCoast.
  repeat (apply Forall_cons; [first [apply bare_calm|unfold calm, above, byMetres; cbn; unfold Rltb; split; [discriminate|]; repeat destruct (Rlt_dec _ _); try lra; repeat split]|]). apply Forall_nil.
Qed.
Lemma raised_case : exists o, cutHigh restP (exCoast 0) (Fin 0) [Fin 1; Fin 1] [Fin 2; Fin 2; Fin 4; Fin 2] = Ok o /\
  cutHigh (raisedPars (byMetres 100) (byMetres (-100)) restP) (map (raisedT (byMetres 100)) (exCoast 0)) (Fin 100) [Fin 101; Fin 101] [Fin 102; Fin 102; Fin 104; Fin 102] = Ok (raisedUpdate (byMetres 100) o) /\
  oT o <> exCoast 0 /\ map tZ0 (oT (raisedUpdate (byMetres 100) o)) = [Fin 103; Fin 103; Fin 103; Fin 103].
Proof.
  destruct cut_update as (o & E & C). exists o. split; [exact E|]. split; [|split].
  - pose proof (update_raised 100 10 yes yes restP pushNum slowTP (exCoast 0) NaN (Fin 1) (Fin 5) (Fin 0) [Fin 1; Fin 1] [1]%nat [] [Fin 2; Fin 2; Fin 4; Fin 2] [] [Fin 5; Fin 5; Fin 5] [Fin 1; Fin 1; Fin 1] [0;0;1]%nat true
      (map Fin [0.8; 0; 0]) (map Fin [0.2; 0.1]) (map Fin [0; 0; 0; 0]) [false;false;false;false] (sec 15) cut_calm) as H. rewrite E in H. cbn [thenDo] in H. rewrite <- H. unfold cutHigh.
    replace (Fin 100) with (byMetres 100 (Fin 0)) by (cbn; f_equal; lra). replace [Fin 101; Fin 101] with (map (byMetres 100) [Fin 1; Fin 1]) by (cbn; repeat f_equal; lra).
    replace [Fin 102; Fin 102; Fin 104; Fin 102] with (map (byMetres 100) [Fin 2; Fin 2; Fin 4; Fin 2]) by (cbn; repeat f_equal; lra). reflexivity.
  - rewrite C. unfold cutCoast, exCoast. intros H. apply (f_equal (fun l => map tY1 l)) in H. cbn in H. discriminate.
  - unfold raisedUpdate. cbn [oT]. rewrite C. unfold cutCoast, bare, byMetres. cbn. repeat f_equal; lra.
Qed.

Definition byF (c y : float) : float := (y + c)%float.
(** A relic channel touching the lagoon, closed outlet: what an update makes of the lagoon bed. *)
Definition touching : list (tsect float) :=
  [simT (-40) 0; simT (-20) 0; simT 0 0; mkT 20 200 110 95 100 50 4 (-1) 3.5 (-1); simT 40 0]%float.
Definition bedsAfter (P : phys float) (T : list (tsect float)) (Z : float) (River LWL : list float) : option (list float) :=
  match @updateMorphology float sim_num 30 yes yes P simN (simTP 0 3600 5 5 15) T PrimFloat.nan 20%float 10%float Z River [2]%nat [] LWL [] [100; 100; 50]%float [2; 2; 2]%float [0; 0; 1]%nat true
    [0; 0; 0; 0]%float [0; 0]%float [0; 0; 0; 0; 0]%float [false; false; false; false; false] (sec 15) with
  | Ok o => Some (map tZ3 (oT o)) | Exc _ => None end.
Lemma merge_refuted :
  bedsAfter (raisedPars (byF 10) (byF (-10)) (simP 0.001%float)) (map (raisedT (byF 10)) touching) 9%float [11; 11]%float [11; 11; 11; 11; 11]%float = Some [9; 9; 9; 9.75; 9]%float /\
  exists l, bedsAfter (simP 0.001%float) touching (-1)%float [1; 1]%float [1; 1; 1; 1; 1]%float = Some l /\ PrimFloat.ltb (nth 3 (map (byF 10) l) 0%float) 9%float = true.
Proof. split; [vm_compute; reflexivity|]. eexists. split; vm_compute; reflexivity. Qed.

(** The lagoon ends before the last transects on either side. *)
Definition endT (x : float) : tsect float := (mkT x 200 PrimFloat.nan PrimFloat.nan 50 50 4 PrimFloat.nan PrimFloat.nan (-1))%float.
Definition shortShore : list (tsect float) := map endT [-80; -60]%float ++ map (fun x => simT x 10%float) [-40; -20; 0; 20; 40]%float ++ map endT [60; 80]%float.
Definition shortEnv : env float := simEnv (simTP 0 3600 5 5 15) 30%float 1%float 1%float 60 60.
Definition shortInit : res (state float) :=
  @init float sim_num shortEnv shortShore 10%float 30%float 10%float (-1)%float [0.5; 0.25; 0; -0.25; -0.5]%float [2.5; 2.25; 2; 2; 2]%float [0; 0; 0; 0; 0]%float
    (rep 1.5%float) (rep 0%float) (rep 0%float) (rep 0%float) [0; 0]%float [0; 0]%float false.
Definition shortPass (c : float) : res (state float) :=
  match shortInit with
  | Ok s => @step float sim_num 30 (simOr 0) (raisedSetup (byF c) (byF (- c)%float) shortEnv) (raisedRun (byF c) s)
  | Exc e => Exc e
  end.
Definition outcome {A} (r : res A) : option exn := match r with Ok _ => None | Exc e => Some e end.
Lemma low_refuted : outcome (shortPass 0%float) = None /\ outcome (shortPass (-8192)%float) = None /\ outcome (shortPass (-16384)%float) = Some EIndex.
Proof. vm_compute. repeat split. Qed.
