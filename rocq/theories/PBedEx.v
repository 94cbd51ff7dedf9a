(** Concrete cases for storing hydraulics and bedload. *)
From Coq Require Import Reals ZArith List Bool Lia Lra Floats.
From Verif Require Import Base Num Xr Flt MState MRiv SRiv SChan SHyd SBed PCoast PChan PChanEx PHyd PBed PRound.
Import ListNotations.

Lemma round_trip_example : exists ch, exAsm 2 2 false = Ok ch /\ chClosed ch = false /\
  (forall i t, In i (chOnline ch) -> nth_error exT i = Some t -> is_fin (tZ3 t)) /\
  length (chOnline ch) = 2%nat /\ length (chOutlet ch) = 1%nat.
Proof.
  destruct ex_range as (ch & H1 & H2 & H3 & _). exists ch. split; [auto|]. split; [auto|]. split.
  - intros i t _ Ht. unfold exT in Ht. do 5 (destruct i as [|i]; [cbn in Ht; apply Some_inj in Ht; subst t; eexists; reflexivity|]). destruct i; discriminate.
  - rewrite H2. split; [reflexivity|]. pose proof (layout exT _ _ _ _ _ _ _ _ _ _ _ _ _ _ _ _ _ H1) as (HF & HL & _).
    destruct ex_open as (ch' & H1' & _). rewrite H1 in H1'. apply Ok_inj in H1'.
    assert (E : exists ch, exAsm 2 2 false = Ok ch /\ length (chOutlet ch) = 1%nat /\ True).
    { exrun. }
    destruct E as (ch2 & E & El & _). rewrite H1 in E. apply Ok_inj in E. subst ch2. exact El.
Qed.

Local Open Scope float_scope.
Lemma store_example :
  storeHydraulics [1; 2; 3; 4; 5; 6; 7] [11; 12; 13; 14; 15; 16; 17] [1; 2]%nat [3]%nat (flagsOf false [1; 2] [3; 4] [5])
    [0.5; 0.25; 0.5; 0.5; 0.5] false =
  Ok ([3.25; 3.25; 4.5; 4.5; 4.5], [nan; 13; 14; nan; nan], [nan; nan; nan; 5; nan], [nan; nan; nan; 15; nan], [6; 7], [16; 17]).
Proof. vm_compute. reflexivity. Qed.
Lemma store_bed_example :
  storeBedload [1; 2; 3; 4; 5; 6] 5 [1; 2]%nat [3]%nat ([0; 0] ++ [1; 1] ++ [2] ++ [3; 4])%nat false =
    Ok ([0; 3; 4; 0; 0], [0; 0; 0; 5; 0], [6]) /\
  storeBedload [1; 2; 3] 5 [1; 2]%nat [] ([0; 0] ++ [1; 1])%nat true = Ok ([0; 3; 0; 0; 0], [0; 0; 0; 0; 0], [0]).
Proof. split; vm_compute; reflexivity. Qed.

Local Open Scope R_scope.
Definition exSed : sediment := mkSed 1 2 1 1 1 8 (3/2) 1 (1/2).
Definition exP : phys xr :=
  mkPhys (Fin 2) (Fin 1) (Fin 1) (Fin 1) (Fin 1) (Fin (1/2)) (Fin 1) (Fin 1) (Fin 1) (Fin 1)
         (Fin 1) (Fin 1) (Fin 1) (Fin 8) (Fin (3/2)) (Fin 1) (Fin 1) (Fin 1) (Fin 1) (Fin 1)
         (Fin 1) (Fin 1) (Fin 1) (Fin 1) (Fin 1) (Fin 1) (Fin 1) (Fin 1) (Fin 1) (Fin 1)
         (Fin 1) (Fin 1) (Fin 1) (Fin 1) (Fin 1) (Fin 1) (Fin 1).
Lemma bed_example : sedPars exSed exP /\ sedOk exSed /\ 0 <= bCrit exSed /\ 0 < bCoef exSed /\
  shields exSed 1 2 = 4 /\ shields exSed 1 (1/2) = 1/4.
Proof.
  split; [repeat split; reflexivity|]. split; [unfold sedOk, exSed; cbn [bRho bRhoS bG bD bExp bVoid]; lra|].
  unfold shields, exSed; cbn [bRho bRhoS bG bD bN bCoef bExp bCrit bVoid].
  assert (E : Rpower 1 (4 / 3) = 1) by (unfold Rpower; rewrite ln_1, Rmult_0_r; apply exp_0). rewrite E.
  split; [lra|]. split; [lra|]. split; field.
Qed.
