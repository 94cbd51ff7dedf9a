(** A coast whose updates get through whatever the sea does; one that does not because of fractions of seconds. *)
From Coq Require Import ZArith List Bool Lia Reals Lra.
From Verif Require Import Base Num Xr MState MCoast MRiv MMor SMor SAdapt STouch SLedger SThrough PRate PCapEx PPostEx PQuietEx PLedgerEx.
Import ListNotations.
Local Open Scope R_scope.
Definition thruTP : timep := mkTime 0 (sec 3600) (sec 5) (sec 5) (sec (5 * 2 ^ Z.of_nat 2)).
Lemma through_case (l q c : list R) : length l = 3%nat -> length q = 2%nat -> length c = 4%nat ->
  nDx pushNum = Fin 20 /\ nMaxMorChange pushNum = Fin 0.25 /\ numberedPars restP /\ 0 < rv (pSpitWidth restP) /\ 0.25 < rv (pBackshoreElev restP) + rv (pClosureDepth restP) /\
  soundInputs restP 20 (exCoast 0) (Fin 1) (Fin 5) (Fin 0) [1]%nat [] [Fin 5; Fin 5; Fin 5] [Fin 1; Fin 1; Fin 1] [0;0;1]%nat true (length q) /\
  fits (exCoast 0) [Fin 1; Fin 1] [1]%nat [Fin 2; Fin 2; Fin 4; Fin 2] [0;0;1]%nat l c [false;false;true;false] /\ Forall (sturdy restP 0.25) (exCoast 0) /\
  tMorDtMin thruTP = sec 5 /\ tMorDtMax thruTP = sec (5 * 2 ^ Z.of_nat 2).
Proof.
  intros Hl Hq Hc. destruct cut_case as (A & B & C & _). split; [exact A|]. split; [reflexivity|]. split; [exact B|]. split; [cbn; lra|]. split; [cbn; lra|].
  split; [rewrite Hq; exact C|]. split.
  - unfold fits. rewrite Hl, Hc. cbn [length exCoast]. do 5 (split; [lia|]). split; [reflexivity|]. split; [intros i [<-|[]]; lia|]. split; [reflexivity|]. split; [cbn; lia|].
    split; [exists (bare 0 0); split; [right; left; reflexivity|reflexivity]|]. repeat (apply Forall_cons; [eexists; reflexivity|]). apply Forall_nil.
  - split; [|split; reflexivity]. repeat (apply Forall_cons; [repeat split; cbn; lra|]). apply Forall_nil.
Qed.
