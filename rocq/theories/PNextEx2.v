(** The breached barrier of PLedgerEx.v stands after the update. *)
From Coq Require Import ZArith List Bool Lia Reals Lra.
From Verif Require Import Base Num Xr MState MCoast MRiv MMor SMor SVol SAdapt STouch SLedger SNext PRate PRateEx PCap PCapEx PPostEx PVol PQuietEx PLedger PLedger2 PLedger3 PLedgerEx.
Import ListNotations.
Local Open Scope R_scope.
Lemma next_case :
  nDx pushNum = Fin 20 /\ numberedPars restP /\ 0 < rv (pSpitWidth restP) /\
  soundInputs restP 20 (exCoast 0) (Fin 1) (Fin 5) (Fin 0) [1]%nat [] [Fin 5; Fin 5; Fin 5] [Fin 1; Fin 1; Fin 1] [0;0;1]%nat true (length [0.2; 0.1]) /\
  (is_fin (nMaxMorChange pushNum) /\ 0 <= rv (nMaxMorChange pushNum)) /\
  exists o,
  updateMorphology 10 yes yes restP pushNum slowTP (exCoast 0) NaN (Fin 1) (Fin 5) (Fin 0) [Fin 1; Fin 1] [1]%nat [] [Fin 2; Fin 2; Fin 4; Fin 2] [] [Fin 5; Fin 5; Fin 5] [Fin 1; Fin 1; Fin 1] [0;0;1]%nat true
    (map Fin [0.8; 0; 0]) (map Fin [0.2; 0.1]) (map Fin [0; 0; 0; 0]) [false;false;false;false] (sec 15) = Ok o /\
  (exists t', nth_error (oT o) 2 = Some t' /\ story restP (Fin 5) (Fin 0) (bare 1 0) 0 (bare 1 0) [(Breach, bare 1 0)] t') /\
  properAll restP (bare 1 0) [(Breach, bare 1 0)] /\ firmAll restP (bare 1 0) [(Breach, bare 1 0)].
Proof.
  destruct cut_case as (A & B & C & D & _). split; [exact A|]. split; [exact B|]. split; [cbn; lra|]. split; [exact C|]. split; [exact D|].
  destruct cut_update as (o & E1 & E2). exists o. split; [exact E1|]. split; [rewrite E2; eexists; split; [reflexivity | exact cut_story]|].
  split; [apply cut_worth|]. apply Forall_cons; [exact I | apply Forall_nil].
Qed.
