(** Where no bedload moves, the river bed stays. *)
From Coq Require Import ZArith List Floats.
From Verif Require Import Base Num Xr MState MCoast MRiv MMor MCore SAdapt SRun SRbed PPostEx PCapEx PRbed Sim SimEx PCoreEx PRbedEx SDouble PDouble PDoubleEx.
Import ListNotations.
Local Open Scope R_scope.

(** Updating: no bedload at any cross-section, no change of the river bed, whatever else happens. *)
Theorem C127_update fuel j1 j2 (P : phys xr) (N : nump xr) TP d cap T e0 e1 W Ze RE on out lwl od cw cd fl cl LST b CST OW dt m :
  (pRiverWidth P * nDx N)%n = Fin d -> d <> 0 -> nMaxMorChange N = Fin cap -> 0 <= cap -> Forall (fun q => q = Fin 0) b ->
  updateMorphology fuel j1 j2 P N TP T e0 e1 W Ze RE on out lwl od cw cd fl cl LST b CST OW dt = Ok m -> oRiver m = RE.
Proof. exact (bed_update fuel j1 j2 P N TP d cap T e0 e1 W Ze RE on out lwl od cw cd fl cl LST b CST OW dt m). Qed.
Print Assumptions C127_update.

(** A pass with the bedload coefficient zero: each height stays or becomes NaN. *)
Theorem C127_pass af o (v : env xr) s s' cap : pMPM_coef (vP v) = Fin 0 -> nMaxMorChange (vN v) = Fin cap -> 0 <= cap ->
  step af o v s = Ok s' -> Forall2 (fun new old => new = old \/ new = NaN) (gRiver s') (gRiver s).
Proof. exact (bed_step af o v s s' cap). Qed.
Print Assumptions C127_pass.

(** Any number of passes, as long as the next pass gets as far as assembling the channel: exactly the bed of the start. *)
Theorem C127_run af (v : env xr) cap : pMPM_coef (vP v) = Fin 0 -> nMaxMorChange (vN v) = Fin cap -> 0 <= cap ->
  forall n k o s s' c, steps af n k o v s = Ok s' -> assembled v s' = Ok c -> gRiver s' = gRiver s.
Proof. exact (bed_run af v cap). Qed.
Print Assumptions C127_run.

(** The same in double arithmetic with any library of mathematical functions, up to the sign of zero. *)
Theorem C127_double (NF : Num float) : binary64 NF -> forall af (v : env float), PrimFloat.eqb (pMPM_coef (vP v)) 0 = true -> PrimFloat.ltb (nMaxMorChange (vN v)) 0 = false ->
  forall n k o s s' c, @steps float NF af n k o v s = Ok s' -> @assembled float NF v s' = Ok c -> Forall2 sameDouble (gRiver s') (gRiver s).
Proof. exact (double_run NF). Qed.
Print Assumptions C127_double.

(** An update that meets the conditions of the first theorem. *)
Theorem C127_example : exists o, (pRiverWidth restP * nDx capNum)%n = Fin (1 * 20) /\ 1 * 20 <> 0 /\ nMaxMorChange capNum = Fin 0.25 /\ 0 <= 0.25 /\ Forall (fun q => q = Fin 0) [Fin 0; Fin 0] /\
  updateMorphology 10 yes yes restP capNum capTP (exCoast 0) NaN (Fin 1) (Fin 5) (Fin 0) [Fin 1; Fin 1] [1]%nat [] [Fin 2; Fin 2; Fin 2; Fin 2] [] [Fin 5; Fin 5; Fin 5] [Fin 1; Fin 1; Fin 1] [0;0;1]%nat true
   [Fin 0; Fin 0; Fin 0] [Fin 0; Fin 0] [Fin 0; Fin 0; Fin 0; Fin 0] [false;false;false;false] (sec 15) = Ok o /\ oRiver o = [Fin 1; Fin 1].
Proof. exact bed_case. Qed.
Print Assumptions C127_example.

(** A simulation in double arithmetic: after five passes the lagoon has risen and the bed is that of the start; with the usual coefficient it is not. *)
Theorem C127_example_run :
  (exists Y, beds vStone 5 = Ok ([0.5; 0.25; 0; -0.25; -0.5]%float, Y) /\ apart Y (rep 1.5) = true) /\
  (exists B Y, beds vFill 5 = Ok (B, Y) /\ apart B [0.5; 0.25; 0; -0.25; -0.5]%float = true).
Proof. exact (conj stone_bed gravel_bed). Qed.
Print Assumptions C127_example_run.

(** It meets the conditions of C127_double. *)
Theorem C127_example_double : binary64 sim_num /\ PrimFloat.eqb (pMPM_coef (vP vStone)) 0 = true /\ PrimFloat.ltb (nMaxMorChange (vN vStone)) 0 = false /\
  exists s s' c, simInit vStone 30 true = Ok s /\ @steps float sim_num 100 5 0 simOr vStone s = Ok s' /\ @assembled float sim_num vStone s' = Ok c.
Proof. exact (conj sim_binary64 stone_case). Qed.
Print Assumptions C127_example_double.
