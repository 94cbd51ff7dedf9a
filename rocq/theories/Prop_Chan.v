(** C20-C24: riv.py assembleChannel. *)
From Coq Require Import Reals ZArith List Bool Floats.
From Verif Require Import Base Num Xr MState MRiv SChan PCoast PChan PLag PFill PStore PChanEx.
Import ListNotations.
Local Open Scope R_scope.

Theorem C20_layout : forall F (NF : Num F) T e0 e1 eW eElev Closed RE RD RV LW LV OD OV ED EV Dx P ch,
  assembleChannel T e0 e1 eW eElev Closed RE RD RV LW LV OD OV ED EV Dx P = Ok ch ->
  chFlag ch = repeat 0%nat (length RE) ++ repeat 1%nat (length (chOnline ch))
              ++ (if chClosed ch then [] else repeat 2%nat (length (chOutlet ch)) ++ [3%nat; 4%nat]) /\
  length (chElev ch) = length (chFlag ch) /\ length (chWidth ch) = length (chFlag ch) /\
  length (chLagArea ch) = length (chFlag ch) /\ length (chLagLen ch) = length (chFlag ch) /\
  S (length (chDx ch)) = length (chFlag ch).
Proof. exact @layout. Qed.
Print Assumptions C20_layout.

(** River depths and velocities given at every river section, one or two values at the outlet end. *)
Theorem C20_hydraulics : forall F (NF : Num F) T e0 e1 eW eElev Closed RE RD RV LW LV OD OV ED EV Dx P ch,
  assembleChannel T e0 e1 eW eElev Closed RE RD RV LW LV OD OV ED EV Dx P = Ok ch ->
  length RD = length RE /\ length RV = length RE /\
  (chClosed ch = false -> (length ED = 1 \/ length ED = 2)%nat /\ (length EV = 1 \/ length EV = 2)%nat) ->
  length (chDep ch) = length (chFlag ch) /\ length (chVel ch) = length (chFlag ch).
Proof. exact @layout_hyd. Qed.
Print Assumptions C20_hydraulics.

Theorem C20_contents : forall F (NF : Num F) T e0 e1 eW eElev Closed RE RD RV LW LV OD OV ED EV Dx P ch,
  assembleChannel T e0 e1 eW eElev Closed RE RD RV LW LV OD OV ED EV Dx P = Ok ch ->
  exists lts, Forall2 (fun i t => nth_error T i = Some t) (chOnline ch) lts /\
  if chClosed ch then
    chElev ch = RE ++ map (@tZ3 F) lts /\
    chWidth ch = repeat (pRiverWidth P) (length RE) ++ map (fun t => tY3 t - tY4 t)%n lts /\
    (forall d, In d (chDx ch) -> d = Dx)
  else exists ots, Forall2 (fun i t => nth_error T i = Some t) (chOutlet ch) ots /\
    chElev ch = RE ++ map (@tZ3 F) lts ++ map (@tZ1 F) ots ++ [eElev; pymin (pMaxOutletElev P) eElev] /\
    chWidth ch = repeat (pRiverWidth P) (length RE) ++ map (fun t => tY3 t - tY4 t)%n lts
                 ++ map (fun t => if fisnan (tY1 t - tY2 t)%n then f0 else (tY1 t - tY2 t)%n) ots ++ [eW; eW] /\
    (forall i d, nth_error (chDx ch) i = Some d -> d =
       if Nat.eqb i (length (chDx ch) - 2) then (if (e0 <? e1)%n then (Dx + fmod e1 Dx)%n else (Dx + (Dx - fmod e1 Dx))%n) else Dx).
Proof. exact @contents. Qed.
Print Assumptions C20_contents.

Theorem C20_example : exists ch, exAsm 2 2 false = Ok ch /\ chOnline ch = [1; 2]%nat /\ chClosed ch = false.
Proof. exact ex_open. Qed.

Theorem C21_closure : forall T, grid T -> forall e0 e1 d eW eElev Closed RE RD RV LW LV OD OV ED EV P ch,
  assembleChannel T (Fin e0) (Fin e1) eW eElev Closed RE RD RV LW LV OD OV ED EV (Fin d) P = Ok ch ->
  chClosed ch = true <->
  Closed = true \/ narrowOutlet T e0 e1 (pMinOutletWidth P) \/ (eW <=? pMinOutletWidth P)%n = true \/
  narrowLagoon T e0 (pMinOutletWidth P).
Proof. exact closure. Qed.
Print Assumptions C21_closure.

Theorem C21_example : grid exT /\ (exists ch, exAsm 2 2 false = Ok ch /\ chOnline ch = [1; 2]%nat /\ chClosed ch = false) /\
  (exists ch, exAsm 2 2 true = Ok ch /\ chOnline ch = [1; 2; 3; 4]%nat /\ chClosed ch = true).
Proof. exact (conj exT_grid (conj ex_open ex_shut)). Qed.

Theorem C22_online : forall F (NF : Num F) T e0 e1 eW eElev Closed RE RD RV LW LV OD OV ED EV Dx P ch,
  assembleChannel T e0 e1 eW eElev Closed RE RD RV LW LV OD OV ED EV Dx P = Ok ch ->
  exists x0 t0, nth_error T x0 = Some t0 /\ (tX t0 =? f0)%n = true /\
    (forall j t, (j < x0)%nat -> nth_error T j = Some t -> (tX t =? f0)%n = false) /\
    nth_error (chOnline ch) 0 = Some x0 /\
    forall j i, nth_error (chOnline ch) j = Some i ->
      (if ((e0 =? f0) || (f0 <? e0))%n then i = (x0 + j)%nat else (i + j)%nat = x0) /\
      exists t, nth_error T i = Some t /\ (f0 <? tY3 t - tY4 t)%n = true /\ (tY3 t - tY4 t <? pMinOutletWidth P)%n = false.
Proof. exact @online_run. Qed.
Print Assumptions C22_online.

Theorem C22_example : exists ch, exAsm 2 2 true = Ok ch /\ chOnline ch = [1; 2; 3; 4]%nat /\ chClosed ch = true.
Proof. exact ex_shut. Qed.

Theorem C23_storage : forall T, grid T -> forall e0 e1 d eW eElev Closed RE RD RV LW LV OD OV ED EV P ch,
  assembleChannel T (Fin e0) (Fin e1) eW eElev Closed RE RD RV LW LV OD OV ED EV (Fin d) P = Ok ch ->
  let nr := length RE in let last := (nr + length (chOnline ch) - 1)%nat in
  let shut := shutAtOutlet T e0 e1 eW Closed (pMinOutletWidth P) in
  exists ea el,
    attachedArea nr last (areaWhere d (farSide e0) T) ea (chLagArea ch) /\
    attachedLength nr last d (lengthWhere d (farSide e0) T) el (chLagLen ch) /\
    (chClosed ch = false -> ea = areaWhere d (beyond e0) T /\ el = lengthWhere d (beyond e0) T) /\
    (~ shut -> areaOn d T (chOnline ch) + ea = areaWhere d (towardsb e0) T + areaWhere d (beyond e0) T /\
               lengthOn d T (chOnline ch) + el = lengthWhere d (towardsb e0) T + lengthWhere d (beyond e0) T) /\
    (shut -> (forall t, In t T -> 0 <= lagW t) ->
       areaOn d T (chOnline ch) + ea = areaWhere d (nearSide e0) T /\
       lengthOn d T (chOnline ch) + el = lengthWhere d (nearSide e0) T).
Proof. exact storage. Qed.
Print Assumptions C23_storage.

Theorem C23_total_open : forall T, grid T -> forall e0 e1 d eW eElev Closed RE RD RV LW LV OD OV ED EV P ch,
  assembleChannel T (Fin e0) (Fin e1) eW eElev Closed RE RD RV LW LV OD OV ED EV (Fin d) P = Ok ch ->
  ~ shutAtOutlet T e0 e1 eW Closed (pMinOutletWidth P) -> e0 <> 0 -> (2 <= length (chOnline ch))%nat ->
  areaOn d T (chOnline ch) + total (chLagArea ch) = areaWhere d (fun x => negb (Reqb x e0)) T.
Proof. exact total_open. Qed.
Print Assumptions C23_total_open.

Theorem C23_total_shut : forall T, grid T -> forall e0 e1 d eW eElev Closed RE RD RV LW LV OD OV ED EV P ch,
  assembleChannel T (Fin e0) (Fin e1) eW eElev Closed RE RD RV LW LV OD OV ED EV (Fin d) P = Ok ch ->
  shutAtOutlet T e0 e1 eW Closed (pMinOutletWidth P) -> (forall t, In t T -> 0 <= lagW t) -> e0 <> 0 ->
  (2 <= length (chOnline ch))%nat ->
  areaOn d T (chOnline ch) + total (chLagArea ch) = areaWhere d (fun _ => true) T.
Proof. exact total_shut. Qed.
Print Assumptions C23_total_shut.

(** A single online transect: the far side of the river is not counted. *)
Theorem C23_single : forall T, grid T -> forall e0 e1 d eW eElev Closed RE RD RV LW LV OD OV ED EV P ch,
  assembleChannel T (Fin e0) (Fin e1) eW eElev Closed RE RD RV LW LV OD OV ED EV (Fin d) P = Ok ch ->
  ~ shutAtOutlet T e0 e1 eW Closed (pMinOutletWidth P) -> e0 <> 0 -> length (chOnline ch) = 1%nat ->
  areaOn d T (chOnline ch) + total (chLagArea ch) = areaWhere d (fun x => negb (Reqb x e0) && negb (farSide e0 x)) T.
Proof. exact total_single. Qed.
Print Assumptions C23_single.

(** Outlet in line with the river: the left-hand area is not counted, the right-hand wet length is counted twice. *)
Theorem C23_inline : forall T, grid T -> forall e0 e1 d eW eElev Closed RE RD RV LW LV OD OV ED EV P ch,
  assembleChannel T (Fin e0) (Fin e1) eW eElev Closed RE RD RV LW LV OD OV ED EV (Fin d) P = Ok ch ->
  ~ shutAtOutlet T e0 e1 eW Closed (pMinOutletWidth P) -> e0 = 0 ->
  length (chOnline ch) = 1%nat /\ total (chLagArea ch) = areaWhere d (Rltb 0) T /\
  nth_error (chLagLen ch) (length RE) = Some (Fin (d + 2 * lengthWhere d (Rltb 0) T)).
Proof. exact total_inline. Qed.
Print Assumptions C23_inline.

(** So lagoon storage is not conserved in general. *)
Theorem C23_conserved_refuted :
  ~ (forall T e0 e1 d eW eElev Closed RE RD RV LW LV OD OV ED EV (P : phys xr) ch,
       grid T -> (forall t, In t T -> 0 <= lagW t) ->
       assembleChannel T (Fin e0) (Fin e1) eW eElev Closed RE RD RV LW LV OD OV ED EV (Fin d) P = Ok ch ->
       areaOn d T (chOnline ch) + total (chLagArea ch) = areaWhere d (fun _ => true) T).
Proof. exact conserved_refuted. Qed.
Print Assumptions C23_conserved_refuted.

Theorem C23_example :
  grid exT /\ (forall t, In t exT -> 0 <= lagW t) /\
  (exists ch, exAsm 2 2 false = Ok ch /\ (2 <= length (chOnline ch))%nat /\
              ~ shutAtOutlet exT 2 2 (Fin 5) false (pMinOutletWidth ones)) /\
  (exists ch, exAsm 2 2 true = Ok ch /\ (2 <= length (chOnline ch))%nat /\
              shutAtOutlet exT 2 2 (Fin 5) true (pMinOutletWidth ones)) /\
  (exists ch, exAsm (1/2) 1 false = Ok ch /\ length (chOnline ch) = 1%nat /\
              ~ shutAtOutlet exT (1/2) 1 (Fin 5) false (pMinOutletWidth ones)) /\
  (exists ch, exAsm 0 0 false = Ok ch /\ ~ shutAtOutlet exT 0 0 (Fin 5) false (pMinOutletWidth ones)).
Proof. exact storage_examples. Qed.

Theorem C24_numbers : forall F (NF : Num F) T e0 e1 eW eElev Closed RE RD RV LW LV OD OV ED EV Dx P ch,
  assembleChannel T e0 e1 eW eElev Closed RE RD RV LW LV OD OV ED EV Dx P = Ok ch ->
  Forall (fun w => (w <=? f0)%n = false /\ fisnan w = false) (chWidth ch) /\
  Forall (fun x => fisnan x = false) (chElev ch) /\ Forall (fun x => fisnan x = false) (chDep ch) /\
  Forall (fun x => fisnan x = false) (chVel ch).
Proof. exact @no_missing. Qed.
Print Assumptions C24_numbers.

Theorem C24_filled : forall F (NF : Num F) T e0 e1 eW eElev Closed RE RD RV LW LV OD OV ED EV Dx P ch,
  assembleChannel T e0 e1 eW eElev Closed RE RD RV LW LV OD OV ED EV Dx P = Ok ch ->
  length RD = length RV -> (chClosed ch = false -> length ED = length EV) ->
  exists dep vel, rawDepths T (chClosed ch) RD LW OD ED (chOnline ch) (chOutlet ch) dep /\
                  rawVels (chClosed ch) RV LV OV EV (chOnline ch) (chOutlet ch) vel /\
                  filledDep dep (chDep ch) /\ filledVel (chDep ch) vel (chVel ch).
Proof. exact @raw_filled. Qed.
Print Assumptions C24_filled.

Theorem C24_range : forall T e0 e1 eW eElev Closed RE RD RV LW LV OD OV ED EV Dx (P : phys xr) ch lo hi,
  assembleChannel T e0 e1 eW eElev Closed RE RD RV LW LV OD OV ED EV Dx P = Ok ch ->
  length RD = length RV -> (chClosed ch = false -> length ED = length EV) ->
  (forall raw, rawDepths T (chClosed ch) RD LW OD ED (chOnline ch) (chOutlet ch) raw ->
               forall i y, present raw i y -> exists r, y = Fin r /\ lo <= r <= hi) ->
  Forall (fun y => exists r, y = Fin r /\ lo <= r <= hi) (chDep ch).
Proof. exact depths_in_range. Qed.
Print Assumptions C24_range.

(** A run with missing velocities and end depth, all present depths being 1. *)
Theorem C24_example : exists ch, exAsm 2 2 false = Ok ch /\ chOnline ch = [1; 2]%nat /\ chClosed ch = false /\
  forall raw, rawDepths exT (chClosed ch) [Fin 1; Fin 1] (map Fin [2; 2; 2; 2; 2]) (map Fin [1; 1; 1; 1; 1]) [Fin 1]
                        (chOnline ch) (chOutlet ch) raw ->
  forall i y, present raw i y -> exists r, y = Fin r /\ 1 <= r <= 1.
Proof. exact ex_range. Qed.
