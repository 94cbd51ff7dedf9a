(** C42-C47 and C09: mor.py, rates of change and sediment budgets.  What a forcing
    contributes is the difference between the rates with it and without it. *)
From Coq Require Import ZArith List Bool Reals.
From Verif Require Import Base Num Xr MState MCoast MMor SMor PRate PBudget PShore PSpread PRateEx STouch PTouch.
Import ListNotations.
Local Open Scope R_scope.

Theorem C09_no_movement : forall P d T e0 e1 W Zend online outlet CW CD fl closed OW (LST q CST : list R) (RR R0 : rates xr),
  soundInputs P d T e1 W Zend online outlet CW CD fl closed (length q) ->
  ratesFor P (Fin d) T e0 e1 W Zend online outlet CW CD fl closed (map Fin LST) (map Fin q) (map Fin CST) OW = Ok RR ->
  ratesFor P (Fin d) T e0 e1 W Zend online outlet CW CD fl closed (map (fun _ => Fin 0) LST) (map Fin q) (map Fin CST) OW = Ok R0 ->
  forall v k i t r r0, Forall (eq v) LST -> (closed = false -> firstRight T e1 (S k)) -> (0 < i)%nat -> (S i < length T)%nat ->
  (closed = false -> i <> S k \/ v <= 0) ->
  nth_error T i = Some t -> nth_error (rT RR) i = Some r -> nth_error (rT R0) i = Some r0 ->
  shoreVol P d t r r0 = Fin 0.
Proof. exact lst_uniform. Qed.
Print Assumptions C09_no_movement.

Theorem C42_telescopes : forall P d T e0 e1 W Zend online outlet CW CD fl closed (LST q CST : list R) OW (RR R0 : rates xr),
  soundInputs P d T e1 W Zend online outlet CW CD fl closed (length q) ->
  ratesFor P (Fin d) T e0 e1 W Zend online outlet CW CD fl closed (map Fin LST) (map Fin q) (map Fin CST) OW = Ok RR ->
  ratesFor P (Fin d) T e0 e1 W Zend online outlet CW CD fl closed (map Fin LST) (map (fun _ => Fin 0) q) (map Fin CST) OW = Ok R0 ->
  (forall j, In j (seq 1 (length fl - (if closed then 1 else 2))) -> (nth j fl 9 <= (if closed then 1 else 3))%nat) ->
  channelVol P d T W Zend online outlet closed RR R0 = nth 0 q 0 - (if closed then 0 else nth (length q - 1) q 0).
Proof. exact channel_budget. Qed.
Print Assumptions C42_telescopes.

Theorem C43_lagoon : forall P d T e0 e1 W Zend online outlet CW CD fl closed (LST q CST : list R) OW (RR R0 : rates xr),
  soundInputs P d T e1 W Zend online outlet CW CD fl closed (length q) ->
  ratesFor P (Fin d) T e0 e1 W Zend online outlet CW CD fl closed (map Fin LST) (map Fin q) (map Fin CST) OW = Ok RR ->
  ratesFor P (Fin d) T e0 e1 W Zend online outlet CW CD fl closed (map Fin LST) (map (fun _ => Fin 0) q) (map Fin CST) OW = Ok R0 ->
  forall k i j t r r0, nth_error online k = Some i -> nth_error (flagged closed fl 1) k = Some j -> nth_error T i = Some t ->
  nth_error (rT RR) i = Some r -> nth_error (rT R0) i = Some r0 ->
  lagoonVol P d t r r0 = Fin (gain q j) /\
  (0 <= gain q j \/ tooWide P CW CD j = true -> rY3 r = rY3 r0 /\ rY4 r = rY4 r0) /\
  (gain q j <= 0 -> tooWide P CW CD j = false -> rZ3 r = rZ3 r0 /\
    ((rY3 r - rY3 r0) * ((bankTop t - tZ3 t) * Fin d))%n = Fin (- gain q j / 2) /\
    ((rY4 r0 - rY4 r) * ((pBackshoreElev P - tZ3 t) * Fin d))%n = Fin (- gain q j / 2)).
Proof. exact lagoon_budget. Qed.
Print Assumptions C43_lagoon.

Theorem C43_outlet : forall P d T e0 e1 W Zend online outlet CW CD fl closed (LST q CST : list R) OW (RR R0 : rates xr),
  soundInputs P d T e1 W Zend online outlet CW CD fl closed (length q) ->
  ratesFor P (Fin d) T e0 e1 W Zend online outlet CW CD fl closed (map Fin LST) (map Fin q) (map Fin CST) OW = Ok RR ->
  ratesFor P (Fin d) T e0 e1 W Zend online outlet CW CD fl closed (map Fin LST) (map (fun _ => Fin 0) q) (map Fin CST) OW = Ok R0 ->
  forall k i j t r r0, closed = false -> nth_error outlet k = Some i -> nth_error (flagged closed fl 2) k = Some j -> nth_error T i = Some t ->
  nth_error (rT RR) i = Some r -> nth_error (rT R0) i = Some r0 ->
  outletVol d t r r0 = Fin (gain q j) /\
  (0 <= gain q j \/ tooWide P CW CD j = true -> rY1 r = rY1 r0 /\ rY2 r = rY2 r0) /\
  (gain q j <= 0 -> tooWide P CW CD j = false -> rZ1 r = rZ1 r0 /\
    ((rY1 r - rY1 r0) * ((tZ0 t - tZ1 t) * Fin d))%n = Fin (- gain q j / 2) /\
    ((rY2 r0 - rY2 r) * ((tZ2 t - tZ1 t) * Fin d))%n = Fin (- gain q j / 2)).
Proof. exact outlet_budget. Qed.
Print Assumptions C43_outlet.

Theorem C43_river : forall P d T e0 e1 W Zend online outlet CW CD fl closed (LST q CST : list R) OW (RR R0 : rates xr),
  soundInputs P d T e1 W Zend online outlet CW CD fl closed (length q) ->
  ratesFor P (Fin d) T e0 e1 W Zend online outlet CW CD fl closed (map Fin LST) (map Fin q) (map Fin CST) OW = Ok RR ->
  ratesFor P (Fin d) T e0 e1 W Zend online outlet CW CD fl closed (map Fin LST) (map (fun _ => Fin 0) q) (map Fin CST) OW = Ok R0 ->
  forall k j v v0, nth_error (flagged closed fl 0) k = Some j ->
  nth_error (rRiv RR) k = Some v -> nth_error (rRiv R0) k = Some v0 -> riverVol P d v v0 = Fin (gain q j).
Proof. exact river_budget. Qed.
Print Assumptions C43_river.

Theorem C43_end : forall P d T e0 e1 W Zend online outlet CW CD fl closed (LST q CST : list R) OW (RR R0 : rates xr),
  soundInputs P d T e1 W Zend online outlet CW CD fl closed (length q) ->
  ratesFor P (Fin d) T e0 e1 W Zend online outlet CW CD fl closed (map Fin LST) (map Fin q) (map Fin CST) OW = Ok RR ->
  ratesFor P (Fin d) T e0 e1 W Zend online outlet CW CD fl closed (map Fin LST) (map (fun _ => Fin 0) q) (map Fin CST) OW = Ok R0 ->
  forall j, closed = false -> nth_error (flagged closed fl 3) 0 = Some j ->
  endVol P d W Zend RR R0 = Fin (gain q j) /\ flagged closed fl 3 = [j].
Proof. exact end_budget. Qed.
Print Assumptions C43_end.

Theorem C43_elsewhere : forall P d T e0 e1 W Zend online outlet CW CD fl closed (LST q CST : list R) OW (RR R0 : rates xr),
  soundInputs P d T e1 W Zend online outlet CW CD fl closed (length q) ->
  ratesFor P (Fin d) T e0 e1 W Zend online outlet CW CD fl closed (map Fin LST) (map Fin q) (map Fin CST) OW = Ok RR ->
  ratesFor P (Fin d) T e0 e1 W Zend online outlet CW CD fl closed (map Fin LST) (map (fun _ => Fin 0) q) (map Fin CST) OW = Ok R0 ->
  forall i t r r0, ~ In i online -> (closed = false -> ~ In i outlet) -> nth_error T i = Some t ->
  nth_error (rT RR) i = Some r -> nth_error (rT R0) i = Some r0 ->
  r = mkR (rY0 r) (rY1 r0) (rY2 r0) (rY3 r0) (rY4 r0) (rZ0 r0) (rZ1 r0) (rZ2 r0) (rZ3 r0).
Proof. exact elsewhere. Qed.
Print Assumptions C43_elsewhere.

Theorem C44_pointwise : forall P d T e0 e1 W Zend online outlet CW CD fl closed OW (LST q CST : list R) (RR R0 : rates xr),
  soundInputs P d T e1 W Zend online outlet CW CD fl closed (length q) ->
  ratesFor P (Fin d) T e0 e1 W Zend online outlet CW CD fl closed (map Fin LST) (map Fin q) (map Fin CST) OW = Ok RR ->
  ratesFor P (Fin d) T e0 e1 W Zend online outlet CW CD fl closed (map (fun _ => Fin 0) LST) (map Fin q) (map Fin CST) OW = Ok R0 ->
  forall k i t r r0, (closed = false -> firstRight T e1 (S k)) -> (0 < i)%nat -> (S i < length T)%nat ->
  nth_error T i = Some t -> nth_error (rT RR) i = Some r -> nth_error (rT R0) i = Some r0 ->
  shoreVol P d t r r0 = Fin (nth (i - 1) LST 0 - nth i LST 0
    - (if closed then 0 else if Nat.eqb i (S k) then Rmax (nth k LST 0) 0 else 0)).
Proof. exact lst_budget. Qed.
Print Assumptions C44_pointwise.

Theorem C44_total : forall P d T e0 e1 W Zend online outlet CW CD fl closed OW (LST q CST : list R) (RR R0 : rates xr),
  soundInputs P d T e1 W Zend online outlet CW CD fl closed (length q) ->
  ratesFor P (Fin d) T e0 e1 W Zend online outlet CW CD fl closed (map Fin LST) (map Fin q) (map Fin CST) OW = Ok RR ->
  ratesFor P (Fin d) T e0 e1 W Zend online outlet CW CD fl closed (map (fun _ => Fin 0) LST) (map Fin q) (map Fin CST) OW = Ok R0 ->
  forall k, (closed = false -> firstRight T e1 (S k)) ->
  shorelineVol P d T RR R0 = nth 0 LST 0 - nth (length LST - 1) LST 0
    - (if closed then 0 else if (S (S k) <? length T)%nat then Rmax (nth k LST 0) 0 else 0).
Proof. exact lst_total. Qed.
Print Assumptions C44_total.

Theorem C44_bank : forall P d T e0 e1 W Zend online outlet CW CD fl closed OW (LST q CST : list R) (RR R0 : rates xr),
  soundInputs P d T e1 W Zend online outlet CW CD fl closed (length q) ->
  ratesFor P (Fin d) T e0 e1 W Zend online outlet CW CD fl closed (map Fin LST) (map Fin q) (map Fin CST) OW = Ok RR ->
  ratesFor P (Fin d) T e0 e1 W Zend online outlet CW CD fl closed (map (fun _ => Fin 0) LST) (map Fin q) (map Fin CST) OW = Ok R0 ->
  forall k, closed = false -> firstRight T e1 (S k) ->
  ((rWiden R0 - rWiden RR) * bankArea P Zend)%n = Fin (Rabs (nth k LST 0)) /\
  ((rMove RR - rMove R0) * bankArea P Zend)%n = Fin (nth k LST 0 / 2) /\ rAgg RR = rAgg R0.
Proof. exact lst_bank. Qed.
Print Assumptions C44_bank.

Theorem C44_only : forall P d T e0 e1 W Zend online outlet CW CD fl closed OW (LST q CST : list R) (RR R0 : rates xr),
  soundInputs P d T e1 W Zend online outlet CW CD fl closed (length q) ->
  ratesFor P (Fin d) T e0 e1 W Zend online outlet CW CD fl closed (map Fin LST) (map Fin q) (map Fin CST) OW = Ok RR ->
  ratesFor P (Fin d) T e0 e1 W Zend online outlet CW CD fl closed (map (fun _ => Fin 0) LST) (map Fin q) (map Fin CST) OW = Ok R0 ->
  forall i t r r0, nth_error T i = Some t -> nth_error (rT RR) i = Some r -> nth_error (rT R0) i = Some r0 ->
  r = mkR (rY0 r) (rY1 r0) (rY2 r0) (rY3 r0) (rY4 r0) (rZ0 r0) (rZ1 r0) (rZ2 r0) (rZ3 r0).
Proof. exact lst_only. Qed.
Print Assumptions C44_only.

Theorem C45_shoreface : forall P d T e0 e1 W Zend online outlet CW CD fl closed OW (LST q CST : list R) (RR R0 : rates xr),
  soundInputs P d T e1 W Zend online outlet CW CD fl closed (length q) ->
  ratesFor P (Fin d) T e0 e1 W Zend online outlet CW CD fl closed (map Fin LST) (map Fin q) (map Fin CST) OW = Ok RR ->
  ratesFor P (Fin d) T e0 e1 W Zend online outlet CW CD fl closed (map Fin LST) (map Fin q) (map (fun _ => Fin 0) CST) OW = Ok R0 ->
  forall i t r r0, (0 < i)%nat -> (S i < length T)%nat ->
  nth_error T i = Some t -> nth_error (rT RR) i = Some r -> nth_error (rT R0) i = Some r0 ->
  shoreVol P d t r r0 = Fin (- (nth i CST 0 * d)).
Proof. exact cst_shore. Qed.
Print Assumptions C45_shoreface.

Theorem C45_barrier : forall P d T e0 e1 W Zend online outlet CW CD fl closed OW (LST q CST : list R) (RR R0 : rates xr),
  soundInputs P d T e1 W Zend online outlet CW CD fl closed (length q) ->
  ratesFor P (Fin d) T e0 e1 W Zend online outlet CW CD fl closed (map Fin LST) (map Fin q) (map Fin CST) OW = Ok RR ->
  ratesFor P (Fin d) T e0 e1 W Zend online outlet CW CD fl closed (map Fin LST) (map Fin q) (map (fun _ => Fin 0) CST) OW = Ok R0 ->
  forall i t r r0, nth_error T i = Some t -> nth_error (rT RR) i = Some r -> nth_error (rT R0) i = Some r0 ->
  ((rZ0 r - rZ0 r0) * crest t + (if outletPresent t then rY1 r0 - rY1 r else rY3 r0 - rY3 r) * rear t)%n = Fin (nth i CST 0) /\
  (nth i OW false = true -> rZ0 r = rZ0 r0) /\ (nth i OW false = false -> rY1 r = rY1 r0 /\ rY3 r = rY3 r0) /\
  rY2 r = rY2 r0 /\ rY4 r = rY4 r0 /\ rZ1 r = rZ1 r0 /\ rZ2 r = rZ2 r0 /\ rZ3 r = rZ3 r0.
Proof. exact cst_barrier. Qed.
Print Assumptions C45_barrier.

Theorem C45_rest : forall P d T e0 e1 W Zend online outlet CW CD fl closed OW (LST q CST : list R) (RR R0 : rates xr),
  soundInputs P d T e1 W Zend online outlet CW CD fl closed (length q) ->
  ratesFor P (Fin d) T e0 e1 W Zend online outlet CW CD fl closed (map Fin LST) (map Fin q) (map Fin CST) OW = Ok RR ->
  ratesFor P (Fin d) T e0 e1 W Zend online outlet CW CD fl closed (map Fin LST) (map Fin q) (map (fun _ => Fin 0) CST) OW = Ok R0 ->
  rRiv RR = rRiv R0 /\ rWiden RR = rWiden R0 /\ rAgg RR = rAgg R0 /\ rMove RR = rMove R0.
Proof. exact cst_rest. Qed.
Print Assumptions C45_rest.

Theorem C46_spread : forall P d T e0 e1 W Zend online outlet CW CD fl closed OW (LST q CST : list R) (RR R0 : rates xr),
  soundInputs P d T e1 W Zend online outlet CW CD fl closed (length q) ->
  ratesFor P (Fin d) T e0 e1 W Zend online outlet CW CD fl closed (map Fin LST) (map Fin q) (map Fin CST) OW = Ok RR ->
  ratesFor P (Fin d) T e0 e1 W Zend online outlet CW CD fl closed (map Fin LST) (map (fun _ => Fin 0) q) (map Fin CST) OW = Ok R0 ->
  forall i t r r0, (0 < i)%nat -> (S i < length T)%nat ->
  nth_error T i = Some t -> nth_error (rT RR) i = Some r -> nth_error (rT R0) i = Some r0 ->
  shoreVol P d t r r0 = Fin (if closed then 0 else
    let s := rv (pOutletSedSpreadDist P) in
    d * nth (length q - 1) q 0 / s * Rmax (1 - Rabs (rv (tX t) - rv e1) / s) 0).
Proof. exact spread_at. Qed.
Print Assumptions C46_spread.

Theorem C46_total : forall P d T e0 e1 W Zend online outlet CW CD fl closed OW (LST q CST : list R) (RR R0 : rates xr),
  soundInputs P d T e1 W Zend online outlet CW CD fl closed (length q) ->
  ratesFor P (Fin d) T e0 e1 W Zend online outlet CW CD fl closed (map Fin LST) (map Fin q) (map Fin CST) OW = Ok RR ->
  ratesFor P (Fin d) T e0 e1 W Zend online outlet CW CD fl closed (map Fin LST) (map (fun _ => Fin 0) q) (map Fin CST) OW = Ok R0 ->
  forall k, closed = false -> regular d T -> (0 < k)%nat -> rv (pOutletSedSpreadDist P) = INR k * d ->
  firstX T + INR k * d <= rv e1 <= lastX T - INR k * d ->
  shorelineVol P d T RR R0 = nth (length q - 1) q 0.
Proof. exact spread_total. Qed.
Print Assumptions C46_total.

Theorem C46_ends : forall P d T e0 e1 W Zend online outlet CW CD fl closed OW (LST q CST : list R) (RR R0 : rates xr),
  soundInputs P d T e1 W Zend online outlet CW CD fl closed (length q) ->
  ratesFor P (Fin d) T e0 e1 W Zend online outlet CW CD fl closed (map Fin LST) (map Fin q) (map Fin CST) OW = Ok RR ->
  ratesFor P (Fin d) T e0 e1 W Zend online outlet CW CD fl closed (map Fin LST) (map (fun _ => Fin 0) q) (map Fin CST) OW = Ok R0 ->
  forall i t r r0, i = 0%nat \/ S i = length T ->
  nth_error T i = Some t -> nth_error (rT RR) i = Some r -> nth_error (rT R0) i = Some r0 -> rY0 r = rY0 r0.
Proof. exact spread_end. Qed.
Print Assumptions C46_ends.

Theorem C46_total_refuted :
  ~ (forall P d T e0 e1 W Zend online outlet CW CD fl OW (LST q CST : list R) (RR R0 : rates xr),
      soundInputs P d T e1 W Zend online outlet CW CD fl false (length q) ->
      ratesFor P (Fin d) T e0 e1 W Zend online outlet CW CD fl false (map Fin LST) (map Fin q) (map Fin CST) OW = Ok RR ->
      ratesFor P (Fin d) T e0 e1 W Zend online outlet CW CD fl false (map Fin LST) (map (fun _ => Fin 0) q) (map Fin CST) OW = Ok R0 ->
      regular d T -> d <= rv (pOutletSedSpreadDist P) ->
      firstX T + rv (pOutletSedSpreadDist P) <= rv e1 <= lastX T - rv (pOutletSedSpreadDist P) ->
      shorelineVol P d T RR R0 = nth (length q - 1) q 0).
Proof. exact spread_refuted. Qed.
Print Assumptions C46_total_refuted.

Theorem C47_ends : forall F (NF : Num F) (P : phys F) Dx T e0 e1 W Zend online outlet CW CD fl closed LST q CST OW (RR : rates F) i r,
  ratesFor P Dx T e0 e1 W Zend online outlet CW CD fl closed LST q CST OW = Ok RR ->
  i = 0%nat \/ S i = length T -> nth_error (rT RR) i = Some r ->
  rY0 r = (- pShorelineErosionRate P / (fofQ 36525 100 * fofZ 86400))%n.
Proof. exact @ends_rate. Qed.
Print Assumptions C47_ends.

(** A transect counts as having a channel when its seaward bank is a number. *)
Theorem C45_present : forall {F} {NF : Num F} (t : tsect F), outletPresent t = hasChannel t.
Proof. exact @channel_present. Qed.
Print Assumptions C45_present.

(** One coast on which every hypothesis above holds. *)
Theorem C42_example : soundInputs (exP 40) 20 exT (Fin 10) (Fin 10) (Fin 0) [2; 3]%nat [3]%nat exCW exCD exFl false 6 /\
  firstRight exT (Fin 10) 4 /\
  (forall j, In j (seq 1 (length exFl - 2)) -> (nth j exFl 9 <= 3)%nat) /\
  (exists RR, budgetCase 40 (map Fin exLst) (map Fin exQ) (map Fin exCst) RR) /\
  (exists RR, budgetCase 40 (map Fin exLst) (map (fun _ => Fin 0) exQ) (map Fin exCst) RR) /\
  (exists RR, budgetCase 40 (map (fun _ => Fin 0) exLst) (map Fin exQ) (map Fin exCst) RR) /\
  (exists RR, budgetCase 40 (map Fin exLst) (map Fin exQ) (map (fun _ => Fin 0) exCst) RR) /\
  regular 20 exT /\ rv (pOutletSedSpreadDist (exP 40)) = INR 2 * 20 /\ firstX exT + INR 2 * 20 <= 10 <= lastX exT - INR 2 * 20 /\
  gain exQ 1 = 1 /\ gain exQ 2 = -2 /\ gain exQ 3 = 3 /\ tooWide (exP 40) exCW exCD 2 = true /\ tooWide (exP 40) exCW exCD 3 = false.
Proof. exact budget_example. Qed.

Theorem C43_example : exists RR, budgetCase 40 (map Fin exLst) (map Fin exQ) (map Fin exCst) RR.
Proof. exact (exRates 40 exLst exQ exCst eq_refl eq_refl eq_refl). Qed.

Theorem C44_example : exists RR, budgetCase 40 (map Fin exLst) (map Fin exQ) (map Fin exCst) RR.
Proof. exact (exRates 40 exLst exQ exCst eq_refl eq_refl eq_refl). Qed.

Theorem C45_example : exists RR, budgetCase 40 (map Fin exLst) (map Fin exQ) (map Fin exCst) RR.
Proof. exact (exRates 40 exLst exQ exCst eq_refl eq_refl eq_refl). Qed.

Theorem C46_example : exists RR, budgetCase 40 (map Fin exLst) (map Fin exQ) (map Fin exCst) RR.
Proof. exact (exRates 40 exLst exQ exCst eq_refl eq_refl eq_refl). Qed.

Theorem C47_example : exists RR, budgetCase 40 (map Fin exLst) (map Fin exQ) (map Fin exCst) RR.
Proof. exact (exRates 40 exLst exQ exCst eq_refl eq_refl eq_refl). Qed.
