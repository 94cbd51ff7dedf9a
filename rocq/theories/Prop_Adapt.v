(** C37-C39: mor.py, adaptive time step. *)
From Coq Require Import ZArith List Bool Reals.
From Verif Require Import Base Num Xr MState MMor SAdapt PAdapt.
Import ListNotations.
Local Open Scope Z_scope.

Theorem C37_range : forall F (NF : Num F) (N : nump F) a k, 1 <= a -> a * 2 ^ Z.of_nat k <= 43200 -> forall TP rate j fuel,
  tMorDtMin TP = sec a -> tMorDtMax TP = sec (a * 2 ^ Z.of_nat k) -> (j <= k)%nat -> (k <= fuel)%nat ->
  exists i, (i <= k)%nat /\ adaptStep fuel N TP rate (sec (a * 2 ^ Z.of_nat j)) = Ok (sec (a * 2 ^ Z.of_nat i)).
Proof. exact @adapt_pow. Qed.
Print Assumptions C37_range.

Theorem C37_quality : forall (N : nump xr) a k TP (rate cap : R) j fuel,
  1 <= a -> a * 2 ^ Z.of_nat k <= 43200 -> tMorDtMin TP = sec a -> tMorDtMax TP = sec (a * 2 ^ Z.of_nat k) ->
  (j <= k)%nat -> (k <= fuel)%nat -> nMaxMorChange N = Fin cap ->
  exists i, (i <= k)%nat /\ adaptStep fuel N TP (Fin rate) (sec (a * 2 ^ Z.of_nat j)) = Ok (sec (a * 2 ^ Z.of_nat i)) /\
    let s := IZR (a * 2 ^ Z.of_nat i) in
    (i = 0%nat \/ (rate * s <= cap)%R) /\ (i = k \/ (cap / 2 <= rate * s)%R).
Proof. exact adapt_quality. Qed.
Print Assumptions C37_quality.

Theorem C37_example : 1 <= 15 /\ 15 * 2 ^ Z.of_nat 8 <= 43200 /\ tMorDtMin (exTP 15 3840) = sec 15 /\
  tMorDtMax (exTP 15 3840) = sec (15 * 2 ^ Z.of_nat 8).
Proof. exact exTP_ok. Qed.

Theorem C38_terminates : forall F (NF : Num F) (N : nump F) rate TP dt fuel,
  0 <= tMorDtMin TP < oneDay -> 0 <= tMorDtMax TP <= halfDay -> 0 < dt < oneDay -> (47 <= fuel)%nat ->
  exists r, adaptStep fuel N TP rate dt = Ok r /\ 0 < r < oneDay /\
    (r <= dt \/ r < 2 * tMorDtMax TP) /\ (dt <= r \/ tMorDtMin TP <= 2 * r + 1).
Proof. exact @adapt_half. Qed.
Print Assumptions C38_terminates.

Theorem C38_terminates_refuted : ~ (forall (N : nump xr) TP rate dt, 0 < tMorDtMin TP <= dt -> dt <= tMorDtMax TP < oneDay ->
  exists fuel r, adaptStep fuel N TP rate dt = Ok r).
Proof. exact terminates_refuted. Qed.
Print Assumptions C38_terminates_refuted.

Theorem C38_forever : forall (N : nump xr) start fin hyd fuel cap, nMaxMorChange N = Fin cap -> (0 < cap)%R ->
  adaptStep fuel N (mkTime start fin hyd (sec 15) (sec 80000)) (Fin 0) (sec 15) = Exc EFuel.
Proof. exact adapt_forever_zero. Qed.
Print Assumptions C38_forever.

Theorem C39_limits_refuted : ~ (forall (N : nump xr) TP rate dt fuel r, adaptStep fuel N TP rate dt = Ok r ->
  tMorDtMin TP <= dt <= tMorDtMax TP -> tMorDtMin TP <= r <= tMorDtMax TP).
Proof. exact limits_refuted. Qed.
Print Assumptions C39_limits_refuted.

Theorem C39_minimum_refuted : ~ (forall (N : nump xr) TP rate dt fuel r, adaptStep fuel N TP rate dt = Ok r ->
  tMorDtMin TP <= dt <= tMorDtMax TP -> tMorDtMin TP <= r).
Proof. exact limits_refuted_below. Qed.
Print Assumptions C39_minimum_refuted.

Theorem C39_one_day : forall F (NF : Num F) (N : nump F) TP rate dt fuel r, tMorDtMax TP = oneDay -> 0 <= dt ->
  adaptStep fuel N TP rate dt = Ok r -> r <= dt.
Proof. exact @adapt_day. Qed.
Print Assumptions C39_one_day.

Theorem C39_example : adaptStep 100 capOne (exTP 15 20) (Fin 0) (sec 15) = Ok (sec 30) /\
  adaptStep 100 capOne (exTP 15 3600) (Fin 1) (sec 20) = Ok (sec 10).
Proof. exact (conj over_max under_min). Qed.
