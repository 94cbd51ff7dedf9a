(** C10-C13: riv.py solveSteady. *)
From Coq Require Import Reals List.
From Verif Require Import Base Num Xr MState MRiv SRiv PSteady.
Import ListNotations.
Local Open Scope R_scope.

(** Depths and velocities of every section; [b] are widths. *)
Theorem C10_discharge : forall (dx z b : list xr) (rough : xr) (q : R) (dswl : xr) (N : nump xr) (h v : list xr),
  solveSteady dx z b rough (Fin q) dswl N = Ok (h, v) ->
  length h = length z /\ length v = length z /\ length b = length z /\
  forall i bi hi, nth_error b i = Some (Fin bi) -> nth_error h i = Some (Fin hi) -> bi <> 0 -> hi <> 0 ->
  exists vi, nth_error v i = Some (Fin vi) /\ bi * hi * vi = q.
Proof. exact steady_discharge. Qed.
Print Assumptions C10_discharge.

Theorem C10_example :
  solveSteady [Fin 1] [Fin 0; Fin 0] [Fin 1; Fin 1] (Fin 0) (Fin 1) (Fin 2) exN =
  Ok ([Fin 2; Fin 2], [Fin (1 / 2); Fin (1 / 2)]).
Proof. exact steady_example. Qed.

Theorem C11_downstream : forall dx z b n q dswl (N : nump xr) h v beta zl bl hl,
  q <> 0 -> Forall (fun x => 0 < x) b -> nBeta N = Fin beta ->
  solveSteady (map Fin dx) (map Fin z) (map Fin b) (Fin n) (Fin q) (Fin dswl) N = Ok (h, v) ->
  nth_error z (length z - 1) = Some zl -> nth_error b (length z - 1) = Some bl ->
  nth_error h (length z - 1) = Some hl ->
  exists c, critical q bl c /\ hl = Fin (Rmax (dswl - zl) c).
Proof. exact steady_downstream. Qed.
Print Assumptions C11_downstream.

Theorem C11_energy : forall dx z b n q dswl (N : nump xr) h v beta tol,
  q <> 0 -> Forall (fun x => 0 < x) b -> nBeta N = Fin beta -> nErrTol N = Fin tol ->
  solveSteady (map Fin dx) (map Fin z) (map Fin b) (Fin n) (Fin q) (Fin dswl) N = Ok (h, v) ->
  forall i z0 b0 h0 z1 b1 h1,
    nth_error z i = Some z0 -> nth_error b i = Some b0 -> nth_error h i = Some (Fin h0) ->
    nth_error z (S i) = Some z1 -> nth_error b (S i) = Some b1 -> nth_error h (S i) = Some (Fin h1) ->
  exists x c, nth_error dx i = Some x /\ critical q b0 c /\
    (h0 = c \/ (c <= h0 /\ Rabs (energy_residual beta n q x z0 b0 h0 z1 b1 h1) <= tol)).
Proof. exact steady_energy. Qed.
Print Assumptions C11_energy.

(** With nonzero inflow every depth is NaN or a number not below critical depth. *)
Theorem C11_depths : forall dx z b n q dswl (N : nump xr) h v beta tol,
  q <> 0 -> Forall (fun x => 0 < x) b -> nBeta N = Fin beta -> nErrTol N = Fin tol ->
  solveSteady (map Fin dx) (map Fin z) (map Fin b) (Fin n) (Fin q) (Fin dswl) N = Ok (h, v) ->
  forall i b0 x, nth_error b i = Some b0 -> nth_error h i = Some x ->
  x = NaN \/ exists c r, x = Fin r /\ critical q b0 c /\ c <= r.
Proof. exact steady_depths. Qed.
Print Assumptions C11_depths.

Theorem C11_critical_unique : forall q b h h', critical q b h -> critical q b h' -> h = h'.
Proof. exact critical_unique. Qed.
Print Assumptions C11_critical_unique.

Theorem C11_example :
  solveSteady [Fin 1] [Fin 0; Fin 0] [Fin 1; Fin 1] (Fin 0) (Fin 1) (Fin 2) exN =
  Ok ([Fin 2; Fin 2], [Fin (1 / 2); Fin (1 / 2)]).
Proof. exact steady_example. Qed.

(** [solveSteadyF k] stops with [EFuel] at a section that needs more than [k] updates. *)
Theorem C12_terminates : forall F (NF : Num F) (dx z b : list F) rough q dswl (N : nump F) fuel,
  (Nat.max 1 (nMaxIt N) <= fuel)%nat ->
  solveSteadyF fuel dx z b rough q dswl N <> Exc EFuel /\
  solveSteadyF fuel dx z b rough q dswl N = solveSteady dx z b rough q dswl N.
Proof. exact @steady_terminates. Qed.
Print Assumptions C12_terminates.

Theorem C12_few_updates : forall F (NF : Num F) (dx z b : list F) rough q dswl (N : nump F) r,
  solveSteady dx z b rough q dswl N = Ok r ->
  solveSteadyF (nMaxIt N - 1) dx z b rough q dswl N = Ok r.
Proof. exact @steady_few. Qed.
Print Assumptions C12_few_updates.

Theorem C13_negative_estimate : forall dx z b n q dswl (N : nump xr) h v beta tol,
  q <> 0 -> Forall (fun x => 0 < x) b -> nBeta N = Fin beta -> nErrTol N = Fin tol ->
  solveSteady (map Fin dx) (map Fin z) (map Fin b) (Fin n) (Fin q) (Fin dswl) N = Ok (h, v) ->
  forall i z0 b0 h0 z1 b1 h1 x,
    nth_error z i = Some z0 -> nth_error b i = Some b0 -> nth_error h i = Some h0 ->
    nth_error z (S i) = Some z1 -> nth_error b (S i) = Some b1 -> nth_error h (S i) = Some (Fin h1) ->
    nth_error dx i = Some x -> h1 + z1 - z0 + friction n q b1 h1 * x < 0 ->
  exists c, critical q b0 c /\ h0 = Fin c.
Proof. exact steady_gives_up. Qed.
Print Assumptions C13_negative_estimate.

(** A bed step of 10 m, tolerance 0: returned normally, energy equation wrong by more than 1 m. *)
Theorem C13_example : exists c,
  solveSteady [Fin 1] [Fin 10; Fin 0] [Fin 1; Fin 1] (Fin 0) (Fin 1) (Fin 2) exN =
  Ok ([Fin c; Fin 2], [Fin (1 / c); Fin (1 / 2)]) /\ critical 1 1 c /\
  Rabs (energy_residual 1 0 1 1 10 1 c 0 1 2) > 1.
Proof. exact gives_up_example. Qed.

Theorem C13_dry_end : forall dx z b n dswl (N : nump xr) beta zl,
  Forall (fun x => 0 < x) b -> nBeta N = Fin beta -> length b = length z -> (length z <= S (length dx))%nat ->
  nth_error z (length z - 1) = Some zl -> dswl <= zl ->
  exists h v, solveSteady (map Fin dx) (map Fin z) (map Fin b) (Fin n) (Fin 0) (Fin dswl) N = Ok (h, v) /\
    nth_error h (length z - 1) = Some (Fin 0) /\ nth_error v (length z - 1) = Some NaN /\
    forall i, (i < length z - 1)%nat -> nth_error h i = Some NaN /\ nth_error v i = Some NaN.
Proof. exact steady_dry_end. Qed.
Print Assumptions C13_dry_end.

Theorem C13_dry_example :
  solveSteady [Fin 1] [Fin 1; Fin 0] [Fin 1; Fin 1] (Fin 0) (Fin 0) (Fin (-1)) exN = Ok ([NaN; Fin 0], [NaN; NaN]).
Proof. exact dry_end_example. Qed.

Theorem C13_numbers_refuted : ~ (forall dx z b n q dswl (N : nump xr) h v,
  Forall is_fin dx -> Forall is_fin z -> Forall (fun x => exists r, x = Fin r /\ 0 < r) b ->
  solveSteady dx z b (Fin n) (Fin q) (Fin dswl) N = Ok (h, v) ->
  Forall is_fin h /\ Forall is_fin v).
Proof. exact numbers_refuted. Qed.
Print Assumptions C13_numbers_refuted.
