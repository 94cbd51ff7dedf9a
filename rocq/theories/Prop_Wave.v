(** Properties C94, C95: the wave input file. *)
From Coq Require Import Reals ZArith List.
From Verif Require Import Base Num Xr MGeom MLoad MWave SWave PWave.
Import ListNotations.
Local Open Scope R_scope.

(** C94: magnitude and direction of the energy flux, in the world and in model coordinates. *)
Theorem C94_direction : forall X Y, exists p b, wavePower (Fin X) (Fin Y) = Fin p /\ energyDir (Fin X) (Fin Y) = Fin b /\ 0 <= p /\ 0 <= b < 360 /\
  p * sin (rad b) = - (1025 * (981 / 100)) * X /\ p * cos (rad b) = - (1025 * (981 / 100)) * Y.
Proof. exact @energy_dir. Qed.
Print Assumptions C94_direction.

Theorem C94_frame : forall X Y d, exists p b w, wavePower (Fin X) (Fin Y) = Fin p /\ energyDir (Fin X) (Fin Y) = Fin b /\
  waveDir (Fin d) (Fin b) = Fin w /\ - PI <= w < PI /\
  p * sin w = - (1025 * (981 / 100)) * (X * cos d - Y * sin d) /\ p * cos w = - (1025 * (981 / 100)) * (X * sin d + Y * cos d).
Proof. exact @energy_frame. Qed.
Print Assumptions C94_frame.

Theorem C94_rows : forall (F : Type) (NF : Num F) norm (l : list (swan F)), length (waveFile norm l) = length l /\
  forall i w, nth_error (waveFile norm l) i = Some w -> exists r, nth_error l i = Some r /\ w = waveRow norm r /\ wvPeriod w = swPeriod r /\ wvLen w = swLen r /\
    wvPower w = wavePower (swX r) (swY r) /\ wvEDir w = energyDir (swX r) (swY r) /\ wvTime w = (swYear r, swMonth r, swDay r, swHour r, 0%Z).
Proof. exact @file_rows. Qed.
Print Assumptions C94_rows.

Theorem C94_minutes_refuted : exists r r' : swan xr, swMin r <> swMin r' /\ wvTime (waveRow (Fin 128) r) = wvTime (waveRow (Fin 128) r').
Proof. exact @minute_refuted. Qed.
Print Assumptions C94_minutes_refuted.

(** C95: deep water wave height. *)
Theorem C95_excess : forall norm r L d H th Ht at_, swLen r = Fin L -> swDepth r = Fin d -> swHs r = Fin H -> swDir r = Fin th -> 0 < L -> 0 < d ->
  0 < cos (rad norm - rad th) -> 0 <= H -> 0 <= Ht -> deep_wave L d H (rad norm - rad th) Ht at_ ->
  wvHs (waveRow (Fin norm) r) = Fin (Ht / group_ratio L d) /\ (0 < Ht -> Ht < Ht / group_ratio L d < 2 * Ht).
Proof. exact @wave_excess. Qed.
Print Assumptions C95_excess.

Theorem C95_exists : forall L d H a, 0 < L -> 0 < d -> 0 < cos a -> -1 < deep_ratio L d * sin a < 1 -> exists H0 a0, 0 <= H0 /\ deep_wave L d H a H0 a0.
Proof. exact @deep_exists. Qed.
Print Assumptions C95_exists.

Theorem C95_group : forall L d, 0 < L -> 0 < d -> 1 / 2 < group_ratio L d < 1.
Proof. exact @group_range. Qed.
Print Assumptions C95_group.

Theorem C95_flux_refuted : exists norm r L d H th H0, swLen r = Fin L /\ swDepth r = Fin d /\ swHs r = Fin H /\ swDir r = Fin th /\ 0 < L /\ 0 < d /\ 0 < H /\
  0 < cos (rad norm - rad th) /\ wvHs (waveRow (Fin norm) r) = Fin H0 /\ forall a0, ~ deep_wave L d H (rad norm - rad th) H0 a0.
Proof. exact @flux_refuted. Qed.
Print Assumptions C95_flux_refuted.

Theorem C95_grazing : forall norm r L d H th, swLen r = Fin L -> swDepth r = Fin d -> swHs r = Fin H -> swDir r = Fin th -> 0 < L -> 0 < d ->
  0 < cos (rad norm - rad th) -> 1 <= Rabs (deep_ratio L d * sin (rad norm - rad th)) -> 0 < H -> wvHs (waveRow (Fin norm) r) = PInf.
Proof. exact @wave_grazing. Qed.
Print Assumptions C95_grazing.

Theorem C95_offshore : forall norm r L d, swLen r = Fin L -> swDepth r = Fin d -> 0 < L -> 0 < d ->
  (swDir r = NaN \/ exists th, swDir r = Fin th /\ cos (rad norm - rad th) <= 0) -> wvHs (waveRow (Fin norm) r) = Fin 0.
Proof. exact @row_offshore. Qed.
Print Assumptions C95_offshore.

Theorem C95_example : 0 < cos (rad 128 - rad 128) /\ exists Ht at_, 0 < Ht /\ deep_wave 50 10 2 (rad 128 - rad 128) Ht at_ /\
  wvHs (waveRow (Fin 128) (wRow 0 128)) = Fin (Ht / group_ratio 50 10).
Proof. exact @wave_example. Qed.
Print Assumptions C95_example.

Theorem C95_grazing_example : exists th, 0 < cos (rad 0 - rad th) /\ 1 <= Rabs (deep_ratio 1000 (1/10) * sin (rad 0 - rad th)).
Proof. exact @grazing_example. Qed.
Print Assumptions C95_grazing_example.

Theorem C95_offshore_example : cos (rad 0 - rad 180) <= 0.
Proof. exact @offshore_example. Qed.
Print Assumptions C95_offshore_example.
