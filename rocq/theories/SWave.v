(** Specification vocabulary: linear wave theory and directions. *)
From Coq Require Import Reals ZArith.
Local Open Scope R_scope.

(** Degrees to radians. *)
Definition rad (x : R) : R := x * PI / 180.
(** Ratio of group speed to wave speed for wavelength [L] in depth [d]. *)
Definition group_ratio (L d : R) : R := 1 / 2 * (1 + 4 * PI * d / L / sinh (4 * PI * d / L)).
(** Ratio of the wavelength in deep water to the wavelength in depth [d]. *)
Definition deep_ratio (L d : R) : R := / tanh (2 * PI * d / L).
(** Shoreward energy flux of waves of height [H], group ratio [n], wavelength [L] and angle [a]
    to the shore normal, divided by (water density x g / 8 / wave period). *)
Definition flux (H n L a : R) : R := H * H * n * L * cos a.
(** [H0, a0] is the deep water wave that refracts and shoals to [H, a] without loss of energy. *)
Definition deep_wave (L d H a H0 a0 : R) : Prop :=
  sin a0 = deep_ratio L d * sin a /\ 0 < cos a0 /\ flux H0 (1 / 2) (deep_ratio L d * L) a0 = flux H (group_ratio L d) L a.
