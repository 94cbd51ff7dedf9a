(** Specifications for coast.py, written over real numbers only. *)
From Coq Require Import Reals List.
From Verif Require Import Xr MState.
Local Open Scope R_scope.

(** Physical parameters with finite values used by the longshore transport formula. *)
Definition lst_pars (P : phys xr) (g d bc k2 : R) : Prop :=
  pGravity P = Fin g /\ pWaveDataDepth P = Fin d /\ pBreakerCoef P = Fin bc /\ pK2coef P = Fin k2.

(** Celerity at breaking over celerity where the waves are given:
    sqrt(g (bc W)^0.4) / ((g T / 2 pi) tanh(2 pi d / L)). *)
Definition cel_ratio (g d bc W T L : R) : R :=
  sqrt (g * Rpower (bc * W) (4 / 10)) / (g * T / (2 * PI) * tanh (2 * PI * d / L)).

(** Angle of waves coming from direction [dir] relative to a shore segment. *)
Definition rel_angle (dx dir y y' : R) : R := dir - atan ((y - y') / dx).

(** Transport in a segment: -K2 W sin(a) cos(a) ratio. *)
Definition cerc (k2 W r a : R) : R := - k2 * W * (sin a * cos a) * r.

(** Parameters of the overtopping rule. *)
Definition ot_pars (P : phys xr) (c e s i : R) : Prop :=
  pOT_coef P = Fin c /\ pOT_exp P = Fin e /\ pBarRatSlope P = Fin s /\ pBarRatInt P = Fin i.

(** A transect whose barrier has no channel / a channel, all other values finite. *)
Inductive geomT : tsect xr -> (R * option (R * R) * R * R * R) -> Prop :=
| geom_no t y0 y3 y4 z0 :
    tY0 t = Fin y0 -> tY1 t = NaN -> tY3 t = Fin y3 -> tY4 t = Fin y4 -> tZ0 t = Fin z0 ->
    geomT t (y0, None, y3, y4, z0)
| geom_ch t y0 y1 y2 y3 y4 z0 :
    tY0 t = Fin y0 -> tY1 t = Fin y1 -> tY2 t = Fin y2 -> tY3 t = Fin y3 -> tY4 t = Fin y4 -> tZ0 t = Fin z0 ->
    geomT t (y0, Some (y1, y2), y3, y4, z0).

(** When water over the crest goes into the backshore (true) or stays on the crest. *)
Inductive overwash_rule (s i : R) : (R * option (R * R) * R * R * R) -> bool -> Prop :=
| ow_zero_width y0 y1 y2 y3 y4 z0 : y1 <= y2 -> overwash_rule s i (y0, Some (y1, y2), y3, y4, z0) true
| ow_channel_high y0 y1 y2 y3 y4 z0 : y2 < y1 -> (y0 - y1) * s + i < z0 ->
    overwash_rule s i (y0, Some (y1, y2), y3, y4, z0) true
| ow_channel_low y0 y1 y2 y3 y4 z0 : y2 < y1 -> z0 <= (y0 - y1) * s + i ->
    overwash_rule s i (y0, Some (y1, y2), y3, y4, z0) false
| ow_none y0 y3 y4 z0 : y3 <= y4 -> overwash_rule s i (y0, None, y3, y4, z0) false
| ow_lagoon_high y0 y3 y4 z0 : y4 < y3 -> Rmax (y0 - y3) (1 / 1000) * s + i < z0 ->
    overwash_rule s i (y0, None, y3, y4, z0) true
| ow_lagoon_low y0 y3 y4 z0 : y4 < y3 -> z0 <= Rmax (y0 - y3) (1 / 1000) * s + i ->
    overwash_rule s i (y0, None, y3, y4, z0) false.

(** Flux over the crest: c * max(runup + sea - crest, 0)^e. *)
Definition ot_flux (c e ru sea z0 : R) : R :=
  if Rlt_dec 0 (ru + sea - z0) then c * Rpower (ru + sea - z0) e else 0.
