(** C05-C09: coast.py. *)
From Coq Require Import Reals List.
From Verif Require Import Base Num Xr MState MCoast SCoast PCoast.
Local Open Scope R_scope.

Theorem C05_one_per_segment : forall (F : Type) (NF : Num F) (ShoreY : list F) (Dx W T L dir : F) (P : phys F),
  length (longShoreTransport ShoreY Dx W T L dir P) = (length ShoreY - 1)%nat.
Proof. exact (@lst_length). Qed.
Print Assumptions C05_one_per_segment.

Theorem C05_closed_form : forall (P : phys xr) (g d bc k2 W T L : R) (Y : list R) (dx dir : R) (i : nat) (y y' : R),
  lst_pars P g d bc k2 -> 0 < g -> 0 < bc * W -> L <> 0 -> dx <> 0 ->
  g * T / (2 * PI) * tanh (2 * PI * d / L) <> 0 ->
  nth_error Y i = Some y -> nth_error Y (S i) = Some y' ->
  -1 <= sin (rel_angle dx dir y y') * cel_ratio g d bc W T L <= 1 ->
  nth_error (longShoreTransport (map Fin Y) (Fin dx) (Fin W) (Fin T) (Fin L) (Fin dir) P) i
  = Some (Fin (cerc k2 W (cel_ratio g d bc W T L) (rel_angle dx dir y y'))).
Proof. exact lst_closed. Qed.
Print Assumptions C05_closed_form.

Theorem C05_normal_waves : forall k2 W r : R, cerc k2 W r 0 = 0.
Proof. exact cerc_zero. Qed.
Print Assumptions C05_normal_waves.

Theorem C05_odd : forall k2 W r a : R, cerc k2 W r (- a) = - cerc k2 W r a.
Proof. exact cerc_odd. Qed.
Print Assumptions C05_odd.

Theorem C05_sign_right : forall k2 W r a : R,
  0 < k2 -> 0 < W -> 0 < r -> 0 < a < PI / 2 -> cerc k2 W r a < 0.
Proof. exact cerc_right. Qed.
Print Assumptions C05_sign_right.

Theorem C05_sign_left : forall k2 W r a : R,
  0 < k2 -> 0 < W -> 0 < r -> - (PI / 2) < a < 0 -> 0 < cerc k2 W r a.
Proof. exact cerc_left. Qed.
Print Assumptions C05_sign_left.

Theorem C05_bound : forall k2 W r a : R,
  0 <= k2 -> 0 <= W -> 0 <= r -> Rabs (cerc k2 W r a) <= k2 * W * r / 2.
Proof. exact cerc_bound. Qed.
Print Assumptions C05_bound.

Theorem C05_example :
  nth_error (longShoreTransport (map Fin [0; 0; 0]) (Fin 1) (Fin 1) (Fin T1) (Fin 1) (Fin (PI / 4)) ones) 1
  = Some (Fin (- (1 / 2))).
Proof. exact lst_example. Qed.

Theorem C06_offshore_transport : forall (P : phys xr) (g d bc k2 W T L : R) (Y : list R) (dx dir : R) (i : nat) (y y' : R),
  lst_pars P g d bc k2 -> 0 < g -> 0 < d -> 0 < bc -> 0 < k2 -> 0 < W -> 0 < T -> 0 < L -> dx <> 0 ->
  nth_error Y i = Some y -> nth_error Y (S i) = Some y' ->
  -1 <= sin (rel_angle dx dir y y') * cel_ratio g d bc W T L <= 1 ->
  PI / 2 < Rabs (rel_angle dx dir y y') < PI ->
  exists q, nth_error (longShoreTransport (map Fin Y) (Fin dx) (Fin W) (Fin T) (Fin L) (Fin dir) P) i = Some (Fin q)
            /\ q <> 0.
Proof. exact lst_offshore. Qed.
Print Assumptions C06_offshore_transport.

(** The documented rule "no transport for waves directed offshore" fails. *)
Theorem C06_offshore_rule_refuted :
  exists P W T L Y dx dir i y y' q,
    nth_error Y i = Some (Fin y) /\ nth_error Y (S i) = Some (Fin y') /\ 0 < W /\
    PI / 2 < Rabs (rel_angle dx dir y y') < PI /\
    nth_error (longShoreTransport Y (Fin dx) (Fin W) (Fin T) (Fin L) (Fin dir) P) i = Some (Fin q) /\ q <> 0.
Proof. exact offshore_rule_false. Qed.
Print Assumptions C06_offshore_rule_refuted.

Theorem C06_example :
  nth_error (longShoreTransport (map Fin [0; 0]) (Fin 1) (Fin 1) (Fin T1) (Fin 1) (Fin (3 * (PI / 4))) ones) 0
  = Some (Fin (1 / 2)).
Proof. exact lst_offshore_example. Qed.

Theorem C07_runup : forall T H s : R, 0 <= T -> 0 <= H -> 0 <= s ->
  exists r, runup (Fin T) (Fin H) (Fin s) = Fin r /\ 0 <= r /\ (r = 0 <-> T = 0 \/ H = 0 \/ s = 0) /\
  (forall k, runup (Fin T) (Fin (k * H)) (Fin s) = Fin (k * r)) /\
  (forall k, runup (Fin (k * T)) (Fin H) (Fin s) = Fin (k * r)) /\
  (forall s', s <= s' -> exists r', runup (Fin T) (Fin H) (Fin s') = Fin r' /\ r <= r' /\
                                    (s < s' -> 0 < T -> 0 < H -> r < r')).
Proof. exact runup_facts. Qed.
Print Assumptions C07_runup.

Theorem C07_value : forall T H s : R, 0 <= s -> runup (Fin T) (Fin H) (Fin s) = Fin (49 / 100 * sqrt s * T * H).
Proof. exact runup_fin. Qed.
Print Assumptions C07_value.

Theorem C07_example : runup (Fin 10) (Fin 2) (Fin (1 / 4)) = Fin (49 / 10).
Proof. exact runup_example. Qed.

Theorem C08_overtopping : forall (P : phys xr) (c e s i ru sea : R) (T : list (tsect xr)) G,
  ot_pars P c e s i -> 0 <= c -> 0 < e -> Forall2 geomT T G ->
  exists cst ow, overtopping P (Fin ru) (Fin sea) T = Ok (cst, ow) /\
    Forall2 (fun q g => q = Fin (ot_flux c e ru sea (snd g))) cst G /\
    Forall2 (fun b g => overwash_rule s i g b) ow G.
Proof. exact overtopping_spec. Qed.
Print Assumptions C08_overtopping.

Theorem C08_flux_nonneg : forall c e ru sea z0 : R, 0 <= c -> 0 <= ot_flux c e ru sea z0.
Proof. exact ot_flux_nonneg. Qed.
Print Assumptions C08_flux_nonneg.

Theorem C08_flux_zero : forall c e ru sea z0 : R, 0 < c -> (ot_flux c e ru sea z0 = 0 <-> ru + sea <= z0).
Proof. exact ot_flux_zero. Qed.
Print Assumptions C08_flux_zero.

Theorem C08_flux_monotone : forall c e ru sea ru' sea' z0 : R,
  0 <= c -> 0 < e -> ru <= ru' -> sea <= sea' -> ot_flux c e ru sea z0 <= ot_flux c e ru' sea' z0.
Proof. exact ot_flux_mono. Qed.
Print Assumptions C08_flux_monotone.

Theorem C08_rule_deterministic : forall s i G b b', overwash_rule s i G b -> overwash_rule s i G b' -> b = b'.
Proof. exact overwash_rule_fun. Qed.
Print Assumptions C08_rule_deterministic.

Theorem C08_example :
  exists cst ow, overtopping ones (Fin 2) (Fin 1) [exT NaN 1; exT (Fin 5) 10; exT (Fin 3) 2] = Ok (cst, ow)
  /\ ow = [false; true; true].
Proof. exact overtopping_example. Qed.

Theorem C09_uniform_coast : forall (F : Type) (NF : Num F) (P : phys F) (W T L : F) (Y : list F) (Dx dir s : F),
  (forall i a b, nth_error Y i = Some a -> nth_error Y (S i) = Some b -> fsub a b = s) ->
  forall i j q q', nth_error (longShoreTransport Y Dx W T L dir P) i = Some q ->
    nth_error (longShoreTransport Y Dx W T L dir P) j = Some q' -> q = q'.
Proof. exact (@lst_uniform). Qed.
Print Assumptions C09_uniform_coast.

Theorem C09_shift : forall (P : phys xr) (W T L : xr) (Y : list R) (Dx dir : xr) (c : R),
  longShoreTransport (map (fun y => Fin (y + c)) Y) Dx W T L dir P =
  longShoreTransport (map Fin Y) Dx W T L dir P.
Proof. exact lst_shift. Qed.
Print Assumptions C09_shift.

Theorem C09_example : forall i a b,
  nth_error (map Fin [0; 1; 2; 3]) i = Some a -> nth_error (map Fin [0; 1; 2; 3]) (S i) = Some b -> fsub a b = Fin (-1).
Proof. exact uniform_example. Qed.

Theorem C81_undefined_breaking_angle : forall (P : phys xr) (g d bc k2 W T L : R) (Y : list R) (dx dir : R) (i : nat) (y y' : R),
  lst_pars P g d bc k2 -> 0 < g -> 0 < bc * W -> L <> 0 -> dx <> 0 ->
  g * T / (2 * PI) * tanh (2 * PI * d / L) <> 0 ->
  nth_error Y i = Some y -> nth_error Y (S i) = Some y' ->
  1 < Rabs (sin (rel_angle dx dir y y') * cel_ratio g d bc W T L) ->
  nth_error (longShoreTransport (map Fin Y) (Fin dx) (Fin W) (Fin T) (Fin L) (Fin dir) P) i = Some NaN.
Proof. exact lst_undefined. Qed.
Print Assumptions C81_undefined_breaking_angle.

Theorem C81_example :
  nth_error (longShoreTransport (map Fin [0; 0]) (Fin 1) (Fin 1) (Fin (T1 / 2)) (Fin 1) (Fin (PI / 2)) ones) 0
  = Some NaN.
Proof. exact lst_nan_example. Qed.
