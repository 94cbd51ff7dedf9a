(** C48-C55: mor.py, corrections after the rates have been applied. *)
From Coq Require Import ZArith List Bool Reals.
From Verif Require Import Base Num Xr MState MCoast MRiv MMor SMor SPost STouch PCoast PCore PPost PTrunc PTouch PPostEx.
Import ListNotations.
Local Open Scope R_scope.

Theorem C48_within_domain : forall T e, inOrder T -> (3 <= length T)%nat -> forall a b, nth_error T 1 = Some a ->
  nth_error T (length T - 2) = Some b ->
  exists e', domainCheck T (Fin e) = Ok (Fin e') /\ rv (tX a) <= e' <= rv (tX b) /\
    (rv (tX a) <= e <= rv (tX b) -> e' = e) /\ (e < rv (tX a) \/ rv (tX b) < e -> e' = rv (tX a)).
Proof. exact domain_spec. Qed.
Print Assumptions C48_within_domain.

Theorem C48_jump : forall {F} {NF : Num F} (T : list (tsect F)) e a b, nth_error T 1 = Some a -> pynth T (-2) = Ok b ->
  (e <? tX a)%n = false -> (tX b <? e)%n = true -> domainCheck T e = Ok (tX a).
Proof. exact @domain_jump. Qed.
Print Assumptions C48_jump.

(** An outlet end past the right limit is not clamped to that limit. *)
Theorem C48_clamp_refuted : exists T e a b, inOrder T /\ nth_error T 1 = Some a /\ nth_error T (length T - 2) = Some b /\ rv (tX b) < e /\
  domainCheck T (Fin e) = Ok (tX a) /\ rv (tX a) < rv (tX b).
Proof. exact clamp_refuted. Qed.
Print Assumptions C48_clamp_refuted.

Theorem C48_example : domainCheck exGrid (Fin 0.5) = Ok (Fin 1) /\ domainCheck exGrid (Fin 2.5) = Ok (Fin 2.5).
Proof. exact domain_case. Qed.
Print Assumptions C48_example.

Theorem C49_cliff : forall P h t B x y0 y3 y4 z0 z3,
  pBackshoreElev P = Fin B -> tX t = Fin x -> tY0 t = Fin y0 -> tY3 t = Fin y3 -> tY4 t = Fin y4 ->
  tZ0 t = Fin z0 -> tZ3 t = Fin z3 -> 0 < h -> z0 <= B ->
  (y4 < y0 -> cliffCollision P (Fin h) t = t) /\
  (y0 <= y4 -> exists u, cliffCollision P (Fin h) t =
     mkT (tX t) (Fin (u + 1/1000)) (tY1 t) (tY2 t) (Fin u) (Fin u) (tZ0 t) (tZ1 t) (tZ2 t) (tZ3 t) /\
     u <= y4 /\ y0 <= u + 1/1000 /\ (u + 1/1000 - y0) * h = (y4 - u) * (B - z0)).
Proof. exact cliff_spec. Qed.
Print Assumptions C49_cliff.

(** Closed lagoon: this is all that happens at transects without a channel, with
    the shoreface height from before the update. *)
Theorem C49_applied : forall {F} {NF : Num F} (P : phys F) Dx T0 T e0 e1 W Zend T' pres' e0' e1' outlet',
  morCorrect P Dx T0 T e0 e1 W Zend [] true = Ok (T', pres', e0', e1', outlet') -> length T0 = length T ->
  domainCheck T e1 = Ok e1' /\ e0' = e0 /\ outlet' = [] /\
  forall i t0 t, nth_error T0 i = Some t0 -> nth_error T i = Some t -> exists t' lev, nth_error T' i = Some t' /\
    negWidth (hasChannel t0) (barBack t0) (barWidth t0) (cliffCollision P (shoreHeight P t0) t) = Ok (t', lev) /\
    (hasChannel t0 = false -> t' = cliffCollision P (shoreHeight P t0) t).
Proof. exact @correct_closed. Qed.
Print Assumptions C49_applied.

Theorem C49_example : exists P t, pBackshoreElev P = Fin 4 /\ tX t = Fin 0 /\ tY0 t = Fin (-60) /\ tY3 t = Fin (-50) /\ tY4 t = Fin (-50) /\
  tZ0 t = Fin 2 /\ tZ3 t = Fin 0 /\ -60 <= -50 /\ (0 < 7) /\ 2 <= 4 /\ noChannel t.
Proof. exact cliff_case. Qed.
Print Assumptions C49_example.

Theorem C50_redistribution : forall back crest x y0 y1 y2 y3 y4 z0 z1 z2 z3,
  let t := withChannel x y0 y1 y2 y3 y4 z0 z1 z2 z3 in
  let v := (y2 - y1) * back in
  y1 < y2 -> y3 < y0 -> 0 < crest ->
  ((0 < back /\ (z2 < z0 -> y3 <= y2)) <-> exists r, negWidth true (Fin back) (Fin crest) t = Ok r) /\
  (0 < back -> (z2 < z0 -> y3 <= y2) ->
    (v <= levelling crest y2 y3 z0 z2 -> z0 <= z2 ->
       exists c, negWidth true (Fin back) (Fin crest) t = Ok (withChannel x y0 y2 y2 y3 y4 c z1 z2 z3, false) /\
                 (c - z0) * crest = v /\ c <= z2) /\
    (v <= levelling crest y2 y3 z0 z2 -> z2 < z0 ->
       exists c, negWidth true (Fin back) (Fin crest) t = Ok (withChannel x y0 y2 y2 y3 y4 z0 z1 c z3, false) /\
                 (c - z2) * (y2 - y3) = v /\ c <= z0) /\
    (levelling crest y2 y3 z0 z2 < v ->
       exists c, negWidth true (Fin back) (Fin crest) t =
                   Ok (mkT (Fin x) (Fin y0) NaN NaN (Fin y3) (Fin y4) (Fin c) NaN NaN (Fin z3), true) /\
                 (c - Rmax z0 z2) * (y0 - y3) + levelling crest y2 y3 z0 z2 = v /\ Rmax z0 z2 < c)).
Proof. exact neg_spec. Qed.
Print Assumptions C50_redistribution.

Theorem C50_elsewhere : forall {F} {NF : Num F} (p : bool) (back crest : F) t,
  p && (tY1 t <? tY2 t)%n = false -> negWidth p back crest t = Ok (t, false).
Proof. exact @neg_none. Qed.
Print Assumptions C50_elsewhere.

Theorem C50_every_transect : forall {F} {NF : Num F} (pres : list bool) (T0 T T' : list (tsect F)) pres',
  negWidthStep pres T0 T = Ok (T', pres') -> length pres = length T0 -> length T0 = length T ->
  length T' = length T /\
  forall i p t0 t, nth_error pres i = Some p -> nth_error T0 i = Some t0 -> nth_error T i = Some t ->
    exists t' lev, nth_error T' i = Some t' /\ negWidth p (barBack t0) (barWidth t0) t = Ok (t', lev).
Proof. exact @neg_step. Qed.
Print Assumptions C50_every_transect.

Theorem C50_no_negative_width : forall (p : bool) b c (t t' : tsect xr) lev, negWidth p b c t = Ok (t', lev) ->
  p = hasChannel t -> (hasChannel t = true -> is_fin (tY1 t) /\ is_fin (tY2 t)) ->
  hasChannel t' = true -> rv (tY2 t') <= rv (tY1 t').
Proof. exact neg_width. Qed.
Print Assumptions C50_no_negative_width.

Theorem C50_example :
  (exists c, negWidth true (Fin 3) (Fin 10) (withChannel 0 0 (-12) (-10) (-30) (-50) 3 0 4 (-1)) = Ok (withChannel 0 0 (-10) (-10) (-30) (-50) c 0 4 (-1), false)) /\
  (exists c, negWidth true (Fin 3) (Fin 10) (withChannel 0 0 (-12) (-10) (-30) (-50) 3 0 3.5 (-1)) =
     Ok (mkT (Fin 0) (Fin 0) NaN NaN (Fin (-30)) (Fin (-50)) (Fin c) NaN NaN (Fin (-1)), true)).
Proof. exact neg_case. Qed.
Print Assumptions C50_example.

Theorem C51_elongation : forall {F} {NF : Num F} (P : phys F) T e0 e1 W Zd outlet T' outlet' il tl_ nx,
  extendStep P T e0 e1 W Zd outlet = Ok (T', outlet') -> last_ outlet = Ok il -> nth_error T il = Some tl_ ->
  (if (e0 <? e1)%n then ix T (S il) else pynth T (Z.of_nat il - 1)) = Ok nx ->
  let crossed := if (e0 <? e1)%n then (tX nx <=? e1)%n else (e1 <=? tX nx)%n in
  changedAt T T' (fun i => crossed = true /\ exists t, nth_error T i = Some t /\ newlyPassed e0 e1 (tX tl_) t = true) (elongated P W Zd) /\
  (crossed = true -> flowOrder T' e0 e1 outlet') /\ (crossed = false -> outlet' = outlet).
Proof. exact @extend_order. Qed.
Print Assumptions C51_elongation.

Theorem C51_example : exists T' outlet', extendStep ones exGrid (Fin 0) (Fin 4) (Fin 5) (Fin 0) [0; 1; 2]%nat = Ok (T', outlet') /\ outlet' = [0; 1; 2; 3; 4]%nat.
Proof. exact extend_case. Qed.
Print Assumptions C51_example.

Theorem C52_bank : forall x y0 y1 y2 y3 y4 z0 z1 z2 z3, z2 <> z1 ->
  let t := withChannel x y0 y1 y2 y3 y4 z0 z1 z2 z3 in
  (y1 < y0 -> seawardFirst t = t) /\
  (y0 <= y1 -> exists u, seawardFirst t = withChannel x y0 (y0 - 1/1000) u y3 y4 z0 z1 z2 z3 /\
     (y1 - (y0 - 1/1000)) * (z0 - z1) = (y2 - u) * (z2 - z1)).
Proof. exact seaward_spec. Qed.
Print Assumptions C52_bank.

Theorem C52_first_only : forall {F} {NF : Num F} (T T' : list (tsect F)) outlet, seawardFirstStep T outlet = Ok T' ->
  exists i t, nth_error outlet 0 = Some i /\ nth_error T i = Some t /\ nth_error T' i = Some (seawardFirst t) /\
    length T' = length T /\ forall j, j <> i -> nth_error T' j = nth_error T j.
Proof. exact @seaward_step. Qed.
Print Assumptions C52_first_only.

Theorem C52_example : seawardFirst (withChannel 0 (-10.001) (-10) (-20) (-30) (-50) 4 0 2 (-1)) = withChannel 0 (-10.001) (-10.002) (-20.004) (-30) (-50) 4 0 2 (-1).
Proof. exact seaward_case. Qed.
Print Assumptions C52_example.

Theorem C53_untouched : forall {F} {NF : Num F} (T : list (tsect F)) pres e0 e1 outlet T' pres' e0' outlet',
  lagoonTrunc T pres e0 e1 outlet = Ok (T', pres', e0', outlet') ->
  (forall j k, ~ lagoonInChannel T outlet j k) -> T' = T /\ pres' = pres /\ e0' = e0 /\ outlet' = outlet.
Proof. exact @trunc_none. Qed.
Print Assumptions C53_untouched.

Theorem C53_first : forall {F} {NF : Num F} (T : list (tsect F)) pres e0 e1 outlet T' pres' e0' outlet',
  lagoonTrunc T pres e0 e1 outlet = Ok (T', pres', e0', outlet') ->
  forall j k, lagoonInChannel T outlet j k -> (forall i k', (i < j)%nat -> ~ lagoonInChannel T outlet i k') ->
    exists nx tk, (if (e0 <? e1)%n then ix T (S k) else pynth T (Z.of_nat k - 1)) = Ok nx /\ nth_error T k = Some tk /\
      e0' = tX nx /\ flowOrder T e0' e1 outlet' /\ outlet' <> [] /\
      ((tY2 tk <=? tY4 tk)%n = false -> T' = T /\ pres' = pres) /\
      ((tY2 tk <=? tY4 tk)%n = true -> exists c,
         (if (f0 <? tX tk)%n then last_where hasLagoon T = Some c else first_where hasLagoon T = Some c) /\
         let swallowed i := if (f0 <? tX tk)%n then (c < i <= k)%nat else (k <= i < c)%nat in
         changedAt T T' swallowed converted /\ changedAt pres pres' swallowed (fun _ b => b = false)).
Proof. exact @trunc_order. Qed.
Print Assumptions C53_first.

(** A merged transect can remain, as the new first transect of the channel. *)
Theorem C53_rest_refuted : exists T pres e0' outlet', lagoonTrunc T pres (Fin 0) (Fin 4) [0; 1; 2; 3; 4]%nat = Ok (T, pres, e0', outlet') /\
  exists k t, nth_error outlet' 0 = Some k /\ (1 < length outlet')%nat /\ nth_error T k = Some t /\ (tY2 t <=? tY3 t)%n = true.
Proof. exact rest_refuted. Qed.
Print Assumptions C53_rest_refuted.

Theorem C53_example : exists T' pres' e0' outlet', lagoonTrunc exSwallow [false; true; true; true; true] (Fin 1) (Fin 4) [1; 2; 3; 4]%nat = Ok (T', pres', e0', outlet') /\
  map tY3 T' = [Fin (-30); Fin (-10); Fin (-15); Fin (-30); Fin (-30)] /\ outlet' = [2; 3; 4]%nat.
Proof. exact swallow_case. Qed.
Print Assumptions C53_example.

Theorem C54_left_to_right : forall (T : list (tsect xr)) (d e0 e1 : R) (outlet : list nat), numberedX T -> regular d T ->
  e0 < e1 -> lists T (between e0 e1) true outlet -> forall j k,
  nth_error outlet 0 <> None -> (forall k0, nth_error outlet 0 = Some k0 -> ~ openToSea T k0) ->
  nth_error outlet j = Some k -> openToSea T k -> (forall i k', (i < j)%nat -> nth_error outlet i = Some k' -> ~ openToSea T k') ->
  exists t outlet', nth_error T k = Some t /\ seaTrunc (Fin d) T (Fin e0) (Fin e1) outlet = Ok (Fin (rv (tX t) - d / 2), outlet') /\
    lists T (fun u => e0 <= rv (tX u) < rv (tX t)) true outlet' /\ outlet' <> [] /\
    (forall i, In i outlet' -> In i outlet /\ ~ openToSea T i).
Proof. exact sea_LR. Qed.
Print Assumptions C54_left_to_right.

Theorem C54_right_to_left : forall (T : list (tsect xr)) (d e0 e1 : R) (outlet : list nat), numberedX T -> regular d T ->
  e1 <= e0 -> lists T (between e1 e0) false outlet -> forall j k,
  (0 < j)%nat -> nth_error outlet j = Some k -> openToSea T k ->
  (forall i k', (j < i)%nat -> nth_error outlet i = Some k' -> ~ openToSea T k') ->
  exists t outlet', nth_error T k = Some t /\ seaTrunc (Fin d) T (Fin e0) (Fin e1) outlet = Ok (Fin (rv (tX t) + d / 2), outlet') /\
    lists T (fun u => rv (tX t) < rv (tX u) <= e0) false outlet' /\
    (forall i k', (i < j)%nat -> nth_error outlet i = Some k' -> In k' outlet').
Proof. exact sea_RL. Qed.
Print Assumptions C54_right_to_left.

(** Right to left, the shortened channel can still contain a transect open to the sea. *)
Theorem C54_mirror_refuted : exists T e1' outlet', numberedX T /\ regular 1 T /\
  seaTrunc (Fin 1) T (Fin 4) (Fin 0) [4; 3; 2; 1; 0]%nat = Ok (e1', outlet') /\ exists k, In k outlet' /\ openToSea T k.
Proof. exact sea_mirror_refuted. Qed.
Print Assumptions C54_mirror_refuted.

Theorem C54_example : seaTrunc (Fin 1) exSea (Fin 0) (Fin 4) [0; 1; 2; 3; 4]%nat = Ok (Fin (1 - 1/2), [0]%nat).
Proof. exact sea_case. Qed.
Print Assumptions C54_example.

Theorem C55_collision : forall P B x y0 y1 y2 y3 y4 z0 z1 z2 z3, pBackshoreElev P = Fin B -> z1 < z2 -> z2 <= B ->
  let t := withChannel x y0 y1 y2 y3 y4 z0 z1 z2 z3 in
  (y3 < y2 -> lagoonLast P t = t) /\
  (y2 <= y3 -> y4 <= y2 - 1/10000 -> lagoonLast P t = withChannel x y0 y1 y2 (y2 - 1/10000) y4 z0 z1 z2 z3) /\
  (y2 <= y3 -> y2 - 1/10000 < y4 -> exists u, lagoonLast P t = withChannel x y0 y1 (u + 1/10000) u u z0 z1 z2 z3 /\
     u <= y4 /\ y2 <= u + 1/10000 /\ (u + 1/10000 - y2) * (z2 - z1) = (y4 - u) * (B - z2)).
Proof. exact last_spec. Qed.
Print Assumptions C55_collision.

Theorem C55_applied : forall (P : phys xr) Dx T0 T e0 e1 W Zend outlet T' pres' e0' e1' outlet' i,
  morCorrect P Dx T0 T e0 e1 W Zend outlet false = Ok (T', pres', e0', e1', outlet') -> length T0 = length T ->
  last_ outlet' = Ok i -> exists t, nth_error T' i = Some (lagoonLast P t).
Proof. exact correct_last. Qed.
Print Assumptions C55_applied.

Theorem C55_example : exists u, lagoonLast ones (withChannel 0 0 (-10) (-20) (-15) (-18) 3 0 (1/2) (-1)) = withChannel 0 0 (-10) (u + 1/10000) u u 3 0 (1/2) (-1).
Proof. exact last_case. Qed.
Print Assumptions C55_example.
