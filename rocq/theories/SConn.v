(** Specification vocabulary for the channel joined to the lagoon. *)
From Coq Require Import ZArith List Bool.
From Verif Require Import Base Num MState MMor.
Import ListNotations.

Section Conn.
  Context {F : Type} {NF : Num F}.
  (** Transect [i] has a channel of at least the minimum outlet width. *)
  Definition wideAt (P : phys F) (T : list (tsect F)) (pres : list bool) (i : nat) : Prop :=
    exists t, nth_error T i = Some t /\ nth_error pres i = Some true /\ (pMinOutletWidth P <=? tY1 t - tY2 t)%n = true.
  (** [lo..hi]: the longest stretch of wide channel around [a..b]; the water in it stands
      as high as at [a] and [b].  [lo] can only be negative, and the levels of other
      transects can only be changed, if the channel is wide up to the first transect and
      the last transect is wide too. *)
  Definition stretch (P : phys F) (T : list (tsect F)) (pres : list bool) (a b : nat) (cc : option (Z * Z)) (WL WL' : list F) : Prop :=
    exists lo hi : Z, cc = Some (lo, hi) /\ (lo <= Z.of_nat a)%Z /\ (Z.of_nat b <= hi)%Z /\
      (forall i, (lo <= Z.of_nat i < Z.of_nat a)%Z -> wideAt P T pres i) /\
      (forall i, (Z.of_nat b < Z.of_nat i <= hi)%Z -> wideAt P T pres i) /\
      (hi + 1 < Z.of_nat (length T))%Z /\ ~ wideAt P T pres (Z.to_nat (hi + 1)) /\
      ((0 < lo)%Z -> ~ wideAt P T pres (Z.to_nat (lo - 1))) /\
      (lo = 0%Z -> ~ wideAt P T pres (length T - 1)) /\
      ((lo < 0)%Z -> wideAt P T pres (length T - 1)) /\
      ((0 <= lo)%Z -> forall i, nth_error WL' i =
         if ((lo <=? Z.of_nat i) && (Z.of_nat i <? Z.of_nat a))%Z then nth_error WL a
         else if ((Z.of_nat b <? Z.of_nat i) && (Z.of_nat i <=? hi))%Z then nth_error WL b else nth_error WL i).
End Conn.
