(** Specification vocabulary for the synthetic boundary series. *)
From Coq Require Import Reals List ZArith Sorted.
From Verif Require Import Base Num Xr.
Import ListNotations.

(** A series at the times a, a + d, a + 2 d, ... *)
Definition regular {A} (a d : Z) (l : list (Z * A)) : Prop :=
  forall k p, nth_error l k = Some p -> fst p = (a + Z.of_nat k * d)%Z.
(** Never back in time. *)
Definition in_time {A} (l : list (Z * A)) : Prop := StronglySorted Z.le (map fst l).
Definition above0 (v : xr) : Prop := exists r, v = Fin r /\ (0 < r)%R.

(** A duration in nanoseconds, in days. *)
Definition day : Z := 86400000000000.
Definition inDays (t : Z) : R := (IZR t / IZR day)%R.
(** What is left of [c] after a time [t] at a rate [d] per day. *)
Definition left_after (d c : R) (t : Z) : R := (c * exp (- d * inDays t))%R.

Definition sumR (l : list R) : R := fold_right Rplus 0%R l.
Definition meanOf (l : list R) (m : R) : Prop := (m * INR (length l) = sumR l)%R /\ l <> [].

(** The points of a series in a half-open interval, in order. *)
Inductive inBin {A} (a b : Z) : list (Z * A) -> list A -> Prop :=
| bin_nil : inBin a b [] []
| bin_in t v l r : (a <= t < b)%Z -> inBin a b l r -> inBin a b ((t, v) :: l) (v :: r)
| bin_out t v l r : (t < a \/ b <= t)%Z -> inBin a b l r -> inBin a b ((t, v) :: l) r.

(** The partial sums of the gaps between events, as event times. *)
Fixpoint eventTimes (t : Z) (gaps : list Z) : list Z :=
  match gaps with [] => [t] | g :: r => t :: eventTimes (t + g) r end.

(** Draws of the random number generator that its logarithm accepts. *)
Definition draw (p : xr * xr) : Prop := exists u w, p = (Fin u, Fin w) /\ (0 < u < 1)%R /\ (0 <= w < 1)%R.

(** A series that ends at an event, and the two components there. *)
Definition fine (last : Z) (ts : list (Z * xr)) (c1 c2 : R) : Prop :=
  in_time ts /\ Forall (fun p => above0 (snd p)) ts /\ (exists l v, ts = l ++ [(last, v)]) /\ (0 <= c1)%R /\ (0 <= c2)%R /\ (0 < c1 + c2)%R.
