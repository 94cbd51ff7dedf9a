(** Specifications for riv.py storeHydraulics and storeBedload. *)
From Coq Require Import List Bool.
From Verif Require Import Base Num.
Import ListNotations.

Section Hyd.
  Context {F : Type} {NF : Num F}.

  (** What a stored shore-parallel array [a] holds: the values [v] at [idx], [d] elsewhere. *)
  Definition holds (n : nat) (idx : list nat) (v : list F) (d : F) (a : list F) : Prop :=
    length a = n /\ (forall k i, nth_error idx k = Some i -> nth_error a i = nth_error v k) /\
    (forall i, (i < n)%nat -> ~ In i idx -> nth_error a i = Some d).

  (** Channel arrays split by section kind. *)
  Definition sections (closed : bool) (R L O E : list F) : list F := R ++ L ++ (if closed then [] else O ++ E).
  Definition flagsOf (closed : bool) (R L O : list F) : list nat :=
    repeat 0%nat (length R) ++ repeat 1%nat (length L) ++ (if closed then [] else repeat 2%nat (length O) ++ [3; 4]%nat).
End Hyd.
