(** Records of the driving conditions that may be replaced. *)
From Coq Require Import ZArith List Bool Reals.
From Verif Require Import Base Num Xr MState MCoast MRiv MMor MOut MCore SCore.
Import ListNotations.
Local Open Scope Z_scope.

Section Same.
  Context {F : Type} {NF : Num F}.
  (** Two series that have the same records around the time from [lo] to [hi]: they differ in records before [lo] and after [hi] only,
      and among the common ones there is one not after [lo] and one not before [hi]. *)
  Definition alike (lo hi : Z) (s s' : list (Z * F)) : Prop :=
    exists pre pre' mid post post', s = pre ++ mid ++ post /\ s' = pre' ++ mid ++ post' /\
      Forall (fun p => fst p < lo) (pre ++ pre') /\ Forall (fun p => hi < fst p) (post ++ post') /\
      Exists (fun p => fst p <= lo) mid /\ Exists (fun p => hi <= fst p) mid.
  (** Nobody who asks for values between [lo] and [hi] can tell them apart. *)
  Definition answerAlike (lo hi : Z) (s s' : list (Z * F)) : Prop :=
    forall ts a b, spanned ts a b -> lo <= a -> b <= hi -> interpolateAt s ts = interpolateAt s' ts.
  (** Two set-ups of a run that differ in the seven series only. *)
  Definition drivenAlike (rel : list (Z * F) -> list (Z * F) -> Prop) (v v' : env F) : Prop :=
    vP v = vP v' /\ vN v = vN v' /\ vTP v = vTP v' /\ vOutInt v = vOutInt v' /\ vTsInt v = vTsInt v' /\
    rel (vFlow v) (vFlow v') /\ rel (vSea v) (vSea v') /\
    rel (wvDir (vWaves v)) (wvDir (vWaves v')) /\ rel (wvPow (vWaves v)) (wvPow (vWaves v')) /\ rel (wvPer (vWaves v)) (wvPer (vWaves v')) /\
    rel (wvLen (vWaves v)) (wvLen (vWaves v')) /\ rel (wvHs (vWaves v)) (wvHs (vWaves v')).
  (** What a pass asks for: the time it starts at, and up to one time step later. *)
  Definition asksWithin (lo hi : Z) (s : state F) : Prop := lo <= gTime s <= hi /\ gTime s + gDt s <= hi.
End Same.

(** [s'] has all records of [s], and the others lie on the straight lines between those. *)
Definition refines (s s' : list (Z * R)) : Prop := incl s s' /\ Forall (fun p => curve s (fst p) (snd p)) s'.
Definition covers (lo hi : Z) (s : list (Z * R)) : Prop := Exists (fun p => fst p <= lo) s /\ Exists (fun p => hi <= fst p) s.
(** A refined series of exact values. *)
Definition refined (lo hi : Z) (x x' : list (Z * xr)) : Prop :=
  exists s s', x = data s /\ x' = data s' /\ ordered s /\ ordered s' /\ refines s s' /\ covers lo hi s.
