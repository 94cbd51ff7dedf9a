(** The same coast measured from another line: every cross-shore position moved by the same distance. *)
From Coq Require Import ZArith List Bool Reals.
From Verif Require Import Base Num Xr MState MCoast MRiv MMor MOut MCore.
Import ListNotations.

(** A transect, a set of results, the variables of a run and one record, with the five cross-shore positions of every transect
    moved by [f] and nothing else touched. *)
Section Moved.
  Context {F : Type} {NF : Num F}.
  Variable f : F -> F.
  Definition movedT (t : tsect F) : tsect F :=
    mkT (tX t) (f (tY0 t)) (f (tY1 t)) (f (tY2 t)) (f (tY3 t)) (f (tY4 t)) (tZ0 t) (tZ1 t) (tZ2 t) (tZ3 t).
  Definition movedUpdate (m : morOut F) : morOut F :=
    mkMor (map movedT (oT m)) (oE0 m) (oE1 m) (oW m) (oZ m) (oRiver m) (oDt m) (oBreach m).
  Definition movedRecord (w : wargs F) : wargs F :=
    mkW (wTime w) (wSea w) (wFlow w) (wHs w) (wDir w) (map movedT (wT w)) (wLWL w) (wLVel w) (wLBed w) (wODep w) (wOVel w) (wOBed w)
        (wLST w) (wCST w) (wOW w) (wRiv w) (wRDep w) (wRVel w) (wRBed w) (wE0 w) (wE1 w) (wZend w) (wW w) (wEDep w) (wEVel w) (wEBed w) (wClosed w).
  Definition movedRun (s : state F) : state F :=
    mkS (map movedT (gT s)) (gE0 s) (gE1 s) (gW s) (gZ s) (gRiver s) (gRDep s) (gRVel s) (gLWL s) (gLVel s) (gODep s) (gOVel s) (gEDep s) (gEVel s)
        (gClosed s) (gTime s) (gDt s) (gOutT s) (gTsT s) (map movedRecord (gOuts s)) (gTs s).
End Moved.

(** What was computed, changed by [f]; a failure stays the same failure. *)
Definition thenDo {A B : Type} (f : A -> B) (r : res A) : res B := match r with Ok a => Ok (f a) | Exc e => Exc e end.

(** A distance added to a position; no number stays no number. *)
Definition byMetres (c : R) (y : xr) : xr := match y with Fin r => Fin (r + c)%R | other => other end.
