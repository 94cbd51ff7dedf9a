(** The same coast seen from the sea: left and right exchanged. *)
From Coq Require Import ZArith List Bool Reals.
From Verif Require Import Base Num Xr MState MCoast MRiv MMor MOut MCore.
Import ListNotations.

Section Mirror.
  Context {F : Type} {NF : Num F}.
  Local Open Scope num_scope.
  (** A transect on the other side of the river, and the coast with its transects in the opposite order. *)
  Definition acrossT (t : tsect F) : tsect F :=
    mkT (- tX t) (tY0 t) (tY1 t) (tY2 t) (tY3 t) (tY4 t) (tZ0 t) (tZ1 t) (tZ2 t) (tZ3 t).
  Definition across (T : list (tsect F)) : list (tsect F) := rev (map acrossT T).
  (** The number of a transect counted from the other end of [n]. *)
  Definition fromEnd (n i : nat) : nat := (n - 1 - i)%nat.
  (** The same channel through the mirrored transects: only the transects it runs through have other numbers. *)
  Definition acrossChan (n : nat) (c : chan F) : chan F :=
    mkChan (chDx c) (chElev c) (chWidth c) (chLagArea c) (chLagLen c) (chDep c) (chVel c)
           (map (fromEnd n) (chOnline c)) (map (fromEnd n) (chOutlet c)) (chFlag c) (chClosed c).
  (** Waves from the other side; everything else as it was. *)
  Definition acrossSeries (s : list (Z * F)) : list (Z * F) := map (fun p => (fst p, - snd p)) s.
  Definition acrossSetup (v : env F) : env F :=
    mkEnv (vP v) (vN v) (vTP v) (vFlow v) (vSea v)
          (mkWaves (acrossSeries (wvDir (vWaves v))) (wvPow (vWaves v)) (wvPer (vWaves v)) (wvLen (vWaves v)) (wvHs (vWaves v))) (vOutInt v) (vTsInt v).
  Definition acrossRun (s : state F) : state F :=
    mkS (across (gT s)) (- gE0 s) (- gE1 s) (gW s) (gZ s) (gRiver s) (gRDep s) (gRVel s) (rev (gLWL s)) (rev (gLVel s)) (rev (gODep s)) (rev (gOVel s))
        (gEDep s) (gEVel s) (gClosed s) (gTime s) (gDt s) (gOutT s) (gTsT s) (gOuts s) (gTs s).
  (** The water in the hapua [b] is that in [a] seen from the other side. *)
  Definition waterAcross (a b : state F) : Prop :=
    gLWL b = rev (gLWL a) /\ gLVel b = rev (gLVel a) /\ gODep b = rev (gODep a) /\ gOVel b = rev (gOVel a) /\
    gRDep b = gRDep a /\ gRVel b = gRVel a /\ gEDep b = gEDep a /\ gEVel b = gEVel a.
  (** So are flow, sediment transport and waves in a record. *)
  Definition recordAcross (w w' : wargs F) : Prop :=
    wSea w' = wSea w /\ wFlow w' = wFlow w /\ wHs w' = wHs w /\ wDir w' = - wDir w /\
    wLWL w' = rev (wLWL w) /\ wLVel w' = rev (wLVel w) /\ wLBed w' = rev (wLBed w) /\
    wODep w' = rev (wODep w) /\ wOVel w' = rev (wOVel w) /\ wOBed w' = rev (wOBed w) /\
    wLST w' = rev (map fopp (wLST w)) /\ wCST w' = rev (wCST w) /\ wOW w' = rev (wOW w) /\
    wRDep w' = wRDep w /\ wRVel w' = wRVel w /\ wRBed w' = wRBed w /\
    wEDep w' = wEDep w /\ wEVel w' = wEVel w /\ wEBed w' = wEBed w /\ wClosed w' = wClosed w.
End Mirror.

(** The upstream end of the outlet channel is beside the river mouth. *)
Definition beside (e0 : xr) : Prop := e0 <> Fin 0 /\ e0 <> NaN.
(** Transects [d] apart: the downstream end lies between two transects, or the outlet is short and at a transect. *)
Definition betweenGrid (e0 e1 Dx : xr) : Prop :=
  exists b d, e1 = Fin b /\ Dx = Fin d /\ (0 < d)%R /\
    ((e0 <> e1 /\ forall k, b <> IZR k * d)%R \/ (e0 = e1 /\ exists k, b = IZR k * d)%R).
(** What a pass needs for its mirror image. *)
Definition twoSided (v : env xr) (s : state xr) : Prop :=
  NoDup (map tX (gT s)) /\ beside (gE0 s) /\ (gClosed s = true \/ betweenGrid (gE0 s) (gE1 s) (nDx (vN v))) /\
  length (gLWL s) = length (gT s) /\ length (gLVel s) = length (gT s) /\ length (gODep s) = length (gT s) /\ length (gOVel s) = length (gT s).
