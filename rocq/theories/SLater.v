(** The same run on another date: every instant later by the same time. *)
From Coq Require Import ZArith List Bool.
From Verif Require Import Base Num MState MCoast MRiv MMor MOut MCore.
Import ListNotations.

Section Later.
  Context {F : Type} {NF : Num F}.
  Variable d : Z.
  Definition laterSeries (s : list (Z * F)) : list (Z * F) := map (fun p => ((fst p + d)%Z, snd p)) s.
  Definition laterWaves (w : waves F) : waves F :=
    mkWaves (laterSeries (wvDir w)) (laterSeries (wvPow w)) (laterSeries (wvPer w)) (laterSeries (wvLen w)) (laterSeries (wvHs w)).
  (** Start and end move; the time steps do not. *)
  Definition laterTimes (t : timep) : timep := mkTime (tStart t + d) (tEnd t + d) (tHydDt t) (tMorDtMin t) (tMorDtMax t).
  Definition laterSetup (v : env F) : env F :=
    mkEnv (vP v) (vN v) (laterTimes (vTP v)) (laterSeries (vFlow v)) (laterSeries (vSea v)) (laterWaves (vWaves v)) (vOutInt v) (vTsInt v).
  Definition laterRecord (w : wargs F) : wargs F :=
    mkW (wTime w + d) (wSea w) (wFlow w) (wHs w) (wDir w) (wT w) (wLWL w) (wLVel w) (wLBed w) (wODep w) (wOVel w) (wOBed w)
        (wLST w) (wCST w) (wOW w) (wRiv w) (wRDep w) (wRVel w) (wRBed w) (wE0 w) (wE1 w) (wZend w) (wW w) (wEDep w) (wEVel w) (wEBed w) (wClosed w).
  Definition laterTs (b : targs F) : targs F :=
    mkTs (sTime b + d) (sSea b) (sFlow b) (sHs b) (sDir b) (sLagWl b) (sOutflow b) (sSedIn b) (sE0 b) (sE1 b) (sClosedT b) (sMorDt b).
  Definition laterRun (s : state F) : state F :=
    mkS (gT s) (gE0 s) (gE1 s) (gW s) (gZ s) (gRiver s) (gRDep s) (gRVel s) (gLWL s) (gLVel s) (gODep s) (gOVel s) (gEDep s) (gEVel s)
        (gClosed s) (gTime s + d) (gDt s) (gOutT s + d) (gTsT s + d) (map laterRecord (gOuts s)) (map laterTs (gTs s)).
End Later.
