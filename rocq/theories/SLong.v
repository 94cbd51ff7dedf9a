(** A run that ends later. *)
From Coq Require Import ZArith List Bool String.
From Verif Require Import Base Num MState MCoast MRiv MMor MOut MCore MConf.
Import ListNotations.
Local Open Scope Z_scope.

Section Long.
  Context {F : Type} {NF : Num F}.
  (** [v'] is the set-up [v] with a later end, with series related by [rel]. *)
  Definition longer (rel : list (Z * F) -> list (Z * F) -> Prop) (v v' : env F) : Prop :=
    vP v = vP v' /\ vN v = vN v' /\ vOutInt v = vOutInt v' /\ vTsInt v = vTsInt v' /\
    tStart (vTP v) = tStart (vTP v') /\ tEnd (vTP v) <= tEnd (vTP v') /\ tHydDt (vTP v) = tHydDt (vTP v') /\
    tMorDtMin (vTP v) = tMorDtMin (vTP v') /\ tMorDtMax (vTP v) = tMorDtMax (vTP v') /\
    rel (vFlow v) (vFlow v') /\ rel (vSea v) (vSea v') /\
    rel (wvDir (vWaves v)) (wvDir (vWaves v')) /\ rel (wvPow (vWaves v)) (wvPow (vWaves v')) /\ rel (wvPer (vWaves v)) (wvPer (vWaves v')) /\
    rel (wvLen (vWaves v)) (wvLen (vWaves v')) /\ rel (wvHs (vWaves v)) (wvHs (vWaves v')).
  (** The same hapua, possibly at another time and with other records: everything but the clock, the time step and the records. *)
  Definition sameHapua (a b : state F) : Prop :=
    gT a = gT b /\ gE0 a = gE0 b /\ gE1 a = gE1 b /\ gW a = gW b /\ gZ a = gZ b /\ gRiver a = gRiver b /\ gRDep a = gRDep b /\ gRVel a = gRVel b /\
    gLWL a = gLWL b /\ gLVel a = gLVel b /\ gODep a = gODep b /\ gOVel a = gOVel b /\ gEDep a = gEDep b /\ gEVel a = gEVel b /\ gClosed a = gClosed b.
  (** Two configurations that differ in EndTime only. *)
  Definition onlyEnd (r r' : rawconf) : Prop :=
    forall s k, (s, k) <> ("Time"%string, "EndTime"%string) -> r s k = r' s k.
  (** Two loaded models that differ in the three series and the end of the simulation only. *)
  Definition onlyLater (m m' : model F) : Prop :=
    mdOrigin m = mdOrigin m' /\ mdDir m = mdDir m' /\ mdT m = mdT m' /\ mdRiver m = mdRiver m' /\ mdE0 m = mdE0 m' /\ mdE1 m = mdE1 m' /\
    mdW m = mdW m' /\ mdZ m = mdZ m' /\ mdRWL m = mdRWL m' /\ mdRVel m = mdRVel m' /\ mdLWL m = mdLWL m' /\ mdLVel m = mdLVel m' /\
    mdODep m = mdODep m' /\ mdOVel m = mdOVel m' /\ mdEDep m = mdEDep m' /\ mdEVel m = mdEVel m' /\ mdClosed m = mdClosed m' /\
    mdOut m = mdOut m' /\ mdTsOut m = mdTsOut m' /\ mdLogInt m = mdLogInt m' /\ mdPlotInt m = mdPlotInt m'.
End Long.
