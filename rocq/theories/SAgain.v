(** Carrying on from a record of an earlier run. *)
From Coq Require Import ZArith List Reals.
From Verif Require Import Base Num Xr MState MCoast MRiv MMor MOut MCore MLoad.
Import ListNotations.

Section Again.
  Context {F : Type} {NF : Num F}.
  Local Open Scope num_scope.
  (** The record [w] shows the state [s]. *)
  Definition shows (w : wargs F) (s : state F) : Prop :=
    wTime w = gTime s /\ wT w = gT s /\ wE0 w = gE0 s /\ wE1 w = gE1 s /\ wW w = gW s /\ wZend w = gZ s /\
    wRiv w = gRiver s /\ wRDep w = gRDep s /\ wRVel w = gRVel s /\ wLWL w = gLWL s /\ wLVel w = gLVel s /\
    wODep w = gODep s /\ wOVel w = gOVel s /\ wEDep w = gEDep s /\ wEVel w = gEVel s /\ wClosed w = gClosed s.

  (** All numbers of [w] that are stored as they are. *)
  Definition plain (w : wargs F) : list F :=
    flat_map (fun t => [tY0 t; tY1 t; tY2 t; tY3 t; tY4 t; tZ0 t; tZ1 t; tZ2 t; tZ3 t]) (wT w) ++
    [wE0 w; wE1 w; wW w; wZend w] ++ wRiv w ++ wRVel w ++ wLWL w ++ wLVel w ++ wOVel w ++ wEVel w ++ tl (wEDep w).
  (** Storage keeps the numbers, and the depths can be got back from the stored levels. *)
  Definition keeps (r32 : F -> F) (w : wargs F) : Prop :=
    Forall (fun x => r32 x = x) (plain w) /\
    Forall2 (fun z d => r32 (z + d) - z = d) (wRiv w) (wRDep w) /\
    Forall2 (fun t d => r32 (d + tZ1 t) - tZ1 t = d) (wT w) (wODep w) /\
    length (wEDep w) = 2%nat /\ length (wEVel w) = 2%nat /\
    forall d l, wEDep w = d :: l -> r32 (wZend w + d) - wZend w = d.

  (** The inputs of a run that is to carry on at [t]; the output intervals may differ. *)
  Definition from (t : Z) (v v' : env F) : Prop :=
    vP v' = vP v /\ vN v' = vN v /\ vFlow v' = vFlow v /\ vSea v' = vSea v /\ vWaves v' = vWaves v /\
    vTP v' = mkTime t (tEnd (vTP v)) (tHydDt (vTP v)) (tMorDtMin (vTP v)) (tMorDtMax (vTP v)).

  (** How a run begins with a hot start. *)
  Definition begins (v : env F) (h : hot F) : res (state F) :=
    init v (htT h) (htE0 h) (htE1 h) (htW h) (htZ h) (htRiver h) (htRWL h) (htRVel h) (htLWL h) (htLVel h) (htODep h) (htOVel h)
      (htEDep h) (htEVel h) (htClosed h).
End Again.

(** Real numbers, and depths that are real numbers or not there. *)
Definition real (x : xr) : Prop := exists r, x = Fin r.
Definition dry (x : xr) : Prop := real x \/ x = NaN.
Definition allReal (w : wargs xr) : Prop :=
  Forall real (wRiv w) /\ Forall real (wRDep w) /\ Forall (fun t => real (tZ1 t) \/ tZ1 t = NaN) (wT w) /\
  Forall2 (fun t d => tZ1 t = NaN -> d = NaN) (wT w) (wODep w) /\ Forall dry (wODep w) /\ real (wZend w) /\ Forall dry (wEDep w).
