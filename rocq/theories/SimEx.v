Set Warnings "-inexact-float".
(** A small hapua to run: nine transects 20 m apart, the parameters of
    /repo/inputs/HurunuiModel.cnf, constant boundary conditions.  Used by examples. *)
From Coq Require Import ZArith List Bool Floats.
From Verif Require Import Base Num Flt MState MCoast MRiv MMor MOut MCore MLoad SAdapt Sim.
Import ListNotations.
Local Open Scope float_scope.

Definition simP0 (perm : float) : phys float :=
  mkPhys 2650 1025 1000 9.8125 0.03125 0.375 0.5 10 5 0.125 0.00390625 0.03125 0.0495 3.97 1.5 100 100 0.04 0.035 30
         30 (-2) 0.0002 2 2 10 4.75 90 1 100 0.5 perm 0 0 0 0 0.
Definition simP (perm : float) : phys float := @derive float sim_num (simP0 perm).
Definition simN : nump float := mkNum 20 0 0.75 0.375 0.001 30 0.125 0.0625.
Definition simTP (start fin hyd mn mx : Z) : timep := mkTime (sec start) (sec fin) (sec hyd) (sec mn) (sec mx).

(** Barrier 100 m wide, lagoon 50 m wide; outlet channel of width [w] where 0 <= x <= 40. *)
Definition simT (x w : float) : tsect float :=
  if (0 <=? x) && (x <=? 40) && (0 <? w)
  then mkT x 200 (150 + w) 150 100 50 4 (-1) 3.5 (-1)
  else mkT x 200 PrimFloat.nan PrimFloat.nan 100 50 4 PrimFloat.nan PrimFloat.nan (-1).
Definition simShore (w : float) : list (tsect float) :=
  map (fun x => simT x w) [-80; -60; -40; -20; 0; 20; 40; 60; 80].
Definition flat (v : float) : series float := [(sec 0, v); (sec 1000000, v)].
Definition simEnv (TP : timep) (q w hs : float) (oi ti : Z) : env float :=
  mkEnv (simP 0.001) simN TP (flat q) (flat w) (mkWaves (flat 0.125) (flat 1000) (flat 8) (flat 70) (flat hs)) (sec oi) (sec ti).
Definition simOr (_ : nat) : oracle float := mkOr simSolve (fun _ => true) (fun _ => true).
Definition rep (v : float) : list float := repeat v 9.
Definition simInit (v : env float) (w : float) (closed : bool) : res (state float) :=
  @init float sim_num v (simShore w) 10 30 w (-1) (map (fun z => z) [0.5; 0.25; 0; -0.25; -0.5]) [2.5; 2.25; 2; 2; 2] [0; 0; 0; 0; 0]
        (rep 1.5) (rep 0) (rep 0) (rep 0) [0; 0] [0; 0] closed.
