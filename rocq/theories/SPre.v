(** How the records of the unsteady solver's model represent a scheme of SRiv.v. *)
From Coq Require Import Reals ZArith List Bool.
From Verif Require Import Base Num Xr MState MRiv SRiv.
Import ListNotations.
Local Open Scope R_scope.

Definition seepLen (s : scheme) (k : nat) : R := (vLL s k + vLL s (S k)) / (2 * vdx s k).
Definition ctxOf (s : scheme) (cl : bool) (tol : xr) (mi : nat) : pctx xr :=
  let n := vN s in
  mkCtx (Fin (vg s)) (Fin (vn s)) (Fin (vP s)) (Fin (vth s)) (Fin (vbeta s)) tol mi (Fin (vdt s)) cl
    (tab n (vz s)) (tab n (vB s)) (tab n (storeWidth s)) (tab (n - 1) (vdx s)) (tab (n - 1) (seepLen s))
    (tab (n - 1) (bedSlope s)).
Definition nodesAt (s : scheme) (h V : nat -> R) : list (node xr) :=
  nodesOf (tab (vN s) (vz s)) (tab (vN s) (vB s)) (tab (vN s) (storeWidth s)) (tab (vN s) h) (tab (vN s) V)
    (tab (vN s) (flowArea s h)) (tab (vN s) (manning s h V)).
Definition reachesAt (s : scheme) : list (reach xr) :=
  reachesOf (tab (vN s - 1) (vdx s)) (tab (vN s - 1) (seepLen s)) (tab (vN s - 1) (bedSlope s)).

(** The parameters of the call agree with the scheme. *)
Definition pars (s : scheme) (N : nump xr) (P : phys xr) (dtns : Z) : Prop :=
  nTheta N = Fin (vth s) /\ nBeta N = Fin (vbeta s) /\ pGravity P = Fin (vg s) /\
  pRoughness P = Fin (vn s) /\ pBarrierPermeability P = Fin (vP s) /\ vdt s = IZR (seconds dtns).

(** The solver's variables when depths and velocities are [h], [V] and the sea level of the
    last step is [W]; [d]: last correction; [o]: arrays kept by the caller. *)
Definition stateAt (s : scheme) (h V : nat -> R) (W : R) (d : option (list xr)) (o : option (list xr * list xr)) : pst xr :=
  mkPst (tab (vN s) h) (tab (vN s) V) (tab (vN s) (flowArea s h)) (tab (vN s) (manning s h V)) (Fin W) d o.

(** Depths that are not positive and velocities that are zero are replaced by 0.0001. *)
Definition mend (i : nat) (t : R) : R :=
  if Nat.even i then (if Rle_dec t 0 then 1 / 10000 else t) else (if Req_EM_T t 0 then 1 / 10000 else t).

(** A matrix of finite numbers whose entries are the partial derivatives of the equations. *)
Definition jacobian (ab : list (list R)) (n : nat) (f : (nat -> R) -> nat -> R) (x : nat -> R) : Prop :=
  length ab = 5%nat /\ Forall (fun row => length row = n) ab /\
  forall i j, (i < n)%nat -> (j < n)%nat ->
    derivable_pt_lim (fun t => f (set x j t) i) (x j) (banded ab i j).
