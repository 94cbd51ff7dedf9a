(** Specifications for riv.py, written over real numbers and lists only. *)
From Coq Require Import Reals List Bool.
From Verif Require Import Xr.
Import ListNotations.
Local Open Scope R_scope.

(** * Steady flow in a rectangular channel *)
Definition velocity (q b h : R) : R := q / (b * h).
Definition energy (beta q z b h : R) : R := z + h + beta * (velocity q b h * velocity q b h) / (2 * (981 / 100)).
(** Manning friction slope, wide channel. *)
Definition friction (n q b h : R) : R := velocity q b h * velocity q b h * (n * n) / Rpower h (4 / 3).
(** Depth at which the Froude number is one: h^3 = q^2 / (b^2 g). *)
Definition critical (q b h : R) : Prop := 0 < h /\ h * h * h = q * q / (b * b * (981 / 100)).
(** Energy equation between a section and the next one downstream. *)
Definition energy_residual (beta n q dx z b h z' b' h' : R) : R :=
  energy beta q z b h - energy beta q z' b' h' - dx * (friction n q b h + friction n q b' h') / 2.

(** * The Preissmann box scheme for the Saint-Venant equations *)

(** [tab n f] is the list [f 0; ...; f (n-1)] of finite numbers. *)
Definition tab (n : nat) (f : nat -> R) : list xr := map (fun k => Fin (f k)) (seq 0 n).

Fixpoint sum (n : nat) (f : nat -> R) : R :=
  match n with O => 0 | S m => sum m f + f m end.

(** A channel of [vN] nodes: bed level, width, offline lagoon area and lagoon length per node,
    reach length per reach, gravity, Manning's n, barrier permeability, time weighting,
    momentum coefficient, time step. *)
Record scheme := mkScheme {
  vN : nat; vz : nat -> R; vB : nat -> R; vLA : nat -> R; vLL : nat -> R; vdx : nat -> R;
  vg : R; vn : R; vP : R; vth : R; vbeta : R; vdt : R }.

Section Scheme.
  Variable s : scheme.

  (** Length of channel represented by a node when converting offline area to width. *)
  Definition nodeLen (k : nat) : R :=
    if Nat.eqb k 0 then vdx s 0
    else if Nat.eqb k (vN s - 1) then vdx s (vN s - 2)
    else (vdx s (k - 1) + vdx s k) / 2.
  (** Storage width: channel plus offline lagoon. *)
  Definition storeWidth (k : nat) : R := vB s k + vLA s k / nodeLen k.

  Definition flowArea (h : nat -> R) (k : nat) : R := h k * vB s k.
  Definition flux (h V : nat -> R) (k : nat) : R := V k * flowArea h k.
  Definition manning (h V : nat -> R) (k : nat) : R :=
    V k * Rabs (V k) * (vn s * vn s) / Rpower (h k) (4 / 3).
  (** Head difference across the barrier, sea level [W]. *)
  Definition head (h : nat -> R) (W : R) (k : nat) : R := vz s k + h k - W.
  (** Time weighting of a new and an old value. *)
  Definition weigh (new old : R) : R := vth s * new + (1 - vth s) * old.

  (** Continuity over the reach from node [k] to [k+1]. *)
  Definition continuity (h V h' V' : nat -> R) (W W' : R) (k : nat) : R :=
    (h' (S k) * storeWidth (S k) + h' k * storeWidth k)
    - (h (S k) * storeWidth (S k) + h k * storeWidth k)
    + 2 * (vdt s / vdx s k) * weigh (flux h' V' (S k) - flux h' V' k) (flux h V (S k) - flux h V k)
    + (vLL s k + vLL s (S k)) / (2 * vdx s k) * vdt s * vP s
      * weigh (head h' W' (S k) + head h' W' k) (head h W (S k) + head h W k).

  (** Momentum over the same reach: convection, pressure, gravity minus friction. *)
  Definition convection (h V : nat -> R) (k : nat) : R :=
    V (S k) * Rabs (V (S k)) * flowArea h (S k) - V k * Rabs (V k) * flowArea h k.
  Definition pressure (h : nat -> R) (k : nat) : R :=
    (flowArea h (S k) + flowArea h k) * (h (S k) - h k).
  Definition bedSlope (k : nat) : R := (vz s k - vz s (S k)) / vdx s k.
  Definition drive (h V : nat -> R) (k : nat) : R :=
    flowArea h (S k) * (bedSlope k - manning h V (S k)) + flowArea h k * (bedSlope k - manning h V k).
  Definition momentum (h V h' V' : nat -> R) (k : nat) : R :=
    (flux h' V' k + flux h' V' (S k)) - (flux h V k + flux h V (S k))
    + 2 * vbeta s * (vdt s / vdx s k) * weigh (convection h' V' k) (convection h V k)
    + vg s * (vdt s / vdx s k) * weigh (pressure h' k) (pressure h k)
    - vg s * vdt s * weigh (drive h' V' k) (drive h V k).

  (** Downstream condition: no flow, or the water level is the sea level. *)
  Definition downstream (closed : bool) (h' V' : nat -> R) (W' : R) : R :=
    let k := (vN s - 1)%nat in
    if closed then h' k * V' k else vz s k + h' k - W'.

  (** The unknowns in one vector: x(2k) depth and x(2k+1) velocity of node k; equation 0
      is the inflow, 2k+1 continuity and 2k+2 momentum of reach k, the last one downstream. *)
  Definition depths (x : nat -> R) (k : nat) : R := x (2 * k)%nat.
  Definition velocities (x : nat -> R) (k : nat) : R := x (2 * k + 1)%nat.
  Definition equation (closed : bool) (h V : nat -> R) (W W' Q : R) (x : nat -> R) (i : nat) : R :=
    let h' := depths x in let V' := velocities x in
    if Nat.eqb i 0 then flux h' V' 0 - Q
    else if Nat.eqb i (2 * vN s - 1) then downstream closed h' V' W'
    else if Nat.odd i then continuity h V h' V' W W' ((i - 1) / 2)
    else momentum h V h' V' ((i - 2) / 2).

  (** * Water balance *)
  (** Stored volume: trapezoidal rule along the channel. *)
  Definition storage (h : nat -> R) : R :=
    sum (vN s - 1) (fun k => vdx s k * (h k * storeWidth k + h (S k) * storeWidth (S k)) / 2).
  (** Seepage through the barrier for sea level [W]. *)
  Definition seepage (h : nat -> R) (W : R) : R :=
    sum (vN s - 1) (fun k => vP s * ((vLL s k + vLL s (S k)) / 2) * ((head h W k + head h W (S k)) / 2)).
End Scheme.

(** Change one component of a vector. *)
Definition set (x : nat -> R) (j : nat) (t : R) (i : nat) : R := if Nat.eqb i j then t else x i.

(** Entry (i,j) of a matrix stored in scipy.linalg.solve_banded's format with two lower and two
    upper diagonals: ab[u + i - j, j]. *)
Definition banded (ab : list (list R)) (i j : nat) : R :=
  if Nat.leb i (j + 2) && Nat.leb j (i + 2)
  then nth j (nth (2 + i - j) ab []) 0 else 0.
