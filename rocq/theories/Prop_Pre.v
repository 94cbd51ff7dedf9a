(** C14-C19: riv.py solveFullPreissmann. *)
From Coq Require Import Reals ZArith List Bool Floats.
From Verif Require Import Base Num Xr Flt MState MRiv SRiv SPre PPre PSv PJac.
Import ListNotations.
Local Open Scope R_scope.

(** Any number type in which 0.0001 compares as positive and nonzero. *)
Theorem C14_positive : forall F (NF : Num F),
  (fofQ 1 10000 <=? f0)%n = false -> (fofQ 1 10000 =? f0)%n = false ->
  forall (solve : list (list F) -> list F -> solout F) z B LA LL cl h V dx dt Q W N P r,
  solveFullPreissmann solve z B LA LL cl h V dx dt Q W N P = Ok r ->
  Forall (fun d => (d <=? f0)%n = false) (fst r) /\ Forall (fun v => (v =? f0)%n = false) (snd r).
Proof. exact @full_ok. Qed.
Print Assumptions C14_positive.

Theorem C14_positive_exact : forall (solve : list (list xr) -> list xr -> solout xr) z B LA LL cl h V dx dt Q W N P r,
  solveFullPreissmann solve z B LA LL cl h V dx dt Q W N P = Ok r ->
  Forall (fun d => d = NaN \/ d = PInf \/ exists t, d = Fin t /\ 0 < t) (fst r) /\
  Forall (fun v => v <> Fin 0) (snd r).
Proof. exact full_ok_xr. Qed.
Print Assumptions C14_positive_exact.

Theorem C14_example :
  ((fofQ 1 10000 <=? f0)%n = false /\ (fofQ 1 10000 =? f0)%n = false) /\
  (never_within stuck (nErrTol numF) /\
  solveFullPreissmann stuck [0; 0]%float [1; 1]%float [0; 0]%float [0; 0]%float false [2; 2]%float [1; 1]%float [1]%float
    1000000000 [1; 5; 7]%float [2; 3; 1]%float numF onesF = Ok ([1.5; 1.5], [0.5; 0.5])%float /\
  solveFullPreissmann stuck [0; 0]%float [1; 1]%float [0; 0]%float [0; 0]%float false [2; 2]%float [1; 1]%float [1]%float
    1000000000 [1]%float [2]%float numF onesF = Ok ([1.5; 1.5], [0.5; 0.5])%float).
Proof. exact (conj float_small stuck_example). Qed.

(** The set-up of the solver represents the scheme [s]. *)
Theorem C15_setup : forall s cl h V dtns (N : nump xr) (P : phys xr),
  (2 <= vN s)%nat -> pars s N P dtns ->
  (forall k, (k < vN s - 1)%nat -> 0 < vdx s k) ->
  (forall k, (k < vN s)%nat -> 0 < h k /\ V k <> 0) ->
  preInit (tab (vN s) (vz s)) (tab (vN s) (vB s)) (tab (vN s) (vLA s)) (tab (vN s) (vLL s)) cl
          (tab (vN s) h) (tab (vN s) V) (tab (vN s - 1) (vdx s)) dtns N P
  = Ok (ctxOf s cl (nErrTol N) (nMaxIt N),
        stateAt s h V (vz s (vN s - 1) + h (vN s - 1)%nat) None None).
Proof. exact setup_fin. Qed.
Print Assumptions C15_setup.

(** The residual vector is the left-hand side of the box-scheme equations. *)
Theorem C15_residual : forall s cl tol mi h V W W' Q x,
  (2 <= vN s)%nat -> (forall k, (k < vN s - 1)%nat -> 0 < vdx s k) ->
  let c := ctxOf s cl tol mi in
  preErr c (Fin Q) (Fin W')
    (reaches (preC1 c (Fin W') (Fin W)) (nodesAt s h V) (reachesAt s))
    (reaches (preC2 c) (nodesAt s h V) (reachesAt s))
    (nodesAt s (depths x) (velocities x)) (reachesAt s)
  = Ok (tab (2 * vN s) (equation s cl h V W W' Q x)).
Proof. exact residual_fin. Qed.
Print Assumptions C15_residual.

(** Zero continuity residuals: the stored volume changes by inflow minus outflow minus seepage. *)
Theorem C15_balance : forall s cl h V W W' Q x,
  (2 <= vN s)%nat -> (forall k, (k < vN s - 1)%nat -> 0 < vdx s k) ->
  (forall k, (k < vN s - 1)%nat -> equation s cl h V W W' Q x (2 * k + 1) = 0) ->
  let h' := depths x in let V' := velocities x in let e := (vN s - 1)%nat in
  storage s h' - storage s h =
    vdt s * weigh s (flux s h' V' 0 - flux s h' V' e) (flux s h V 0 - flux s h V e)
    - vdt s * weigh s (seepage s h' W') (seepage s h W).
Proof. exact volume_balance. Qed.
Print Assumptions C15_balance.

(** Offline area at interior nodes counts in full, at the first and last node by half. *)
Theorem C15_offline : forall s h m,
  vN s = S (S m) -> (forall k, (k < vN s - 1)%nat -> 0 < vdx s k) ->
  storage s h =
    sum (S m) (fun k => vdx s k * (h k * vB s k + h (S k) * vB s (S k)) / 2)
    + (vLA s 0%nat * h 0%nat / 2 + sum m (fun k => vLA s (S k) * h (S k)) + vLA s (S m) * h (S m) / 2).
Proof. exact storage_offline. Qed.
Print Assumptions C15_offline.

Theorem C15_example :
  (2 <= vN exS)%nat /\ (forall k, (k < vN exS - 1)%nat -> 0 < vdx exS k) /\
  (forall k, (k < vN exS)%nat -> 0 < depths exX k /\ 0 < velocities exX k) /\
  (forall k, (k < vN exS - 1)%nat -> equation exS false (fun _ => 1) (fun _ => 1) 0 0 3 exX (2 * k + 1) = 0) /\
  storage exS (depths exX) - storage exS (fun _ => 1) = 2.
Proof. exact balance_example. Qed.

Theorem C15_example_setup : forall (N : nump xr) (P : phys xr),
  nTheta N = Fin 1 -> nBeta N = Fin 1 -> pGravity P = Fin 9 -> pRoughness P = Fin 0 -> pBarrierPermeability P = Fin 1 ->
  pars exS N P 1000000000.
Proof. exact setup_example. Qed.

(** Forward flow: one iteration solves a system whose matrix is the exact Jacobian and whose
    right-hand side is the residual, and subtracts the solution. *)
Theorem C16_newton : forall s cl tol mi h V W W' Q x,
  (2 <= vN s)%nat -> (forall k, (k < vN s - 1)%nat -> 0 < vdx s k) ->
  (forall k, (k < vN s)%nat -> 0 < depths x k /\ 0 < velocities x k) ->
  exists ab, jacobian ab (2 * vN s) (equation s cl h V W W' Q) x /\
  forall solve l d0 o d,
    let c := ctxOf s cl tol mi in
    let C1 := reaches (preC1 c (Fin W') (Fin W)) (nodesAt s h V) (reachesAt s) in
    let C2 := reaches (preC2 c) (nodesAt s h V) (reachesAt s) in
    solve (map (map Fin) ab) (tab (2 * vN s) (equation s cl h V W W' Q x)) = SSol (tab (2 * vN s) d) ->
    let x' := fun i => mend i (x i - d i) in
    let st' := stateAt s (depths x') (velocities x') W' (Some (tab (2 * vN s) d)) o in
    preNewton solve (S l) c (Fin Q) (Fin W') C1 C2 (stateAt s (depths x) (velocities x) W' d0 o) =
      if forallb (fun r => fabs r <? tol)%n (tab (2 * vN s) d) then Ok (st', true)
      else preNewton solve l c (Fin Q) (Fin W') C1 C2 st'.
Proof. exact newton_is_newton. Qed.
Print Assumptions C16_newton.

Theorem C16_example :
  (2 <= vN exS)%nat /\ (forall k, (k < vN exS - 1)%nat -> 0 < vdx exS k) /\
  (forall k, (k < vN exS)%nat -> 0 < depths exX k /\ 0 < velocities exX k) /\
  (forall k, (k < vN exS - 1)%nat -> equation exS false (fun _ => 1) (fun _ => 1) 0 0 3 exX (2 * k + 1) = 0) /\
  storage exS (depths exX) - storage exS (fun _ => 1) = 2.
Proof. exact balance_example. Qed.

(** Reverse flow at node [k] of reach [i]: the stored velocity derivative of the momentum
    equation is not the derivative. *)
Theorem C17_reverse_refuted : forall s cl tol mi x i k,
  (2 <= vN s)%nat -> (forall k, (k < vN s - 1)%nat -> 0 < vdx s k) ->
  (forall k, (k < vN s)%nat -> 0 < depths x k /\ velocities x k <> 0) ->
  vbeta s <> 0 -> vdt s <> 0 -> vth s <> 0 ->
  (i < vN s - 1)%nat -> (k = i \/ k = S i) -> velocities x k < 0 -> vB s k <> 0 ->
  exists ab, preBand (ctxOf s cl tol mi) (nodesAt s (depths x) (velocities x)) (reachesAt s) = Ok (map (map Fin) ab) /\
  forall h V W W' Q,
    ~ derivable_pt_lim (fun t => equation s cl h V W W' Q (set x (2 * k + 1) t) (2 * i + 2)) (x (2 * k + 1)%nat)
        (banded ab (2 * i + 2) (2 * k + 1)).
Proof. exact reverse_wrong. Qed.
Print Assumptions C17_reverse_refuted.

Theorem C17_example :
  (2 <= vN exS)%nat /\ (forall k, (k < vN exS - 1)%nat -> 0 < vdx exS k) /\
  (forall k, (k < vN exS)%nat -> 0 < depths exY k /\ velocities exY k <> 0) /\
  vbeta exS <> 0 /\ vdt exS <> 0 /\ vth exS <> 0 /\ velocities exY 1 < 0 /\ vB exS 1 <> 0.
Proof. exact reverse_example. Qed.

(** A time step whose Newton loop runs out leaves its last iterate with the caller; neither
    the steady solution computed then nor any later time step reaches the caller. *)
Theorem C18_iterate : forall F (NF : Num F) (solve : list (list F) -> list F -> solout F) N c qe we Q W bc s s1 s2,
  pOut s = None ->
  preNewton solve (cMaxIt c) c Q W
    (reaches (preC1 c W (pDsWl s)) (nodesOf (cz c) (cB c) (cBe c) (ph s) (pV s) (pA s) (pSf s)) (reachesOf (cdx c) (cSeep c) (cS0 c)))
    (reaches (preC2 c) (nodesOf (cz c) (cB c) (cBe c) (ph s) (pV s) (pA s) (pSf s)) (reachesOf (cdx c) (cSeep c) (cS0 c)))
    (mkPst (ph s) (pV s) (pA s) (pSf s) W (pDelta s) (pOut s)) = Ok (s1, false) ->
  preLoop solve N c qe we ((Q, W) :: bc) s = Ok s2 ->
  match pOut s2 with Some o => o | None => (ph s2, pV s2) end = (ph s1, pV s1).
Proof. exact @nonconverged_iterate. Qed.
Print Assumptions C18_iterate.

Theorem C18_first_step_only : forall F (NF : Num F) (solve : list (list F) -> list F -> solout F)
    z B LA LL cl h V dx dt q Qs w Ws N P r r1,
  (forall band err d, solve band err = SSol d -> forallb (fun x => fabs x <? nErrTol N)%n d = false) ->
  solveFullPreissmann solve z B LA LL cl h V dx dt (q :: Qs) (w :: Ws) N P = Ok r ->
  solveFullPreissmann solve z B LA LL cl h V dx dt [q] [w] N P = Ok r1 ->
  r = r1.
Proof. exact @only_first_step. Qed.
Print Assumptions C18_first_step_only.

Theorem C18_example :
  never_within stuck (nErrTol numF) /\
  solveFullPreissmann stuck [0; 0]%float [1; 1]%float [0; 0]%float [0; 0]%float false [2; 2]%float [1; 1]%float [1]%float
    1000000000 [1; 5; 7]%float [2; 3; 1]%float numF onesF = Ok ([1.5; 1.5], [0.5; 0.5])%float /\
  solveFullPreissmann stuck [0; 0]%float [1; 1]%float [0; 0]%float [0; 0]%float false [2; 2]%float [1; 1]%float [1]%float
    1000000000 [1]%float [2]%float numF onesF = Ok ([1.5; 1.5], [0.5; 0.5])%float.
Proof. exact stuck_example. Qed.

(** The first linear system of a call does not depend on the linear solver; if it is reported
    singular the call ends in UnboundLocalError. *)
Theorem C19_first : forall F (NF : Num F) z B LA LL cl h V dx dt q Qs Ws (N : nump F) (P : phys F) c s,
  preInit z B LA LL cl h V dx dt N P = Ok (c, s) ->
  (0 < nMaxIt N)%nat -> (length (q :: Qs) <= length Ws)%nat ->
  exists band err, forall solve : list (list F) -> list F -> solout F,
    (solve band err = SSingular -> solveFullPreissmann solve z B LA LL cl h V dx dt (q :: Qs) Ws N P = Exc EUnbound) /\
    (forall e, solve band err = SRaise e -> solveFullPreissmann solve z B LA LL cl h V dx dt (q :: Qs) Ws N P = Exc e).
Proof. exact @first_singular. Qed.
Print Assumptions C19_first.

(** Later: the previous correction [d] is applied again (one iteration; iterations compose). *)
Theorem C19_later : forall F (NF : Num F) (solve : list (list F) -> list F -> solout F) c Q W C1 C2 s d,
  pDelta s = Some d ->
  preNewton solve 1 c Q W C1 C2 s =
  preNewton (fun band err => match solve band err with SSingular => SSol d | r => r end) 1 c Q W C1 C2 s.
Proof. exact @newton_singular_once. Qed.
Print Assumptions C19_later.

Theorem C19_compose : forall F (NF : Num F) (solve : list (list F) -> list F -> solout F) l c Q W C1 C2 s,
  preNewton solve (S l) c Q W C1 C2 s =
  (let! (s', conv) := preNewton solve 1 c Q W C1 C2 s in
   if conv then Ok (s', true) else preNewton solve l c Q W C1 C2 s').
Proof. exact @newton_compose. Qed.
Print Assumptions C19_compose.

Theorem C19_example :
  solveFullPreissmann (fun _ _ => SSingular) [0; 0]%float [1; 1]%float [0; 0]%float [0; 0]%float false [2; 2]%float [1; 1]%float [1]%float
    1000000000 [1]%float [2]%float numF onesF = Exc EUnbound.
Proof. exact singular_example. Qed.
