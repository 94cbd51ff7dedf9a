(** Model of /repo/hapuamod/riv.py. *)
From Coq Require Import ZArith List Bool.
From Verif Require Import Base Num MState.
Section Riv.
  Context {F : Type} {NF : Num F}.
  Local Open Scope num_scope.

  (** * solveSteady, riv.py:9-71 *)

  (** What the upstream march keeps of one cross-section: bed, depth, velocity,
      energy level, friction slope. *)
  Record steady := mkSt { sElev : F; sDep : F; sVel : F; sEn : F; sSf : F }.

  (** riv.py:16 *)
  Definition grav : F := fofQ 981 100.

  (** riv.py:26 CritDep at a section of width [b] *)
  Definition critDep (q b : F) : F := fpow (fsq q / (fsq b * grav)) (fofQ 1 3).

  (** riv.py:33-35 / 67-69: velocity, energy and friction slope for depth [h] *)
  Definition steadyAt (beta rough q z b h : F) : steady :=
    let v := q / (b * h) in
    mkSt z h v (z + h + beta * fsq v / (f2 * grav))
         (fsq v * fsq rough / fpow h (fofQ 4 3)).

  (** riv.py:32-35: the downstream section *)
  Definition steadyEnd (beta rough q dswl z b : F) : steady :=
    steadyAt beta rough q z b (fmaximum (dswl - z) (critDep q b)).

  (** riv.py:54 / 59: DepErr *)
  Definition steadyErr (a bc cc h : F) : F :=
    h + a * fpow h (fofZ (-2)) - bc * fpow h (fofQ (-10) 3) + cc.

  (** riv.py:56-61: Newton loop with the CheckCount assertion. *)
  Fixpoint steadyNewton (fuel cnt : nat) (maxit : nat) (tol a bc cc h : F) : res F :=
    let err := steadyErr a bc cc h in
    if tol <? fabs err then
      match fuel with
      | O => Exc EFuel
      | S f =>
        let gradient := f1 - f2 * a * fpow h (fofZ (-3)) + fofQ 10 3 * bc * fpow h (fofQ (-13) 3) in
        let h' := h - err / gradient in
        if Nat.ltb (S cnt) maxit
        then steadyNewton f (S cnt) maxit tol a bc cc h'
        else Exc EAssert
      end
    else Ok h.

  (** riv.py:47-69: one section upstream of the already solved section [d]. *)
  Definition steadyStep (fuel : nat) (N : nump F) (rough q dx z b : F) (d : steady) : res steady :=
    (* 48 *) let h0 := sDep d + sElev d - z + sSf d * dx in
    (* 51 *) let a := nBeta N * (fsq q / (f2 * grav * fsq b)) in
    (* 52 *) let bc := dx * fsq q * fsq rough / (f2 * fsq b) in
    (* 53 *) let cc := z - sSf d * dx / f2 - sEn d in
    let! h := steadyNewton fuel 0 (nMaxIt N) (nErrTol N) a bc cc h0 in
    (* 64-65 *) let h := if h <? critDep q b then critDep q b else h in
    Ok (steadyAt (nBeta N) rough q z b h).

  (** riv.py:32-69: the march, from the downstream (last) section upwards.
      Sections are given by the lists of bed levels and widths, [dx] by the list of
      reach lengths.  Simplification: lists of inconsistent length give IndexError. *)
  Fixpoint steadyMarch (fuel : nat) (N : nump F) (rough q dswl : F) (dx zs bs : list F)
    {struct zs} : res (list steady) :=
    match zs, bs with
    | [z], [b] => Ok [steadyEnd (nBeta N) rough q dswl z b]
    | z :: zs', b :: bs' =>
      match dx with
      | d :: dx' =>
        let! r := steadyMarch fuel N rough q dswl dx' zs' bs' in
        let! s := ix r 0 in
        let! s' := steadyStep fuel N rough q d z b s in
        Ok (s' :: r)
      | [] => Exc EIndex
      end
    | _, _ => Exc EIndex
    end.

  (** riv.py:9-71 solveSteady: depths and velocities.  The loop is bounded by MaxIt,
      so fuel MaxIt+1 is always enough (theorem C12). *)
  Definition solveSteadyF (fuel : nat) (dx z b : list F) (rough q dswl : F) (N : nump F)
    : res (list F * list F) :=
    let! r := steadyMarch fuel N rough q dswl dx z b in
    Ok (map sDep r, map sVel r).
  Definition solveSteady (dx z b : list F) (rough q dswl : F) (N : nump F) :=
    solveSteadyF (S (nMaxIt N)) dx z b rough q dswl N.

  (** * solveFullPreissmann, riv.py:73-304 *)

  (** Outcome of scipy.linalg.solve_banded: a vector, LinAlgError, or another
      exception (ValueError when the matrix has NaN or infinite entries). *)
  Inductive solout := SSol (x : list F) | SSingular | SRaise (e : exn).

  (** Quantities fixed during one call (riv.py:120-151); [cB], [cBe], [cz] per node,
      the others per reach. *)
  Record pctx := mkCtx {
    cg : F; cn : F; cP : F; cTheta : F; cBeta : F; cTol : F; cMaxIt : nat; cdt : F;
    cClosed : bool;
    cz : list F; cB : list F; cBe : list F;
    cdx : list F; cSeep : list F; cS0 : list F
  }.

  (** riv.py:277-278 (and 133-134): h[h<=0] = 0.0001, V[V==0] = 0.0001 *)
  Definition fixH (h : F) : F := if h <=? f0 then fofQ 1 10000 else h.
  Definition fixV (v : F) : F := if v =? f0 then fofQ 1 10000 else v.

  (** riv.py:281 (155): friction slope at a node *)
  Definition fricSlope (n h v : F) : F := v * fabs v * fsq n / fpow h (fofQ 4 3).

  (** Apply a function of (left node, right node, reach) along the channel. *)
  Fixpoint reaches {A B C} (f : A -> A -> B -> C) (nodes : list A) (rs : list B) : list C :=
    match nodes, rs with
    | a :: ((b :: _) as tl), r :: rs' => f a b r :: reaches f tl rs'
    | _, _ => []
    end.

  (** A node's fixed and current quantities. *)
  Record node := mkNode { ndz : F; ndB : F; ndBe : F; ndh : F; ndV : F; ndA : F; ndSf : F }.
  Record reach := mkReach { rdx : F; rSeep : F; rS0 : F }.

  Fixpoint nodesOf (z B Be h V A Sf : list F) : list node :=
    match z, B, Be, h, V, A, Sf with
    | z1 :: z', B1 :: B', Be1 :: Be', h1 :: h', V1 :: V', A1 :: A', S1 :: S' =>
      mkNode z1 B1 Be1 h1 V1 A1 S1 :: nodesOf z' B' Be' h' V' A' S'
    | _, _, _, _, _, _, _ => []
    end.
  Fixpoint reachesOf (dx seep s0 : list F) : list reach :=
    match dx, seep, s0 with
    | d :: dx', s :: seep', z :: s0' => mkReach d s z :: reachesOf dx' seep' s0'
    | _, _, _ => []
    end.

  (** riv.py:171-175: C1 for the reach between old-state nodes [a], [b] *)
  Definition preC1 (c : pctx) (DsWl DsWl_old : F) (a b : node) (r : reach) : F :=
    let dtdx := cdt c / rdx r in
    ndh b * ndBe b + ndh a * ndBe a
    - f2 * dtdx * (f1 - cTheta c) * (ndV b * ndA b - ndV a * ndA a)
    - rSeep r * cdt c * cP c * (ndz b + ndz a - f2 * cTheta c * DsWl
                                + (f1 - cTheta c) * (ndh b + ndh a - f2 * DsWl_old)).

  (** riv.py:178-183: C2 *)
  Definition preC2 (c : pctx) (a b : node) (r : reach) : F :=
    let dtdx := cdt c / rdx r in
    let theta1 := f1 - cTheta c in
    ndV a * ndA a + ndV b * ndA b
    - f2 * cBeta c * dtdx * theta1 * (ndV b * fabs (ndV b) * ndA b - ndV a * fabs (ndV a) * ndA a)
    - cg c * dtdx * theta1 * (ndA b + ndA a) * (ndh b - ndh a)
    + cg c * cdt c * theta1 * (ndA b * (rS0 r - ndSf b) + ndA a * (rS0 r - ndSf a)).

  (** riv.py:194-197: continuity residual *)
  Definition preCont (c : pctx) (C1 : F) (a b : node) (r : reach) : F :=
    let dtdx := cdt c / rdx r in
    ndh b * ndBe b + ndh a * ndBe a
    + f2 * dtdx * cTheta c * (ndV b * ndA b - ndV a * ndA a)
    + rSeep r * (cdt c * cP c * cTheta c) * (ndh b + ndh a)
    - C1.

  (** riv.py:200-205: momentum residual *)
  Definition preMom (c : pctx) (C2 : F) (a b : node) (r : reach) : F :=
    let dtdx := cdt c / rdx r in
    ndV a * ndA a + ndV b * ndA b
    + f2 * cBeta c * dtdx * cTheta c * (ndV b * fabs (ndV b) * ndA b - ndV a * fabs (ndV a) * ndA a)
    + cg c * dtdx * cTheta c * (ndA b + ndA a) * (ndh b - ndh a)
    - cg c * cdt c * cTheta c * (ndA b * (rS0 r - ndSf b) + ndA a * (rS0 r - ndSf a))
    - C2.

  (** riv.py:190-211: the residual vector of length 2N,
      [us; cont0; mom0; cont1; mom1; ...; ds]. *)
  Definition preErr (c : pctx) (Q DsWl : F) (C1 C2 : list F) (nd : list node) (rc : list reach)
    : res (list F) :=
    let! a0 := ix nd 0 in
    let! an := last_ nd in
    let inner := concat (reaches (fun a b (x : reach * (F * F)) =>
                           [preCont c (fst (snd x)) a b (fst x); preMom c (snd (snd x)) a b (fst x)])
                         nd (combine rc (combine C1 C2))) in
    Ok ((ndA a0 * ndV a0 - Q) :: inner ++
        [if cClosed c then ndh an * ndV an else ndz an + ndh an - DsWl]).

  (** riv.py:225-235: derivatives of the continuity residual with respect to
      h[0], V[0], h[1], V[1] of the reach *)
  Definition contD (c : pctx) (a b : node) (r : reach) : F * F * F * F :=
    let dtdx := cdt c / rdx r in
    ( ndBe a - f2 * dtdx * cTheta c * ndV a * ndB a + rSeep r * (cdt c * cP c * cTheta c),
      (- f2) * dtdx * cTheta c * ndA a,
      ndBe b + f2 * dtdx * cTheta c * ndV b * ndB b + rSeep r * (cdt c * cP c * cTheta c),
      f2 * dtdx * cTheta c * ndA b ).

  (** riv.py:239-255: derivatives of the momentum residual *)
  Definition momD (c : pctx) (a b : node) (r : reach) : F * F * F * F :=
    let dtdx := cdt c / rdx r in
    let gdt := cg c * cdt c * cTheta c in
    ( ndV a * ndB a - f2 * cBeta c * dtdx * cTheta c * fabs (ndV a) * ndV a * ndB a
      + cg c * cTheta c * dtdx * ((- f2) * ndA a + ndB a * ndh b - ndA b)
      - gdt * ndB a * (rS0 r + fofQ 1 3 * ndSf a),
      ndA a - fofZ 4 * cBeta c * dtdx * cTheta c * ndV a * ndA a + f2 * gdt * ndA a * ndSf a / ndV a,
      ndV b * ndB b + f2 * cBeta c * dtdx * cTheta c * fabs (ndV b) * ndV b * ndB b
      + cg c * cTheta c * dtdx * (f2 * ndA b - ndB b * ndh a + ndA a)
      - gdt * ndB b * (rS0 r + fofQ 1 3 * ndSf b),
      ndA b + fofZ 4 * cBeta c * dtdx * cTheta c * ndV b * ndA b + f2 * gdt * ndA b * ndSf b / ndV b ).

  Definition q1 (t : F * F * F * F) : F := fst (fst (fst t)).
  Definition q2 (t : F * F * F * F) : F := snd (fst (fst t)).
  Definition q3 (t : F * F * F * F) : F := snd (fst t).
  Definition q4 (t : F * F * F * F) : F := snd t.

  (** Interleave two lists: [x0; y0; x1; y1; ...]. *)
  Fixpoint inter (xs ys : list F) : list F :=
    match xs, ys with
    | x :: xs', y :: ys' => x :: y :: inter xs' ys'
    | _, _ => []
    end.

  (** riv.py:217-263: the five rows of a_banded, each of length 2N.
      Row 0 holds [1:]-V derivatives of continuity at odd columns 3,5,..;
      row 1: us A[0] at column 1, continuity d/dh[1] at even columns 2,4,..,
      momentum d/dV[1] at odd columns 3,5,..; row 2: us V[0]B[0] at column 0,
      continuity d/dV[0] at odd columns 1,..,2N-3, momentum d/dh[1] at even
      columns 2,..; ds at column 2N-1; row 3: continuity d/dh[0] at even columns
      0,..,2N-4, momentum d/dV[0] at odd columns 1,..,2N-3; ds at column 2N-2;
      row 4: momentum d/dh[0] at even columns 0,..,2N-4. *)
  Definition preBand (c : pctx) (nd : list node) (rc : list reach) : res (list (list F)) :=
    let! a0 := ix nd 0 in
    let! an := last_ nd in
    let cd := reaches (contD c) nd rc in
    let md := reaches (momD c) nd rc in
    let z := map (fun _ => f0) cd in
    Ok [ [f0; f0] ++ inter z (map q4 cd);
         [f0; ndA a0] ++ inter (map q3 cd) (map q4 md);
         [ndV a0 * ndB a0] ++ inter (map q2 cd) (map q3 md)
            ++ [if cClosed c then ndh an else f0];
         inter (map q1 cd) (map q2 md) ++ [if cClosed c then ndV an else f1; f0];
         inter (map q1 md) z ++ [f0; f0] ].

  (** Variables of the call that change: local h, V (riv.py:273-274), A and Sf
      (281-282), DsWl (162), Delta (None: not yet assigned), and the arrays the
      caller sees.  [pOut = None]: the locals h, V are still the caller's arrays;
      [Some (h, V)]: line 304 has rebound the locals and the caller keeps (h, V). *)
  Record pst := mkPst {
    ph : list F; pV : list F; pA : list F; pSf : list F; pDsWl : F;
    pDelta : option (list F); pOut : option (list F * list F)
  }.

  (** Delta[np.arange(0,2N,2)] and Delta[np.arange(1,2N,2)] *)
  Definition evens (n : nat) (d : list F) : res (list F) := gather d (map (fun i => 2 * i)%nat (seq 0 n)).
  Definition odds (n : nat) (d : list F) : res (list F) := gather d (map (fun i => 2 * i + 1)%nat (seq 0 n)).

  (** riv.py:188-300: the Newton loop of one time step; [left] iterations remain.
      The boolean tells whether the loop was left by [break].  The noise added to
      a_banded after LinAlgError (line 270) is overwritten before the next use and
      is not modelled; neither are the stability warnings (291-299). *)
  Fixpoint preNewton (solve : list (list F) -> list F -> solout) (left : nat) (c : pctx)
           (Q DsWl : F) (C1 C2 : list F) (s : pst) : res (pst * bool) :=
    match left with
    | O => Ok (s, false)
    | S l =>
      let nd := nodesOf (cz c) (cB c) (cBe c) (ph s) (pV s) (pA s) (pSf s) in
      let rc := reachesOf (cdx c) (cSeep c) (cS0 c) in
      let! err := preErr c Q DsWl C1 C2 nd rc in
      let! band := preBand c nd rc in
      let! delta := match solve band err with
                    | SSol d => Ok d
                    | SSingular => of_opt EUnbound (pDelta s)
                    | SRaise e => Exc e
                    end in
      let n := length (cz c) in
      let! dh := evens n delta in
      let! dV := odds n delta in
      let h := map fixH (map2 fsub (ph s) dh) in
      let V := map fixV (map2 fsub (pV s) dV) in
      let s' := mkPst h V (map2 fmul h (cB c)) (map2 (fricSlope (cn c)) h V) (pDsWl s)
                      (Some delta) (pOut s) in
      if forallb (fun d => fabs d <? cTol c) delta then Ok (s', true)
      else preNewton solve l c Q DsWl C1 C2 s'
    end.

  (** riv.py:159-304: one pass of the main loop.  [qEnd], [wEnd]: Q_Ts[-1], DsWl_Ts[-1]. *)
  Definition preStep (solve : list (list F) -> list F -> solout) (N : nump F) (c : pctx)
             (qEnd wEnd Q W : F) (s : pst) : res pst :=
    let nd := nodesOf (cz c) (cB c) (cBe c) (ph s) (pV s) (pA s) (pSf s) in
    let rc := reachesOf (cdx c) (cSeep c) (cS0 c) in
    let C1 := reaches (preC1 c W (pDsWl s)) nd rc in
    let C2 := reaches (preC2 c) nd rc in
    let s := mkPst (ph s) (pV s) (pA s) (pSf s) W (pDelta s) (pOut s) in
    let! (s, conv) := preNewton solve (cMaxIt c) c Q W C1 C2 s in
    if conv then Ok s
    else
      let! (hs, vs) := solveSteady (cdx c) (cz c) (cB c) (cn c) qEnd wEnd N in
      Ok (mkPst hs vs (pA s) (pSf s) (pDsWl s) (pDelta s)
                (Some (match pOut s with Some o => o | None => (ph s, pV s) end))).

  Fixpoint preLoop (solve : list (list F) -> list F -> solout) (N : nump F) (c : pctx)
           (qEnd wEnd : F) (bc : list (F * F)) (s : pst) : res pst :=
    match bc with
    | [] => Ok s
    | (Q, W) :: bc' => let! s := preStep solve N c qEnd wEnd Q W s in preLoop solve N c qEnd wEnd bc' s
    end.

  (** riv.py:137-141: dx2 *)
  Definition dx2 (dx : list F) : res (list F) :=
    let! d0 := ix dx 0 in
    let! dn := last_ dx in
    Ok (d0 :: map2 (fun a b => (a + b) / f2) (removelast dx) (tl dx) ++ [dn]).

  (** riv.py:120-156: set-up.  Simplification: arrays whose lengths do not fit
      together raise ValueError (numpy would broadcast arrays of length one). *)
  Definition preInit (z B LagArea LagLen : list F) (Closed : bool) (h V dx : list F) (dtns : Z)
             (N : nump F) (P : phys F) : res (pctx * pst) :=
    let n := length z in
    if negb (Nat.eqb (length B) n && Nat.eqb (length LagArea) n && Nat.eqb (length LagLen) n
             && Nat.eqb (length h) n && Nat.eqb (length V) n && Nat.eqb (S (length dx)) n)
    then Exc EValue
    else
      let s0 := reaches (fun a b d => (a - b) / d) z dx in
      let h := map fixH h in
      let V := map fixV V in
      let! d2 := dx2 dx in
      let Be := map2 fadd B (map2 fdiv LagArea d2) in
      let seep := reaches (fun a b d => (a + b) / (f2 * d)) LagLen dx in
      let! zn := last_ z in
      let! hn := last_ h in
      Ok (mkCtx (pGravity P) (pRoughness P) (pBarrierPermeability P) (nTheta N) (nBeta N)
                (nErrTol N) (nMaxIt N) (fofZ (seconds dtns)) Closed z B Be dx seep s0,
          mkPst h V (map2 fmul h B) (map2 (fricSlope (pRoughness P)) h V) (zn + hn) None None).

  (** riv.py:73-304 solveFullPreissmann: the final content of the caller's h and V.
      Simplification: too few water levels raise IndexError before the first step. *)
  Definition solveFullPreissmann (solve : list (list F) -> list F -> solout)
             (z B LagArea LagLen : list F) (Closed : bool) (h V dx : list F) (dtns : Z)
             (Q_Ts W_Ts : list F) (N : nump F) (P : phys F) : res (list F * list F) :=
    let! (c, s) := preInit z B LagArea LagLen Closed h V dx dtns N P in
    if Nat.ltb (length W_Ts) (length Q_Ts) then Exc EIndex
    else
      match rev Q_Ts, rev W_Ts with
      | qEnd :: _, wEnd :: _ =>
        let! s := preLoop solve N c qEnd wEnd (combine Q_Ts W_Ts) s in
        Ok (match pOut s with Some o => o | None => (ph s, pV s) end)
      | _, _ => Ok (ph s, pV s)
      end.

  (** * assembleChannel, riv.py:306-520 *)

  (** The merged channel (the tuple returned by assembleChannel). *)
  Record chan := mkChan {
    chDx : list F; chElev : list F; chWidth : list F; chLagArea : list F; chLagLen : list F;
    chDep : list F; chVel : list F; chOnline : list nat; chOutlet : list nat;
    chFlag : list nat; chClosed : bool
  }.

  (** riv.py:346 (mor.py:29): index of the transect with X == 0 *)
  Definition x0Ix (T : list (tsect F)) : res nat :=
    of_opt EIndex (first_where (fun t => tX t =? f0) T).

  (** riv.py:358-359 and 362-363 (also mor.py:318-323, 365-372, 414-420): indices of
      the transects between the two outlet ends, in flow order *)
  Definition ixLR (T : list (tsect F)) (e0 e1 : F) : list nat :=
    where_ (fun t => (e0 <=? tX t) && (tX t <=? e1)) T.
  Definition ixRL (T : list (tsect F)) (e0 e1 : F) : list nat :=
    rev (where_ (fun t => (e1 <=? tX t) && (tX t <=? e0)) T).
  Definition outletIx (T : list (tsect F)) (e0 e1 : F) : list nat :=
    if e0 <? e1 then ixLR T e0 e1 else ixRL T e0 e1.

  (** riv.py:364-365 *)
  Definition outletWidth (t : tsect F) : F :=
    let w := tY1 t - tY2 t in if fisnan w then f0 else w.

  (** riv.py:385 *)
  Definition lagoonWidth (t : tsect F) : F := tY3 t - tY4 t.

  (** riv.py:396-397 and similar: total area and length (np.nansum) of the lagoon
      at the given transects.  The order of summation of np.nansum is not modelled. *)
  Definition areaOf (Dx : F) (T : list (tsect F)) : F := fnansum (map (fun t => lagoonWidth t * Dx) T).
  Definition lenOf (Dx : F) (T : list (tsect F)) : F :=
    fnansum (map (fun t => fofb (f0 <? lagoonWidth t) * Dx) T).

  (** riv.py:354-379: closure in the outlet channel.  Result: outlet indices,
      outlet widths, Closed. *)
  Definition outletPart (P : phys F) (T : list (tsect F)) (e0 e1 w : F) (closed : bool)
    : res (list nat * list F * bool) :=
    if closed then Ok ([], [], true)
    else
      let ixs := outletIx T e0 e1 in
      let! ts := gather T ixs in
      let ws := map outletWidth ts in
      if existsb (fun x => x <=? pMinOutletWidth P) ws || (w <=? pMinOutletWidth P)
      then Ok ([], [], true)
      else match ws with
           | [] => Exc EValue                (* 375: np.min of an empty array *)
           | _ => Ok (ixs, ws, false)
           end.

  (** riv.py:388-423: online lagoon before the closure check, and areas/lengths
      of the offline parts: (online, StartArea, StartLen, EndArea, EndLen) *)
  Definition lagoonPart (Dx : F) (T : list (tsect F)) (x0 : nat) (e0 : F) (closed : bool)
    : res (list nat * F * F * F * F) :=
    let lw := fun t => f0 <? lagoonWidth t in
    if e0 =? f0 then
      let sa := areaOf Dx (skipn (S x0) T) in
      let sl := lenOf Dx (skipn (S x0) T) in
      if closed then
        let! k := of_opt EIndex (last_where lw T) in
        Ok (arange x0 (S k), sa, sl, f0, f0)
      else
        let B := filter (fun t => e0 <? tX t) T in
        Ok ([x0], sa, sl, areaOf Dx B, lenOf Dx B)
    else if f0 <? e0 then
      let sa := areaOf Dx (firstn x0 T) in
      let sl := lenOf Dx (firstn x0 T) in
      if closed then
        let! k := of_opt EIndex (last_where lw T) in
        Ok (arange x0 (S k), sa, sl, f0, f0)
      else
        let! k := of_opt EIndex (last_where (fun t => tX t <? e0) T) in
        let B := filter (fun t => e0 <? tX t) T in
        Ok (arange x0 (S k), sa, sl, areaOf Dx B, lenOf Dx B)
    else
      let sa := areaOf Dx (skipn (S x0) T) in
      let sl := lenOf Dx (skipn (S x0) T) in
      if closed then
        let! k := of_opt EIndex (first_where lw T) in
        Ok (arange_down x0 k, sa, sl, f0, f0)
      else
        let! k := of_opt EIndex (first_where (fun t => e0 <? tX t) T) in
        let B := filter (fun t => tX t <? e0) T in
        Ok (arange_down x0 k, sa, sl, areaOf Dx B, lenOf Dx B).

  (** riv.py:433-440: cut the online lagoon at the first transect narrower than
      MinOutletWidth.  Result: (online, EndArea, EndLen, Closed). *)
  Definition lagoonCut (P : phys F) (Dx : F) (T : list (tsect F)) (online : list nat)
             (ea el : F) (closed : bool) : res (list nat * F * F * bool) :=
    let! ts := gather T online in
    match first_where (fun t => lagoonWidth t <? pMinOutletWidth P) ts with
    | None => Ok (online, ea, el, closed)
    | Some k => Ok (firstn k online, ea + areaOf Dx (skipn k ts), el + lenOf Dx (skipn k ts), true)
    end.

  (** np.interp at integer positions (riv.py:498, 506): fill the entries marked in
      [mask] from the unmarked ones, linearly between neighbours and constant
      beyond the first and last.  ValueError when nothing is unmarked. *)
  Definition interpAt (mask : list bool) (vals : list F) (i : nat) : res F :=
    let known := where_ negb mask in
    match rev (filter (fun j => Nat.ltb j i) known), filter (fun j => Nat.ltb i j) known with
    | p :: _, q :: _ =>
      let! a := ix vals p in
      let! b := ix vals q in
      Ok ((b - a) / fofZ (Z.of_nat q - Z.of_nat p) * fofZ (Z.of_nat i - Z.of_nat p) + a)
    | p :: _, [] => ix vals p
    | [], q :: _ => ix vals q
    | [], [] => Exc EValue
    end.

  Definition fillNan (mask : list bool) (vals old : list F) (f : F -> nat -> res F) : res (list F) :=
    all_ok (mapi (fun i x => if nth i mask false then let! v := interpAt mask vals i in f v i else Ok x) old).

  (** riv.py:494-507 *)
  Definition fillDep (dep : list F) : res (list F) :=
    let mask := map fisnan dep in
    fillNan mask dep dep (fun v _ => Ok v).
  Definition fillVel (dep vel : list F) : res (list F) :=
    let mask := map fisnan vel in
    fillNan mask (map2 fmul dep vel) vel (fun v i => let! d := ix dep i in Ok (v / d)).

  (** riv.py:447-470: spacing, flags, elevation, width *)
  Definition chanShape (P : phys F) (Dx : F) (T : list (tsect F)) (e0 e1 eW eElev : F)
             (closed : bool) (RiverElev : list F) (online outlet : list nat) (ow : list F)
    : res (list F * list nat * list F * list F) :=
    let nr := length RiverElev in
    let! lts := gather T online in
    let elevL := map tZ3 lts in
    let widL := map lagoonWidth lts in
    if closed then
      Ok (repeat Dx (nr + length online - 1), repeat 0%nat nr ++ repeat 1%nat (length online),
          RiverElev ++ elevL, repeat (pRiverWidth P) nr ++ widL)
    else
      let! ots := gather T outlet in
      let n := (nr + length online + length outlet + 1)%nat in
      let dx := repeat Dx n in
      let dx := upd_with dx (n - 2) (fun d => if e0 <? e1 then d + fmod e1 Dx
                                              else d + (Dx - fmod e1 Dx)) in
      Ok (dx,
          repeat 0%nat nr ++ repeat 1%nat (length online) ++ repeat 2%nat (length outlet) ++ [3%nat; 4%nat],
          RiverElev ++ elevL ++ map tZ1 ots ++ [eElev; pymin (pMaxOutletElev P) eElev],
          repeat (pRiverWidth P) nr ++ widL ++ ow ++ [eW; eW]).

  (** riv.py:349-352 *)
  Definition padEnd (l : list F) : list F := match l with [x] => [x; fnan] | _ => l end.

  (** riv.py:478-493 *)
  Definition chanHyd (T : list (tsect F)) (closed : bool) (RivDep RivVel LagoonWL LagoonVel OutletDep OutletVel
             EndDep EndVel : list F) (online outlet : list nat) : res (list F * list F) :=
    let! lts := gather T online in
    let! wl := gather LagoonWL online in
    let! lv := gather LagoonVel online in
    let ld := map2 fsub wl (map tZ3 lts) in
    if closed then
      let vel := RivVel ++ lv in
      Ok (RivDep ++ ld, upd vel (length vel - 1) f0)
    else
      let! od := gather OutletDep outlet in
      let! ov := gather OutletVel outlet in
      Ok (RivDep ++ ld ++ od ++ EndDep, RivVel ++ lv ++ ov ++ EndVel).

  (** riv.py:306-520 assembleChannel *)
  Definition assembleChannel (T : list (tsect F)) (e0 e1 eW eElev : F) (Closed : bool)
             (RiverElev RivDep RivVel LagoonWL LagoonVel OutletDep OutletVel EndDep EndVel : list F)
             (Dx : F) (P : phys F) : res chan :=
    let! x0 := x0Ix T in
    let EndDep := padEnd EndDep in
    let EndVel := padEnd EndVel in
    let! (outlet, ow, closed) := outletPart P T e0 e1 eW Closed in
    let! t0 := ix T x0 in
    let! _ := assert_ (f0 <? lagoonWidth t0) in
    let! _ := assert_ (forallb (fun t => negb (fisnan (lagoonWidth t))) T) in
    let! (online, sa, sl, ea, el) := lagoonPart Dx T x0 e0 closed in
    let! _ := assert_ (negb (Nat.eqb (length online) 0)) in
    let! (online, ea, el, closed) := lagoonCut P Dx T online ea el closed in
    (* 443-444 *)
    let! i0 := ix online 0 in
    let! il := last_ online in
    let! _ := assert_ (Z.eqb (Z.abs (Z.of_nat il - Z.of_nat i0)) (Z.of_nat (length online) - 1)) in
    let! lts := gather T online in
    let! _ := assert_ (forallb (fun t => f0 <? lagoonWidth t) lts) in
    let! (dx, flag, elev, width) := chanShape P Dx T e0 e1 eW eElev closed RiverElev online outlet ow in
    (* 471-476 *)
    let nr := length RiverElev in
    let last := (nr + length online - 1)%nat in
    let area := upd (upd (map (fun _ => f0) elev) nr sa) last ea in
    let len := map (fun k => fofb (Nat.eqb k 1) * Dx) flag in
    let len := upd_with (upd_with len nr (fun x => x + sl)) last (fun x => x + el) in
    (* 479-507 *)
    let! (dep, vel) := chanHyd T closed RivDep RivVel LagoonWL LagoonVel OutletDep OutletVel
                               EndDep EndVel online outlet in
    let! dep := (if existsb fisnan dep then fillDep dep else Ok dep) in
    let! vel := (if existsb fisnan vel then fillVel dep vel else Ok vel) in
    (* 510-514 *)
    let! _ := assert_ (negb (existsb (fun w => w <=? f0) width)) in
    let! _ := assert_ (negb (existsb fisnan width)) in
    let! _ := assert_ (negb (existsb fisnan elev)) in
    let! _ := assert_ (negb (existsb fisnan vel)) in
    let! _ := assert_ (negb (existsb fisnan dep)) in
    (* 517 *)
    let! _ := assert_ (Nat.eqb (length online) (length (filter (Nat.eqb 1) flag))) in
    Ok (mkChan dx elev width area len dep vel online outlet flag closed).

  (** * storeHydraulics, calcBedload, storeBedload *)

  (** Boolean-mask selection [l[flag == k]]; IndexError unless the lengths agree. *)
  Definition selFlag (flag : list nat) (p : nat -> bool) (l : list F) : res (list F) :=
    if Nat.eqb (length flag) (length l) then Ok (filter2 (map p flag) l) else Exc EIndex.

  (** [dst[idx] = vals] for an array filled with [d] of length [n]: ValueError on
      a length mismatch, IndexError on an index out of range. *)
  Definition scatterNew (n : nat) (d : F) (idx : list nat) (vals : list F) : res (list F) :=
    if negb (forallb (fun i => Nat.ltb i n) idx) then Exc EIndex
    else if negb (Nat.eqb (length idx) (length vals)) then Exc EValue
    else Ok (map (fun i => match scat idx vals i with Some v => v | None => d end) (seq 0 n)).

  (** riv.py:522-566 storeHydraulics.  Result: (LagoonWL, LagoonVel, OutletDep,
      OutletVel, OutletEndDep, OutletEndVel). *)
  Definition storeHydraulics (ChanDep ChanVel : list F) (online outlet : list nat) (flag : list nat)
             (LagoonElev : list F) (Closed : bool)
    : res (list F * list F * list F * list F * list F * list F) :=
    let n := length LagoonElev in
    let! d1 := selFlag flag (Nat.eqb 1) ChanDep in
    if negb (forallb (fun i => Nat.ltb i n) online) then Exc EIndex
    else if negb (Nat.eqb (length online) (length d1)) then Exc EValue
    else
    let wl := mapi (fun i z => match scat online d1 i with Some d => z + d | None => z end) LagoonElev in
    match online with
    | [] => Exc EValue                       (* np.min of an empty array *)
    | o :: os =>
      let mn := fold_left Nat.min os o in
      let mx := fold_left Nat.max os o in
      let! lo := ix wl mn in
      let! hi := ix wl mx in
      let wl := mapi (fun i w => if Nat.ltb i mn then lo else if Nat.ltb mx i then hi else w) wl in
      let! v1 := selFlag flag (Nat.eqb 1) ChanVel in
      let! lv := scatterNew n fnan online v1 in
      if Closed then
        Ok (wl, lv, repeat fnan n, repeat fnan n, [fnan; fnan], [fnan; fnan])
      else
        let! d2 := selFlag flag (Nat.eqb 2) ChanDep in
        let! v2 := selFlag flag (Nat.eqb 2) ChanVel in
        let! od := scatterNew n fnan outlet d2 in
        let! ov := scatterNew n fnan outlet v2 in
        let! ed := selFlag flag (fun k => Nat.eqb k 3 || Nat.eqb k 4) ChanDep in
        let! ev := selFlag flag (fun k => Nat.eqb k 3 || Nat.eqb k 4) ChanVel in
        Ok (wl, lv, od, ov, ed, ev)
    end.

  (** riv.py:599-609: bedload at a node; [D**3] as a product. *)
  Definition bedloadNode (P : phys F) (B h V : F) : F :=
    let S := fsq V * fsq (pGrainRoughness P) / fpow h (fofQ 4 3) in
    let Tau := pRhoRiv P * pGravity P * h * S in
    let Theta := Tau / ((pRhoSed P - pRhoRiv P) * pGravity P * pGrainSize P) in
    let qs := pMPM_coef P * fpow (fmaximum (Theta - pCritShields P) f0) (pMPM_exp P) in
    let D := pGrainSize P in
    let Q := qs * B * fpow ((pRhoSed P / pRhoRiv P - f1) * pGravity P * (D * D * D)) (fofQ 1 2)
             / (f1 - pVoidRatio P) in
    if V <? f0 then Q * fofZ (-1) else Q.

  Fixpoint nodeBedloads (P : phys F) (B h V : list F) : list F :=
    match B, h, V with
    | b :: B', x :: h', v :: V' => bedloadNode P b x v :: nodeBedloads P B' h' V'
    | _, _, _ => []
    end.

  (** riv.py:568-614 calcBedload ([z] and [dx] are not used by the code). *)
  Definition calcBedload (B h V : list F) (P : phys F) (Psi : F) : list F :=
    let q := nodeBedloads P B h V in
    map2 (fun a b => (f1 - Psi) * a + Psi * b) (removelast q) (tl q).

  (** riv.py:616-642 storeBedload.  Result: (LagoonBedload, OutletBedload, OutletEndBedload). *)
  Definition storeBedload (Bedload : list F) (n : nat) (online outlet flag : list nat) (Closed : bool)
    : res (list F * list F * list F) :=
    let fl := removelast flag in
    if Closed then
      let! b1 := selFlag fl (Nat.eqb 1) Bedload in
      let! lb := scatterNew n f0 (removelast online) b1 in
      Ok (lb, repeat f0 n, [f0])
    else
      let! b2 := selFlag fl (Nat.eqb 2) Bedload in
      let! ob := scatterNew n f0 outlet b2 in
      let! eb := selFlag fl (Nat.eqb 3) Bedload in
      let! b1 := selFlag fl (Nat.eqb 1) Bedload in
      let! lb := scatterNew n f0 online b1 in
      Ok (lb, ob, eb).
End Riv.
Arguments steady : clear implicits. Arguments pctx : clear implicits. Arguments pst : clear implicits.
Arguments node : clear implicits. Arguments reach : clear implicits. Arguments chan : clear implicits.
Arguments solout : clear implicits.
