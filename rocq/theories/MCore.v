(** Model of /repo/hapuamod/core.py: boundary interpolation and the main loop.

    Not modelled: logging and live plotting (core.py:82-97, 210-231). *)
From Coq Require Import ZArith List Bool.
From Verif Require Import Base Num MState MCoast MRiv MMor MOut.

Section Core.
  Context {F : Type} {NF : Num F}.
  Local Open Scope num_scope.

  (** A pandas Series with a time index: instants (ns) and values. *)
  Definition series := list (Z * F).

  (** core.py:255-258 for one requested time: the value at that index entry if
      present and not NaN, else Series.interpolate(method='time') over the non-NaN
      entries (linear between neighbours, last value beyond the last one, NaN
      before the first one).  Requested times are not entries themselves unless
      they are in the data, so they do not influence each other.
      Simplification: data times are distinct (reindex raises otherwise). *)
  Definition valueAt (sel : series) (t : Z) : F :=
    let ok := filter (fun p => negb (fisnan (snd p))) sel in
    match find (fun p => Z.eqb (fst p) t) ok with
    | Some p => snd p
    | None =>
      match rev (filter (fun p => (fst p <? t)%Z) ok), filter (fun p => (t <? fst p)%Z) ok with
      | a :: _, b :: _ =>
        (snd b - snd a) / (fofZ (fst b) - fofZ (fst a)) * (fofZ t - fofZ (fst a)) + snd a
      | a :: _, [] => snd a
      | [], _ => fnan
      end
    end.

  (** core.py:237-258 interpolate_at *)
  Definition interpolateAt (s : series) (new : list Z) : res (list F) :=
    let! a := ix new 0 in
    let! b := last_ new in
    let! from := of_opt EIndex (last_where (fun p => (fst p <=? a)%Z) s) in
    let! to := of_opt EIndex (first_where (fun p => (b <=? fst p)%Z) s) in
    let sel := slice s from (S to) in
    Ok (map (valueAt sel) new).

  (** core.py:121-122: date_range(start, start+dur, freq, closed='right'); freq > 0. *)
  Definition hydTimes (start dur freq : Z) : list Z :=
    map (fun k => (start + Z.of_nat k * freq)%Z) (seq 1 (Z.to_nat (dur / freq))).

  (** Wave series: columns of WaveTs with a common index. *)
  Record waves := mkWaves { wvDir : series; wvPow : series; wvPer : series; wvLen : series; wvHs : series }.

  (** Everything that does not change during a run (core.py:29-33). *)
  Record env := mkEnv {
    vP : phys F; vN : nump F; vTP : timep; vFlow : series; vSea : series; vWaves : waves;
    vOutInt : Z; vTsInt : Z
  }.

  (** What the environment decides in one step: the linear solver and the content
      of the two uninitialised buffers of mor.py. *)
  Record oracle := mkOr {
    oSolve : list (list F) -> list F -> solout F; oJunk1 : nat -> bool; oJunk2 : nat -> bool
  }.

  (** The variables carried from one pass of the loop to the next, and the calls of
      writeCurrent and writeTsOut made so far (latest last). *)
  Record state := mkS {
    gT : list (tsect F); gE0 : F; gE1 : F; gW : F; gZ : F; gRiver : list F;
    gRDep : list F; gRVel : list F; gLWL : list F; gLVel : list F; gODep : list F; gOVel : list F;
    gEDep : list F; gEVel : list F; gClosed : bool;
    gTime : Z; gDt : Z; gOutT : Z; gTsT : Z; gOuts : list (wargs F); gTs : list (targs F)
  }.

  Definition nanmean (l : list F) : F :=
    let k := filter (fun x => negb (fisnan x)) l in fsum k / fofZ (Z.of_nat (length k)).

  Definition at1 (s : series) (t : Z) : res F := let! l := interpolateAt s [t] in ix l 0.

  (** core.py:127-139: unsteady solution, steady one if it raises anything. *)
  Definition hydraulics (o : oracle) (v : env) (c : chan F) (flow sea : list F) : res (list F * list F) :=
    match solveFullPreissmann (oSolve o) (chElev c) (chWidth c) (chLagArea c) (chLagLen c) (chClosed c)
            (chDep c) (chVel c) (chDx c) (tHydDt (vTP v)) flow sea (vN v) (vP v) with
    | Ok r => Ok r
    | Exc _ =>
      let! q := last_ flow in
      let! w := last_ sea in
      solveSteady (chDx c) (chElev c) (chWidth c) (pRoughness (vP v)) q w (vN v)
    end.

  (** core.py:179-180 *)
  Definition clampDt (endT now dt : Z) : Z := if (endT - now <? dt)%Z then (endT - now)%Z else dt.

  (** core.py:107-235: one pass of the loop body. *)
  Definition step (fuel : nat) (o : oracle) (v : env) (s : state) : res state :=
    let P := vP v in let N := vN v in let TP := vTP v in
    (* 110-118 *)
    let! c := assembleChannel (gT s) (gE0 s) (gE1 s) (gW s) (gZ s) (gClosed s) (gRiver s)
                (gRDep s) (gRVel s) (gLWL s) (gLVel s) (gODep s) (gOVel s) (gEDep s) (gEVel s) (nDx N) P in
    (* 121-125 *)
    let times := hydTimes (gTime s) (gDt s) (tHydDt TP) in
    let! flow := interpolateAt (vFlow v) times in
    let! sea := interpolateAt (vSea v) times in
    (* 127-144 *)
    let! (dep, vel) := hydraulics o v c flow sea in
    let! (lwl, lvel, odep, ovel, edep, evel) :=
      storeHydraulics dep vel (chOnline c) (chOutlet c) (chFlag c) (map tZ3 (gT s)) (chClosed c) in
    (* 147-149 *)
    let bed := calcBedload (chWidth c) dep vel P (nPsi N) in
    let! _ := assert_ (Nat.eqb (length bed) (length (chElev c) - 1)) in
    (* 152-166 *)
    let! dir := at1 (wvDir (vWaves v)) (gTime s) in
    let! pow := at1 (wvPow (vWaves v)) (gTime s) in
    let! per := at1 (wvPer (vWaves v)) (gTime s) in
    let! len := at1 (wvLen (vWaves v)) (gTime s) in
    let! hs := at1 (wvHs (vWaves v)) (gTime s) in
    let lst := longShoreTransport (map tY0 (gT s)) (nDx N) pow per len dir P in
    let run := runup per hs (pBeachSlope P) in
    let! seaN := last_ sea in
    let! flowN := last_ flow in
    let! (cst, ow) := overtopping P run seaN (gT s) in
    (* 169-176 *)
    let! m := updateMorphology fuel (oJunk1 o) (oJunk2 o) P N TP (gT s) (gE0 s) (gE1 s) (gW s) (gZ s) (gRiver s)
                (chOnline c) (chOutlet c) lwl odep (chWidth c) dep (chFlag c) (chClosed c)
                lst bed cst ow (gDt s) in
    (* 179-183 *)
    let dt := clampDt (tEnd TP) (gTime s) (oDt m) in
    let now := (gTime s + dt)%Z in
    let! rdep := selFlag (chFlag c) (Nat.eqb 0) dep in
    let! rvel := selFlag (chFlag c) (Nat.eqb 0) vel in
    (* 186-201 *)
    let! (outs, outT) :=
      (if (gOutT s <=? now)%Z then
         let! (lb, ob, eb) := storeBedload bed (length (gT s)) (chOnline c) (chOutlet c) (chFlag c) (chClosed c) in
         let! rb := selFlag (removelast (chFlag c)) (Nat.eqb 0) bed in
         Ok (gOuts s ++ [mkW now seaN flowN hs dir (oT m) lwl lvel lb odep ovel ob lst cst (map fofb ow)
                             (oRiver m) rdep rvel rb (oE0 m) (oE1 m) (oZ m) (oW m) edep evel eb (chClosed c)],
             (gOutT s + vOutInt v)%Z)
       else Ok (gOuts s, gOutT s)) in
    (* 203-208 *)
    let! (ts, tsT) :=
      (if (gTsT s <=? now)%Z then
         let! d := last_ dep in
         let! u := last_ vel in
         let! w := last_ (chWidth c) in
         let! b0 := ix bed 0 in
         Ok (gTs s ++ [mkTs now seaN flowN hs dir (nanmean lwl) (d * u * w) b0 (oE0 m) (oE1 m) (chClosed c) dt],
             (gTsT s + vTsInt v)%Z)
       else Ok (gTs s, gTsT s)) in
    (* 234-235 *)
    Ok (mkS (oT m) (oE0 m) (oE1 m) (oW m) (oZ m) (oRiver m) rdep rvel lwl lvel odep ovel edep evel
            (if oBreach m then false else chClosed c) now dt outT tsT outs ts).

  (** core.py:107: while MorTime <= EndTime.  [k] numbers the passes; [fuel] bounds
      their number, [EFuel] meaning the loop is still running; [af] is the fuel of the
      adaptive-step loops. *)
  Fixpoint loop (af fuel k : nat) (o : nat -> oracle) (v : env) (s : state) : res state :=
    if (gTime s <=? tEnd (vTP v))%Z then
      match fuel with
      | O => Exc EFuel
      | S f => let! s' := step af (o k) v s in loop af f (S k) o v s'
      end
    else Ok s.

  (** [n] passes, whatever the clock says. *)
  Fixpoint steps (af : nat) (n k : nat) (o : nat -> oracle) (v : env) (s : state) : res state :=
    match n with
    | O => Ok s
    | S m => let! s' := step af (o k) v s in steps af m (S k) o v s'
    end.

  (** core.py:36-59 and 100-106: the state in which the loop starts.  Arguments: what
      loadModel returned (loadmod.py:701-706). *)
  Definition init (v : env) (T : list (tsect F)) (e0 e1 W Z0 : F) (River RiverWL RiverVel LWL LVel ODep OVel EDep EVel : list F)
             (Closed : bool) : res state :=
    let P := vP v in let N := vN v in let TP := vTP v in
    let! flow := at1 (vFlow v) (tStart TP) in
    let! sea := at1 (vSea v) (tStart TP) in
    let! c := assembleChannel T e0 e1 W Z0 Closed River (map2 fsub RiverWL River) RiverVel
                LWL LVel ODep OVel EDep EVel (nDx N) P in
    let! (dep, vel, (lwl, lvel, odep, ovel, edep, evel)) :=
      (if forallb (fun x => x =? f0) LVel then
         let! (dep, vel) := solveSteady (chDx c) (chElev c) (chWidth c) (pRoughness P) flow sea N in
         let! h := storeHydraulics dep vel (chOnline c) (chOutlet c) (chFlag c) (map tZ3 T) (chClosed c) in
         Ok (dep, vel, h)
       else Ok (chDep c, chVel c, (LWL, LVel, ODep, OVel, EDep, EVel))) in
    let! rdep := selFlag (chFlag c) (Nat.eqb 0) dep in
    let! rvel := selFlag (chFlag c) (Nat.eqb 0) vel in
    Ok (mkS T e0 e1 W Z0 River rdep rvel lwl lvel odep ovel edep evel (chClosed c)
            (tStart TP) (tMorDtMin TP) (tStart TP + vOutInt v)%Z (tStart TP + vTsInt v)%Z [] []).

  (** core.py:62-80: creating the two result files, in the order of main.  [a], [b]:
      the first records; [ans1], [ans2]: the user's answers, if asked. *)
  Definition mainFiles (r32 : F -> F) (fs : fsys F) (outName tsName : String.string) (X : list F) (nriv : nat)
             (overwrite : bool) (ans1 ans2 : String.string) (a : wargs F) (b : targs F)
    : fsys F * res unit :=
    let (fs, r) := newOutFile r32 fs outName X nriv overwrite ans1 in
    match r with
    | Exc e => (fs, Exc e)
    | Ok _ =>
      match fs outName with
      | None => (fs, Exc EFile)
      | Some f =>
        match writeCurrent r32 f a with
        | Exc e => (fs, Exc e)
        | Ok f =>
          let fs := fset fs outName (Some f) in
          let (fs, r) := newTsOutFile fs tsName overwrite ans2 in
          match r with
          | Exc e => (fs, Exc e)
          | Ok _ =>
            match fs tsName with
            | None => (fs, Exc EFile)
            | Some f => (fset fs tsName (Some (writeTsOut r32 f b)), Ok tt)
            end
          end
        end
      end
    end.
End Core.
Arguments series : clear implicits. Arguments waves : clear implicits. Arguments env : clear implicits.
Arguments oracle : clear implicits. Arguments state : clear implicits.
