(** Model of /repo/hapuamod/core.py main as a whole: loading, result files, live
    figures and the loop, with the file system.

    Simplifications: the arguments of the first records (core.py:66-80) are computed
    before the files are created; a pass whose time-series arguments cannot be
    computed (203-208) does not keep the record written just before; log messages
    (210-213) are left out; writing a results record into a time-series file (both
    names equal) raises, in Python only after the time axis has been extended; the input files are read before anything is written, so
    the inputs ([world]) and the result files ([fsys]) are kept apart. *)
From Coq Require Import ZArith List Bool String.
From Verif Require Import Base Num MState MCoast MRiv MMor MOut MCore MLoad MVis MConf.

Section Main.
  Context {F : Type} {NF : Num F}.
  Local Open Scope num_scope.

  (** core.py:36-59: what is known before the files are created: the state in which
      the loop starts, channel, depth and velocity, and the first records (66-80). *)
  Record ready := mkReady {
    ryM : model F; ryV : env F; ryS : state F; ryC : chan F; ryDep : list F; ryVel : list F; ryA : wargs F; ryB : targs F
  }.

  (** core.py:42-55: channel, depth and velocity at the start (as in [init]) *)
  Definition firstChan (m : model F) (flow sea : F) : res (chan F * list F * list F) :=
    let P := mdP m in let N := mdN m in
    let! c := assembleChannel (mdT m) (mdE0 m) (mdE1 m) (mdW m) (mdZ m) (mdClosed m) (mdRiver m) (map2 fsub (mdRWL m) (mdRiver m)) (mdRVel m)
                (mdLWL m) (mdLVel m) (mdODep m) (mdOVel m) (mdEDep m) (mdEVel m) (nDx N) P in
    if forallb (fun x => x =? f0) (mdLVel m) then
      let! (dep, vel) := solveSteady (chDx c) (chElev c) (chWidth c) (pRoughness P) flow sea N in
      Ok (c, dep, vel)
    else Ok (c, chDep c, chVel c).

  Definition zeros (n : nat) : list F := repeat f0 n.

  (** core.py:28-59 and the arguments of 66-80 *)
  Definition prepare (X : conv F) (W : world F) (r32 : F -> F) (file : string) : res ready :=
    let! m := loadModel X W r32 file in
    let v := envOf m in
    let start := tStart (mdTP m) in
    let! flow := at1 (vFlow v) start in
    let! sea := at1 (vSea v) start in
    let! dir := at1 (wvDir (vWaves v)) start in
    let! hs := at1 (wvHs (vWaves v)) start in
    let! (c, dep, vel) := firstChan m flow sea in
    let! s := init v (mdT m) (mdE0 m) (mdE1 m) (mdW m) (mdZ m) (mdRiver m) (mdRWL m) (mdRVel m)
                   (mdLWL m) (mdLVel m) (mdODep m) (mdOVel m) (mdEDep m) (mdEVel m) (mdClosed m) in
    let n := List.length (mdT m) in
    let a := mkW start sea flow hs dir (mdT m) (gLWL s) (gLVel s) (zeros n) (gODep s) (gOVel s) (zeros n)
                 (zeros (n - 1)) (zeros n) (zeros n) (mdRiver m) (gRDep s) (gRVel s) (zeros (List.length (mdRiver m)))
                 (mdE0 m) (mdE1 m) (mdZ m) (mdW m) (gEDep s) (gEVel s) (zeros 2) (gClosed s) in
    let! d := last_ dep in
    let! u := last_ vel in
    let! w := last_ (chWidth c) in
    let b := mkTs start sea flow hs dir (nanmean (gLWL s)) (d * u * w) f0 (mdE0 m) (mdE1 m) (gClosed s) (tMorDtMin (mdTP m)) in
    Ok (mkReady m v s c dep vel a b).

  (** ** Result files during the loop *)

  (** out.writeCurrent and out.writeTsOut open the file by name *)
  Definition onFile (fs : fsys F) (name : string) (f : ncfile F -> res (ncfile F)) : fsys F * res unit :=
    match fs name with
    | None => (fs, Exc EFile)
    | Some old => match f old with Ok new => (fset fs name (Some new), Ok tt) | Exc e => (fs, Exc e) end
    end.
  Fixpoint onFileAll {A} (f : ncfile F -> A -> res (ncfile F)) (fs : fsys F) (name : string) (l : list A) : fsys F * res unit :=
    match l with
    | [] => (fs, Ok tt)
    | a :: l =>
      let (fs, r) := onFile fs name (fun g => f g a) in
      match r with Ok _ => onFileAll f fs name l | Exc e => (fs, Exc e) end
    end.
  (** core.py:192-208: the records the pass from [s] to [s'] produced (at most one of each kind) *)
  Definition saved (r32 : F -> F) (fs : fsys F) (outName tsName : string) (s s' : state F) : fsys F * res unit :=
    let (fs, r) := onFileAll (writeCurrent r32) fs outName (skipn (List.length (gOuts s)) (gOuts s')) in
    match r with
    | Ok _ => onFileAll (fun f b => Ok (writeTsOut r32 f b)) fs tsName (skipn (List.length (gTs s)) (gTs s'))
    | Exc e => (fs, Exc e)
    end.

  (** ** Live figures *)

  (** A row of BdyPlotTs (core.py:88-90, 220-224): time, Qin, Qout, SeaLevel *)
  Record bdyRow := mkBdy { bdT : Z; bdIn : F; bdOut : F; bdSea : F }.
  (** What the three windows show. *)
  Record fig := mkFig { fgSec : lsec (F := F); fgBdy : list bdyRow; fgPlan : plan (F := F) }.
  (** PlotTime, BdyPlotTs and the figures drawn so far (latest last). *)
  Record live := mkLive { lvT : Z; lvBdy : list bdyRow; lvFigs : list fig }.

  (** core.py:84-97.  The plan view is drawn without the Closed flag (visualise.py:183).
      Without live plotting nothing is drawn. *)
  Definition firstFig (y : ready) : res live :=
    let m := ryM y in
    let next := (tStart (mdTP m) + mdPlotInt m)%Z in
    if (0 <? mdPlotInt m)%Z then
      let c := ryC y in
      let! ls := longSection (chDx c) (chElev c) (chWidth c) (ryDep y) (ryVel y) (Some (zeros (List.length (chElev c) - 1))) in
      let rows := [mkBdy (tStart (mdTP m)) (wFlow (ryA y)) (wFlow (ryA y)) (wSea (ryA y))] in
      let! pv := modelView (mdT m) (chOutlet c) (pRiverWidth (mdP m)) (pSpitWidth (mdP m)) (mdE0 m) (mdE1 m) (mdW m) None in
      Ok (mkLive next rows [mkFig ls rows pv])
    else Ok (mkLive next [] []).

  (** core.py:110-149 again: channel, boundary values, depth, velocity and bedload of a pass *)
  Definition passFlow (o : oracle F) (v : env F) (s : state F) : res (chan F * list F * list F * list F * list F * list F) :=
    let! c := assembleChannel (gT s) (gE0 s) (gE1 s) (gW s) (gZ s) (gClosed s) (gRiver s)
                (gRDep s) (gRVel s) (gLWL s) (gLVel s) (gODep s) (gOVel s) (gEDep s) (gEVel s) (nDx (vN v)) (vP v) in
    let times := hydTimes (gTime s) (gDt s) (tHydDt (vTP v)) in
    let! flow := interpolateAt (vFlow v) times in
    let! sea := interpolateAt (vSea v) times in
    let! (dep, vel) := hydraulics o v c flow sea in
    Ok (c, flow, sea, dep, vel, calcBedload (chWidth c) dep vel (vP v) (nPsi (vN v))).

  (** core.py:216-217: a drawing is due *)
  Definition due (plotInt : Z) (p : live) (s' : state F) : bool := (0 <? plotInt)%Z && (lvT p <=? gTime s')%Z.

  (** core.py:186-189: the bedload of a drawing is put into shore coordinates before anything is saved *)
  Definition plotBed (o : oracle F) (v : env F) (plotInt : Z) (p : live) (s s' : state F) : res unit :=
    if due plotInt p s' then
      let! (c, _, _, _, _, bed) := passFlow o v s in
      let! _ := storeBedload bed (List.length (gT s)) (chOnline c) (chOutlet c) (chFlag c) (chClosed c) in
      Ok tt
    else Ok tt.

  (** core.py:216-231.  Geometry, outlet position and width are those after the pass;
      OutletChanIx, the closed flag and the river are those of its start. *)
  Definition drawPass (o : oracle F) (v : env F) (plotInt : Z) (p : live) (s s' : state F) : res live :=
    if due plotInt p s' then
      let! (c, flow, sea, dep, vel, bed) := passFlow o v s in
      let! ls := longSection (chDx c) (chElev c) (chWidth c) dep vel (Some bed) in
      let! q := last_ flow in
      let! d := last_ dep in
      let! u := last_ vel in
      let! w := last_ (chWidth c) in
      let! z := last_ sea in
      let rows := lvBdy p ++ [mkBdy (gTime s') q (d * u * w) z] in
      let! pv := planView (gT s') (chOutlet c) (chClosed c) (pRiverWidth (vP v)) (pSpitWidth (vP v)) (gE0 s') (gE1 s') (gW s') in
      Ok (mkLive (lvT p + plotInt)%Z rows (lvFigs p ++ [mkFig ls rows pv]))
    else Ok p.

  (** ** The whole program *)
  Inductive outcome :=
  | Running (s : state F) (p : live)     (* still in the loop *)
  | Finished (s : state F) (p : live)    (* main returned *)
  | Raised (e : exn).                    (* main raised *)

  (** core.py:107-235 with the files: at most [n] passes; [k] numbers them, [af] is the
      fuel of the adaptive-step loops. *)
  Fixpoint passes (r32 : F -> F) (outName tsName : string) (plotInt : Z) (af n k : nat) (o : nat -> oracle F) (v : env F)
           (fs : fsys F) (s : state F) (p : live) : fsys F * outcome :=
    if (gTime s <=? tEnd (vTP v))%Z then
      match n with
      | O => (fs, Running s p)
      | S n' =>
        match step af (o k) v s with
        | Exc e => (fs, Raised e)
        | Ok s' =>
          match plotBed (o k) v plotInt p s s' with
          | Exc e => (fs, Raised e)
          | Ok _ =>
            let (fs, r) := saved r32 fs outName tsName s s' in
            match r with
            | Exc e => (fs, Raised e)
            | Ok _ =>
              match drawPass (o k) v plotInt p s s' with
              | Exc e => (fs, Raised e)
              | Ok p' => passes r32 outName tsName plotInt af n' (S k) o v fs s' p'
              end
            end
          end
        end
      end
    else (fs, Finished s p).

  (** core.py:20-235 main: the file system and what main is doing after at most [n] passes. *)
  Definition main (X : conv F) (W : world F) (r32 : F -> F) (file : string) (overwrite : bool) (ans1 ans2 : string)
             (af n : nat) (o : nat -> oracle F) (fs : fsys F) : fsys F * outcome :=
    match prepare X W r32 file with
    | Exc e => (fs, Raised e)
    | Ok y =>
      let m := ryM y in
      let (fs, r) := mainFiles r32 fs (mdOut m) (mdTsOut m) (map tX (mdT m)) (List.length (mdRiver m)) overwrite ans1 ans2 (ryA y) (ryB y) in
      match r with
      | Exc e => (fs, Raised e)
      | Ok _ =>
        match firstFig y with
        | Exc e => (fs, Raised e)
        | Ok p => passes r32 (mdOut m) (mdTsOut m) (mdPlotInt m) af n 0 o (ryV y) fs (ryS y) p
        end
      end
    end.
End Main.
Arguments ready : clear implicits. Arguments bdyRow : clear implicits. Arguments fig : clear implicits.
Arguments live : clear implicits. Arguments outcome : clear implicits.
