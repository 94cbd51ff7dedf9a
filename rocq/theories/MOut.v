(** Model of /repo/hapuamod/out.py: result files.

    A netCDF file is a set of named variables with rows along the unlimited time
    dimension; a row that was never assigned holds the fill value ([None]).
    [r32]: rounding to the float32 storage type (any function).  Simplifications:
    times are stored exactly (the code stores float64 seconds); attributes,
    units and the static coordinate variables are reduced to the sizes of the
    dimensions and the transect positions (float32, out.py:103-106). *)
From Coq Require Import ZArith List Bool String.
From Verif Require Import Base Num MState MRiv.
Local Open Scope string_scope.

Record ncfile (F : Type) := mkNc {
  ncX : list F;                              (* transect_x (empty for a time-series file) *)
  ncRiv : nat;                               (* size of river_dist *)
  ncTimes : list Z;                          (* the variable "time" *)
  ncVar : string -> nat -> option (list F)   (* variable, time index -> row *)
}.
Arguments mkNc {F}. Arguments ncX {F}. Arguments ncRiv {F}. Arguments ncTimes {F}. Arguments ncVar {F}.

Section Out.
  Context {F : Type} {NF : Num F}.
  Local Open Scope num_scope.

  Definition fsys := string -> option (ncfile F).
  Definition fset (fs : fsys) (n : string) (v : option (ncfile F)) : fsys :=
    fun m => if String.eqb m n then v else fs m.

  (** out.py:44 *)
  Definition accepted (answer : string) : bool :=
    existsb (String.eqb answer) ["Y"; "y"; "Yes"; "yes"; "YES"].

  (** out.py:41-55 and 524-538, common to newOutFile and newTsOutFile: the file
      system afterwards and the outcome.  [answer]: what the user types if asked. *)
  Definition openNew (fs : fsys) (name : string) (new : ncfile F) (overwrite : bool) (answer : string)
    : fsys * res unit :=
    match fs name with
    | Some _ =>
      if overwrite || accepted answer
      then (fset (fset fs name None) name (Some new), Ok tt)
      else (fs, Exc EConflict)
    | None => (fset fs name (Some new), Ok tt)
    end.
  (** out.py:14-332 *)
  Definition newOutFile (r32 : F -> F) (fs : fsys) (name : string) (X : list F) (nriv : nat) (overwrite : bool) (answer : string) :=
    openNew fs name (mkNc (map r32 X) nriv [] (fun _ _ => None)) overwrite answer.
  (** out.py:517-619 *)
  Definition newTsOutFile (fs : fsys) (name : string) (overwrite : bool) (answer : string) :=
    openNew fs name (mkNc [] 0 [] (fun _ _ => None)) overwrite answer.

  (** Arguments of writeCurrent (out.py:334-340). *)
  Record wargs := mkW {
    wTime : Z; wSea : F; wFlow : F; wHs : F; wDir : F; wT : list (tsect F);
    wLWL : list F; wLVel : list F; wLBed : list F; wODep : list F; wOVel : list F; wOBed : list F;
    wLST : list F; wCST : list F; wOW : list F; wRiv : list F; wRDep : list F; wRVel : list F; wRBed : list F;
    wE0 : F; wE1 : F; wZend : F; wW : F; wEDep : list F; wEVel : list F; wEBed : list F; wClosed : bool
  }.

  (** out.py:365-408: the assignments of one call, in order: variable and value. *)
  Definition currentRows (a : wargs) : list (string * list F) :=
    [ ("sea_level", [wSea a]); ("river_flow", [wFlow a]); ("hs_offshore", [wHs a]); ("wave_dir", [wDir a]);
      ("shoreline_y", map tY0 (wT a)); ("outlet_bank1_y", map tY1 (wT a)); ("outlet_bank2_y", map tY2 (wT a));
      ("lagoon_y", map tY3 (wT a)); ("cliff_y", map tY4 (wT a));
      ("barrier_crest_z", map tZ0 (wT a)); ("outlet_bed_z", map tZ1 (wT a));
      ("inner_barrier_crest_z", map tZ2 (wT a)); ("lagoon_bed_z", map tZ3 (wT a));
      ("lagoon_wl", wLWL a); ("lagoon_vel", wLVel a); ("lagoon_bedload", wLBed a);
      ("outlet_wl", map2 fadd (wODep a) (map tZ1 (wT a)));
      ("outlet_vel", wOVel a); ("outlet_bedload", wOBed a);
      ("cst", map (fun x => x * fofZ 3600) (wCST a)); ("overwash_proportion", wOW a);
      ("lst", map (fun x => x * fofZ 3600) (wLST a));
      ("river_bed_z", wRiv a); ("river_wl", map2 fadd (wRiv a) (wRDep a)); ("river_vel", wRVel a);
      ("river_bedload", wRBed a);
      ("outlet_end_x", [wE0 a; wE1 a]); ("outlet_end_width", [wW a]); ("outlet_end_z", [wZend a]);
      ("outlet_end_wl", [wZend a + nth 0 (wEDep a) fnan]); ("outlet_end_vel", [nth 0 (wEVel a) fnan]);
      ("dummy_xs_dep", [nth 1 (wEDep a) fnan]); ("dummy_xs_vel", [nth 1 (wEVel a) fnan]);
      ("outlet_closed", [fofb (wClosed a)]) ].

  (** Length of a row of each variable (out.py:124-329). *)
  Definition rowLen (f : ncfile F) (v : string) : nat :=
    if existsb (String.eqb v) ["shoreline_y"; "outlet_bank1_y"; "outlet_bank2_y"; "lagoon_y"; "cliff_y";
        "barrier_crest_z"; "outlet_bed_z"; "inner_barrier_crest_z"; "lagoon_bed_z"; "lagoon_wl"; "lagoon_vel";
        "lagoon_bedload"; "outlet_wl"; "outlet_vel"; "outlet_bedload"; "cst"; "overwash_proportion"]
    then length (ncX f)
    else if String.eqb v "lst" then (length (ncX f) - 1)%nat
    else if existsb (String.eqb v) ["river_bed_z"; "river_wl"; "river_vel"; "river_bedload"] then ncRiv f
    else if String.eqb v "outlet_end_x" then 2%nat
    else 1%nat.

  (** Storage type of a variable: float32, but one byte for the status
      (out.py:326, 605). *)
  Definition stored (r32 : F -> F) (v : string) (row : list F) : list F :=
    if String.eqb v "outlet_closed" then row else map r32 row.

  Definition setRow (d : string -> nat -> option (list F)) (k : nat) (v : string) (row : list F)
    : string -> nat -> option (list F) :=
    fun w j => if String.eqb w v && Nat.eqb j k then Some row else d w j.

  (** out.py:356-410 writeCurrent; rows of a wrong length, and sums of arrays of
      different length (388, 401), raise ValueError.  Simplifications: an array of
      length 1 is not broadcast; the rows assigned before the exception are not
      kept; OutletEndDep/Vel have two entries (IndexError otherwise). *)
  Definition writeCurrent (r32 : F -> F) (f : ncfile F) (a : wargs) : res (ncfile F) :=
    let k := length (ncTimes f) in
    let rows := currentRows a in
    if negb (Nat.leb 2 (length (wEDep a)) && Nat.leb 2 (length (wEVel a))) then Exc EIndex
    else if negb (Nat.eqb (length (wODep a)) (length (wT a)) && Nat.eqb (length (wRiv a)) (length (wRDep a))) then Exc EValue
    else if negb (forallb (fun p => Nat.eqb (length (snd p)) (rowLen f (fst p))) rows) then Exc EValue
    else Ok (mkNc (ncX f) (ncRiv f) (ncTimes f ++ [wTime a])
                  (fold_left (fun d p => setRow d k (fst p) (stored r32 (fst p) (snd p))) rows (ncVar f))).

  (** Arguments of writeTsOut (out.py:621-622). *)
  Record targs := mkTs {
    sTime : Z; sSea : F; sFlow : F; sHs : F; sDir : F; sLagWl : F; sOutflow : F; sSedIn : F;
    sE0 : F; sE1 : F; sClosedT : bool; sMorDt : Z
  }.
  (** out.py:639-650 *)
  Definition tsRows (a : targs) : list (string * list F) :=
    [ ("sea_level", [sSea a]); ("river_flow", [sFlow a]); ("hs_offshore", [sHs a]); ("wave_dir", [sDir a]);
      ("lagoon_level", [sLagWl a]); ("lagoon_outflow", [sOutflow a]); ("sed_inflow", [sSedIn a]);
      ("outlet_end_x", [sE0 a; sE1 a]); ("outlet_closed", [fofb (sClosedT a)]);
      ("mordt", [fofZ (seconds (sMorDt a))]) ].
  (** out.py:630-652 *)
  Definition writeTsOut (r32 : F -> F) (f : ncfile F) (a : targs) : ncfile F :=
    let k := length (ncTimes f) in
    mkNc (ncX f) (ncRiv f) (ncTimes f ++ [sTime a])
         (fold_left (fun d p => setRow d k (fst p) (stored r32 (fst p) (snd p))) (tsRows a) (ncVar f)).

  (** What readTimestep returns (out.py:497-501), without WavePower (None). *)
  Record rstep := mkRd {
    rdSea : F; rdFlow : F; rdHs : F; rdDir : F; rdT : list (tsect F);
    rdLWL : list F; rdLVel : list F; rdOWL : list F; rdOVel : list F;
    rdE0 : F; rdE1 : F; rdW : F; rdZend : F; rdEVel : F; rdEWL : F; rdDDep : F; rdDVel : F;
    rdIx : list nat; rdLST : list F; rdCST : list F; rdClosed : bool;
    rdRiv : list F; rdRWL : list F; rdRVel : list F; rdTime : Z
  }.
  Definition getRow (f : ncfile F) (k : nat) (v : string) : res (list F) := of_opt EIndex (ncVar f v k).
  Definition getScalar (f : ncfile F) (k : nat) (v : string) : res F :=
    let! r := getRow f k v in ix r 0.
  Fixpoint zipT (x y0 y1 y2 y3 y4 z0 z1 z2 z3 : list F) : list (tsect F) :=
    match x, y0, y1, y2, y3, y4, z0, z1, z2, z3 with
    | a :: x, b0 :: y0, b1 :: y1, b2 :: y2, b3 :: y3, b4 :: y4, c0 :: z0, c1 :: z1, c2 :: z2, c3 :: z3 =>
      mkT a b0 b1 b2 b3 b4 c0 c1 c2 c3 :: zipT x y0 y1 y2 y3 y4 z0 z1 z2 z3
    | _, _, _, _, _, _, _, _, _, _ => []
    end.
  (** out.py:434-501.  EDir_h is read (439) and then set to 0 (476).
      Simplification: an unassigned row raises (netCDF4 returns masked values). *)
  Definition readTimestep (f : ncfile F) (k : nat) : res rstep :=
    let! sea := getScalar f k "sea_level" in
    let! flow := getScalar f k "river_flow" in
    let! hs := getScalar f k "hs_offshore" in
    let! _ := getScalar f k "wave_dir" in
    let! t := ix (ncTimes f) k in
    let! y0 := getRow f k "shoreline_y" in
    let! y1 := getRow f k "outlet_bank1_y" in
    let! y2 := getRow f k "outlet_bank2_y" in
    let! y3 := getRow f k "lagoon_y" in
    let! y4 := getRow f k "cliff_y" in
    let! z0 := getRow f k "barrier_crest_z" in
    let! z1 := getRow f k "outlet_bed_z" in
    let! z2 := getRow f k "inner_barrier_crest_z" in
    let! z3 := getRow f k "lagoon_bed_z" in
    let! lwl := getRow f k "lagoon_wl" in
    let! lvel := getRow f k "lagoon_vel" in
    let! owl := getRow f k "outlet_wl" in
    let! ovel := getRow f k "outlet_vel" in
    let! e := getRow f k "outlet_end_x" in
    let! e0 := ix e 0 in
    let! e1 := ix e 1 in
    let! w := getScalar f k "outlet_end_width" in
    let! z := getScalar f k "outlet_end_z" in
    let! ev := getScalar f k "outlet_end_vel" in
    let! ewl := getScalar f k "outlet_end_wl" in
    let! dd := getScalar f k "dummy_xs_dep" in
    let! dv := getScalar f k "dummy_xs_vel" in
    let! c := getScalar f k "outlet_closed" in
    let closed := negb (c =? f0) in
    let! lst := getRow f k "lst" in
    let! cst := getRow f k "cst" in
    let! re := getRow f k "river_bed_z" in
    let! rw := getRow f k "river_wl" in
    let! rv := getRow f k "river_vel" in
    let T := zipT (ncX f) y0 y1 y2 y3 y4 z0 z1 z2 z3 in
    Ok (mkRd sea flow hs f0 T lwl lvel owl ovel e0 e1 w z ev ewl dd dv
             (if closed then [] else outletIx T e0 e1)
             (map (fun x => x / fofZ 3600) lst) (map (fun x => x / fofZ 3600) cst) closed re rw rv t).

  (** out.py:508-515 closestTimeIx: the indices at minimal distance and the first
      of their times. *)
  Definition closestTimeIx (times : list Z) (want : Z) : res (list nat * Z) :=
    let d := map (fun t => Z.abs (t - want)) times in
    match d with
    | [] => Exc EValue
    | x :: r =>
      let m := fold_left Z.min r x in
      let idx := where_ (Z.eqb m) d in
      let! i := ix idx 0 in
      let! t := ix times i in
      Ok (idx, t)
    end.
End Out.
Arguments wargs : clear implicits. Arguments targs : clear implicits. Arguments rstep : clear implicits.
Arguments fsys : clear implicits.
