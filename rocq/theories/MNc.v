(** Model of the self-description of the result files (/repo/hapuamod/out.py:56-332 and
    540-619): dimensions, attributes, declared variables, coordinates and the time unit.
    MOut.v models the rows; there the sizes of the dimensions and the transect positions are
    all that is left of the description. *)
From Coq Require Import ZArith List Bool String.
From Verif Require Import Base Num MState MOut MLoad MConf.
Import ListNotations.
Local Open Scope string_scope.

(** Types used in createVariable: np.float64, np.float32, 'i1'. *)
Inductive nctype := NcF64 | NcF32 | NcI8.
(** One createVariable with its units attribute; long_name and calendar are not modelled. *)
Record vdecl := mkV { vName : string; vType : nctype; vDims : list string; vUnits : string }.

(** netCDF4 Dataset.createDimension: size None or 0 makes the dimension unlimited. *)
Definition dimOf (size : nat) : option nat := match size with O => None | _ => Some size end.
(** out.py:60-64 *)
Definition outDims (n m : nat) : list (string * option nat) :=
  [("transect_x", dimOf n); ("shore_segment_x", dimOf (n - 1)); ("river_dist", dimOf m); ("outlet_ends", dimOf 2); ("time", None)].
(** out.py:543-544 *)
Definition tsDims : list (string * option nat) := [("time", None); ("outlet_ends", dimOf 2)].
(** NETCDF4_CLASSIC allows one unlimited dimension; the second createDimension raises
    RuntimeError. *)
Definition unlimited (d : list (string * option nat)) : nat :=
  List.length (filter (fun p => match snd p with None => true | Some _ => false end) d).
Definition classic (d : list (string * option nat)) : bool := Nat.leb (unlimited d) 1.

(** A variable with one value, or one row, per time. *)
Definition perTime (n u : string) : vdecl := mkV n NcF32 ["time"] u.
Definition perTimeOn (d n u : string) : vdecl := mkV n NcF32 ["time"; d] u.
Definition bulk : string := "m3(bulk including voids)/s".
(** StartTime.strftime('%Y-%m-%d') and the unit of the time variable: out.py:118, 553.  The date
    is an instant here (midnight), the text is not modelled. *)
Definition dayNs : Z := 86400000000000.
Definition midnight (t : Z) : Z := (t / dayNs * dayNs)%Z.
(** out.py:103-329 *)
Definition outDecls : list vdecl := [
  mkV "transect_x" NcF32 ["transect_x"] "m";
  mkV "shore_segment_x" NcF32 ["shore_segment_x"] "m";
  mkV "river_dist" NcF32 ["river_dist"] "m";
  mkV "time" NcF64 ["time"] "seconds since";
  perTime "sea_level" "m"; perTime "river_flow" "m3/s"; perTime "hs_offshore" "m"; perTime "wave_dir" "degrees";
  perTimeOn "transect_x" "shoreline_y" "m"; perTimeOn "transect_x" "outlet_bank1_y" "m"; perTimeOn "transect_x" "outlet_bank2_y" "m";
  perTimeOn "transect_x" "lagoon_y" "m"; perTimeOn "transect_x" "cliff_y" "m";
  perTimeOn "transect_x" "lagoon_bed_z" "m"; perTimeOn "transect_x" "outlet_bed_z" "m";
  perTimeOn "transect_x" "barrier_crest_z" "m"; perTimeOn "transect_x" "inner_barrier_crest_z" "m";
  perTimeOn "transect_x" "lagoon_wl" "m"; perTimeOn "transect_x" "lagoon_vel" "m/s"; perTimeOn "transect_x" "lagoon_bedload" bulk;
  perTimeOn "transect_x" "outlet_wl" "m"; perTimeOn "transect_x" "outlet_vel" "m/s"; perTimeOn "transect_x" "outlet_bedload" bulk;
  perTimeOn "shore_segment_x" "lst" "m3/hour"; perTimeOn "transect_x" "cst" "m3/hour"; perTimeOn "transect_x" "overwash_proportion" "0 to 1";
  perTimeOn "river_dist" "river_bed_z" "m"; perTimeOn "river_dist" "river_wl" "m"; perTimeOn "river_dist" "river_vel" "m/s";
  perTimeOn "river_dist" "river_bedload" bulk;
  perTimeOn "outlet_ends" "outlet_end_x" "m"; perTime "outlet_end_width" "m"; perTime "outlet_end_z" "m"; perTime "outlet_end_wl" "m";
  perTime "outlet_end_vel" "m/s"; perTime "outlet_end_bedload" bulk; perTime "dummy_xs_dep" "m"; perTime "dummy_xs_vel" "m/s";
  mkV "outlet_closed" NcI8 ["time"] "" ].
(** out.py:551-615 *)
Definition tsDecls : list vdecl := [
  mkV "time" NcF64 ["time"] "seconds since";
  perTime "sea_level" "m"; perTime "river_flow" "m3/s"; perTime "hs_offshore" "m"; perTime "wave_dir" "degrees";
  perTime "lagoon_level" "m"; perTime "lagoon_outflow" "m3/s"; perTime "sed_inflow" "m3/s";
  perTimeOn "outlet_ends" "outlet_end_x" "m"; mkV "outlet_closed" NcI8 ["time"] ""; perTime "mordt" "s" ].

Section Nc.
  Context {F : Type} {NF : Num F}.
  Local Open Scope num_scope.

  (** np.rad2deg *)
  Definition rad2deg (r : F) : F := r * (fofZ 180 / fpi).

  (** out.py:69-101, the numeric attributes.  Attributes are stored in double precision. *)
  Definition outAttrs (o : F * F) (dir : F) (P : phys F) : list (string * F) := [
    ("ModelOriginX", fst o); ("ModelOriginY", snd o); ("ModelOrientation", rad2deg dir);
    ("Kcoef", pKcoef P); ("RhoSed", pRhoSed P); ("RhoSea", pRhoSea P); ("RhoRiv", pRhoRiv P); ("VoidRatio", pVoidRatio P);
    ("Gravity", pGravity P); ("GammaRatio", pGammaRatio P); ("WaveDataDepth", pWaveDataDepth P); ("ClosureDepth", pClosureDepth P);
    ("BeachSlope", pBeachSlope P); ("RiverSlope", pRiverSlope P); ("GrainSize", pGrainSize P); ("CritShieldsStress", pCritShields P);
    ("UpstreamLength", pUpstreamLength P); ("RiverWidth", pRiverWidth P); ("RoughnessManning", pRoughness P);
    ("WidthDepthRatio", pWidthDepthRatio P); ("BackshoreElev", pBackshoreElev P); ("MaxOutletElev", pMaxOutletElev P);
    ("OT_coef", pOT_coef P); ("OT_exp", pOT_exp P); ("BeachTopElev", pBeachTopElev P); ("SpitWidth", pSpitWidth P);
    ("TargetBarHeight", pTargetBarHeight P); ("TargetBarWidth", pTargetBarWidth P); ("MinOutletWidth", pMinOutletWidth P);
    ("OutletSedSpreadDist", pOutletSedSpreadDist P); ("OutletBankEroFac", pOutletBankEroFac P);
    ("BarrierPermeability", pBarrierPermeability P); ("ShorelineErosionRate", pShorelineErosionRate P) ].

  (** out.py:103-116: the coordinate variables, stored as float32. *)
  Definition segmentX (X : list F) : list F := map2 (fun a b => (a + b) / f2) (removelast X) (tl X).
  Definition outCoords (r32 : F -> F) (X : list F) (Dx : F) (m : nat) : list (string * list F) :=
    [("transect_x", map r32 X); ("shore_segment_x", map r32 (segmentX X));
     ("river_dist", map r32 (map (fun i => fofZ (Z.of_nat i) * Dx) (seq 0 m)))].

  (** netCDF4.date2num and num2date for a unit 'seconds since' the instant [e] (out.py:361, 443,
      509, 635).  cftime works with whole microseconds; the quotient is a float64. *)
  Definition date2num (e t : Z) : F := fofZ ((t - e) / 1000) / fofZ 1000000.
  Definition num2date (e : Z) (x : F) : Z := (e + 1000 * ffloor (x * fofZ 1000000 + f1 / f2)%n)%Z.

  Record header := mkHd {
    hdDims : list (string * option nat); hdAttrs : list (string * F); hdVars : list vdecl;
    hdCoords : list (string * list F); hdEpoch : Z
  }.
  (** out.py:56-332, called from core.py:62-65 with the loaded model.  The parameters exist (they
      come from a validated configuration), so the dictionary lookups do not fail. *)
  Definition outHeader (r32 : F -> F) (start : Z) (X : list F) (Dx : F) (m : nat) (o : F * F) (dir : F) (P : phys F) : res header :=
    let d := outDims (List.length X) m in
    if classic d then Ok (mkHd d (outAttrs o dir P) outDecls (outCoords r32 X Dx m) (midnight start)) else Exc EValue.
  (** out.py:540-619 *)
  Definition tsHeader (start : Z) : res header :=
    if classic tsDims then Ok (mkHd tsDims [] tsDecls [] (midnight start)) else Exc EValue.
  (** core.py:62-76 *)
  Definition mainHeaders (r32 : F -> F) (m : model F) : res (header * header) :=
    let! h := outHeader r32 (tStart (mdTP m)) (map tX (mdT m)) (nDx (mdN m)) (List.length (mdRiver m)) (mdOrigin m) (mdDir m) (mdP m) in
    let! k := tsHeader (tStart (mdTP m)) in
    Ok (h, k).

  (** Attribute of an open file: NcFile.name. *)
  Definition attrOf (h : header) (n : string) : res F :=
    of_opt EKey (option_map snd (find (fun p => String.eqb (fst p) n) (hdAttrs h))).
  (** loadmod.py:323-324 *)
  Definition hotFrame (h : header) : res ((F * F) * F) :=
    let! x := attrOf h "ModelOriginX" in
    let! y := attrOf h "ModelOriginY" in
    let! a := attrOf h "ModelOrientation" in
    Ok ((x, y), deg2rad a).
  (** animate.py:139-142 (transect view), 164-166 (long section), 190-191 (map) *)
  Definition animAttrs : list string :=
    ["BeachSlope"; "BackshoreElev"; "ClosureDepth"; "BeachTopElev"; "RiverWidth"; "MinOutletWidth"; "MaxOutletElev"; "RiverWidth"; "SpitWidth"].
  Definition animPars (h : header) : res (list F) := all_ok (map (attrOf h) animAttrs).
End Nc.
Arguments header : clear implicits.
