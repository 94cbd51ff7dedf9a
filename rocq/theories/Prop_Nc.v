(** C110: out.py, what the result files say about their contents. *)
From Coq Require Import ZArith List Bool String Floats Reals.
From Verif Require Import Base Num Xr Flt Sim MState MOut MLoad MConf MNc SOut SConf SNc PConfEx PHotEx PNc PNc2 PNcEx.
Import ListNotations.
Local Open Scope string_scope.

Theorem C110_described : forall {F : Type} {NF : Num F} r32 fs name (X : list F) m ow ans fs' f l f' start Dx o dir P h,
  newOutFile r32 fs name X m ow ans = (fs', Ok tt) -> fs' name = Some f -> writeAll r32 f l = Ok f' ->
  outHeader r32 start X Dx m o dir P = Ok h -> described r32 h f' (List.length l) ["outlet_end_bedload"].
Proof. exact @file_described. Qed.
Print Assumptions C110_described.

Theorem C110_timeseries : forall {F : Type} {NF : Num F} r32 fs name ow ans (fs' : fsys F) f l start h,
  newTsOutFile fs name ow ans = (fs', Ok tt) -> fs' name = Some f -> tsHeader start = Ok h ->
  described r32 h (tsAll r32 f l) (List.length l) [].
Proof. exact @ts_described. Qed.
Print Assumptions C110_timeseries.

Theorem C110_created : forall {F : Type} {NF : Num F} r32 (m : model F),
  (exists h k, mainHeaders r32 m = Ok (h, k)) <-> (2 <= List.length (mdT m) /\ 1 <= List.length (mdRiver m))%nat.
Proof. exact @headers_ok. Qed.
Print Assumptions C110_created.

Theorem C110_parameters : forall {F : Type} {NF : Num F} X (W : world F) r32 file m c h k,
  loadModel X W r32 file = Ok m -> validate X (wdConf W file) = Ok c ->
  mainHeaders r32 m = Ok (h, k) -> forall key x, c "PhysicalParameters" key = Some (CF x) ->
  (~ In key unrecorded -> attrOf h key = Ok x) /\ (In key unrecorded -> attrOf h key = Exc EKey).
Proof. exact @recorded. Qed.
Print Assumptions C110_parameters.

Theorem C110_animation : forall {F : Type} {NF : Num F} r32 (m : model F) h k, mainHeaders r32 m = Ok (h, k) ->
  animPars h = Ok [pBeachSlope (mdP m); pBackshoreElev (mdP m); pClosureDepth (mdP m); pBeachTopElev (mdP m); pRiverWidth (mdP m);
                   pMinOutletWidth (mdP m); pMaxOutletElev (mdP m); pRiverWidth (mdP m); pSpitWidth (mdP m)].
Proof. exact @animated. Qed.
Print Assumptions C110_animation.

Theorem C110_segments : forall {F : Type} {NF : Num F} r32 start (X : list F) Dx m o dir P h, outHeader r32 start X Dx m o dir P = Ok h ->
  exists l, coord h "shore_segment_x" l /\ List.length l = (List.length X - 1)%nat /\
    forall i a b, nth_error X i = Some a -> nth_error X (S i) = Some b -> nth_error l i = Some (r32 ((a + b) / f2)%n).
Proof. exact @segments. Qed.
Print Assumptions C110_segments.

Theorem C110_coordinates : forall {F : Type} {NF : Num F} r32 start (X : list F) Dx m o dir P h, outHeader r32 start X Dx m o dir P = Ok h ->
  coord h "transect_x" (map r32 X) /\
  exists l, coord h "river_dist" l /\ List.length l = m /\ forall i, (i < m)%nat -> nth_error l i = Some (r32 (fofZ (Z.of_nat i) * Dx)%n).
Proof. exact @transects. Qed.
Print Assumptions C110_coordinates.

Theorem C110_frame : forall r32 (m : model xr) h k d, mainHeaders r32 m = Ok (h, k) -> mdDir m = Fin d ->
  hotFrame h = Ok (mdOrigin m, mdDir m).
Proof. exact frame_back. Qed.
Print Assumptions C110_frame.

Theorem C110_resumed : forall r32 (m : model xr) h k d X W file m' c n dir base ext path f x y a,
  mainHeaders r32 m = Ok (h, k) -> mdDir m = Fin d ->
  attrOf h "ModelOriginX" = Ok x -> attrOf h "ModelOriginY" = Ok y -> attrOf h "ModelOrientation" = Ok a ->
  loadModel X W r32 file = Ok m' -> validate X (wdConf W file) = Ok c -> c "HotStart" "InitialConditionsNetCDF" = Some (CS n) ->
  fileIn dir base ext file -> resolved dir n path -> wdNc W path = Some (f, (x, y), a) ->
  mdOrigin m' = mdOrigin m /\ mdDir m' = mdDir m.
Proof. exact frame_resumed. Qed.
Print Assumptions C110_resumed.

Theorem C110_midnight : forall t, midnightOf t (midnight t).
Proof. exact midnight_of. Qed.
Print Assumptions C110_midnight.

Theorem C110_time : forall start t, let e := midnight start in
  exists x, date2num e t = Fin x /\ num2date e (Fin x) = (t - t mod 1000)%Z /\
    (wholeMicro t -> num2date e (Fin x) = t /\ x = (IZR (t - e) / 1000000000)%R).
Proof. exact time_back. Qed.
Print Assumptions C110_time.

Theorem C110_first : forall start, exists x, date2num (midnight start) start = Fin x /\ (0 <= x < 86400)%R.
Proof. exact first_day. Qed.
Print Assumptions C110_first.

(** The file does not record every physical parameter: bedload coefficient, exponent and grain
    roughness are lost whatever the configuration. *)
Theorem C110_parameters_refuted : exists m c h k, exLoad exEntries exFile = Ok m /\ @validate float sim_num exX (written exEntries) = Ok c /\
  c "PhysicalParameters" "MPM_coef" <> None /\ @mainHeaders float sim_num (fun x => x) m = Ok (h, k) /\ attrOf h "MPM_coef" = Exc EKey.
Proof. exact nc_loaded. Qed.
Print Assumptions C110_parameters_refuted.

(** Wave directions are declared in degrees; a wave from 100 degrees onto a shore facing north is
    recorded as an angle within -4 and 4 (radians). *)
Theorem C110_degrees_refuted : forall r32 start X Dx m o dir P h, @outHeader xr _ r32 start X Dx m o dir P = Ok h ->
  exists d w, In d (hdVars h) /\ vName d = "wave_dir"%string /\ vUnits d = "degrees"%string /\ waveDir (Fin 0) (Fin 100) = Fin w /\ (- 4 <= w < 4)%R.
Proof. exact degrees_not. Qed.
Print Assumptions C110_degrees_refuted.

Theorem C110_described_example : exists fs' f f' h, @newOutFile xr (fun x => x) (fun _ => None) "o.nc" hX 1 true "" = (fs', Ok tt) /\ fs' "o.nc" = Some f /\
  writeAll (fun x => x) f [hW 0 100 false; hW 60 90 true; hW 120 80 false] = Ok f' /\
  (forall P, exists h, outHeader (fun x => x) 100 hX (Fin 10) 1 (Fin 0, Fin 0) (Fin 1) P = Ok h) /\
  tsHeader (F := xr) 100 = Ok h.
Proof. exact nc_file. Qed.
Print Assumptions C110_described_example.

Theorem C110_time_example : (@date2num xr _ (midnight (90000000000000)) (90000000000000) = Fin 3600)%R /\ wholeMicro (90000000000000) /\ midnightOf (90000000000000) (86400000000000).
Proof. exact nc_times. Qed.
Print Assumptions C110_time_example.
