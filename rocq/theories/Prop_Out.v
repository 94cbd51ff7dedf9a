(** Properties C76-C80 and C84: result files and hot starts. *)
From Coq Require Import String ZArith List Bool Sorted Floats Reals.
From Verif Require Import Base Num Xr Flt MState MCoast MRiv MMor MOut MCore MLoad SOut SRun POut POut2 PHot PHotEx Sim SimEx PCoreEx.
Import List ListNotations.
Local Open Scope string_scope.
Local Open Scope list_scope.
Local Open Scope num_scope.

(** C76: an existing file is replaced only with Overwrite or one of the five words; otherwise
    the call raises and nothing changes.  Other files never change. *)
Theorem C76_results (F : Type) (NF : Num F) (r32 : F -> F) fs name X nriv overwrite answer fs' r :
  newOutFile r32 fs name X nriv overwrite answer = (fs', r) ->
  (forall m, m <> name -> fs' m = fs m) /\
  ((r = Ok tt /\ fs' name = Some (mkNc (map r32 X) nriv [] (fun _ _ => None)) /\ (fs name = None \/ overwrite = true \/ consent answer)) \/
   (r = Exc EConflict /\ fs' name = fs name /\ fs name <> None /\ overwrite = false /\ ~ consent answer)).
Proof. exact (new_out r32 fs name X nriv overwrite answer fs' r). Qed.
Print Assumptions C76_results.
Theorem C76_timeseries (F : Type) (NF : Num F) fs name overwrite answer (fs' : fsys F) r :
  newTsOutFile fs name overwrite answer = (fs', r) ->
  (forall m, m <> name -> fs' m = fs m) /\
  ((r = Ok tt /\ fs' name = Some (mkNc [] 0 [] (fun _ _ => None)) /\ (fs name = None \/ overwrite = true \/ consent answer)) \/
   (r = Exc EConflict /\ fs' name = fs name /\ fs name <> None /\ overwrite = false /\ ~ consent answer)).
Proof. exact (new_ts fs name overwrite answer fs' r). Qed.
Print Assumptions C76_timeseries.
Theorem C76_both (F : Type) (NF : Num F) r32 fs n1 n2 X nriv ow ans1 ans2 a b (fs' : fsys F) : n1 <> n2 ->
  mainFiles r32 fs n1 n2 X nriv ow ans1 ans2 a b = (fs', Ok tt) ->
  (fs n1 = None \/ ow = true \/ consent ans1) /\ (fs n2 = None \/ ow = true \/ consent ans2) /\
  (forall m, m <> n1 -> m <> n2 -> fs' m = fs m) /\
  exists f g, fs' n1 = Some f /\ fs' n2 = Some g /\ writeCurrent r32 (mkNc (map r32 X) nriv [] (fun _ _ => None)) a = Ok f /\
    g = writeTsOut r32 (mkNc [] 0 [] (fun _ _ => None)) b.
Proof. exact (both_files r32 fs n1 n2 X nriv ow ans1 ans2 a b fs'). Qed.
Print Assumptions C76_both.
Theorem C76_example : exists fs', mainFiles (fun x => x) hFs "out.nc" "ts.nc" hX 1 false "y" "n" (hW 0 100 false) hTs = (fs', Exc EConflict) /\
  (exists f, hFs "out.nc" = Some f /\ ncTimes f = [5; 6]%Z) /\ (exists f, fs' "out.nc" = Some f /\ ncTimes f = [0]%Z).
Proof. exact refuse_example. Qed.
Print Assumptions C76_example.

(** C77: consenting to the first file and refusing the second loses the first. *)
Theorem C77_lost (F : Type) (NF : Num F) (r32 : F -> F) fs n1 n2 X nriv ans1 ans2 a b fs' r :
  n1 <> n2 -> fs n1 <> None -> fs n2 <> None -> consent ans1 -> ~ consent ans2 -> shaped (length X) nriv a ->
  mainFiles r32 fs n1 n2 X nriv false ans1 ans2 a b = (fs', r) ->
  r = Exc EConflict /\ fs' n2 = fs n2 /\ (forall m, m <> n1 -> fs' m = fs m) /\
  exists f, fs' n1 = Some f /\ ncTimes f = [wTime a] /\ ncX f = map r32 X.
Proof. exact (refuse_second r32 fs n1 n2 X nriv ans1 ans2 a b fs' r). Qed.
Print Assumptions C77_lost.
Theorem C77_lost_example : exists fs', mainFiles (fun x => x) hFs "out.nc" "ts.nc" hX 1 false "y" "n" (hW 0 100 false) hTs = (fs', Exc EConflict) /\
  (exists f, hFs "out.nc" = Some f /\ ncTimes f = [5; 6]%Z) /\ (exists f, fs' "out.nc" = Some f /\ ncTimes f = [0]%Z).
Proof. exact refuse_example. Qed.
Print Assumptions C77_lost_example.
(** With the same name for both files, success means the results file is gone. *)
Theorem C77_same_name (F : Type) (NF : Num F) (r32 : F -> F) fs n X nriv ow ans1 ans2 a b fs' :
  mainFiles r32 fs n n X nriv ow ans1 ans2 a b = (fs', Ok tt) ->
  (ow = true \/ consent ans2) /\ exists g, fs' n = Some g /\ ncX g = [] /\ forall k, ncVar g "shoreline_y" k = None.
Proof. exact (same_name r32 fs n X nriv ow ans1 ans2 a b fs'). Qed.
Print Assumptions C77_same_name.
Theorem C77_same_name_example : exists fs', mainFiles (fun x => x) (fun _ => None) "o.nc" "o.nc" hX 1 true "" "" (hW 0 100 false) hTs = (fs', Ok tt).
Proof. exact same_example. Qed.
Print Assumptions C77_same_name_example.

(** C78: every record of a sequence of writes reads back, whatever the storage rounding [r32] does;
    records already in the file do not change. *)
Theorem C78_read_back (F : Type) (NF : Num F) (r32 : F -> F) : (f0 =? f0) = true -> (f1 =? f0) = false ->
  forall l (f f' : ncfile F), writeAll r32 f l = Ok f' -> forall k a, nth_error l k = Some a ->
  exists r, readTimestep f' (length (ncTimes f) + k) = Ok r /\ readsAs r32 (ncX f) a r /\ rdDir r = f0.
Proof. exact (all_back r32). Qed.
Print Assumptions C78_read_back.
Theorem C78_earlier (F : Type) (NF : Num F) (r32 : F -> F) l (f f' : ncfile F) : writeAll r32 f l = Ok f' ->
  forall j, (j < length (ncTimes f))%nat -> readTimestep f' j = readTimestep f j.
Proof. exact (all_earlier r32 l f f'). Qed.
Print Assumptions C78_earlier.
Theorem C78_times (F : Type) (NF : Num F) (r32 : F -> F) l (f f' : ncfile F) : writeAll r32 f l = Ok f' ->
  ncX f' = ncX f /\ ncRiv f' = ncRiv f /\ ncTimes f' = ncTimes f ++ map wTime l.
Proof. exact (all_frame r32 l f f'). Qed.
Print Assumptions C78_times.
(** Records of the right shape, and no others, are written. *)
Theorem C78_accepts (F : Type) (NF : Num F) (r32 : F -> F) l (f : ncfile F) :
  Forall (shaped (length (ncX f)) (ncRiv f)) l -> exists f', writeAll r32 f l = Ok f'.
Proof. exact (all_ok_shaped r32 l f). Qed.
Print Assumptions C78_accepts.
Theorem C78_rejects (F : Type) (NF : Num F) (r32 : F -> F) l (f f' : ncfile F) :
  writeAll r32 f l = Ok f' -> Forall (shaped (length (ncX f)) (ncRiv f)) l.
Proof. exact (all_shaped r32 l f f'). Qed.
Print Assumptions C78_rejects.
(** The time-series file. *)
Theorem C78_timeseries (F : Type) (NF : Num F) (r32 : F -> F) (f : ncfile F) b :
  let f' := writeTsOut r32 f b in let k := length (ncTimes f) in
  ncTimes f' = ncTimes f ++ [sTime b] /\
  (forall v j, (j < k)%nat -> ncVar f' v j = ncVar f v j) /\
  ncVar f' "sea_level" k = Some [r32 (sSea b)] /\ ncVar f' "river_flow" k = Some [r32 (sFlow b)] /\
  ncVar f' "hs_offshore" k = Some [r32 (sHs b)] /\ ncVar f' "wave_dir" k = Some [r32 (sDir b)] /\
  ncVar f' "lagoon_level" k = Some [r32 (sLagWl b)] /\ ncVar f' "lagoon_outflow" k = Some [r32 (sOutflow b)] /\
  ncVar f' "sed_inflow" k = Some [r32 (sSedIn b)] /\ ncVar f' "outlet_end_x" k = Some [r32 (sE0 b); r32 (sE1 b)] /\
  ncVar f' "outlet_closed" k = Some [fofb (sClosedT b)] /\ ncVar f' "mordt" k = Some [r32 (fofZ (seconds (sMorDt b)))].
Proof. exact (ts_all r32 f b). Qed.
Print Assumptions C78_timeseries.
Theorem C78_example (r32 : xr -> xr) : (@f0 xr _ =? f0) = true /\ (@f1 xr _ =? f0) = false /\
  exists f', writeAll r32 hFile [hW 0 100 false; hW 60 90 true; hW 120 80 false] = Ok f'.
Proof. exact (conj xr_zero (conj xr_one (hist_ok r32))). Qed.
Print Assumptions C78_example.

(** C79: the outlet-end bedload makes no difference to what is written; the stored variable
    never changes; a record read reports wave direction 0. *)
Theorem C79_ignored (F : Type) (NF : Num F) (r32 : F -> F) f a b : writeCurrent r32 f (withEndBed b a) = writeCurrent r32 f a.
Proof. exact (bed_ignored r32 f a b). Qed.
Print Assumptions C79_ignored.
Theorem C79_never_stored (F : Type) (NF : Num F) (r32 : F -> F) l (f f' : ncfile F) : writeAll r32 f l = Ok f' ->
  forall j, ncVar f' "outlet_end_bedload" j = ncVar f "outlet_end_bedload" j.
Proof. exact (all_bedload r32 l f f'). Qed.
Print Assumptions C79_never_stored.
Theorem C79_direction (F : Type) (NF : Num F) (f : ncfile F) k r : readTimestep f k = Ok r -> rdDir r = f0.
Proof. exact (dir_zero f k r). Qed.
Print Assumptions C79_direction.
(** Stored all the same, though never read back. *)
Theorem C79_written (F : Type) (NF : Num F) (r32 : F -> F) (f f' : ncfile F) a : writeCurrent r32 f a = Ok f' -> let k := length (ncTimes f) in
  ncVar f' "wave_dir" k = Some [r32 (wDir a)] /\ ncVar f' "lagoon_bedload" k = Some (map r32 (wLBed a)) /\ ncVar f' "outlet_bedload" k = Some (map r32 (wOBed a)) /\
  ncVar f' "river_bedload" k = Some (map r32 (wRBed a)) /\ ncVar f' "overwash_proportion" k = Some (map r32 (wOW a)).
Proof. exact (written_unread r32 f f' a). Qed.
Print Assumptions C79_written.
Theorem C79_example : exists f' r, writeAll (fun x => x) hFile [hW 0 100 false; hW 60 90 true; hW 120 80 false] = Ok f' /\
  readTimestep f' 1 = Ok r /\ wDir (hW 60 90 true) = Fin 1 /\ wEBed (hW 60 90 true) = [Fin 0; Fin 0].
Proof. exact read_example. Qed.
Print Assumptions C79_example.

(** C80: the closest records, and the time of the first of them. *)
Theorem C80_closest times want idx t : closestTimeIx times want = Ok (idx, t) ->
  (forall i, In i idx <-> closest times want i) /\ StronglySorted lt idx /\
  exists i, hd_error idx = Some i /\ nth_error times i = Some t.
Proof. exact (closest_spec times want idx t). Qed.
Print Assumptions C80_closest.
Theorem C80_total times want : times <> [] -> exists idx t, closestTimeIx times want = Ok (idx, t).
Proof. exact (closest_ok times want). Qed.
Print Assumptions C80_total.
Theorem C80_at_most_two times want idx t : NoDup times -> closestTimeIx times want = Ok (idx, t) -> (length idx = 1 \/ length idx = 2)%nat.
Proof. exact (closest_two times want idx t). Qed.
Print Assumptions C80_at_most_two.
Theorem C80_example : (forall i, closest [0; 60; 120]%Z 50 i <-> i = 1%nat) /\ closest [0; 60; 120]%Z 90 1 /\ closest [0; 60; 120]%Z 90 2.
Proof. exact (conj hist_closest hist_tie). Qed.
Print Assumptions C80_example.

(** C84: a record written in a pass is the state the run carries on with, but for the open/closed
    status, which is the one before a breach. *)
Theorem C84_written (F : Type) (NF : Num F) af (o : oracle F) v s s' : step af o v s = Ok s' ->
  gOuts s' = gOuts s \/
  exists w, gOuts s' = gOuts s ++ [w] /\ wTime w = gTime s' /\ wT w = gT s' /\ wE0 w = gE0 s' /\ wE1 w = gE1 s' /\
    wW w = gW s' /\ wZend w = gZ s' /\ wRiv w = gRiver s' /\ wRDep w = gRDep s' /\ wRVel w = gRVel s' /\
    wLWL w = gLWL s' /\ wLVel w = gLVel s' /\ wODep w = gODep s' /\ wOVel w = gOVel s' /\ wEDep w = gEDep s' /\ wEVel w = gEVel s' /\
    exists m, morphology af o v s m /\ gClosed s' = (if oBreach m then false else wClosed w).
Proof. exact (step_written af o v s s'). Qed.
Print Assumptions C84_written.
Theorem C84_status_refuted : exists s w, @run float sim_num 100 6 simOr vFill s /\ last (map Some (gOuts s)) None = Some w /\
  wTime w = gTime s /\ gClosed s = false /\ wClosed w = true.
Proof. exact breach_record. Qed.
Print Assumptions C84_status_refuted.
(** The hot start from a file with one closest record takes that record's state. *)
Theorem C84_resumes (F : Type) (NF : Num F) (r32 : F -> F) : (f0 =? f0) = true -> (f1 =? f0) = false ->
  forall f l f' want start cont Dx k a x0 x1, ncTimes f = [] -> writeAll r32 f l = Ok f' ->
  nth_error (ncX f) 0 = Some x0 -> nth_error (ncX f) 1 = Some x1 -> (r32 (x1 - x0) =? Dx) = true ->
  nth_error l k = Some a -> closest (map wTime l) want k -> (forall j, closest (map wTime l) want j -> j = k) ->
  exists h, hotLoad r32 f' want start cont Dx = Ok h /\ resumes r32 (ncX f) a h /\ htStart h = (if cont then wTime a else start).
Proof. exact (hot_load r32). Qed.
Print Assumptions C84_resumes.
Theorem C84_depth X a h (d z : R) i t : resumes (fun x : xr => x) X a h -> nth_error (wODep a) i = Some (Fin d) ->
  nth_error (wT a) i = Some t -> tZ1 t = Fin z -> nth_error (htODep h) i = Some (Fin d).
Proof. exact (hot_exact X a h d z i t). Qed.
Print Assumptions C84_depth.
Theorem C84_no_depth X a h i t : resumes (fun x : xr => x) X a h -> nth_error (wODep a) i = Some NaN -> nth_error (wT a) i = Some t ->
  nth_error (htODep h) i = Some NaN.
Proof. exact (hot_nan X a h i t). Qed.
Print Assumptions C84_no_depth.
Theorem C84_example : exists f' h, writeAll (fun x => x) hFile [hW 0 100 false; hW 60 90 true; hW 120 80 false] = Ok f' /\
  hotLoad (fun x => x) f' 50 7 true (Fin 10) = Ok h /\ resumes (fun x => x) hX (hW 60 90 true) h /\
  htStart h = 60%Z /\ htClosed h = true /\ nth_error (htODep h) 1 = Some (Fin (1/3)).
Proof. exact hot_example. Qed.
Print Assumptions C84_example.
(** A time halfway between two records, or a different spacing, cannot be loaded. *)
Theorem C84_tie (F : Type) (NF : Num F) (r32 : F -> F) f want start cont Dx i j :
  closest (ncTimes f) want i -> closest (ncTimes f) want j -> i <> j -> hotLoad r32 f want start cont Dx = Exc EValue.
Proof. exact (hot_tie r32 f want start cont Dx i j). Qed.
Print Assumptions C84_tie.
Theorem C84_tie_example : exists f', writeAll (fun x => x) hFile [hW 0 100 false; hW 60 90 true; hW 120 80 false] = Ok f' /\
  hotLoad (fun x => x) f' 90 7 true (Fin 10) = Exc EValue.
Proof. exact tie_example. Qed.
Print Assumptions C84_tie_example.
Theorem C84_spacing (F : Type) (NF : Num F) (r32 : F -> F) f want start cont Dx k t :
  closestTimeIx (ncTimes f) want = Ok ([k], t) ->
  forall x0 x1, nth_error (ncX f) 0 = Some x0 -> nth_error (ncX f) 1 = Some x1 -> (r32 (x1 - x0) =? Dx) = false ->
  forall h, hotLoad r32 f want start cont Dx <> Ok h.
Proof. exact (hot_spacing r32 f want start cont Dx k t). Qed.
Print Assumptions C84_spacing.
