(** Attributes, coordinates and times of result files. *)
From Coq Require Import ZArith List Bool String Lia Reals Lra.
From Verif Require Import Base Num Xr MState MRiv MOut MLoad MConf MNc SOut POut SConf PConf PConf2 PConf3 PConf4 PRate PCoast PLoad SNc PNc.
Import ListNotations.
Local Open Scope string_scope.

Section Attr.
  Context {F : Type} {NF : Num F}.

  Lemma headers_inv r32 (m : model F) h k : mainHeaders r32 m = Ok (h, k) ->
    h = mkHd (outDims (List.length (map tX (mdT m))) (List.length (mdRiver m))) (outAttrs (mdOrigin m) (mdDir m) (mdP m)) outDecls
             (outCoords r32 (map tX (mdT m)) (nDx (mdN m)) (List.length (mdRiver m))) (midnight (tStart (mdTP m))) /\
    k = mkHd tsDims [] tsDecls [] (midnight (tStart (mdTP m))).
  Proof.
    unfold mainHeaders. intros H. apply bind_ok in H as (h1 & H1 & H). apply bind_ok in H as (k1 & K1 & H).
    apply Ok_inj in H. injection H as <- <-. apply header_inv in H1 as (-> & _ & _). split; [reflexivity|].
    unfold tsHeader in K1. cbn in K1. apply Ok_inj in K1 as <-. reflexivity.
  Qed.
  Lemma headers_ok r32 (m : model F) : (exists h k, mainHeaders r32 m = Ok (h, k)) <-> (2 <= List.length (mdT m) /\ 1 <= List.length (mdRiver m))%nat.
  Proof.
    split.
    - intros (h & k & H). unfold mainHeaders in H. apply bind_ok in H as (h1 & H1 & _). apply header_inv in H1 as (_ & A & B).
      rewrite map_length in A. tauto.
    - intros (A & B). destruct (header_ok r32 (tStart (mdTP m)) (map tX (mdT m)) (nDx (mdN m)) (List.length (mdRiver m)) (mdOrigin m) (mdDir m) (mdP m)) as (h & H);
        [rewrite map_length; exact A | exact B|].
      unfold mainHeaders. rewrite H. cbn [bind]. unfold tsHeader. cbn. eexists _, _. reflexivity.
  Qed.

  Lemma phys_known X r (c : conf F) key v : validate X r = Ok c -> c "PhysicalParameters" key = Some v -> In key (map fst (@physicalKeys F)).
  Proof.
    unfold validate. destruct (forallb _ _); [|discriminate]. intros H. apply Ok_inj in H as <-.
    destruct (find _ cspec) as [e|] eqn:E; [|discriminate]. intros _. apply find_some in E as (I & E).
    apply andb_true_iff in E as (E1 & E2). apply String.eqb_eq in E1, E2. subst key.
    cbn [In cspec] in I.
    repeat (destruct I as [<-|I]; [first [discriminate E1 | cbn [cKey physicalKeys map fst]; inlist] |]). contradiction.
  Qed.

  Lemma recorded X (W : world F) r32 file m c h k : loadModel X W r32 file = Ok m -> validate X (wdConf W file) = Ok c ->
    mainHeaders r32 m = Ok (h, k) -> forall key x, c "PhysicalParameters" key = Some (CF x) ->
    (~ In key unrecorded -> attrOf h key = Ok x) /\ (In key unrecorded -> attrOf h key = Exc EKey).
  Proof.
    intros L V H key x E. apply headers_inv in H as (-> & _).
    apply load_params in L as (_ & c' & V' & PK & _). rewrite V in V'. apply Ok_inj in V' as <-.
    pose proof (phys_known _ _ _ _ _ V E) as K. apply in_map_iff in K as ((key', pr) & Ek & I). cbn [fst] in Ek. subst key'.
    pose proof (proj1 (Forall_forall _ _) PK _ I) as P. cbn [fst snd] in P. rewrite E in P. apply Some_inj in P. injection P as ->.
    clear E PK V. cbn [In physicalKeys] in I.
    repeat (destruct I as [I|I]; [
      apply (f_equal fst) in I as I1; apply (f_equal snd) in I; cbn [fst snd] in I1, I; subst key pr;
      split; [intros N; first [reflexivity | exfalso; apply N; unfold unrecorded; inlist]
             | intros Q; first [reflexivity | exfalso; unfold unrecorded in Q; cbn [In] in Q; intuition discriminate]] |]). contradiction.
  Qed.

  Lemma animated r32 (m : model F) h k : mainHeaders r32 m = Ok (h, k) ->
    animPars h = Ok [pBeachSlope (mdP m); pBackshoreElev (mdP m); pClosureDepth (mdP m); pBeachTopElev (mdP m); pRiverWidth (mdP m);
                     pMinOutletWidth (mdP m); pMaxOutletElev (mdP m); pRiverWidth (mdP m); pSpitWidth (mdP m)].
  Proof. intros H. apply headers_inv in H as (-> & _). reflexivity. Qed.

  (** ** Coordinates *)
  Lemma segments r32 start (X : list F) Dx m o dir P h : outHeader r32 start X Dx m o dir P = Ok h ->
    exists l, coord h "shore_segment_x" l /\ List.length l = (List.length X - 1)%nat /\
      forall i a b, nth_error X i = Some a -> nth_error X (S i) = Some b -> nth_error l i = Some (r32 ((a + b) / f2)%n).
  Proof.
    intros H. apply header_inv in H as (-> & _ & _). unfold coord. cbn [hdCoords outCoords].
    exists (map r32 (segmentX X)). split; [inlist|]. rewrite map_length. unfold segmentX. split.
    - rewrite map2_length, length_removelast. destruct X; cbn [tl List.length]; lia.
    - intros i a b A B. apply map_nth_error. revert i A B. induction X as [|x X IH]; intros i A B; [destruct i; discriminate A|].
      destruct X as [|y X]; [destruct i; cbn in B; [discriminate B | destruct i; discriminate B]|].
      destruct i as [|i]; cbn [nth_error] in A, B.
      + apply Some_inj in A, B. subst. reflexivity.
      + specialize (IH i A B). cbn [tl removelast] in IH |- *. destruct X as [|z X]; [destruct i; discriminate B|].
        cbn [map2 nth_error]. exact IH.
  Qed.
  Lemma transects r32 start (X : list F) Dx m o dir P h : outHeader r32 start X Dx m o dir P = Ok h ->
    coord h "transect_x" (map r32 X) /\
    exists l, coord h "river_dist" l /\ List.length l = m /\ forall i, (i < m)%nat -> nth_error l i = Some (r32 (fofZ (Z.of_nat i) * Dx)%n).
  Proof.
    intros H. apply header_inv in H as (-> & _ & _). unfold coord. cbn [hdCoords outCoords]. split; [inlist|].
    eexists. split; [inlist|]. rewrite !map_length, seq_length. split; [reflexivity|].
    intros i Hi. apply map_nth_error. apply (map_nth_error (fun i => (fofZ (Z.of_nat i) * Dx)%n)).
    rewrite (nth_error_nth' _ 0%nat) by (rewrite seq_length; exact Hi). rewrite seq_nth by exact Hi. reflexivity.
  Qed.
End Attr.

Local Open Scope R_scope.
(** ** World frame *)
Lemma deg_back d : deg2rad (rad2deg (Fin d)) = Fin d.
Proof.
  pose proof PI_RGT_0. unfold deg2rad, rad2deg. change (@fpi xr _) with (Fin PI). change (@fofZ xr _ 180) with (Fin 180).
  rewrite !PRate.xdivf by lra. rewrite !PRate.xmul. f_equal. field. apply Rgt_not_eq, PI_RGT_0.
Qed.
Lemma frame_back r32 (m : model xr) h k d : mainHeaders r32 m = Ok (h, k) -> mdDir m = Fin d -> hotFrame h = Ok (mdOrigin m, mdDir m).
Proof.
  intros H D. apply headers_inv in H as (-> & _). rewrite D.
  change (hotFrame _) with (Ok ((fst (mdOrigin m), snd (mdOrigin m)), deg2rad (rad2deg (Fin d))) : res ((xr * xr) * xr)) at 1.
  rewrite deg_back. destruct (mdOrigin m). reflexivity.
Qed.
Lemma frame_resumed r32 (m : model xr) h k d X W file m' c n dir base ext path f x y a :
  mainHeaders r32 m = Ok (h, k) -> mdDir m = Fin d ->
  attrOf h "ModelOriginX" = Ok x -> attrOf h "ModelOriginY" = Ok y -> attrOf h "ModelOrientation" = Ok a ->
  loadModel X W r32 file = Ok m' -> validate X (wdConf W file) = Ok c -> c "HotStart" "InitialConditionsNetCDF" = Some (CS n) ->
  fileIn dir base ext file -> resolved dir n path -> wdNc W path = Some (f, (x, y), a) ->
  mdOrigin m' = mdOrigin m /\ mdDir m' = mdDir m.
Proof.
  intros H D Ax Ay Aa L V C FI RS WN.
  destruct (hot_input X W r32 file m' c n dir base ext path L V C FI RS) as (f' & o & deg & t & want & st & h' & E & _ & _ & _ & _ & Eo & Ed & _).
  rewrite WN in E. apply Some_inj in E. injection E as <- <- <-.
  apply headers_inv in H as (-> & _).
  cbn in Ax, Ay, Aa. apply Ok_inj in Ax, Ay, Aa. subst x y a. rewrite Eo, Ed, D.
  split; [destruct (mdOrigin m); reflexivity|]. apply deg_back.
Qed.

(** ** Time *)
Lemma midnight_of t : midnightOf t (midnight t).
Proof.
  exists (t / dayNs)%Z. unfold midnight. split; [reflexivity|]. change 86400000000000%Z with dayNs.
  pose proof (Z.mul_div_le t dayNs ltac:(reflexivity)). pose proof (Z.mul_succ_div_gt t dayNs ltac:(reflexivity)). unfold dayNs in *. lia.
Qed.
Lemma to_number e t : @date2num xr _ e t = Fin (IZR ((t - e) / 1000) / 1000000).
Proof. unfold date2num. change (fofZ ((t - e) / 1000)) with (Fin (IZR ((t - e) / 1000))). change (@fofZ xr _ 1000000) with (Fin 1000000). rewrite PRate.xdivf by lra. reflexivity. Qed.
Lemma floor_half z : Rfloor (IZR z + 1 / 2) = z.
Proof. apply Rfloor_unique. lra. Qed.
Lemma from_number e z : @num2date xr _ e (Fin (IZR z / 1000000)) = (e + 1000 * z)%Z.
Proof.
  unfold num2date. f_equal. f_equal.
  replace (Fin (IZR z / 1000000) * fofZ 1000000 + f1 / f2)%n with (Fin (IZR z + 1 / 2)).
  - apply floor_half.
  - change (@fofZ xr _ 1000000) with (Fin 1000000). change (@f1 xr _) with (Fin 1). change (@f2 xr _) with (Fin 2).
    rewrite PRate.xdivf by lra. rewrite PRate.xmul, PRate.xadd. f_equal. field.
Qed.
Lemma time_back start t : let e := midnight start in
  exists x, date2num e t = Fin x /\ num2date e (Fin x) = (t - t mod 1000)%Z /\ (wholeMicro t -> num2date e (Fin x) = t /\ x = IZR (t - e) / 1000000000).
Proof.
  cbv zeta. rewrite to_number. eexists. split; [reflexivity|]. rewrite from_number.
  assert (E : (midnight start mod 1000 = 0)%Z).
  { unfold midnight. replace (start / dayNs * dayNs)%Z with ((start / dayNs * 86400000000) * 1000)%Z by (unfold dayNs; ring). apply Z_mod_mult. }
  assert (G : (midnight start + 1000 * ((t - midnight start) / 1000) = t - t mod 1000)%Z).
  { rewrite (Z.div_mod (midnight start) 1000) at 1 2 by lia. rewrite E.
    replace (t - (1000 * (midnight start / 1000) + 0))%Z with (t + (- (midnight start / 1000)) * 1000)%Z by ring.
    rewrite Z.div_add by lia. pose proof (Z.div_mod t 1000 ltac:(lia)). lia. }
  split; [exact G|]. intros (u & ->). rewrite G. replace (1000 * u)%Z with (u * 1000)%Z by ring. rewrite Z_mod_mult.
  split; [ring|].
  assert (D : exists q, (midnight start = q * 1000)%Z) by (exists (midnight start / 1000)%Z; pose proof (Z.div_mod (midnight start) 1000 ltac:(lia)); lia).
  destruct D as (q & ->). replace (u * 1000 - q * 1000)%Z with ((u - q) * 1000)%Z by ring. rewrite Z.div_mul by lia.
  rewrite mult_IZR. field.
Qed.
Lemma first_day start : exists x, date2num (midnight start) start = Fin x /\ 0 <= x < 86400.
Proof.
  rewrite to_number. eexists. split; [reflexivity|]. destruct (midnight_of start) as (d & _ & A & B).
  set (e := midnight start) in *. set (z := ((start - e) / 1000)%Z).
  assert (0 <= z < 86400000000)%Z. { unfold z. split; [apply Z.div_pos; lia | apply Z.div_lt_upper_bound; lia]. }
  assert (0 <= IZR z) by (apply IZR_le; lia). assert (IZR z < 86400000000) by (apply IZR_lt; lia). lra.
Qed.
Lemma degrees_not r32 start X Dx m o dir P h : @outHeader xr _ r32 start X Dx m o dir P = Ok h ->
  exists d w, In d (hdVars h) /\ vName d = "wave_dir"%string /\ vUnits d = "degrees"%string /\ waveDir (Fin 0) (Fin 100) = Fin w /\ - 4 <= w < 4.
Proof.
  intros H. apply header_inv in H as (-> & _ & _). exists (perTime "wave_dir" "degrees").
  destruct (wave_dir 0 100) as (w & k & E & B & _). exists w. split; [cbn [hdVars outDecls]; inlist|]. split; [reflexivity|]. split; [reflexivity|].
  split; [exact E|]. pose proof PI_4. lra.
Qed.
