(** A concrete set of input lines for [shape_follows]. *)
From Coq Require Import ZArith List Bool Lia Reals Lra.
From Verif Require Import Base Num Xr XEval MState MGeom MLoad SGeom SLoad SLine SShape PGeom PRate PHyd PTrans PLoad PLoad2 PLoad3 PLoad4 PCoast PJac.
Import ListNotations.
Local Open Scope R_scope.

Definition eB : xr * xr := (Fin 1, Fin 10).
Definition eFlow : xr * xr := (Fin 0, Fin 0).
(** Lines given in model coordinates, placed in the world. *)
Definition world (l : list (R * R)) : list (xr * xr) :=
  map (fun p => mod2real (Fin (fst p)) (Fin (snd p)) (originOf eB eFlow) (shoreNormDir eB eFlow)) l.
Definition eShore : list (R * R) := [(-30, 100); (30, 100)].
Definition eLagoon : list (R * R) := [(-10, 20); (10, 20)].
Definition eCliff : list (R * R) := [(-40, 0); (40, 0)].
Definition eOutlet : list (R * R) := [(-10, 30); (30, 70)].
Lemma back l : toModel (originOf eB eFlow) (shoreNormDir eB eFlow) (world l) = map fp l.
Proof.
  destruct (origin_val 1 10 0 0) as (ox & oy & E & _); [lra|]. destruct (dir_val 1 10 0 0) as (d & E' & _).
  unfold world, toModel. unfold eB, eFlow in *. rewrite E, E', map_map. apply map_ext. intros [x y]. apply model_roundtrip.
Qed.
Lemma ceil_is x z : IZR z - 1 < x <= IZR z -> fceil (Fin x) = z.
Proof.
  intros H. destruct (ceil_spec x) as [A B]. set (c := fceil (Fin x)) in *.
  assert (IZR c < IZR z + 1) by lra. assert (IZR z < IZR c + 1) by lra. rewrite <- plus_IZR in H0, H1. apply lt_IZR in H0, H1. lia.
Qed.
Lemma eGrid : shapeX (Fin 20) (map fp eShore) = Ok [Fin (-20); Fin 0; Fin 20].
Proof.
  unfold shapeX. change (ix (map fp eShore) 0) with (Ok (fp (-30, 100))). change (last_ (map fp eShore)) with (Ok (fp (30, 100))). cbn [bind fp fst snd].
  change (Fin (-30) / Fin 20)%n with (xdiv (Fin (-30)) (Fin 20)). rewrite xdiv_fin by lra. rewrite (ceil_is _ (-1)) by lra.
  rewrite xofZ, PRate.xmul, arange_val by lra. rewrite (ceil_is _ 3) by lra. change (Z.to_nat 3) with 3%nat. cbn [seq map]. cbn [INR]. repeat match goal with |- Ok _ = Ok _ => f_equal | |- _ :: _ = _ :: _ => f_equal | |- Fin _ = Fin _ => f_equal end; lra || reflexivity.
Qed.
Lemma eSpan p q y : fst p < fst q -> y = [p; q] -> xMin (map fp y) = Ok (Fin (fst p)) /\ xMax (map fp y) = Ok (Fin (fst q)).
Proof.
  intros L ->. unfold xMin, xMax, fmaxl. cbn [map fp fst fold_left]. rewrite xmin, xmax, Rmin_left, Rmax_right by lra. split; reflexivity.
Qed.
Lemma eRow x : x = -20 \/ x = 0 \/ x = 20 -> exists t, shapeRow lIni (map fp eShore) (map fp eLagoon) (map fp eCliff) (map fp eOutlet) (Fin (-10)) (Fin 10) (Fin (-10)) (Fin 30) (Fin x) = Ok t /\
  tX t = Fin x /\ (x = 0 -> tY1 t = Fin 45 /\ tY2 t = Fin 35 /\ tY3 t = Fin 20) /\ (x = 20 -> tY1 t = Fin 65 /\ tY2 t = Fin 55 /\ tY3 t = Fin 0) /\ (x = -20 -> tY1 t = NaN /\ tY2 t = NaN).
Proof.
  unfold eShore, eLagoon, eCliff, eOutlet. cbn [map]. unfold fp. cbn [fst snd].
  intros [->|[->| ->]]; (eexists; split; [unfold shapeRow, intersectPolyline, interpX, interpSeg; cbv zeta; xrun|]);
    cbn [tX tY1 tY2 tY3]; repeat split; intros; try lra; repeat split; try reflexivity; f_equal; lra.
Qed.
Lemma shape_example : exists T W Z O d, shapeShore ones lIni (Fin 20) eB eFlow (world eShore) (world eLagoon) (world eCliff) (world eOutlet) = Ok (T, Fin 0, Fin 30, W, Z, O, d) /\
  map tX T = [Fin (-20); Fin 0; Fin 20] /\ map tY1 T = [NaN; Fin 45; Fin 65] /\ map tY2 T = [NaN; Fin 35; Fin 55].
Proof.
  unfold shapeShore. cbv zeta. unfold shoreCoords. rewrite !back.
  assert (Q : shapeX (Fin 20) (map fp eShore) = Ok [Fin (-20); Fin 0; Fin 20]) by apply eGrid.
  destruct (eSpan (-10, 20) (10, 20) eLagoon) as [L1 L2]; [cbn; lra|reflexivity|].
  destruct (eSpan (-10, 30) (30, 70) eOutlet) as [O1 O2]; [cbn; lra|reflexivity|].
  destruct (eRow (-20)) as (t1 & R1 & X1 & _ & _ & Y1); [auto|]. destruct (eRow 0) as (t2 & R2 & X2 & Y2 & _); [auto|]. destruct (eRow 20) as (t3 & R3 & X3 & _ & Y3 & _); [auto|].
  specialize (Y1 eq_refl). specialize (Y2 eq_refl). specialize (Y3 eq_refl). destruct Y1 as (A1 & B1). destruct Y2 as (A2 & B2 & _). destruct Y3 as (A3 & B3 & _).
  change (ix (map fp eShore) 0) with (Ok (fp (-30, 100))). change (last_ (map fp eShore)) with (Ok (fp (30, 100))). cbn [bind fp fst snd].
  change (Fin 30 <? Fin (-30))%n with (Rltb 30 (-30)). rewrite (proj2 (Rltb_false 30 (-30))) by lra.
  assert (FB : forallb (fun b : bool => b) (map2 (fun p q : xr * xr => (f0 <? fst q - fst p)%n) (removelast (map fp eShore)) (tl (map fp eShore))) = true).
  { cbn [eShore map removelast tl map2 forallb fp fst]. rewrite PRate.xsub. change (Rltb 0 (30 - -30) && true = true). rewrite (proj2 (Rltb_true 0 (30 - -30))) by lra. reflexivity. }
  rewrite FB. cbn [assert_ bind]. rewrite Q. cbn [bind]. rewrite L1, L2. change (last_ [Fin (-20); Fin 0; Fin 20]) with (Ok (Fin 20)). cbn [bind ix nth_error of_opt fst].
  change (Fin 10 <? Fin 20)%n with (Rltb 10 20). change (Fin (-20) <? Fin (-10))%n with (Rltb (-20) (-10)). rewrite (proj2 (Rltb_true 10 20)), (proj2 (Rltb_true (-20) (-10))) by lra.
  cbn [andb assert_ bind]. rewrite O1, O2. cbn [bind fst].
  change (ix (map fp eOutlet) 0) with (Ok (fp (-10, 30))). change (last_ (map fp eOutlet)) with (Ok (fp (30, 70))). cbn [bind fp fst snd].
  change (Fin 70 <? Fin 30)%n with (Rltb 70 30). rewrite (proj2 (Rltb_false 70 30)) by lra. change (Fin (-10) <? Fin 30)%n with (Rltb (-10) 30). rewrite (proj2 (Rltb_true (-10) 30)) by lra.
  cbn [map all_ok]. rewrite R1, R2, R3. cbn [bind].
  assert (K1 : hasOutlet t1 = false) by (unfold hasOutlet; rewrite A1; reflexivity).
  assert (K2 : hasOutlet t2 = true) by (unfold hasOutlet; rewrite A2; reflexivity).
  assert (K3 : hasOutlet t3 = true) by (unfold hasOutlet; rewrite A3; reflexivity).
  unfold outletSetup. cbn [filter]. rewrite K1, K2, K3.
  cbn [negb map fold_left]. rewrite X2, X3. cbv zeta. rewrite xmin, xmax, Rmin_left, Rmax_right by lra. change (@f2 xr _) with (Fin 2). rewrite xdivf by lra. rewrite PRate.xadd.
  cbn [bind]. do 5 eexists. split; [repeat f_equal; lra|].
  unfold outletBeds. cbn [setBeds]. rewrite K1, K2, K3.
  cbn [map tX tY1 tY2 setZ1 setZ2]. rewrite X1, X2, X3, A1, A2, A3, B1, B2, B3. repeat split.
Qed.
