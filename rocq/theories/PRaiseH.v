(** Heights measured from another level: the water. *)
From Coq Require Import ZArith List Bool Lia.
From Verif Require Import Base Num MState MCoast MRiv MMor MOut MCore SShift SRaise PShift.
Import ListNotations.

Lemma reaches_map {A A' B C} (g : A -> A') (f : A' -> A' -> B -> C) : forall l rs, reaches f (map g l) rs = reaches (fun a b r => f (g a) (g b) r) l rs.
Proof. induction l as [|a l IH]; intros rs; [reflexivity|]. destruct l as [|b l]; destruct rs as [|r rs]; try reflexivity. cbn [map reaches]. f_equal. apply (IH rs). Qed.
Lemma reaches_ext {A B C} (f g : A -> A -> B -> C) : (forall a b r, f a b r = g a b r) -> forall l rs, reaches f l rs = reaches g l rs.
Proof. intros H. induction l as [|a l IH]; intros rs; [reflexivity|]. destruct l as [|b l]; destruct rs as [|r rs]; try reflexivity. cbn [reaches]. f_equal; [apply H|apply (IH rs)]. Qed.
Lemma combine_r {A B C} (g : B -> C) : forall (l : list A) m, combine l (map g m) = map (fun p => (fst p, g (snd p))) (combine l m).
Proof. induction l as [|a l IH]; intros [|b m]; cbn; try reflexivity. rewrite IH. reflexivity. Qed.
Lemma scat_map {A B} (g : A -> B) idx v i : scat idx (map g v) i = option_map g (scat idx v i).
Proof.
  revert v. induction idx as [|j idx IH]; intros [|x v]; try reflexivity. cbn. destruct (Nat.eqb j i); [reflexivity|apply IH].
Qed.

Section Raise.
  Context {F : Type} {NF : Num F}.
  Local Open Scope num_scope.
  Variables sh dn : F -> F.
  Hypothesis sub_ss : forall a b, sh a - sh b = a - b.
  Hypothesis add_s : forall a d, sh a + d = sh (a + d).
  Hypothesis add_r : forall a d, d + sh a = sh (d + a).
  Hypothesis sub_s : forall a d, sh a - d = sh (a - d).
  Hypothesis ltb_ss : forall a b, (sh a <? sh b) = (a <? b).
  Hypothesis nan_s : forall a, fisnan (sh a) = fisnan a.
  Hypothesis sh_nan : sh fnan = fnan.
  Notation up := (raisedT sh).
  Notation uP := (raisedPars sh dn).
  Ltac bx x := apply bind_ext; intros x.
  Ltac srw := repeat first [rewrite sub_ss | rewrite ltb_ss | rewrite nan_s | rewrite sub_s | rewrite add_s | rewrite add_r].

  (** ** Steady flow *)
  Definition upSt (d : steady F) : steady F := mkSt (sh (sElev d)) (sDep d) (sVel d) (sh (sEn d)) (sSf d).
  Lemma steadyAt_u be r q z b h : steadyAt be r q (sh z) b h = upSt (steadyAt be r q z b h).
  Proof. unfold steadyAt, upSt. cbv zeta. cbn [sElev sDep sVel sEn sSf]. srw. reflexivity. Qed.
  Lemma steadyEnd_u be r q w z b : steadyEnd be r q (sh w) (sh z) b = upSt (steadyEnd be r q w z b).
  Proof. unfold steadyEnd. srw. apply steadyAt_u. Qed.
  Lemma steadyStep_u fuel N r q dx z b d : steadyStep fuel N r q dx (sh z) b (upSt d) = thenDo upSt (steadyStep fuel N r q dx z b d).
  Proof.
    unfold steadyStep. cbv zeta. cbn [upSt sElev sDep sVel sEn sSf].
    replace (sDep d + sh (sElev d) - sh z + sSf d * dx) with (sDep d + sElev d - z + sSf d * dx) by (rewrite add_r, sub_ss; reflexivity).
    replace (sh z - sSf d * dx / f2 - sh (sEn d)) with (z - sSf d * dx / f2 - sEn d) by (rewrite sub_s, sub_ss; reflexivity).
    rewrite do_bind. bx h. cbn [thenDo]. rewrite steadyAt_u. reflexivity.
  Qed.
  Lemma march_cons fuel N r q w dx z z' zs b bs : steadyMarch fuel N r q w dx (z :: z' :: zs) (b :: bs) =
    match dx with
    | d :: dx' => let! l := steadyMarch fuel N r q w dx' (z' :: zs) bs in let! s := ix l 0 in let! s' := steadyStep fuel N r q d z b s in Ok (s' :: l)
    | [] => Exc EIndex
    end.
  Proof. reflexivity. Qed.
  Lemma march_u fuel N r q w : forall zs bs dx, steadyMarch fuel N r q (sh w) dx (map sh zs) bs = thenDo (map upSt) (steadyMarch fuel N r q w dx zs bs).
  Proof.
    induction zs as [|z zs IH]; intros bs dx; [destruct bs; reflexivity|]. destruct zs as [|z' zs].
    - destruct bs as [|b [|b' bs]]; [reflexivity|cbn [map steadyMarch thenDo]; rewrite steadyEnd_u; reflexivity|destruct dx; reflexivity].
    - destruct bs as [|b bs]; [reflexivity|]. cbn [map]. rewrite !march_cons. destruct dx as [|d dx]; [reflexivity|].
      change (sh z' :: map sh zs) with (map sh (z' :: zs)). rewrite IH, bind_do, do_bind. bx l. rewrite ix_map, bind_do, do_bind. bx s.
      rewrite steadyStep_u, bind_do, do_bind. bx s'. reflexivity.
  Qed.
  Lemma solveSteady_u dx z b r q w N : solveSteady dx (map sh z) b r q (sh w) N = solveSteady dx z b r q w N.
  Proof. unfold solveSteady, solveSteadyF. rewrite march_u, bind_do. bx l. rewrite !map_map. reflexivity. Qed.

  (** ** Unsteady flow *)
  Definition upN (n : node F) : node F := mkNode (sh (ndz n)) (ndB n) (ndBe n) (ndh n) (ndV n) (ndA n) (ndSf n).
  Definition upC (c : pctx F) : pctx F :=
    mkCtx (cg c) (cn c) (cP c) (cTheta c) (cBeta c) (cTol c) (cMaxIt c) (cdt c) (cClosed c) (map sh (cz c)) (cB c) (cBe c) (cdx c) (cSeep c) (cS0 c).
  Definition upS (s : pst F) : pst F := mkPst (ph s) (pV s) (pA s) (pSf s) (sh (pDsWl s)) (pDelta s) (pOut s).
  Definition seepOK (th : F) : Prop := forall za zb W Wo ha hb,
    sh zb + sh za - f2 * th * sh W + (f1 - th) * (hb + ha - f2 * sh Wo) = zb + za - f2 * th * W + (f1 - th) * (hb + ha - f2 * Wo).
  Lemma nodes_u : forall z B Be h V A S, nodesOf (map sh z) B Be h V A S = map upN (nodesOf z B Be h V A S).
  Proof. induction z as [|z zs IH]; intros [|b B] [|be Be] [|h H] [|v V] [|a A] [|s S]; try reflexivity. cbn [map nodesOf]. rewrite IH. reflexivity. Qed.
  Lemma C1_u c W Wo rc nd : seepOK (cTheta c) -> reaches (preC1 (upC c) (sh W) (sh Wo)) (map upN nd) rc = reaches (preC1 c W Wo) nd rc.
  Proof. intros K. rewrite reaches_map. apply reaches_ext. intros a b r. unfold preC1. cbv zeta. cbn [upC upN cdt cTheta cP ndz ndh ndBe ndV ndA]. rewrite K. reflexivity. Qed.
  Lemma C2_u c rc nd : reaches (preC2 (upC c)) (map upN nd) rc = reaches (preC2 c) nd rc.
  Proof. rewrite reaches_map. apply reaches_ext. intros a b r. reflexivity. Qed.
  Lemma err_u c Q W C1 C2 nd rc : preErr (upC c) Q (sh W) C1 C2 (map upN nd) rc = preErr c Q W C1 C2 nd rc.
  Proof.
    unfold preErr. rewrite ix_map, bind_do. bx a0. rewrite last_map, bind_do. bx an. cbv zeta. rewrite reaches_map. cbn [upC upN ndz ndh ndV ndA cClosed].
    replace (sh (ndz an) + ndh an - sh W) with (ndz an + ndh an - W) by (rewrite add_s, sub_ss; reflexivity). reflexivity.
  Qed.
  Lemma band_u c nd rc : preBand (upC c) (map upN nd) rc = preBand c nd rc.
  Proof. unfold preBand. rewrite ix_map, bind_do. bx a0. rewrite last_map, bind_do. bx an. cbv zeta. rewrite !reaches_map. reflexivity. Qed.
  Lemma newton_u solve c Q W C1 C2 : forall left s, preNewton solve left (upC c) Q (sh W) C1 C2 (upS s) =
    thenDo (fun r => (upS (fst r), snd r)) (preNewton solve left c Q W C1 C2 s).
  Proof.
    induction left as [|l IH]; intros s; [reflexivity|]. cbn [preNewton]. cbv zeta.
    change (nodesOf (cz (upC c)) (cB (upC c)) (cBe (upC c)) (ph (upS s)) (pV (upS s)) (pA (upS s)) (pSf (upS s))) with (nodesOf (map sh (cz c)) (cB c) (cBe c) (ph s) (pV s) (pA s) (pSf s)).
    change (reachesOf (cdx (upC c)) (cSeep (upC c)) (cS0 (upC c))) with (reachesOf (cdx c) (cSeep c) (cS0 c)).
    rewrite nodes_u, err_u, do_bind. bx err. rewrite band_u, do_bind. bx band. change (pDelta (upS s)) with (pDelta s). rewrite do_bind. bx delta.
    change (length (cz (upC c))) with (length (map sh (cz c))). rewrite map_length, do_bind. bx dh. rewrite do_bind. bx dV.
    change (cTol (upC c)) with (cTol c). destruct (forallb _ delta); [reflexivity|]. exact (IH (mkPst _ _ _ _ (pDsWl s) _ _)).
  Qed.
  Lemma preStep_u solve N c qE wE Q W s : seepOK (cTheta c) -> preStep solve N (upC c) qE (sh wE) Q (sh W) (upS s) = thenDo upS (preStep solve N c qE wE Q W s).
  Proof.
    intros K. unfold preStep. cbv zeta.
    change (nodesOf (cz (upC c)) (cB (upC c)) (cBe (upC c)) (ph (upS s)) (pV (upS s)) (pA (upS s)) (pSf (upS s))) with (nodesOf (map sh (cz c)) (cB c) (cBe c) (ph s) (pV s) (pA s) (pSf s)).
    change (reachesOf (cdx (upC c)) (cSeep (upC c)) (cS0 (upC c))) with (reachesOf (cdx c) (cSeep c) (cS0 c)). change (pDsWl (upS s)) with (sh (pDsWl s)).
    rewrite nodes_u, C1_u, C2_u by exact K. change (cMaxIt (upC c)) with (cMaxIt c).
    change (mkPst (ph (upS s)) (pV (upS s)) (pA (upS s)) (pSf (upS s)) (sh W) (pDelta (upS s)) (pOut (upS s))) with (upS (mkPst (ph s) (pV s) (pA s) (pSf s) W (pDelta s) (pOut s))).
    rewrite newton_u, bind_do, do_bind. bx r. destruct r as [s1 conv]. cbn [fst snd]. destruct conv; [reflexivity|].
    change (cz (upC c)) with (map sh (cz c)). rewrite solveSteady_u. change (cdx (upC c)) with (cdx c). change (cB (upC c)) with (cB c). change (cn (upC c)) with (cn c).
    rewrite do_bind. bx r. destruct r as [hs vs]. reflexivity.
  Qed.
  Lemma preLoop_u solve N c qE wE : seepOK (cTheta c) -> forall bc s,
    preLoop solve N (upC c) qE (sh wE) (map (fun p => (fst p, sh (snd p))) bc) (upS s) = thenDo upS (preLoop solve N c qE wE bc s).
  Proof.
    intros K. induction bc as [|[Q W] bc IH]; intros s; [reflexivity|]. cbn [map preLoop fst snd]. rewrite (preStep_u _ _ _ _ _ _ _ _ K), bind_do, do_bind. bx s1. apply IH.
  Qed.
  Lemma preInit_u z B la ll cl h V dx dt N P : preInit (map sh z) B la ll cl h V dx dt N (uP P) = thenDo (fun r => (upC (fst r), upS (snd r))) (preInit z B la ll cl h V dx dt N P).
  Proof.
    unfold preInit. rewrite map_length. cbv zeta. destruct (negb _); [reflexivity|]. rewrite do_bind. bx d2. rewrite last_map, bind_do, do_bind. bx zn. rewrite do_bind. bx hn.
    cbn [thenDo fst snd]. rewrite add_s, reaches_map. rewrite (reaches_ext (fun a b r => (sh a - sh b) / r) (fun a b d => (a - b) / d)) by (intros; rewrite sub_ss; reflexivity).
    reflexivity.
  Qed.
  Lemma preInit_theta z B la ll cl h V dx dt N P c s : preInit z B la ll cl h V dx dt N P = Ok (c, s) -> cTheta c = nTheta N.
  Proof.
    unfold preInit. cbv zeta. destruct (negb _); [discriminate|]. intros H. apply bind_ok in H. destruct H as (d2 & _ & H). apply bind_ok in H. destruct H as (zn & _ & H). apply bind_ok in H.
    destruct H as (hn & _ & H). apply Ok_inj in H. pose proof (f_equal fst H) as Q. cbn [fst] in Q. rewrite <- Q. reflexivity.
  Qed.
  Lemma preissmann_u solve z B la ll cl h V dx dt Qs Ws N P : seepOK (nTheta N) ->
    solveFullPreissmann solve (map sh z) B la ll cl h V dx dt Qs (map sh Ws) N (uP P) = solveFullPreissmann solve z B la ll cl h V dx dt Qs Ws N P.
  Proof.
    intros K. unfold solveFullPreissmann. rewrite preInit_u, bind_do. apply bind_ext_ok. intros [c s] E. apply preInit_theta in E. cbn [fst snd]. rewrite map_length.
    destruct (Nat.ltb _ _); [reflexivity|]. rewrite <- map_rev. destruct (rev Qs) as [|qE qs]; [destruct (rev Ws); reflexivity|]. destruct (rev Ws) as [|wE ws]; [reflexivity|]. cbn [map].
    rewrite combine_r, preLoop_u by (rewrite E; exact K). rewrite bind_do. bx s1. reflexivity.
  Qed.

  (** ** The channel *)
  Lemma x0_u T : x0Ix (map up T) = x0Ix T.
  Proof. unfold x0Ix. rewrite (first_map up _ (fun t => tX t =? f0)) by reflexivity. reflexivity. Qed.
  Lemma ixLR_u T a b : ixLR (map up T) a b = ixLR T a b. Proof. unfold ixLR. apply where_map. reflexivity. Qed.
  Lemma ixRL_u T a b : ixRL (map up T) a b = ixRL T a b. Proof. unfold ixRL. f_equal. apply where_map. reflexivity. Qed.
  Lemma outletIx_u T a b : outletIx (map up T) a b = outletIx T a b. Proof. unfold outletIx. rewrite ixLR_u, ixRL_u. reflexivity. Qed.
  Lemma area_u Dx T : areaOf Dx (map up T) = areaOf Dx T.
  Proof. unfold areaOf. rewrite (map_inv up _ (fun t => lagoonWidth t * Dx)) by reflexivity. reflexivity. Qed.
  Lemma len_u Dx T : lenOf Dx (map up T) = lenOf Dx T.
  Proof. unfold lenOf. rewrite (map_inv up _ (fun t => fofb (f0 <? lagoonWidth t) * Dx)) by reflexivity. reflexivity. Qed.
  Lemma outletPart_u P T e0 e1 w cl : outletPart (uP P) (map up T) e0 e1 w cl = outletPart P T e0 e1 w cl.
  Proof.
    unfold outletPart. destruct cl; [reflexivity|]. cbv zeta. rewrite outletIx_u, gather_map, bind_do. bx ts. rewrite (map_inv up outletWidth outletWidth) by reflexivity. reflexivity.
  Qed.
  Lemma lagoonPart_u Dx T x0 e0 cl : lagoonPart Dx (map up T) x0 e0 cl = lagoonPart Dx T x0 e0 cl.
  Proof.
    unfold lagoonPart. cbv zeta. rewrite !skipn_map, !firstn_map, !area_u, !len_u.
    rewrite (lastw_map up (fun t => f0 <? lagoonWidth t) (fun t => f0 <? lagoonWidth t)) by reflexivity.
    rewrite (first_map up (fun t => f0 <? lagoonWidth t) (fun t => f0 <? lagoonWidth t)) by reflexivity.
    rewrite (lastw_map up (fun t => tX t <? e0) (fun t => tX t <? e0)) by reflexivity.
    rewrite (first_map up (fun t => e0 <? tX t) (fun t => e0 <? tX t)) by reflexivity.
    rewrite (filter_map up (fun t => e0 <? tX t) (fun t => e0 <? tX t)) by reflexivity.
    rewrite (filter_map up (fun t => tX t <? e0) (fun t => tX t <? e0)) by reflexivity. rewrite !area_u, !len_u. reflexivity.
  Qed.
  Lemma lagoonCut_u P Dx T on ea el cl : lagoonCut (uP P) Dx (map up T) on ea el cl = lagoonCut P Dx T on ea el cl.
  Proof.
    unfold lagoonCut. rewrite gather_map, bind_do. bx ts. rewrite (first_map up (fun t => lagoonWidth t <? pMinOutletWidth (uP P)) (fun t => lagoonWidth t <? pMinOutletWidth P)) by reflexivity.
    destruct (first_where _ _) as [k|]; [|reflexivity]. rewrite skipn_map, area_u, len_u. reflexivity.
  Qed.
  Lemma pymin_u a b : pymin (sh a) (sh b) = sh (pymin a b).
  Proof. unfold pymin. rewrite ltb_ss. destruct (_ <? _); reflexivity. Qed.
  Lemma chanShape_u P Dx T e0 e1 eW eE cl RE on out ow : chanShape (uP P) Dx (map up T) e0 e1 eW (sh eE) cl (map sh RE) on out ow =
    thenDo (fun r => let '(dx, fl, el, wd) := r in (dx, fl, map sh el, wd)) (chanShape P Dx T e0 e1 eW eE cl RE on out ow).
  Proof.
    unfold chanShape. cbv zeta. rewrite gather_map, bind_do, do_bind. bx lts. rewrite map_length, (map_inv up lagoonWidth lagoonWidth) by reflexivity.
    rewrite (map_inv up tZ3 (fun t => sh (tZ3 t))), <- (map_map tZ3 sh) by reflexivity.
    destruct cl; [cbn [thenDo]; rewrite map_app; reflexivity|]. rewrite gather_map, bind_do, do_bind. bx ots. cbn [thenDo].
    rewrite (map_inv up tZ1 (fun t => sh (tZ1 t))), <- (map_map tZ1 sh) by reflexivity. change (pMaxOutletElev (uP P)) with (sh (pMaxOutletElev P)). rewrite pymin_u, !map_app. reflexivity.
  Qed.
  Lemma chanHyd_u T cl a b c d e f g h on out : chanHyd (map up T) cl a b (map sh c) d e f g h on out = chanHyd T cl a b c d e f g h on out.
  Proof.
    unfold chanHyd. rewrite gather_map, bind_do. bx lts. rewrite gather_map, bind_do. bx wl. bx lv. cbv zeta.
    rewrite (map_inv up tZ3 (fun t => sh (tZ3 t))), <- (map_map tZ3 sh) by reflexivity.
    rewrite (map2_l sh fsub (fun x y => sh x - y)) by reflexivity. rewrite (map2_r sh (fun x y => sh x - y) fsub) by (intros; apply sub_ss). reflexivity.
  Qed.
  Lemma assemble_u T e0 e1 eW eE cl RE a b c d e f g h Dx P :
    assembleChannel (map up T) e0 e1 eW (sh eE) cl (map sh RE) a b (map sh c) d e f g h Dx (uP P) = thenDo (raisedChannel sh) (assembleChannel T e0 e1 eW eE cl RE a b c d e f g h Dx P).
  Proof.
    unfold assembleChannel. cbv zeta. rewrite x0_u, do_bind. bx x0. rewrite outletPart_u, do_bind. bx r. destruct r as [[out ow] cl']. rewrite ix_map, bind_do, do_bind. bx t0.
    change (lagoonWidth (up t0)) with (lagoonWidth t0). rewrite do_bind. bx u.
    rewrite (forallb_map up _ (fun t => negb (fisnan (lagoonWidth t)))) by reflexivity. rewrite do_bind. bx u1. rewrite lagoonPart_u, do_bind. bx r. destruct r as [[[[on sa] sl] ea] el].
    rewrite do_bind. bx u2. rewrite lagoonCut_u, do_bind. bx r. destruct r as [[[on' ea'] el'] cl'']. rewrite do_bind. bx i0. rewrite do_bind. bx il. rewrite do_bind. bx u3.
    rewrite gather_map, bind_do, do_bind. bx lts. rewrite (forallb_map up _ (fun t => f0 <? lagoonWidth t)) by reflexivity. rewrite do_bind. bx u4.
    rewrite chanShape_u, bind_do, do_bind. bx r. destruct r as [[[dx fl] el2] wd]. rewrite chanHyd_u, do_bind. bx r. destruct r as [dep vel].
    rewrite do_bind. bx dep'. rewrite do_bind. bx vel'. rewrite do_bind. bx u5. rewrite do_bind. bx u6. rewrite (existsb_map sh fisnan fisnan) by apply nan_s. rewrite do_bind. bx u7.
    rewrite do_bind. bx u8. rewrite do_bind. bx u9. rewrite do_bind. bx u10. cbn [thenDo]. unfold raisedChannel. cbn [chDx chElev chWidth chLagArea chLagLen chDep chVel chOnline chOutlet chFlag chClosed].
    rewrite map_length, map_map. reflexivity.
  Qed.

  (** ** Boundary series and stored levels *)
  Notation us := (fun p : Z * F => (fst p, sh (snd p))).
  Lemma value_u (s : list (Z * F)) t : valueAt (map us s) t = sh (valueAt s t).
  Proof.
    unfold valueAt. cbv zeta. rewrite (filter_map us _ (fun p => negb (fisnan (snd p)))) by (intros; cbn [snd]; rewrite nan_s; reflexivity). set (l := filter _ s).
    rewrite (filter_map us _ (fun p => (fst p <? t)%Z)) by reflexivity. rewrite (filter_map us _ (fun p => (t <? fst p)%Z)) by reflexivity.
    assert (E : find (fun p => (fst p =? t)%Z) (map us l) = option_map us (find (fun p => (fst p =? t)%Z) l)).
    { clear. induction l as [|p l IH]; [reflexivity|]. cbn [map find fst]. destruct (_ =? _)%Z; [reflexivity|exact IH]. }
    rewrite E. destruct (find _ l) as [p|]; [reflexivity|]. cbn [option_map]. rewrite <- map_rev.
    destruct (rev _) as [|a m]; cbn [map]; [symmetry; exact sh_nan|]. destruct (filter _ l) as [|b q]; cbn [map fst snd]; [reflexivity|]. rewrite sub_ss, add_r. reflexivity.
  Qed.
  Lemma slice_u {A B} (g : A -> B) l a b : slice (map g l) a b = map g (slice l a b).
  Proof. unfold slice. rewrite skipn_map, firstn_map. reflexivity. Qed.
  Lemma interpolate_u (s : list (Z * F)) ts : interpolateAt (map us s) ts = thenDo (map sh) (interpolateAt s ts).
  Proof.
    unfold interpolateAt. rewrite do_bind. bx a. rewrite do_bind. bx b. rewrite (lastw_map us _ (fun p => (fst p <=? a)%Z)) by reflexivity. rewrite do_bind. bx i.
    rewrite (first_map us _ (fun p => (b <=? fst p)%Z)) by reflexivity. rewrite do_bind. bx j. cbn [thenDo]. rewrite slice_u, map_map. f_equal. apply map_ext. intros t. apply value_u.
  Qed.
  Lemma at_u (s : list (Z * F)) t : at1 (map us s) t = thenDo sh (at1 s t).
  Proof. unfold at1. rewrite interpolate_u, bind_do, do_bind. bx l. apply ix_map. Qed.
  Definition upH {A B C D E} (r : list F * A * B * C * D * E) := let '(wl, a, b, c, d, e) := r in (map sh wl, a, b, c, d, e).
  Lemma store_u dep vel on out fl Z cl : storeHydraulics dep vel on out fl (map sh Z) cl = thenDo upH (storeHydraulics dep vel on out fl Z cl).
  Proof.
    unfold storeHydraulics. rewrite map_length. cbv zeta. rewrite do_bind. bx d1. destruct (negb _); [reflexivity|]. destruct (negb _); [reflexivity|]. destruct on as [|o os]; [reflexivity|].
    assert (E : mapi (fun i z => match scat (o :: os) d1 i with Some d => z + d | None => z end) (map sh Z) = map sh (mapi (fun i z => match scat (o :: os) d1 i with Some d => z + d | None => z end) Z)).
    { unfold mapi. rewrite mapi_out. apply mapi_map. intros i x. destruct (scat _ _ _); [apply add_s|reflexivity]. }
    rewrite E. set (wl := mapi _ Z). rewrite ix_map, bind_do, do_bind. bx lo. rewrite ix_map, bind_do, do_bind. bx hi. rewrite do_bind. bx v1. rewrite do_bind. bx lv.
    assert (E2 : forall a b, mapi (fun i w => if Nat.ltb i a then sh lo else if Nat.ltb b i then sh hi else w) (map sh wl) = map sh (mapi (fun i w => if Nat.ltb i a then lo else if Nat.ltb b i then hi else w) wl)).
    { intros a b. unfold mapi. rewrite mapi_out. apply mapi_map. intros i x. destruct (Nat.ltb i a); [reflexivity|]. destruct (Nat.ltb b i); reflexivity. }
    rewrite E2. destruct cl; [reflexivity|]. rewrite do_bind. bx d2. rewrite do_bind. bx v2. rewrite do_bind. bx od. rewrite do_bind. bx ov. rewrite do_bind. bx ed. rewrite do_bind. bx ev. reflexivity.
  Qed.
  Lemma hydraulics_u o v c fl se : seepOK (nTheta (vN v)) -> hydraulics o (raisedSetup sh dn v) (raisedChannel sh c) fl (map sh se) = hydraulics o v c fl se.
  Proof.
    intros K. unfold hydraulics. cbn [raisedSetup raisedChannel vP vN vTP chElev chWidth chLagArea chLagLen chClosed chDep chVel chDx].
    rewrite (preissmann_u _ _ _ _ _ _ _ _ _ _ _ _ _ _ K). destruct (solveFullPreissmann _ _ _ _ _ _ _ _ _ _ _ _ _ _); [reflexivity|].
    bx q. rewrite last_map, bind_do. bx w. apply solveSteady_u.
  Qed.
End Raise.
