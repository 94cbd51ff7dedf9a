(** Sediment made by the reworking of transects (mor.py:217-692), exact arithmetic. *)
From Coq Require Import ZArith List Bool Lia Reals Lra.
From Verif Require Import Base Num Xr MState MCoast MRiv MMor SMor SVol STouch SLedger PRate PCap PVol PQuiet PLedger.
Import ListNotations.
Local Open Scope R_scope.

Lemma chan_same (t : tsect xr) : hasChannel t = outletPresent t. Proof. reflexivity. Qed.
Lemma has_no t : hasChannel t = false -> tY1 t = NaN. Proof. apply absent. Qed.
Lemma fin_has y : fisnan (Fin y) = false. Proof. reflexivity. Qed.
Lemma xq z p : fofQ z p = Fin (IZR z / IZR (Zpos p)). Proof. reflexivity. Qed.
Lemma pmax_fin a b : pymax (Fin a) (Fin b) = Fin (Rmax a b).
Proof. unfold pymax. cbn. destruct (Rltb a b) eqn:E; [apply Rltb_true in E; rewrite Rmax_right by lra|apply Rltb_false in E; rewrite Rmax_left by lra]; reflexivity. Qed.
Lemma pmin_fin a b : pymin (Fin a) (Fin b) = Fin (Rmin a b).
Proof. unfold pymin. cbn. destruct (Rltb b a) eqn:E; [apply Rltb_true in E; rewrite Rmin_right by lra|apply Rltb_false in E; rewrite Rmin_left by lra]; reflexivity. Qed.

Section Worth.
  Variables (P : phys xr) (w z : R) (t0 : tsect xr).
  Hypothesis NP : numberedPars P.
  Hypothesis N0 : numbers t0.
  Lemma bar_fin : is_fin (barWidth t0) /\ is_fin (barBack t0).
  Proof.
    destruct N0 as ((a & A) & (b & B) & _ & (c & C) & (e & E) & H). unfold barWidth, barBack. destruct (hasChannel t0) eqn:Q.
    - destruct (H eq_refl) as ((p & PP) & _ & (r & RR) & _). rewrite A, PP, C, RR. split; eexists; reflexivity.
    - rewrite A, B, C, E. split; eexists; reflexivity.
  Qed.
  Ltac cols := cbn [tX tY0 tY1 tY2 tY3 tY4 tZ0 tZ1 tZ2 tZ3 hasChannel] in *.
  Ltac fin := eexists; reflexivity.
  Ltac done := split; [do 5 (split; [fin|]); intros EC; first [discriminate EC|repeat (split; [fin|]); fin]|].
  (** Rows of a transect with or without channel. *)
  Lemma row_cases t : numbers t -> exists x y0 y3 y4 z0 z3,
    (exists y1 y2 z1 z2, t = mkT x (Fin y0) (Fin y1) (Fin y2) (Fin y3) (Fin y4) (Fin z0) (Fin z1) (Fin z2) (Fin z3)) \/
    (exists q z1 z2, t = mkT x (Fin y0) NaN q (Fin y3) (Fin y4) (Fin z0) z1 z2 (Fin z3)).
  Proof.
    intros ((y0 & Y0) & (y3 & Y3) & (y4 & Y4) & (z0 & Z0) & (z3 & Z3) & NC). exists (tX t), y0, y3, y4, z0, z3. destruct (hasChannel t) eqn:E.
    - left. destruct (NC eq_refl) as ((y1 & Y1) & (y2 & Y2) & (z1 & Z1) & (z2 & Z2)). exists y1, y2, z1, z2. destruct t; cols. congruence.
    - right. apply has_no in E. exists (tY2 t), (tZ1 t), (tZ2 t). destruct t; cols. congruence.
  Qed.
  Lemma worth_section k t t' : reworked P (Fin w) (Fin z) t0 k t t' -> numbers t -> proper P t0 k t ->
    numbers t' /\ section P t' = section P t + worth P w z t0 k t.
  Proof.
    intros H N Q. destruct NP as ((cl & CL) & (B & HB) & (bt & BT) & (sp & SP) & (mw & MW) & (mo & MO)).
    destruct N0 as (_ & _ & _ & (z00 & Z00) & _). destruct bar_fin as ((bw & BW) & (bb & BB)).
    destruct (row_cases t N) as (x & y0 & y3 & y4 & z0 & z3 & R). clear N.
    destruct H as [t over ret H H0 H1|t v H H0 H1 H2|t v H H0 H1 H2|t v l H H0 H1 H2|t|t s H H0|t|t y5 H H0 H1|t y5 over ret H H0 H1 H2 H3|t|t|t over s H H0 H1|t|t w0 z1 y1 y2 y5 y6 H H0 H1 H2 H3 H4|t H]; cbn [proper] in Q; unfold section; rewrite <- !chan_same; unfold worth, numbers, innerTop, missing, cliffRetreat, restored; 
      rewrite ?CL, ?HB, ?BT, ?SP, ?MW, ?MO, ?Z00, ?BW, ?BB in *; cbn [rv] in *.
    - (* Cliff *)
      destruct Q as (Q1 & Q2).
      assert (EO : over = Fin (y4 - y0 + 1 / 1000)) by (subst over; destruct R as [(y1 & y2 & z1 & z2 & ->)|(q & z1 & z2 & ->)]; reflexivity).
      assert (ER : ret = Fin ((y4 - y0 + 1 / 1000) * (cl + z00) / (cl + z00 + (B - z0)))).
      { subst ret. rewrite EO. assert (Z : tZ0 t = Fin z0) by (destruct R as [(y1 & y2 & z1 & z2 & ->)|(q & z1 & z2 & ->)]; reflexivity). rewrite Z in *. cbn [rv] in Q2.
        assert (1 + (B - z0) / (cl + z00) <> 0). { intro X. apply Q2. replace (cl + z00 + (B - z0)) with ((1 + (B - z0) / (cl + z00)) * (cl + z00)) by (field; auto). rewrite X. ring. }
        xf. f_equal. field. auto. }
      rewrite EO, ER. clear over ret H0 H1 EO ER.
      destruct R as [(y1 & y2 & z1 & z2 & ->)|(q & z1 & z2 & ->)]; cols; cbn [rv] in Q2; (done; cbn [hasChannel tY1 fisnan negb rv xr_num]; cols; xf; cbn; field; auto).
    - (* Front *)
      destruct Q as (Q1 & Q2 & Q3). destruct R as [(y1 & y2 & z1 & z2 & ->)|(q & z1 & z2 & ->)]; cols; [|rewrite ltb_nan_l in H; discriminate].
      subst v. rewrite x0 in *. rewrite !PRate.xsub in *. rewrite ?PRate.xmul in *. rewrite ltb_fin in H, H2. rewrite leb_fin in H0. rb. cbn [rv] in *.
      xf. done. cbn. destruct (Rle_dec z0 z2) as [|X]; [|lra].
      assert (M : (y2 - y1) * bb / bw <= z2 - z0).
      { apply (Rmult_le_reg_r bw); [lra|]. replace ((y2 - y1) * bb / bw * bw) with ((y2 - y1) * bb) by (field; lra). lra. }
      rewrite Rmin_left by exact M. field. lra.
    - (* Rear *)
      destruct Q as (Q1 & Q2 & Q3). destruct R as [(y1 & y2 & z1 & z2 & ->)|(q & z1 & z2 & ->)]; cols; [|rewrite ltb_nan_l in H; discriminate].
      subst v. rewrite x0 in *. rewrite !PRate.xsub in *. rewrite ?PRate.xmul in *. rewrite ltb_fin in H, H0. rb. cbn [rv] in *.
      assert (y2 - y3 <> 0) by lra. xf. done. cbn. destruct (Rle_dec z0 z2) as [X|X]; [lra|]. field. lra.
    - (* Flat *)
      destruct Q as (Q1 & Q2 & Q3). destruct R as [(y1 & y2 & z1 & z2 & ->)|(q & z1 & z2 & ->)]; cols; [|rewrite ltb_nan_l in H; discriminate].
      subst v. rewrite x0 in *. rewrite !PRate.xsub in *. rewrite ?PRate.xmul, ?PRate.xopp in *. rewrite ltb_fin in H. cbn [rv] in *.
      assert (y0 - y3 <> 0) by lra. destruct H2 as [(A & ->)|(A & ->)].
      + rewrite leb_fin in A. rewrite ?PRate.xmul in *. rewrite ltb_fin in H1. rb. xf. done. cbn. destruct (Rle_dec z0 z2) as [X|X]; [|lra].
        assert (M : z2 - z0 <= (y2 - y1) * bb / bw).
        { apply (Rmult_le_reg_r bw); [lra|]. replace ((y2 - y1) * bb / bw * bw) with ((y2 - y1) * bb) by (field; lra). lra. }
        rewrite Rmin_right by exact M. rewrite Rmax_right by lra. field. lra.
      + rewrite ltb_fin in A. rewrite ?PRate.xmul in *. rewrite ltb_fin in H1. rb. xf. done. cbn. destruct (Rle_dec z0 z2) as [X|X]; [lra|].
        rewrite Rmax_left by lra. field. lra.
    - (* Elongate *)
      destruct R as [(y1 & y2 & z1 & z2 & ->)|(q & z1 & z2 & ->)]; cols; xf; (done; cbn; ring).
    - (* Seaward *)
      destruct R as [(y1 & y2 & z1 & z2 & ->)|(q & z1 & z2 & ->)]; cols; [|rewrite leb_nan_r in H; discriminate]. cbn [rv] in Q.
      subst s. rewrite xq. assert (z2 - z1 <> 0) by lra. xf. done. cbn. field. lra.
    - (* Swallow *)
      destruct R as [(y1 & y2 & z1 & z2 & ->)|(q & z1 & z2 & ->)]; cols; [|discriminate]. xf. done. cbn. ring.
    - (* Crowd *)
      destruct Q as (Q & Q2 & Q3). destruct R as [(y1 & y2 & z1 & z2 & ->)|(q & z1 & z2 & ->)]; cols; [|discriminate].
      subst y5. rewrite xq in *. rewrite PRate.xsub in *. rewrite ltb_fin in H1. rb. done. cbn. rewrite Rmax_left by lra. field.
    - (* CrowdCliff *)
      destruct Q as (Q & Q2 & Q3). destruct R as [(y1 & y2 & z1 & z2 & ->)|(q & z1 & z2 & ->)]; cols; [|discriminate]. cbn [rv] in *.
      assert (N1 : z2 - z1 <> 0) by lra.
      assert (N2 : 1 + (B - z2) / (z2 - z1) <> 0). { intro X. apply Q3. replace B with ((1 + (B - z2) / (z2 - z1)) * (z2 - z1) + z1) by (field; auto). rewrite X. ring. }
      assert (N3 : B - z1 <> 0) by lra.
      assert (ER : ret = Fin ((y4 - (y2 - 1 / 10000)) * (z2 - z1) / (B - z1))).
      { subst ret over y5. rewrite xq. xf. f_equal. field. repeat split; auto; lra. }
      subst y5 over. rewrite ER. rewrite xq in *. rewrite PRate.xsub in *. rewrite ltb_fin in H1. rb. xf. done. cbn. rewrite Rmax_right by lra. field. auto.
    - (* Merge *)
      destruct Q as (Q & Q2). destruct R as [(y1 & y2 & z1 & z2 & ->)|(q & z1 & z2 & ->)]; cols; [|discriminate]. cbn [rv] in *.
      assert (y1 - y4 <> 0) by lra. xf. done. cbn. field. auto.
    - (* Fill *)
      destruct Q as (Q & Q2). destruct R as [(y1 & y2 & z1 & z2 & ->)|(q & z1 & z2 & ->)]; cols; [|discriminate]. cbn [rv] in *.
      xf. done. cbn. field. auto.
    - (* Restore *)
      destruct Q as (Q1 & Q2).
      assert (EO : over = Fin (1 / 1000 + (y3 - y0))) by (subst over; destruct R as [(y1 & y2 & z1 & z2 & ->)|(q & z1 & z2 & ->)]; reflexivity).
      assert (ER : s = Fin ((1 / 1000 + (y3 - y0)) * (z0 - z3) / (z0 - z3 + (cl + z00)))).
      { subst s. rewrite EO. assert (Z : tZ0 t = Fin z0 /\ tZ3 t = Fin z3) by (destruct R as [(y1 & y2 & z1 & z2 & ->)|(q & z1 & z2 & ->)]; split; reflexivity).
        destruct Z as (Z & Z'). rewrite Z, Z' in *. cbn [rv] in Q1, Q2. assert (z0 - z3 <> 0) by lra.
        assert (1 + (cl + z00) / (z0 - z3) <> 0). { intro X. apply Q2. replace (z0 - z3 + (cl + z00)) with ((1 + (cl + z00) / (z0 - z3)) * (z0 - z3)) by (field; auto). rewrite X. ring. }
        xf. f_equal. field. auto. }
      rewrite EO, ER. clear over s H0 H1 EO ER.
      destruct R as [(y1 & y2 & z1 & z2 & ->)|(q & z1 & z2 & ->)]; cols; cbn [rv] in *; xf; (done; cbn; field; auto).
    - (* Raise *)
      destruct Q as (z2' & Q). destruct R as [(y1 & y2 & z1 & z2 & ->)|(q & z1 & z2 & ->)]; cols; [|subst z2]; xf; (done; cbn).
      + assert (M : Rmax z0 z2 = z0 + Rmax (z2 - z0) 0) by (unfold Rmax; destruct (Rle_dec _ _), (Rle_dec _ _); lra). rewrite M. ring.
      + assert (M : Rmax z0 z2' = z0 + Rmax (z2' - z0) 0) by (unfold Rmax; destruct (Rle_dec _ _), (Rle_dec _ _); lra). rewrite M. ring.
    - (* Breach *)
      set (W := Rmax w (2 * mw)). set (Z := Rmin z mo). set (Y := Rmin (y0 - sp) ((y0 + y3) / 2 + W / 2)).
      assert (EW : w0 = Fin W) by (subst w0; rewrite x2, PRate.xmul; apply pmax_fin).
      assert (EZ : z1 = Fin Z) by (subst z1; apply pmin_fin).
      assert (C : forall y e, (if (Fin y <=? Fin e)%n then Fin y - fofQ 1 1000 else Fin e)%n = Fin (cutTo y e)).
      { intros y e. rewrite leb_fin. unfold cutTo. destruct (Rleb y e) eqn:E; rb; destruct (Rle_dec y e); try lra; reflexivity. }
      assert (EY : y1 = Fin Y).
      { subst y1. rewrite EW. destruct R as [(a & b & c & e & ->)|(q & c & e & ->)]; cols; rewrite x2; xf; apply pmin_fin. }
      assert (BW' : breachWide P w = W) by (unfold breachWide; rewrite MW; reflexivity).
      assert (BS' : breachSea P w t = Y) by (unfold breachSea; rewrite BW', SP; destruct R as [(a & b & c & e & ->)|(q & c & e & ->)]; reflexivity).
      rewrite BS', BW'. clear BS' BW'. subst y5 y6 y2. rewrite EY, EW, EZ. clear H H0 H1 EW EZ EY. rewrite PRate.xsub.
      destruct R as [(a & b & c & e & ->)|(q & c & e & ->)]; cols; rewrite !C, !xq; xf; (done; cbn; field).
    - (* Keep *)
      destruct R as [(y1 & y2 & z1 & z2 & ->)|(q & z1 & z2 & ->)]; cols; rewrite xq; xf; (done; cbn; field).
  Qed.

  (** A whole story. *)
  Lemma story_section n t l u : story P (Fin w) (Fin z) t0 n t l u -> numbers t -> properAll P t0 l ->
    section P u = section P t + made P w z t0 l.
  Proof.
    induction 1 as [n t|n k t t' l u Hn R _ IH]; intros N Q; [unfold made; cbn; lra|]. inversion Q as [|? ? Q1 Q2]; subst. cbn [fst snd] in Q1.
    destruct (worth_section _ _ _ R N Q1) as (N' & E). rewrite (IH N' Q2), E. unfold made. cbn [map rsum fold_right fst snd]. unfold rsum. lra.
  Qed.
End Worth.
