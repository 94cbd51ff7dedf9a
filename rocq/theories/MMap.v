(** Model of /repo/hapuamod/visualise.py:14-64 mapView: what is drawn in real world coordinates. *)
From Coq Require Import ZArith List Bool.
From Verif Require Import Base Num MState MGeom.
Import ListNotations.

(** The drawn lines and arrows.  Colours, labels' texts, the legend and axis scaling are not
    modelled. *)
Record mapfig (F : Type) := mkMap {
  mvShore : list (F * F); mvOutlet : list (F * F); mvLagoon : list (F * F); mvCliff : list (F * F);
  mvRiver : list (F * F); mvEnd1 : list (F * F); mvEnd2 : list (F * F); mvOrigin : F * F;
  mvArrowX : (F * F) * (F * F); mvArrowY : (F * F) * (F * F);      (* base and extent *)
  mvLabelX : F * F; mvLabelY : F * F
}.
Arguments mkMap {F}. Arguments mvShore {F}. Arguments mvOutlet {F}. Arguments mvLagoon {F}. Arguments mvCliff {F}.
Arguments mvRiver {F}. Arguments mvEnd1 {F}. Arguments mvEnd2 {F}. Arguments mvOrigin {F}. Arguments mvArrowX {F}.
Arguments mvArrowY {F}. Arguments mvLabelX {F}. Arguments mvLabelY {F}.

Section Map.
  Context {F : Type} {NF : Num F}.
  Local Open Scope num_scope.
  (** np.min: NaN if one entry is NaN; ValueError for an empty array *)
  Definition fminl (l : list F) : res F :=
    match l with [] => Exc EValue | x :: r => Ok (fold_left fminimum r x) end.

  Definition mapView (T : list (tsect F)) (Origin : F * F) (Dir : F) : res (mapfig F) :=
    (* 18-20 *) let real x y := mod2real x y Origin Dir in
    let line y := map (fun t => real (tX t) (y t)) T in
    (* 23-26 *)
    let! mn := fminl (map tY4 T) in
    let! c := intersectPolyline (map (fun t => (tX t, tY4 t)) T) f0 in
    let! yc := ix c 0 in
    let river := [real f0 (mn * fofZ 3); real f0 yc] in
    (* 36-38 *)
    let ends := where_ (fun t => negb (fisnan (tY3 t))) T in
    let! e0 := ix ends 0 in
    let! e1 := pynth ends (-1) in
    let! t0 := ix T e0 in
    let! t1 := ix T e1 in
    let side t := [real (tX t) (tY3 t); real (tX t) (tY4 t)] in
    (* 42-46 *)
    let! xa := ix T 0 in
    let! xz := pynth T (-1) in
    let b0 := real (tX xa) f0 in
    let b1 := real f0 f0 in
    let b2 := real (tX xz) f0 in
    let ax := (fst b2 - fst b0) / fofZ 20 in
    let ay := (snd b2 - snd b0) / fofZ 20 in
    (* 47-54 *)
    Ok (mkMap (line tY0) (line tY2) (line tY3) (line tY4) river (side t0) (side t1) Origin
              (b1, (ax, ay)) (b1, (- ay, ax))
              (fst b1 + ax * fofQ 24 10, snd b1 + ay * fofQ 24 10)
              (fst b1 - ay * fofQ 24 10, snd b1 + ax * fofQ 24 10)).
End Map.
