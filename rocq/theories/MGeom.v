(** Model of /repo/hapuamod/geom.py. *)
From Coq Require Import ZArith List Bool.
From Verif Require Import Base Num.
Section Geom.
  Context {F : Type} {NF : Num F}.
  Local Open Scope num_scope.

  (** geom.py:13-24 mod2real.  Coordinates are scalars here; the code applies the
      same expression elementwise to arrays. *)
  Definition mod2real (Xmod Ymod : F) (Origin : F * F) (Dir : F) : F * F :=
    ( fst Origin + Xmod * fsin (Dir + fpi / f2) - Ymod * fcos (Dir + fpi / f2),
      snd Origin + Xmod * fcos (Dir + fpi / f2) + Ymod * fsin (Dir + fpi / f2) ).

  (** geom.py:26-37 real2mod; [Xrelative**2] is written as a product. *)
  Definition real2mod (Xreal Yreal : F) (Origin : F * F) (Dir : F) : F * F :=
    let xr := Xreal - fst Origin in
    let yr := Yreal - snd Origin in
    let dist := fsqrt (fsq xr + fsq yr) in
    let dir := fatan2 xr yr in
    ( dist * fcos (Dir - dir + fpi / f2),
      dist * fsin (Dir - dir + fpi / f2) ).

  (** geom.py:39-69 intersectPolyline.  [Polyline[:,0]] and [[:,1]] are the two
      components of each point. *)
  Definition intersectPolyline (Polyline : list (F * F)) (Xcoord : F) : res (list F) :=
    (* 56 *) let left := map (fun p => fst p <? Xcoord) Polyline in
    (* 59 *) let ints := where_ (fun b => b) (map2 xorb (removelast left) (tl left)) in
    (* 62-67 *)
    all_ok (map (fun i =>
      let! p := ix Polyline i in
      let! q := ix Polyline (S i) in
      Ok (snd p + (Xcoord - fst p) * (snd q - snd p) / (fst q - fst p))) ints).

  (** One of the two halves of trimLine.  [a], [b]: the two nodes that define the
      end segment of the line, in the order in which the code uses them
      (LineX[0], LineX[1] at the start, geom.py:92-100; LineX[-2], LineX[-1] at
      the end, 125-133). *)
  Definition trimDen (a b : F * F) (TX TY : list F) (k : Z) : res (F * F * F * F * F) :=
    let! t0 := pynth TX k in
    let! t1 := pynth TX (k + 1) in
    let! y0 := pynth TY k in
    let! y1 := pynth TY (k + 1) in
    Ok (t0, t1, y0, y1,
        (fst a - fst b) * (y0 - y1) - (snd a - snd b) * (t0 - t1)).

  (** geom.py:90-107 / 123-140: the search loop.  [TrimSeg] is a Python integer and
      may become negative, which indexes from the end.  [fuel] bounds the number
      of passes. *)
  Fixpoint trimSearch (fuel : nat) (a b : F * F) (TX TY : list F) (k : Z) : res (Z * F) :=
    match fuel with
    | O => Exc EFuel
    | S f =>
      let! (t0, t1, y0, y1, den) := trimDen a b TX TY k in
      let xi := ((fst a * snd b - snd a * fst b) * (t0 - t1)
                 - (fst a - fst b) * (t0 * y1 - y0 * t1)) / den in
      if xi <? t0 then trimSearch f a b TX TY (k - 1)
      else if t1 <? xi then trimSearch f a b TX TY (k + 1)
      else Ok (k, xi)
    end.

  (** geom.py:88-117 / 121-150: initial segment, search, Y of the intersection.
      [e]: the X coordinate of the node being moved. *)
  Definition trimEnd (fuel : nat) (e : F) (a b : F * F) (TX TY : list F) : res (F * F) :=
    let! k0 := of_opt EIndex
       (first_where (fun b => b)
          (map2 (fun hi lo => (e <=? hi) && (lo <? e)) (tl TX) (removelast TX))) in
    let! (k, xi) := trimSearch fuel a b TX TY (Z.of_nat k0) in
    let! (t0, t1, y0, y1, den) := trimDen a b TX TY k in
    Ok (xi, ((fst a * snd b - snd a * fst b) * (y0 - y1)
             - (snd a - snd b) * (t0 * y1 - y0 * t1)) / den).

  (** geom.py:71-150 trimLine.  The line is a list of (X, Y) nodes; the in-place
      update of the first and last node is returned. *)
  Definition trimLine (fuel : nat) (Line : list (F * F)) (TX SY EY : list F) : res (list (F * F)) :=
    let! a := ix Line 0 in
    let! b := ix Line 1 in
    let! e := trimEnd fuel (fst a) a b TX SY in
    let Line1 := upd Line 0 e in
    let n := length Line1 in
    let! y := pynth Line1 (-2) in
    let! z := pynth Line1 (-1) in
    let! e2 := trimEnd fuel (fst z) y z TX EY in
    Ok (upd Line1 (n - 1) e2).
End Geom.
