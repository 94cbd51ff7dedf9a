(** Model of /repo/hapuamod/coast.py. *)
From Coq Require Import ZArith List Bool.
From Verif Require Import Base Num MState.
Section Coast.
  Context {F : Type} {NF : Num F}.
  Local Open Scope num_scope.

  (** coast.py:56-57: angle of the waves relative to the segment between two
      neighbouring transects. *)
  Definition localEDir (Dx EDir ya yb : F) : F := EDir - fatan ((ya - yb) / Dx).

  (** coast.py:69-74: celerity at breaking over celerity at the data depth.
      [x**0.5] is the power function, not sqrt. *)
  Definition breakerDepth (P : phys F) (WavePower : F) : F :=
    fpow (pBreakerCoef P * WavePower) (fofQ 4 10).
  Definition celB (P : phys F) (WavePower : F) : F :=
    fpow (pGravity P * breakerDepth P WavePower) (fofQ 1 2).
  Definition celH (P : phys F) (WavePeriod Wlen : F) : F :=
    (pGravity P * WavePeriod / (f2 * fpi)) *
    ftanh (f2 * fpi * pWaveDataDepth P / Wlen).

  (** coast.py:76-78, one segment.  The masked copy LocalWavePower of lines 60-62
      is computed by the code but never used, so it does not appear. *)
  Definition lstSegment (P : phys F) (WavePower WavePeriod Wlen a : F) : F :=
    let breakerAngle := fasin (fsin a * (celB P WavePower / celH P WavePeriod Wlen)) in
    (- pK2coef P) * WavePower * fcos a * fsin breakerAngle.

  (** coast.py:7-80 longShoreTransport; [ShoreY] is the column ShoreY[:,0]. *)
  Definition longShoreTransport (ShoreY : list F) (Dx WavePower WavePeriod Wlen EDir : F)
             (P : phys F) : list F :=
    map2 (fun ya yb => lstSegment P WavePower WavePeriod Wlen (localEDir Dx EDir ya yb))
         (removelast ShoreY) (tl ShoreY).

  (** coast.py:82-99 runup *)
  Definition runup (WavePeriod Hs BeachSlope : F) : F :=
    fofQ 49 100 * fpow BeachSlope (fofQ 1 2) * WavePeriod * Hs.

  (** ~np.isnan(ShoreY[:,1]), coast.py:125, mor.py:44 *)
  Definition outletPresent (t : tsect F) : bool := negb (fisnan (tY1 t)).

  (** coast.py:119-122 *)
  Definition cstTransect (P : phys F) (Runup SeaLevel : F) (t : tsect F) : F :=
    pOT_coef P * fpow (fmaximum (Runup + SeaLevel - tZ0 t) f0) (pOT_exp P).

  (** coast.py:128-140.  OverwashProp is a boolean array, used as 0/1 later. *)
  Definition overwashTransect (P : phys F) (t : tsect F) : bool :=
    let present := outletPresent t in
    let crestWidth := if present then tY0 t - tY1 t
                      else fmaximum (tY0 t - tY3 t) (fofQ 1 1000) in
    let noLagoon := if present then false else tY3 t <=? tY4 t in
    let ow := (crestWidth * pBarRatSlope P + pBarRatInt P) <? tZ0 t in
    let ow := if noLagoon then false else ow in
    let zeroWidth := if present then tY1 t <=? tY2 t else false in
    if zeroWidth then true else ow.

  (** coast.py:101-146 overtopping.  The first assertion (line 143) compares
      booleans with 0 and 1 and always holds; the second is kept. *)
  Definition overtopping (P : phys F) (Runup SeaLevel : F) (T : list (tsect F))
    : res (list F * list bool) :=
    let cst := map (cstTransect P Runup SeaLevel) T in
    let ow := map (overwashTransect P) T in
    let! _ := assert_ (forallb (fun q => f0 <=? q) cst) in
    Ok (cst, ow).
End Coast.
