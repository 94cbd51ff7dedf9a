(** Model of preprocessing/WaveDataFromSwanOutput.py: the wave input file from wave model output.

    Not modelled: reading the text file, the unused columns, rounding of the written numbers
    to three decimals. *)
From Coq Require Import ZArith List Bool.
From Verif Require Import Base Num MLoad.
Import ListNotations.
Local Open Scope num_scope.

Section Wave.
  Context {F : Type} {NF : Num F}.

  (** WaveDataFromSwanOutput.py:8-14: the columns of one row that are used. *)
  Record swan := mkSw {
    swYear : Z; swMonth : Z; swDay : Z; swHour : Z; swMin : Z;
    swHs : F; swPeriod : F; swDir : F; swLen : F; swDepth : F; swX : F; swY : F
  }.
  (** WaveDataFromSwanOutput.py:19, 23-26, 52: one row of the file written; the time is
      (year, month, day, hour, minute). *)
  Record wave := mkWv { wvTime : Z * Z * Z * Z * Z; wvPeriod : F; wvLen : F; wvPower : F; wvEDir : F; wvHs : F }.

  (** WaveDataFromSwanOutput.py:15: iloc[:,1:5] has the columns Year, Month, Day and Hour *)
  Definition swanTime (r : swan) : Z * Z * Z * Z * Z := (swYear r, swMonth r, swDay r, swHour r, 0%Z).

  (** WaveDataFromSwanOutput.py:23-24; 9.81 = 981/100; np.power(x,2) is x*x *)
  Definition wavePower (X Y : F) : F := fofZ 1025 * fofQ 981 100 * fsqrt (fsq X + fsq Y).
  (** WaveDataFromSwanOutput.py:25-26; np.rad2deg(x) is x*(180/pi) *)
  Definition energyDir (X Y : F) : F := fmod (fatan2 X Y * (fofZ 180 / fpi) - fofZ 180) (fofZ 360).

  (** WaveDataFromSwanOutput.py:31-33 *)
  Definition beachAngle (norm dir : F) : F :=
    fmod (deg2rad norm - deg2rad dir + fpi / f2) (f2 * fpi) - fpi / f2.
  (** WaveDataFromSwanOutput.py:36 *)
  Definition onshore (a : F) : bool := fabs a <? fpi / f2.
  (** WaveDataFromSwanOutput.py:37-38: height and angle after masking *)
  Definition maskWave (Hs a : F) : F * F := if onshore a then (Hs, a) else (f0, f0).

  (** np.sinh *)
  Definition fsinh (x : F) : F := (fexp x - fexp (- x)) / f2.
  (** WaveDataFromSwanOutput.py:41 *)
  Definition waveNumber (len : F) : F := f2 * fpi / len.
  (** WaveDataFromSwanOutput.py:42-43; 0.5 = 1/2 *)
  Definition groupRatio (len depth : F) : F :=
    fofQ 1 2 * (f1 + f2 * waveNumber len * depth / fsinh (f2 * waveNumber len * depth)).
  (** WaveDataFromSwanOutput.py:46-47 *)
  Definition lengthRatio (len depth : F) : F := f1 / ftanh (f2 * fpi * depth / len).
  (** WaveDataFromSwanOutput.py:49-51 *)
  Definition offshoreAngle (ratio a : F) : F :=
    fasin (fmaximum (fminimum (ratio * fsin a) f1) (- f1)).
  (** WaveDataFromSwanOutput.py:52-55 *)
  Definition offshoreHs (Hs n ratio a0 a : F) : F :=
    Hs / fsqrt (fofQ 1 2 * n * ratio * (fcos a0 / fcos a)).

  (** WaveDataFromSwanOutput.py:15-55, one row *)
  Definition waveRow (norm : F) (r : swan) : wave :=
    let (Hs, a) := maskWave (swHs r) (beachAngle norm (swDir r)) in
    let n := groupRatio (swLen r) (swDepth r) in
    let ratio := lengthRatio (swLen r) (swDepth r) in
    mkWv (swanTime r) (swPeriod r) (swLen r) (wavePower (swX r) (swY r)) (energyDir (swX r) (swY r))
         (offshoreHs Hs n ratio (offshoreAngle ratio a) a).
  (** The whole file. *)
  Definition waveFile (norm : F) (rows : list swan) : list wave := map (waveRow norm) rows.
End Wave.
Arguments swan : clear implicits. Arguments wave : clear implicits.
