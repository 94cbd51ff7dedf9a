(** C114: uninitialised memory can stop a run but not change it. *)
From Coq Require Import Reals ZArith List Bool String Floats.
From Verif Require Import Base Num Xr Flt Sim MState MOut MMor MCore MConf MMain SRun SMain SMem SAdapt PMem PMainEx PMemEx.
Import ListNotations.
Local Open Scope string_scope.

(** Exact arithmetic with undefined values, and double precision. *)
Theorem C114_exact : @nanSticks xr xr_num.
Proof. exact @sticks_xr. Qed.
Print Assumptions C114_exact.

Theorem C114_double : @nanSticks float float_num /\ @nanSticks float sim_num.
Proof. exact (conj sticks_float sticks_sim). Qed.
Print Assumptions C114_double.

Theorem C114_update : forall (F : Type) (NF : Num F), @nanSticks F NF ->
  forall fuel j1 j2 (P : phys F) N TP T e0 e1 W Zend RiverElev online outlet LagoonWL OutletDep CW CD fl closed LST q CST OW dt m,
  updateMorphology fuel j1 j2 P N TP T e0 e1 W Zend RiverElev online outlet LagoonWL OutletDep CW CD fl closed LST q CST OW dt = Ok m ->
  updateMorphology fuel (fun _ => true) (fun _ => true) P N TP T e0 e1 W Zend RiverElev online outlet LagoonWL OutletDep CW CD fl closed LST q CST OW dt = Ok m.
Proof. exact @update_best. Qed.
Print Assumptions C114_update.

Theorem C114_steps : forall (F : Type) (NF : Num F), @nanSticks F NF ->
  forall af n k (o o' : nat -> oracle F) v s s1 s2, (forall i, oSolve (o i) = oSolve (o' i)) ->
  steps af n k o v s = Ok s1 -> steps af n k o' v s = Ok s2 -> s1 = s2.
Proof. exact @steps_unique. Qed.
Print Assumptions C114_steps.

Theorem C114_program : forall (F : Type) (NF : Num F), @nanSticks F NF ->
  forall X W r32 file ow a1 a2 af n (o : nat -> oracle F) fs fs' r,
  main X W r32 file ow a1 a2 af n o fs = (fs', r) -> alive r -> main X W r32 file ow a1 a2 af n (calmAll o) fs = (fs', r).
Proof. exact @main_best. Qed.
Print Assumptions C114_program.

Theorem C114_unique : forall (F : Type) (NF : Num F), @nanSticks F NF ->
  forall X W r32 file ow a1 a2 af n (o o' : nat -> oracle F) fs fs1 fs2 r1 r2, (forall i, oSolve (o i) = oSolve (o' i)) ->
  main X W r32 file ow a1 a2 af n o fs = (fs1, r1) -> main X W r32 file ow a1 a2 af n o' fs = (fs2, r2) -> alive r1 -> alive r2 -> fs1 = fs2 /\ r1 = r2.
Proof. exact @main_unique. Qed.
Print Assumptions C114_unique.

(** Also when it is stopped: what is on disk is what the run with true in memory has on disk earlier. *)
Theorem C114_disk : forall (F : Type) (NF : Num F), @nanSticks F NF ->
  forall X W r32 file ow a1 a2 af n (o : nat -> oracle F) fs, exists m, (m <= n)%nat /\
  fst (main X W r32 file ow a1 a2 af n o fs) = fst (main X W r32 file ow a1 a2 af m (calmAll o) fs).
Proof. exact @main_disk. Qed.
Print Assumptions C114_disk.

(** The program of C102 in double precision: false in memory at transect 10, which has the channel,
    changes nothing; false at transect 0 ends it at the first update. *)
Theorem C114_example : alive (snd (memMain (fun i => negb (Nat.eqb i 10)) 2)) /\ alive (snd (memMain (fun _ => true) 2)) /\
  shown (memMain (fun i => negb (Nat.eqb i 10)) 2) = ([0%Z; sec 960; sec 2880], [0%Z; sec 960; sec 2880], Ok (sec 2880, [], 0)) /\
  shown (memMain (fun i => negb (Nat.eqb i 0)) 2) = ([0%Z], [0%Z], Exc EAssert).
Proof. exact @mem_alive. Qed.
Print Assumptions C114_example.
