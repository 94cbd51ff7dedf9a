(** Specification vocabulary for whole programs: result files and live figures. *)
From Coq Require Import String ZArith List Bool.
From Verif Require Import Base Num MState MOut MCore MLoad MVis MMain SOut SRun.
Import List ListNotations.
Local Open Scope string_scope.
Local Open Scope list_scope.

Section Main.
  Context {F : Type} {NF : Num F}.
  Local Open Scope num_scope.

  (** The results file [name] holds exactly the records [l], in order, and each reads back. *)
  Definition holdsResults (r32 : F -> F) (X : list F) (fs : fsys F) (name : string) (l : list (wargs F)) : Prop :=
    exists f, fs name = Some f /\ ncX f = map r32 X /\ ncTimes f = map wTime l /\
      forall k a, nth_error l k = Some a -> exists r, readTimestep f k = Ok r /\ readsAs r32 (map r32 X) a r.

  (** Row [k] of the time-series file [f] is the record [b]. *)
  Definition tsRow (r32 : F -> F) (f : ncfile F) (k : nat) (b : targs F) : Prop :=
    ncVar f "sea_level" k = Some [r32 (sSea b)] /\ ncVar f "river_flow" k = Some [r32 (sFlow b)] /\
    ncVar f "hs_offshore" k = Some [r32 (sHs b)] /\ ncVar f "wave_dir" k = Some [r32 (sDir b)] /\
    ncVar f "lagoon_level" k = Some [r32 (sLagWl b)] /\ ncVar f "lagoon_outflow" k = Some [r32 (sOutflow b)] /\
    ncVar f "sed_inflow" k = Some [r32 (sSedIn b)] /\ ncVar f "outlet_end_x" k = Some [r32 (sE0 b); r32 (sE1 b)] /\
    ncVar f "outlet_closed" k = Some [fofb (sClosedT b)] /\ ncVar f "mordt" k = Some [r32 (fofZ (seconds (sMorDt b)))].
  Definition holdsTs (r32 : F -> F) (fs : fsys F) (name : string) (l : list (targs F)) : Prop :=
    exists f, fs name = Some f /\ ncTimes f = map sTime l /\ forall k b, nth_error l k = Some b -> tsRow r32 f k b.

  (** The windows opened at [start] and refreshed every [int] up to the time [now]: one
      row and one figure per drawing, each figure showing the rows so far; the first row
      takes the outflow to be the inflow. *)
  Definition illustrates (start int now : Z) (p : live F) : Prop :=
    exists r0 rows, lvBdy p = r0 :: rows /\ bdT r0 = start /\ bdOut r0 = bdIn r0 /\
      List.length (lvFigs p) = List.length (lvBdy p) /\
      (forall k g, nth_error (lvFigs p) k = Some g -> fgBdy g = firstn (S k) (lvBdy p)) /\
      scheduled bdT start int rows (lvT p) now.
End Main.
