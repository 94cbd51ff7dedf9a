(** Specification vocabulary for result files. *)
From Coq Require Import ZArith List Bool String.
From Verif Require Import Base Num MState MRiv MOut MLoad.
Import ListNotations.
Local Open Scope string_scope.

(** The words that count as consent. *)
Definition consent (answer : string) : Prop :=
  answer = "Y" \/ answer = "y" \/ answer = "Yes" \/ answer = "yes" \/ answer = "YES".

Section Spec.
  Context {F : Type} {NF : Num F}.
  Local Open Scope num_scope.

  (** Transect [t] of the model as it comes back, at the stored position [x]. *)
  Definition storedT (r32 : F -> F) (x : F) (t : tsect F) : tsect F :=
    mkT x (r32 (tY0 t)) (r32 (tY1 t)) (r32 (tY2 t)) (r32 (tY3 t)) (r32 (tY4 t))
        (r32 (tZ0 t)) (r32 (tZ1 t)) (r32 (tZ2 t)) (r32 (tZ3 t)).

  (** [r], read from a file with transects at [X], is the record [a]. *)
  Record readsAs (r32 : F -> F) (X : list F) (a : wargs F) (r : rstep F) : Prop := mkReads {
    ra_time : rdTime r = wTime a;
    ra_sea : rdSea r = r32 (wSea a);
    ra_flow : rdFlow r = r32 (wFlow a);
    ra_hs : rdHs r = r32 (wHs a);
    ra_T : length (rdT r) = length X /\
           forall i x t, nth_error X i = Some x -> nth_error (wT a) i = Some t -> nth_error (rdT r) i = Some (storedT r32 x t);
    ra_lwl : rdLWL r = map r32 (wLWL a);
    ra_lvel : rdLVel r = map r32 (wLVel a);
    ra_owl : forall i d t, nth_error (wODep a) i = Some d -> nth_error (wT a) i = Some t ->
             nth_error (rdOWL r) i = Some (r32 (d + tZ1 t));
    ra_ovel : rdOVel r = map r32 (wOVel a);
    ra_ends : rdE0 r = r32 (wE0 a) /\ rdE1 r = r32 (wE1 a);
    ra_end : rdW r = r32 (wW a) /\ rdZend r = r32 (wZend a);
    ra_enddep : forall d0 d1 l, wEDep a = d0 :: d1 :: l -> rdEWL r = r32 (wZend a + d0) /\ rdDDep r = r32 d1;
    ra_endvel : forall v0 v1 l, wEVel a = v0 :: v1 :: l -> rdEVel r = r32 v0 /\ rdDVel r = r32 v1;
    ra_lst : rdLST r = map (fun q => r32 (q * fofZ 3600) / fofZ 3600) (wLST a);
    ra_cst : rdCST r = map (fun q => r32 (q * fofZ 3600) / fofZ 3600) (wCST a);
    ra_closed : rdClosed r = wClosed a;
    ra_riv : rdRiv r = map r32 (wRiv a);
    ra_rwl : forall i z d, nth_error (wRiv a) i = Some z -> nth_error (wRDep a) i = Some d -> nth_error (rdRWL r) i = Some (r32 (z + d));
    ra_rvel : rdRVel r = map r32 (wRVel a)
  }.

  (** The calls of writeCurrent for a list of records. *)
  Fixpoint writeAll (r32 : F -> F) (f : ncfile F) (l : list (wargs F)) : res (ncfile F) :=
    match l with
    | [] => Ok f
    | a :: l => let! f := writeCurrent r32 f a in writeAll r32 f l
    end.

  (** The shape writeCurrent needs: [n] transects, [m] river sections. *)
  Definition shaped (n m : nat) (a : wargs F) : Prop :=
    length (wT a) = n /\ length (wLWL a) = n /\ length (wLVel a) = n /\ length (wLBed a) = n /\
    length (wODep a) = n /\ length (wOVel a) = n /\ length (wOBed a) = n /\ length (wCST a) = n /\ length (wOW a) = n /\
    length (wLST a) = (n - 1)%nat /\ length (wRiv a) = m /\ length (wRDep a) = m /\ length (wRVel a) = m /\ length (wRBed a) = m /\
    (2 <= length (wEDep a))%nat /\ (2 <= length (wEVel a))%nat.

  (** The arguments [a] with another outlet-end bedload. *)
  Definition withEndBed (b : list F) (a : wargs F) : wargs F :=
    mkW (wTime a) (wSea a) (wFlow a) (wHs a) (wDir a) (wT a) (wLWL a) (wLVel a) (wLBed a) (wODep a) (wOVel a) (wOBed a)
        (wLST a) (wCST a) (wOW a) (wRiv a) (wRDep a) (wRVel a) (wRBed a) (wE0 a) (wE1 a) (wZend a) (wW a) (wEDep a) (wEVel a) b (wClosed a).
End Spec.

(** Index [i] of [times] is at minimal distance from [want]. *)
Definition closest (times : list Z) (want : Z) (i : nat) : Prop :=
  exists t, nth_error times i = Some t /\ forall j u, nth_error times j = Some u -> (Z.abs (t - want) <= Z.abs (u - want))%Z.

Section Hot.
  Context {F : Type} {NF : Num F}.
  Local Open Scope num_scope.
  (** The state [h] a hot start begins with is that of the record [a]. *)
  Record resumes (r32 : F -> F) (X : list F) (a : wargs F) (h : hot F) : Prop := mkResumes {
    rs_T : length (htT h) = length X /\
           forall i x t, nth_error X i = Some x -> nth_error (wT a) i = Some t -> nth_error (htT h) i = Some (storedT r32 x t);
    rs_ends : htE0 h = r32 (wE0 a) /\ htE1 h = r32 (wE1 a) /\ htW h = r32 (wW a) /\ htZ h = r32 (wZend a);
    rs_riv : htRiver h = map r32 (wRiv a) /\ htRVel h = map r32 (wRVel a);
    rs_rwl : forall i z d, nth_error (wRiv a) i = Some z -> nth_error (wRDep a) i = Some d -> nth_error (htRWL h) i = Some (r32 (z + d));
    rs_lag : htLWL h = map r32 (wLWL a) /\ htLVel h = map r32 (wLVel a) /\ htOVel h = map r32 (wOVel a);
    rs_odep : forall i d t, nth_error (wODep a) i = Some d -> nth_error (wT a) i = Some t ->
              nth_error (htODep h) i = Some (r32 (d + tZ1 t) - r32 (tZ1 t));
    rs_enddep : forall d0 d1 l, wEDep a = d0 :: d1 :: l -> htEDep h = [r32 (wZend a + d0) - r32 (wZend a); r32 d1];
    rs_endvel : forall v0 v1 l, wEVel a = v0 :: v1 :: l -> htEVel h = [r32 v0; r32 v1];
    rs_closed : htClosed h = wClosed a
  }.
End Hot.
