(** C108: mor.py, the channel joined to the lagoon. *)
From Coq Require Import ZArith List Bool Reals.
From Verif Require Import Base Num Xr MState MMor SMor SPost STouch SConn PCoast PTrunc PPostEx PConn.
Import ListNotations.

Theorem C108_open : forall {F} {NF : Num F} (P : phys F) T pres, length pres = length T -> forall lagOpen x0 e0 outlet WL cc WL' e0',
  connect P T pres lagOpen x0 e0 false outlet WL = Ok (cc, WL', e0') ->
  e0' = e0 /\ exists a b, In a outlet /\ In b outlet /\ (forall o, In o outlet -> (a <= o <= b)%nat) /\ stretch P T pres a b cc WL WL'.
Proof. exact @conn_open. Qed.
Print Assumptions C108_open.

Theorem C108_closed : forall (P : phys xr) T pres lagOpen x0 e0 outlet WL cc WL' e0', length pres = length T -> numberedX T ->
  connect P T pres lagOpen x0 (Fin e0) true outlet WL = Ok (cc, WL', e0') -> exists us, nearest T e0 (fun i => (i < length T)%nat) us /\
  ((wideAt P T pres us /\ forall j, (Nat.min us x0 <= j <= Nat.max us x0)%nat -> nth_error lagOpen j <> Some false) -> e0' = Fin e0 /\ stretch P T pres us us cc WL WL') /\
  (~ (wideAt P T pres us /\ forall j, (Nat.min us x0 <= j <= Nat.max us x0)%nat -> nth_error lagOpen j <> Some false) -> cc = None /\ WL' = WL /\ e0' = NaN).
Proof. exact @conn_closed_where. Qed.
Print Assumptions C108_closed.

Theorem C108_forgotten : forall {F} {NF : Num F} (P : phys F) T pres lagOpen x0 e0 outlet WL cc WL' e0', fisnan e0 = true ->
  connect P T pres lagOpen x0 e0 true outlet WL = Ok (cc, WL', e0') -> cc = None /\ WL' = WL /\ e0' = e0.
Proof. exact @conn_none. Qed.
Print Assumptions C108_forgotten.

Theorem C108_edge : forall {F} {NF : Num F} (P : phys F) T pres, length pres = length T -> forall lagOpen x0 e0 outlet WL, (exists o, In o outlet) ->
  (forall o i, In o outlet -> (o < i < length T)%nat -> wideAt P T pres i) -> forall r, connect P T pres lagOpen x0 e0 false outlet WL <> Ok r.
Proof. exact @conn_edge. Qed.
Print Assumptions C108_edge.

Theorem C108_ends : forall {F} {NF : Num F} (P : phys F) T pres, length pres = length T -> forall lagOpen x0 e0 closed outlet WL,
  (forall o, In o outlet -> (o < length T)%nat) -> connect P T pres lagOpen x0 e0 closed outlet WL <> Exc EFuel.
Proof. exact @conn_fuel. Qed.
Print Assumptions C108_ends.

(** Refuted: the search changes water levels only in the channel it finds. *)
Theorem C108_levels_refuted : ~ (forall (P : phys xr) T pres lagOpen x0 e0 outlet WL cc WL' e0' i, length pres = length T ->
  connect P T pres lagOpen x0 e0 false outlet WL = Ok (cc, WL', e0') -> ~ joined cc i -> nth_error WL' i = nth_error WL i).
Proof. exact @wrap_refuted. Qed.
Print Assumptions C108_levels_refuted.

Theorem C108_example : length cutP = length cutT /\ numberedX cutT /\
  (exists r, connect ones cutT cutP [true; true; true; true; true] 2 (Fin 1) false [1%nat] joinWL = Ok r) /\
  (exists cc WL', connect ones cutT cutP [true; true; true; true; true] 2 (Fin 1) true [] joinWL = Ok (Some cc, WL', Fin 1)) /\
  (exists WL', connect ones cutT cutP [true; true; true; true; true] 2 (Fin 3) true [] joinWL = Ok (None, WL', NaN)) /\
  (exists r, connect ones cutT cutP [true; true; true; true; true] 2 NaN true [] joinWL = Ok r) /\
  (exists o, In o [3%nat]) /\ (forall o i, In o [3%nat] -> (o < i < length joinT)%nat -> wideAt ones joinT joinP i).
Proof. exact @join_cases. Qed.
