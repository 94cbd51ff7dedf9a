(** What a run leaves behind apart from its records, and which passes are recorded. *)
From Coq Require Import ZArith List Bool.
From Verif Require Import Base Num MState MCoast MRiv MMor MOut MCore.
Import ListNotations.

Section Watch.
  Context {F : Type} {NF : Num F}.

  (** The same coast, river, water, outlet, clock and time step; records and the times the next ones are due may differ. *)
  Definition samePlace (s s' : state F) : Prop :=
    gT s = gT s' /\ gE0 s = gE0 s' /\ gE1 s = gE1 s' /\ gW s = gW s' /\ gZ s = gZ s' /\ gRiver s = gRiver s' /\
    gRDep s = gRDep s' /\ gRVel s = gRVel s' /\ gLWL s = gLWL s' /\ gLVel s = gLVel s' /\ gODep s = gODep s' /\ gOVel s = gOVel s' /\
    gEDep s = gEDep s' /\ gEVel s = gEVel s' /\ gClosed s = gClosed s' /\ gTime s = gTime s' /\ gDt s = gDt s'.

  (** The same inputs; the two output intervals may differ. *)
  Definition sameSetup (v v' : env F) : Prop :=
    vP v = vP v' /\ vN v = vN v' /\ vTP v = vTP v' /\ vFlow v = vFlow v' /\ vSea v = vSea v' /\ vWaves v = vWaves v'.

  (** Both end, in the same place, or both fail, in the same way. *)
  Definition alike (r r' : res (state F)) : Prop :=
    match r, r' with
    | Ok s, Ok s' => samePlace s s'
    | Exc e, Exc e' => e = e'
    | _, _ => False
    end.
End Watch.

(** The passes, ending at [times], that are recorded: a record is made when the one due next is due by then, and the due
    time moves on by the interval, once. *)
Fixpoint due (interval next : Z) (times : list Z) : list bool :=
  match times with
  | [] => []
  | t :: l => if (next <=? t)%Z then true :: due interval (next + interval) l else false :: due interval next l
  end.
(** The marked ones. *)
Fixpoint picked {A : Type} (m : list bool) (l : list A) : list A :=
  match m, l with
  | b :: m', x :: l' => if b then x :: picked m' l' else picked m' l'
  | _, _ => []
  end.
