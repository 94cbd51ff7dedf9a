(** Words for the river bed: each height kept, or lost to NaN. *)
From Coq Require Import List.
From Verif Require Import Xr.

Definition keptOrLost (new old : xr) : Prop := new = old \/ new = NaN.
