(** Specification vocabulary for the adaptive time step: durations in nanoseconds. *)
From Coq Require Import ZArith.
Local Open Scope Z_scope.
Definition sec (a : Z) : Z := a * 1000000000.
Definition oneDay : Z := sec 86400.
Definition halfDay : Z := sec 43200.
