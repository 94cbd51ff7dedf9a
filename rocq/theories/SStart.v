(** Specification vocabulary for the coast a model starts from. *)
From Coq Require Import ZArith List Bool.
From Verif Require Import Base Num MState.
Import ListNotations.
Local Open Scope num_scope.

Section Spec.
  Context {F : Type} {NF : Num F}.
  (** A transect of a straight coast: away from the river there is only the beach; at the
      river mouth a channel of the configured width runs behind a spit, then 1 mm of
      barrier, then a lagoon as wide as the river. *)
  Definition beachAt (beach lagoonBed crest x : F) : tsect F :=
    mkT x f0 fnan fnan (- beach) (- beach) crest fnan fnan lagoonBed.
  Definition mouthAt (spit outletWidth riverWidth lagoonBed outletBed crest x : F) : tsect F :=
    mkT x f0 (- spit) (- spit - outletWidth) (- spit - outletWidth - fofQ 1 1000) (- spit - outletWidth - riverWidth)
        crest ((outletBed + lagoonBed) / f2) crest lagoonBed.
End Spec.
