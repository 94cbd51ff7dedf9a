(** What writeCurrent stores although nothing reads it back. *)
From Coq Require Import String ZArith List Bool.
From Verif Require Import Base Num MState MRiv MOut MLoad SOut POut.
Import ListNotations.
Local Open Scope string_scope.

Lemma written_unread {F : Type} {NF : Num F} (r32 : F -> F) (f f' : ncfile F) a : writeCurrent r32 f a = Ok f' -> let k := List.length (ncTimes f) in
  ncVar f' "wave_dir" k = Some [r32 (wDir a)] /\ ncVar f' "lagoon_bedload" k = Some (map r32 (wLBed a)) /\ ncVar f' "outlet_bedload" k = Some (map r32 (wOBed a)) /\
  ncVar f' "river_bedload" k = Some (map r32 (wRBed a)) /\ ncVar f' "overwash_proportion" k = Some (map r32 (wOW a)).
Proof.
  unfold writeCurrent. cbv zeta. destruct (negb _); [discriminate|]. destruct (negb _); [discriminate|]. destruct (negb _); [discriminate|]. intros H. apply Ok_inj in H. subst f'. cbn [ncVar].
  repeat split; rewrite fold_rows, Nat.eqb_refl; reflexivity.
Qed.
