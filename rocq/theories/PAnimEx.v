(** Animations of files written by the model. *)
From Coq Require Import String ZArith List Bool Lia Floats.
From Verif Require Import Base Num Xr Flt MState MGeom MCoast MRiv MMor MOut MCore MLoad MVis SOut POut SAnim PAnim PPlan Sim SimEx PCoreEx.
Import List ListNotations.
Local Open Scope Z_scope.

Lemma written_closed (F : Type) (NF : Num F) (r32 : F -> F) : (f0 =? f0)%n = true -> (f1 =? f0)%n = false ->
  forall f l f' rw spit start e every aoi a, ncTimes f = [] -> writeAll r32 f l = Ok f' ->
  nth_error l start = Some a -> wClosed a = true ->
  exists ex, mapAnimation rw spit f' (Z.of_nat start) e every aoi = Exc ex.
Proof.
  intros Z0 Z1 f l f' rw spit start e every aoi a He Hw Ha Hc. destruct (all_back r32 Z0 Z1 _ _ _ Hw _ _ Ha) as (r & Hr & As & _). rewrite He in Hr. cbn [length Nat.add] in Hr.
  destruct (all_frame r32 _ _ _ Hw) as (_ & _ & ET). rewrite He in ET. cbn [app] in ET.
  assert (L : (start < length l)%nat) by (apply nth_error_Some; congruence).
  eapply closed_start; [rewrite ET, map_length; lia|rewrite Nat2Z.id; exact Hr|]. rewrite (ra_closed _ _ _ _ As). exact Hc.
Qed.

Definition simX : list float := [-80; -60; -40; -20; 0; 20; 40; 60; 80]%float.
Definition simFile (v : env float) (c : bool) (n : nat) : res (ncfile float) :=
  let! s := after v c n in @writeAll float sim_num (fun x => x) (mkNc simX 5 [] (fun _ _ => None)) (gOuts s).
Definition count {A} (r : res (list A)) : res nat := let! l := r in Ok (length l).
Definition counts v c n start e every : res (nat * res nat * res nat) :=
  let! f := simFile v c n in
  Ok (length (ncTimes f), count (@mapAnimation float sim_num 10%float 15%float f start e every None), count (@longSecAnimation float sim_num (simP 0.0009765625%float) f start e every)).
Lemma counts_inv v c n start e every k a b : counts v c n start e every = Ok (k, a, b) ->
  exists s f, after v c n = Ok s /\ @writeAll float sim_num (fun x => x) (mkNc simX 5 [] (fun _ _ => None)) (gOuts s) = Ok f /\ length (ncTimes f) = k /\
    count (@mapAnimation float sim_num 10%float 15%float f start e every None) = a /\ count (@longSecAnimation float sim_num (simP 0.0009765625%float) f start e every) = b.
Proof.
  unfold counts. intros H. apply bind_ok in H as (f & Hf & H). apply Ok_inj in H. injection H as <- <- <-. unfold simFile in Hf. apply bind_ok in Hf as (s & Hs & Hf). exists s, f. auto.
Qed.
Lemma count_ok {A} (r : res (list A)) k : count r = Ok k -> exists l, r = Ok l /\ length l = k.
Proof. intros H. apply bind_ok in H as (l & Hl & H). apply Ok_inj in H. exists l. auto. Qed.
Lemma count_exc {A} (r : res (list A)) e : count r = Exc e -> r = Exc e.
Proof. destruct r; cbn; congruence. Qed.

(** Open run: three records, every second one is drawn. *)
Lemma open_counts : counts vFill false 6 0 None 2 = Ok (3%nat, Ok 2%nat, Ok 2%nat).
Proof. vm_compute. reflexivity. Qed.
Lemma open_animation : exists s f pics lsecs, after vFill false 6 = Ok s /\
  @writeAll float sim_num (fun x => x) (mkNc simX 5 [] (fun _ _ => None)) (gOuts s) = Ok f /\ length (ncTimes f) = 3%nat /\
  @mapAnimation float sim_num 10%float 15%float f 0 None 2 None = Ok pics /\ length pics = 2%nat /\
  @longSecAnimation float sim_num (simP 0.0009765625%float) f 0 None 2 = Ok lsecs /\ length lsecs = 2%nat.
Proof.
  destruct (counts_inv _ _ _ _ _ _ _ _ _ open_counts) as (s & f & A & B & C & D & E). apply count_ok in D as (p & D1 & D2). apply count_ok in E as (l & E1 & E2).
  exists s, f, p, l. auto 8.
Qed.
(** Closed run: no map animation, but a long section animation. *)
Lemma closed_counts : counts vFill true 6 0 None 1 = Ok (6%nat, Exc EIndex, Ok 6%nat).
Proof. vm_compute. reflexivity. Qed.
Lemma closed_animation : exists s f lsecs, after vFill true 6 = Ok s /\
  @writeAll float sim_num (fun x => x) (mkNc simX 5 [] (fun _ _ => None)) (gOuts s) = Ok f /\ length (ncTimes f) = 6%nat /\
  @mapAnimation float sim_num 10%float 15%float f 0 None 1 None = Exc EIndex /\
  @longSecAnimation float sim_num (simP 0.0009765625%float) f 0 None 1 = Ok lsecs /\ length lsecs = 6%nat.
Proof.
  destruct (counts_inv _ _ _ _ _ _ _ _ _ closed_counts) as (s & f & A & B & C & D & E). apply count_exc in D. apply count_ok in E as (l & E1 & E2).
  exists s, f, l. auto 8.
Qed.
