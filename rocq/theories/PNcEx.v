(** Concrete result files and headers. *)
From Coq Require Import ZArith List Bool String Floats Reals Lra Lia.
From Verif Require Import Base Num Xr Flt Sim MState MOut MLoad MConf MNc SOut SConf SNc PConfEx PHotEx PNc PNc2.
Import ListNotations.
Local Open Scope string_scope.

Lemma nc_file : exists fs' f f' h, @newOutFile xr (fun x => x) (fun _ => None) "o.nc" hX 1 true "" = (fs', Ok tt) /\ fs' "o.nc" = Some f /\
  writeAll (fun x => x) f [hW 0 100 false; hW 60 90 true; hW 120 80 false] = Ok f' /\
  (forall P, exists h, outHeader (fun x => x) 100 hX (Fin 10) 1 (Fin 0, Fin 0) (Fin 1) P = Ok h) /\
  tsHeader (F := xr) 100 = Ok h.
Proof.
  destruct (hist_ok (fun x => x)) as (f' & H). eexists _, hFile, f', _.
  split; [reflexivity|]. split; [reflexivity|]. split; [exact H|]. split; [|reflexivity].
  intros P. apply header_ok; [apply (le_n_S 1 2), le_S, le_n | apply le_n].
Qed.
Definition headOk (r : res (model float)) : bool :=
  match r with Ok m => match @mainHeaders float sim_num (fun x => x) m with Ok _ => true | Exc _ => false end | Exc _ => false end.
Lemma nc_loaded : exists m c h k, exLoad exEntries exFile = Ok m /\ @validate float sim_num exX (written exEntries) = Ok c /\
  c "PhysicalParameters" "MPM_coef" <> None /\ @mainHeaders float sim_num (fun x => x) m = Ok (h, k) /\ attrOf h "MPM_coef" = Exc EKey.
Proof.
  assert (H : headOk (exLoad exEntries exFile) = true) by (vm_cast_no_check (eq_refl true)).
  unfold headOk in H. destruct (exLoad exEntries exFile) as [m|e] eqn:E; [|discriminate H].
  destruct (@mainHeaders float sim_num (fun x => x) m) as [(h, k)|e] eqn:E2; [|discriminate H].
  destruct ex_valid as (c & V). exists m, c, h, k. split; [reflexivity|]. split; [exact V|]. split; [|split; [exact E2|]].
  { intros C. assert (G : match @validate float sim_num exX (written exEntries) with Ok c => match c "PhysicalParameters" "MPM_coef" with None => true | _ => false end | _ => false end = false) by (vm_compute; reflexivity).
    rewrite V, C in G. discriminate G. }
  apply (headers_inv (NF := sim_num)) in E2 as (-> & _). reflexivity.
Qed.
Lemma nc_times : (@date2num xr _ (midnight (90000000000000)) (90000000000000) = Fin 3600)%R /\ wholeMicro (90000000000000) /\ midnightOf (90000000000000) (86400000000000).
Proof.
  split; [|split].
  - rewrite to_number. f_equal. replace ((90000000000000 - midnight (90000000000000)) / 1000)%Z with 3600000000%Z by reflexivity. lra.
  - exists 90000000000%Z. reflexivity.
  - exists 1%Z. split; [reflexivity|]. vm_compute. split; [intros Q; discriminate Q | reflexivity].
Qed.
