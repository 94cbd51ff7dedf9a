(** The example configuration in exact arithmetic. *)
From Coq Require Import Reals ZArith List Bool String Ascii Lra.
From Verif Require Import Base Num Xr MState MConf SConf PConf PConf4 PConfEx.
Import ListNotations.
Local Open Scope string_scope.

Definition decX : conv xr :=
  @mkConv xr (fun s => match decimal s with Some (a, d) => Some (Fin (IZR a / IZR (Zpos (Z.to_pos d)))) | None => None end)
          exI exTime (fun _ => Ok 0%Z) (fun _ => Ok 0%Z) (fun _ => Ok 0%Z).
Definition okZ (r : rawconf) (e : centry) : bool :=
  match r (cSec e) (cKey e) with
  | None => match cDef e with DReq => false | _ => true end
  | Some ROther => false
  | Some (RStr t) =>
    match cTyp e with
    | TStr => true
    | TFloat lo hi =>
      match decimal t with
      | Some (a, d) => match lo with Some l => litLe l (a, Z.to_pos d) | None => true end && match hi with Some h => litLe (a, Z.to_pos d) h | None => true end
      | None => false
      end
    | TInt lo => match exI t with Some z => match lo with Some l => (l <=? z)%Z | None => true end | None => false end
    | TBool => match txB t with Some _ => true | None => false end
    end
  end.
Lemma ltb_lit (a b : Z * positive) : litLe a b = true -> fltb (Fin (IZR (fst b) / IZR (Zpos (snd b)))) (@litF xr xr_num a) = false.
Proof. intros H. apply litLe_real in H. cbn. apply Rltb_false. lra. Qed.
Lemma ltb_lit' (a b : Z * positive) : litLe a b = true -> fltb (@litF xr xr_num b) (Fin (IZR (fst a) / IZR (Zpos (snd a)))) = false.
Proof. intros H. apply litLe_real in H. cbn. apply Rltb_false. lra. Qed.
Lemma okZ_sound r e : okZ r e = true -> entryVal decX r e <> None.
Proof.
  unfold okZ, entryVal. destruct (r (cSec e) (cKey e)) as [[t|]|]; [|discriminate|].
  - destruct (cTyp e) as [|lo hi|lo|]; cbn [checkVal txF txI decX]; [discriminate| | |].
    + destruct (decimal t) as [[a d]|]; [|discriminate]. intros H. apply andb_true_iff in H as [A B].
      assert (A' : match lo with Some l => fltb (Fin (IZR a / IZR (Zpos (Z.to_pos d)))) (litF l) | None => false end = false)
        by (destruct lo as [l|]; [exact (ltb_lit l (a, Z.to_pos d) A)|reflexivity]).
      assert (B' : match hi with Some h => fltb (litF h) (Fin (IZR a / IZR (Zpos (Z.to_pos d)))) | None => false end = false)
        by (destruct hi as [h|]; [exact (ltb_lit' (a, Z.to_pos d) h B)|reflexivity]).
      rewrite A', B'. discriminate.
    + destruct (exI t) as [z|]; [|discriminate]. destruct lo as [l|]; [|discriminate]. intros H. apply Z.leb_le in H.
      rewrite (proj2 (Z.ltb_ge _ _) H). discriminate.
    + destruct (txB t); discriminate.
  - destruct (cDef e); cbn; discriminate.
Qed.
Lemma ex_formed : wellFormed decX (written exEntries).
Proof.
  apply entry_formed. intros e He. apply okZ_sound. revert e He. apply forallb_forall. vm_compute. reflexivity.
Qed.
