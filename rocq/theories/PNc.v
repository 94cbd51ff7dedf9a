(** Proofs about the self-description of result files. *)
From Coq Require Import ZArith List Bool String Lia Reals Lra.
From Verif Require Import Base Num Xr MState MRiv MOut MLoad MConf MNc SOut POut SConf PConf PConf2 SNc.
Import ListNotations.
Local Open Scope string_scope.

Ltac inlist := cbn [In]; repeat first [left; reflexivity | right].

Section Rows.
  Context {F : Type} {NF : Num F}.

  Lemma header_inv r32 start (X : list F) Dx m o dir P h : outHeader r32 start X Dx m o dir P = Ok h ->
    h = mkHd (outDims (List.length X) m) (outAttrs o dir P) outDecls (outCoords r32 X Dx m) (midnight start) /\ (2 <= List.length X)%nat /\ (1 <= m)%nat.
  Proof.
    unfold outHeader. cbv zeta. destruct (classic _) eqn:E; [|discriminate]. intros H. apply Ok_inj in H as <-.
    split; [reflexivity|]. revert E. unfold classic, unlimited, outDims.
    destruct (List.length X) as [|[|n]]; destruct m as [|m]; cbn; intros E; try discriminate E; lia.
  Qed.
  Lemma header_ok r32 start (X : list F) Dx m o dir P : (2 <= List.length X)%nat -> (1 <= m)%nat -> exists h, outHeader r32 start X Dx m o dir P = Ok h.
  Proof.
    intros A B. unfold outHeader. cbv zeta.
    assert (classic (outDims (List.length X) m) = true) as ->; [|eexists; reflexivity].
    unfold classic, unlimited, outDims. destruct (List.length X) as [|[|n]]; [lia|lia|]. destruct m; [lia|]. reflexivity.
  Qed.
  Lemma header_bad r32 start (X : list F) Dx m o dir P : (List.length X < 2)%nat \/ m = 0%nat -> exists e, outHeader r32 start X Dx m o dir P = Exc e.
  Proof.
    intros H. destruct (outHeader r32 start X Dx m o dir P) eqn:E; [|eexists; reflexivity].
    apply header_inv in E as (_ & A & B). lia.
  Qed.

  Lemma decl_names : NoDup (map vName outDecls).
  Proof. vm_compute. repeat constructor; cbn; intuition discriminate. Qed.
  Lemma ts_names : NoDup (map vName tsDecls).
  Proof. vm_compute. repeat constructor; cbn; intuition discriminate. Qed.

  (** Declared row length as a function of the name. *)
  Definition want (n m : nat) (d : vdecl) : nat :=
    match vDims d with
    | [_; x] => if String.eqb x "transect_x" then n else if String.eqb x "shore_segment_x" then (n - 1)%nat
                else if String.eqb x "river_dist" then m else 2%nat
    | _ => 1%nat
    end.
  Lemma want_fits (h : header F) n m d : (2 <= n)%nat -> (1 <= m)%nat -> hdDims h = outDims n m -> In d outDecls -> inTime d -> fits h d (want n m d).
  Proof.
    intros A B E I (T & _). unfold fits. rewrite E.
    assert (D : outDims n m = [("transect_x", Some n); ("shore_segment_x", Some (n - 1)%nat); ("river_dist", Some m); ("outlet_ends", Some 2%nat); ("time", None)]).
    { unfold outDims. destruct n as [|[|n]]; [lia|lia|]. destruct m; [lia|]. reflexivity. }
    rewrite D. cbn [In outDecls] in I.
    repeat (destruct I as [<-|I]; [
      cbn in T; try discriminate T;
      solve [left; split; reflexivity | right; eexists; split; [reflexivity|]; cbn -[In]; inlist] |]). contradiction.
  Qed.
  Lemma want_ts (h : header F) d : hdDims h = tsDims -> In d tsDecls -> inTime d -> fits h d (want 0 0 d).
  Proof.
    intros E I (T & _). unfold fits. rewrite E. cbn [In tsDecls] in I.
    repeat (destruct I as [<-|I]; [
      cbn in T; try discriminate T;
      solve [left; split; reflexivity | right; eexists; split; [reflexivity|]; cbn -[In]; inlist] |]). contradiction.
  Qed.

  (** One record: what [lookup] finds among the rows. *)
  Definition declOf (l : list vdecl) (v : string) : option vdecl := find (fun d => String.eqb (vName d) v) l.

  Lemma lookup_in v (rows : list (string * list F)) row : lookup v rows = Some row -> In (v, row) rows.
  Proof.
    unfold lookup.
    assert (G : forall rows acc, fold_left (fun acc p => if String.eqb v (fst p) then Some (snd p) else acc) rows acc = Some row ->
      acc = Some row \/ In (v, row) rows).
    { clear. induction rows as [|(w, r) rows IH]; cbn [fold_left]; intros acc H; [left; exact H|].
      apply IH in H as [H|H]; [|right; right; exact H]. cbn [fst snd] in H.
      destruct (String.eqb_spec v w) as [->|N]; [right; left; injection H as ->; reflexivity | left; exact H]. }
    intros H. apply G in H as [H|H]; [discriminate | exact H].
  Qed.
  Lemma lookup_none v (rows : list (string * list F)) : lookup v rows = None <-> ~ In v (map fst rows).
  Proof.
    unfold lookup.
    assert (G : forall (rows : list (string * list F)) acc, fold_left (fun acc p => if String.eqb v (fst p) then Some (snd p) else acc) rows acc = None <->
      acc = None /\ ~ In v (map fst rows)).
    { clear. induction rows as [|(w, r) rows IH]; cbn [fold_left map In fst]; intros acc; [tauto|].
      rewrite IH. cbn [fst snd]. destruct (String.eqb_spec v w) as [->|N].
      - split; [intros (H & _); discriminate | intros (_ & H); exfalso; apply H; left; reflexivity].
      - split; [intros (H & H'); split; [exact H | intros [E|E]; [congruence | tauto]] | tauto]. }
    rewrite G. tauto.
  Qed.

  (** A row is as long as declared and is stored in the declared type. *)
  Definition good (l : list vdecl) (n m : nat) (p : string * list F) : Prop :=
    exists d, In d l /\ vName d = fst p /\ inTime d /\ List.length (snd p) = want n m d /\
      (fst p = "outlet_closed" -> vType d = NcI8 /\ Forall (fun x => x = f0 \/ x = f1) (snd p)) /\
      (fst p <> "outlet_closed" -> vType d = NcF32).
  Lemma good_typed r32 v row d :
      (v = "outlet_closed" -> vType d = NcI8 /\ Forall (fun x => x = f0 \/ x = f1) row) ->
      (v <> "outlet_closed" -> vType d = NcF32) ->
    typed r32 d (stored r32 v row) /\ List.length (stored r32 v row) = List.length row.
  Proof.
    intros A B. unfold typed, stored. destruct (String.eqb_spec v "outlet_closed") as [E|N].
    - destruct (A E) as (-> & H). split; [exact H | reflexivity].
    - rewrite (B N). split; [|apply map_length]. apply Forall_map, Forall_forall. intros x _. exists x. reflexivity.
  Qed.

  Ltac goodrow := match goal with |- good ?l _ _ (?v, _) =>
    let d := eval vm_compute in (declOf l v) in
    match d with Some ?d => exists d; split; [inlist|]; split; [reflexivity|]; split; [split; [reflexivity | discriminate]|];
      split; [cbn [snd]; unfold want; cbn [vDims perTime perTimeOn String.eqb Ascii.eqb Bool.eqb]; cbv iota; rewrite ?map2_length, ?map_length; try first [assumption | reflexivity | lia]|];
      split; [intros Q; first [discriminate Q | split; [reflexivity|]] | intros Q; first [reflexivity | exfalso; apply Q; reflexivity]] end end.

  Lemma current_good n m a : shaped n m a -> Forall (good outDecls n m) (currentRows a).
  Proof.
    intros (LT & L1 & L2 & L3 & LO & L4 & L5 & L6 & L7 & LL & LR & LRD & LRV & LRB & LE & LV).
    unfold currentRows. repeat (apply Forall_cons; [goodrow|]); [|apply Forall_nil].
    cbn [snd]. apply Forall_cons; [|apply Forall_nil]. destruct (wClosed a); [right|left]; reflexivity.
  Qed.
  Lemma ts_good a : Forall (good tsDecls 0 0) (tsRows a).
  Proof.
    unfold tsRows. repeat (apply Forall_cons; [goodrow|]); [|apply Forall_nil].
    cbn [snd]. apply Forall_cons; [|apply Forall_nil]. destruct (sClosedT a); [right|left]; reflexivity.
  Qed.

  (** Adding one record. *)
  Lemma add_record r32 (h : header F) (f f' : ncfile F) n holes l sn sm t rows :
    hdVars h = l -> described r32 h f n holes -> Forall (good l sn sm) rows ->
    (forall d, In d l -> inTime d -> fits h d (want sn sm d)) ->
    (forall d, In d l -> inTime d -> (~ In (vName d) (map fst rows) <-> In (vName d) holes)) ->
    ncTimes f' = (ncTimes f ++ [t])%list ->
    ncVar f' = fold_left (fun d p => setRow d (List.length (ncTimes f)) (fst p) (stored r32 (fst p) (snd p))) rows (ncVar f) ->
    described r32 h f' (S n) holes.
  Proof.
    intros <- [DT DO DD DR DF] G FI NM ET EV. constructor.
    - rewrite ET, app_length, DT. cbn. lia.
    - exact DO.
    - exact DD.
    - intros v k row. rewrite EV, fold_rows, DT. destruct (Nat.eqb_spec k n) as [->|N].
      + destruct (lookup v rows) as [row0|] eqn:L.
        * intros H. apply Some_inj in H as <-. split; [lia|].
          apply lookup_in in L. pose proof (proj1 (Forall_forall _ _) G _ L) as (d & Id & Ed & Td & Ld & A & B). cbn [fst snd] in *.
          destruct (good_typed r32 v row0 d A B) as (TY & LL).
          exists d. split; [exact Id|]. split; [exact Ed|]. split; [exact Td|]. split; [|exact TY].
          rewrite LL, Ld. apply FI; assumption.
        * intros H. apply DR in H as (H & _). lia.
      + intros H. apply DR in H as (H & E). split; [lia | exact E].
    - intros d k Id Td Hk. rewrite EV, fold_rows, DT. destruct (Nat.eqb_spec k n) as [->|N].
      + destruct (lookup (vName d) rows) as [row0|] eqn:L.
        * split; [discriminate|]. intros H. apply (NM d Id Td) in H. apply lookup_none in H. congruence.
        * split; [|intros _]. { intros _. apply (NM d Id Td), lookup_none, L. }
          destruct (ncVar f (vName d) n) eqn:E; [|reflexivity]. apply DR in E as (E & _). lia.
      + apply DF; [exact Id | exact Td | lia].
  Qed.

  Lemma out_named d a : In d outDecls -> inTime d -> (~ In (vName d) (map fst (currentRows (F := F) a)) <-> In (vName d) ["outlet_end_bedload"]).
  Proof.
    intros I (T & N). change (map fst (currentRows a)) with (map fst (currentRows (mkW (F := F) 0 f0 f0 f0 f0 [] [] [] [] [] [] [] [] [] [] [] [] [] [] f0 f0 f0 f0 [] [] [] false))).
    cbn [currentRows map fst]. cbn [In outDecls] in I.
    repeat (destruct I as [<-|I]; [
      cbn in T; try discriminate T; cbn [vName perTime perTimeOn] in N |- *; try (exfalso; apply N; reflexivity);
      cbn [In]; first [ split; [intros Q; exfalso; apply Q; inlist | intros [Q|[]]; discriminate Q]
                      | split; [intros _; left; reflexivity | intros _ Q; intuition discriminate] ] |]). contradiction.
  Qed.
  Lemma ts_named d a : In d tsDecls -> inTime d -> (~ In (vName d) (map fst (tsRows (F := F) a)) <-> In (vName d) []).
  Proof.
    intros I (T & N). cbn [tsRows map fst]. cbn [In tsDecls] in I.
    repeat (destruct I as [<-|I]; [
      cbn [vName perTime perTimeOn] in N |- *; first [exfalso; apply N; reflexivity |
      cbn [In]; split; [intros Q; exfalso; apply Q; inlist | intros Q; destruct Q]] |]). contradiction.
  Qed.

  Lemma empty_described r32 (h : header F) X nriv holes : NoDup (map vName (hdVars h)) -> NoDup (map fst (hdDims h)) ->
    (forall d x, In d (hdVars h) -> In x (vDims d) -> In x (map fst (hdDims h))) ->
    described r32 h (mkNc X nriv [] (fun _ _ => None)) 0 holes.
  Proof.
    intros A B C. constructor; [reflexivity | split; assumption | exact C | intros v k row H; discriminate H | intros; lia].
  Qed.

  Lemma write_rows r32 (f f' : ncfile F) a : writeCurrent r32 f a = Ok f' ->
    shaped (List.length (ncX f)) (ncRiv f) a /\ ncX f' = ncX f /\ ncRiv f' = ncRiv f /\ ncTimes f' = (ncTimes f ++ [wTime a])%list /\
    ncVar f' = fold_left (fun d p => setRow d (List.length (ncTimes f)) (fst p) (stored r32 (fst p) (snd p))) (currentRows a) (ncVar f).
  Proof.
    intros H.
    assert (S1 : writeAll r32 f [a] = Ok f') by (cbn [writeAll bind]; rewrite H; reflexivity).
    apply all_shaped in S1. split; [inversion S1; assumption|]. clear S1.
    unfold writeCurrent in H. cbv zeta in H.
    destruct (negb _); [discriminate|]. destruct (negb _); [discriminate|]. destruct (negb _); [discriminate|].
    apply Ok_inj in H as <-. repeat split.
  Qed.

  Lemma all_described r32 start (X : list F) Dx m o dir P h : outHeader r32 start X Dx m o dir P = Ok h ->
    forall l (f f' : ncfile F) n, List.length (ncX f) = List.length X -> ncRiv f = m -> described r32 h f n ["outlet_end_bedload"] ->
    writeAll r32 f l = Ok f' -> described r32 h f' (n + List.length l) ["outlet_end_bedload"].
  Proof.
    intros H. apply header_inv in H as (-> & A & B). induction l as [|a l IH]; intros f f' n E1 E2 D W; cbn [writeAll] in W.
    - apply Ok_inj in W as <-. cbn. rewrite Nat.add_0_r. exact D.
    - apply bind_ok in W as (f1 & W1 & W). apply write_rows in W1 as (S1 & X1 & R1 & T1 & V1).
      cbn [List.length]. replace (n + S (List.length l))%nat with (S n + List.length l)%nat by lia.
      apply (IH f1); [congruence | congruence | | exact W].
      rewrite E1, E2 in S1.
      eapply (add_record r32 _ f f1 n _ outDecls (List.length X) m (wTime a) (currentRows a)); [reflexivity | exact D | apply current_good, S1 | | | exact T1 | exact V1].
      + intros d. apply want_fits; [exact A | exact B | reflexivity].
      + intros d. apply out_named.
  Qed.

  Lemma file_described r32 fs name (X : list F) m ow ans fs' f l f' start Dx o dir P h :
    newOutFile r32 fs name X m ow ans = (fs', Ok tt) -> fs' name = Some f -> writeAll r32 f l = Ok f' ->
    outHeader r32 start X Dx m o dir P = Ok h -> described r32 h f' (List.length l) ["outlet_end_bedload"].
  Proof.
    intros N E W H. apply new_out in N as (_ & [(_ & N & _)|(N & _)]); [|discriminate N]. rewrite E in N. apply Some_inj in N as ->.
    pose proof (header_inv _ _ _ _ _ _ _ _ _ H) as (Eh & _ & _).
    apply (all_described r32 start X Dx m o dir P h H l (mkNc (map r32 X) m [] (fun _ _ => None)) f' 0); [apply map_length | reflexivity | | exact W].
    rewrite Eh. apply empty_described; cbn [hdVars hdDims].
    - exact decl_names.
    - cbn. repeat constructor; cbn; intuition discriminate.
    - intros d x I J. cbn [In outDecls] in I.
      repeat (destruct I as [<-|I]; [cbn [vDims perTime perTimeOn In] in J; repeat (destruct J as [<-|J]; [cbn [map fst outDims]; inlist|]); contradiction |]). contradiction.
  Qed.

  Lemma ts_described r32 fs name ow ans (fs' : fsys F) f l start h :
    newTsOutFile fs name ow ans = (fs', Ok tt) -> fs' name = Some f -> tsHeader start = Ok h ->
    described r32 h (tsAll r32 f l) (List.length l) [].
  Proof.
    intros N E H. apply new_ts in N as (_ & [(_ & N & _)|(N & _)]); [|discriminate N]. rewrite E in N. apply Some_inj in N as ->.
    unfold tsHeader in H. cbn in H. apply Ok_inj in H as <-.
    set (h := mkHd _ _ _ _ _).
    assert (G : forall l (f : ncfile F) n, described r32 h f n [] -> described r32 h (tsAll r32 f l) (n + List.length l) []).
    { clear l. induction l as [|b l IH]; intros f n D; cbn [tsAll List.length]; [rewrite Nat.add_0_r; exact D|].
      replace (n + S (List.length l))%nat with (S n + List.length l)%nat by lia. apply IH.
      eapply (add_record r32 h f _ n [] tsDecls 0 0 (sTime b) (tsRows b)); [reflexivity | exact D | apply ts_good | | | reflexivity | reflexivity].
      - intros d. apply want_ts. reflexivity.
      - intros d. apply ts_named. }
    apply (G l _ 0%nat). apply empty_described; cbn [h hdVars hdDims].
    - exact ts_names.
    - cbn. repeat constructor; cbn; intuition discriminate.
    - intros d x I J. cbn [In tsDecls] in I.
      repeat (destruct I as [<-|I]; [cbn [vDims perTime perTimeOn In] in J; repeat (destruct J as [<-|J]; [cbn [map fst tsDims]; inlist|]); contradiction |]). contradiction.
  Qed.
End Rows.
