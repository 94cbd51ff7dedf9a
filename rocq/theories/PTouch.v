(** Corrections and breaches restated with the vocabulary of STouch.v. *)
From Coq Require Import ZArith List Bool Lia Reals.
From Verif Require Import Base Num Xr MState MCoast MRiv MMor SMor SPost STouch PCoast PCore PPost PTrunc PBreach PBreach2 PUpdate2.
Import ListNotations.

Lemma flow_order {F} {NF : Num F} (T : list (tsect F)) e0 e1 : flowOrder T e0 e1 (outletIx T e0 e1).
Proof.
  unfold flowOrder, outletIx. destruct (e0 <? e1)%n; [apply where_lists|].
  unfold ixRL. apply lists_rev. apply where_lists.
Qed.
Lemma extend_order {F} {NF : Num F} (P : phys F) T e0 e1 W Zd outlet T' outlet' il tl_ nx :
  extendStep P T e0 e1 W Zd outlet = Ok (T', outlet') -> last_ outlet = Ok il -> nth_error T il = Some tl_ ->
  (if (e0 <? e1)%n then ix T (S il) else pynth T (Z.of_nat il - 1)) = Ok nx ->
  let crossed := if (e0 <? e1)%n then (tX nx <=? e1)%n else (e1 <=? tX nx)%n in
  changedAt T T' (fun i => crossed = true /\ exists t, nth_error T i = Some t /\ newlyPassed e0 e1 (tX tl_) t = true) (elongated P W Zd) /\
  (crossed = true -> flowOrder T' e0 e1 outlet') /\ (crossed = false -> outlet' = outlet).
Proof.
  intros H1 H2 H3 H4 crossed. destruct (extend_spec P T e0 e1 W Zd outlet T' outlet' il tl_ nx H1 H2 H3 H4) as [A B].
  split; [exact A|]. fold crossed in B. split; intros C; rewrite C in B; subst outlet'; [apply flow_order|reflexivity].
Qed.
Section Trunc.
  Context {F : Type} {NF : Num F}.
  Local Open Scope num_scope.
  Variables (T : list (tsect F)) (pres : list bool) (e0 e1 : F) (outlet : list nat).
  Variables (T' : list (tsect F)) (pres' : list bool) (e0' : F) (outlet' : list nat).
  Hypothesis run : lagoonTrunc T pres e0 e1 outlet = Ok (T', pres', e0', outlet').
  Lemma trunc_order j k : lagoonInChannel T outlet j k -> (forall i k', (i < j)%nat -> ~ lagoonInChannel T outlet i k') ->
    exists nx tk, (if e0 <? e1 then ix T (S k) else pynth T (Z.of_nat k - 1)) = Ok nx /\ nth_error T k = Some tk /\
      e0' = tX nx /\ flowOrder T e0' e1 outlet' /\ outlet' <> [] /\
      ((tY2 tk <=? tY4 tk) = false -> T' = T /\ pres' = pres) /\
      ((tY2 tk <=? tY4 tk) = true -> exists c,
         (if f0 <? tX tk then last_where hasLagoon T = Some c else first_where hasLagoon T = Some c) /\
         let swallowed i := if f0 <? tX tk then (c < i <= k)%nat else (k <= i < c)%nat in
         changedAt T T' swallowed converted /\ changedAt pres pres' swallowed (fun _ b => b = false)).
  Proof.
    intros A B. destruct (trunc_first T pres e0 e1 outlet T' pres' e0' outlet' run j k A B) as (nx & tk & H1 & H2 & H3 & H4 & H5).
    exists nx, tk. repeat (split; [assumption|]). split; [rewrite H4; apply flow_order|exact H5].
  Qed.
End Trunc.

(** ** Breaches *)
Lemma nearest_ext T e S S' b : (forall i, S i <-> S' i) -> nearest T e S b -> nearest T e S' b.
Proof. intros E [A B]. split; [now apply E|]. intros i t u Hi. apply B. now apply E. Qed.
Lemma erosion_place (P : phys xr) T0 T lagOpen x0 e0 Closed T' b : (forall i t, nth_error T i = Some t -> is_fin (tX t)) ->
  length lagOpen = length T -> (x0 < length T)%nat ->
  erosionBreach P T0 T lagOpen x0 (Fin e0) Closed None = Ok (T', Some b) ->
  nearest T 0 (fun i => exists t, nth_error T i = Some t /\ washedAway t = true /\ openTo lagOpen x0 i) b /\
  (Closed = false -> exists t, nth_error T b = Some t /\ (Rabs (rv (tX t)) < Rabs e0)%R).
Proof.
  intros FX L X H. destruct (erosion_where P T0 T lagOpen x0 e0 Closed T' b FX H) as [A B]. split; [|exact B].
  eapply nearest_ext; [|exact A]. intros i. split; intros (t & Ht & E & R); exists t; (split; [exact Ht|]); (split; [exact E|]).
  - apply reach_open; [exact R| |lia]. rewrite L. apply nth_error_Some. congruence.
  - now apply open_reach.
Qed.
Lemma river_spill {F} {NF : Num F} (P : phys F) T x0 cc WL : (x0 < length T)%nat ->
  forall i, canBreach P T x0 cc WL i <-> spillingAtRiver P T x0 cc WL i.
Proof.
  intros X i. split; intros [A B]; (split; [exact A|]); (destruct B as [B|B]; [left; exact B|right]).
  - apply reach_open; [exact B| |rewrite map_length; lia]. rewrite map_length. destruct A as (t & w & Ht & _). apply nth_error_Some. congruence.
  - now apply open_reach.
Qed.
Lemma spill_place (P : phys xr) T x0 Closed cc WL b : (forall i t, nth_error T i = Some t -> is_fin (tZ0 t)) -> (forall w, In w WL -> is_fin w) -> (x0 < length T)%nat ->
  spillBreach P T x0 Closed cc WL None = Ok (Some b) ->
  spillingAtRiver P T x0 cc WL b /\ forall i t u w v, spillingAtRiver P T x0 cc WL i -> nth_error T b = Some t -> nth_error WL b = Some w ->
    nth_error T i = Some u -> nth_error WL i = Some v -> (rv v - rv (tZ0 u) <= rv w - rv (tZ0 t))%R.
Proof.
  intros A B X H. destruct (spill_where P T x0 Closed cc WL b A B H) as [C D]. split; [now apply river_spill|].
  intros i t u w v Hi. apply (D i). now apply river_spill.
Qed.
Lemma spill_nowhere {F} {NF : Num F} (P : phys F) T x0 Closed cc WL : (x0 < length T)%nat ->
  spillBreach P T x0 Closed cc WL None = Ok None -> forall i, ~ spillingAtRiver P T x0 cc WL i.
Proof. intros X H i Hi. apply (spill_none P T x0 Closed cc WL H i). now apply river_spill. Qed.
Lemma spill_index {F} {NF : Num F} (P : phys F) T x0 cc WL : (x0 < length T)%nat ->
  (exists i, spilling T WL i) -> (forall i, ~ spillingAtRiver P T x0 cc WL i) -> spillBreach P T x0 false cc WL None = Exc EIndex.
Proof. intros X A B. apply spill_stuck; [exact A|]. intros i Hi. apply (B i). now apply river_spill. Qed.

(** ** The presence of a channel *)
Lemma channel_present {F} {NF : Num F} (t : tsect F) : outletPresent t = hasChannel t.
Proof. reflexivity. Qed.
