(** How a pass and a simulation can end: which exceptions, and that they do. *)
From Coq Require Import ZArith List Bool Lia.
From Verif Require Import Base Num MState MCoast MRiv MMor MOut MCore SAdapt SEnds SRun PAdapt PCore.
Import ListNotations.

Section Ends.
  Context {F : Type} {NF : Num F}.
  Local Open Scope num_scope.

  Definition tame {A} (r : res A) : Prop := forall e, r = Exc e -> pyError e.
  Lemma tOk {A} (a : A) : tame (Ok a). Proof. intros e H. discriminate. Qed.
  Lemma tIx {A} : tame (@Exc A EIndex). Proof. intros e H. injection H as <-. left. reflexivity. Qed.
  Lemma tAs {A} : tame (@Exc A EAssert). Proof. intros e H. injection H as <-. right. left. reflexivity. Qed.
  Lemma tVa {A} : tame (@Exc A EValue). Proof. intros e H. injection H as <-. right. right. reflexivity. Qed.
  Lemma tBind {A B} (r : res A) (k : A -> res B) : tame r -> (forall a, tame (k a)) -> tame (bind r k).
  Proof. intros H K. destruct r as [a|e]; cbn [bind]; [apply K|]. intros e' E. injection E as <-. apply H. reflexivity. Qed.
  Lemma tBindE {A B} (r : res A) (k : A -> res B) : tame r -> (forall a, r = Ok a -> tame (k a)) -> tame (bind r k).
  Proof. intros H K. destruct r as [a|e]; cbn [bind]; [apply K; reflexivity|]. intros e' E. injection E as <-. apply H. reflexivity. Qed.
  Lemma tAssert b : tame (assert_ b). Proof. destruct b; [apply tOk|apply tAs]. Qed.
  Lemma tOf {A} (o : option A) : tame (of_opt EIndex o). Proof. destruct o; [apply tOk|apply tIx]. Qed.
  Lemma tix {A} (l : list A) i : tame (ix l i). Proof. apply tOf. Qed.
  Lemma tlast {A} (l : list A) : tame (last_ l). Proof. apply tOf. Qed.
  Lemma tpynth {A} (l : list A) z : tame (pynth l z). Proof. unfold pynth. destruct (pyix _ _); [apply tix|apply tIx]. Qed.
  Lemma tgather {A} (l : list A) idx : tame (gather l idx).
  Proof. induction idx as [|i r IH]; cbn [gather]; [apply tOk|]. apply tBind; [apply tix|]. intros a. apply tBind; [exact IH|]. intros b. apply tOk. Qed.
  Lemma tall {A} (l : list (res A)) : (forall r, In r l -> tame r) -> tame (all_ok l).
  Proof.
    induction l as [|r l IH]; intros H; cbn [all_ok]; [apply tOk|]. apply tBind; [apply H; left; reflexivity|]. intros a. apply tBind; [apply IH; intros r' Hr; apply H; right; exact Hr|]. intros b. apply tOk.
  Qed.
  Hint Resolve tOk tIx tAs tVa tAssert tOf tix tlast tpynth tgather : tame.
  Ltac tm := repeat (cbv zeta; first
    [ solve [auto with tame nocore] | (apply tBind; [|intros ?]) | assumption
    | match goal with
      | |- tame (if ?b then _ else _) => destruct b
      | |- tame (match ?x with _ => _ end) => destruct x
      end ]).

  (** ** The channel *)
  Lemma tsel flag p (l : list F) : tame (selFlag flag p l). Proof. unfold selFlag. tm. Qed.
  Lemma tscatter n (d : F) idx vals : tame (scatterNew n d idx vals). Proof. unfold scatterNew. tm. Qed.
  Lemma tx0 (T : list (tsect F)) : tame (x0Ix T). Proof. apply tOf. Qed.
  Hint Resolve tsel tscatter tx0 : tame.
  Lemma tinterp mask (vals : list F) i : tame (interpAt mask vals i). Proof. unfold interpAt. tm. Qed.
  Hint Resolve tinterp : tame.
  Lemma tfill mask (vals old : list F) f : (forall v i, tame (f v i)) -> tame (fillNan mask vals old f).
  Proof.
    intros H. unfold fillNan. apply tall. intros r Hr. apply In_nth_error in Hr as [i Hi]. unfold mapi in Hi. revert Hi. generalize 0%nat as k. revert i. induction old as [|x l IH]; intros i k Hi; cbn [mapi_from] in Hi.
    - destruct i; discriminate.
    - destruct i as [|i]; cbn [nth_error] in Hi; [|exact (IH _ _ Hi)]. injection Hi as <-. destruct (nth k mask false); [|apply tOk]. apply tBind; [apply tinterp|]. intros a. apply H.
  Qed.
  Lemma tfillDep (d : list F) : tame (fillDep d). Proof. apply tfill. intros. apply tOk. Qed.
  Lemma tfillVel (d u : list F) : tame (fillVel d u). Proof. apply tfill. intros. tm. Qed.
  Hint Resolve tfillDep tfillVel : tame.
  Lemma toutlet P (T : list (tsect F)) e0 e1 w cl : tame (outletPart P T e0 e1 w cl). Proof. unfold outletPart. tm. Qed.
  Lemma tlagoon Dx (T : list (tsect F)) x0 e0 cl : tame (lagoonPart Dx T x0 e0 cl). Proof. unfold lagoonPart. tm. Qed.
  Lemma tcut P Dx (T : list (tsect F)) on ea el cl : tame (lagoonCut P Dx T on ea el cl). Proof. unfold lagoonCut. tm. Qed.
  Lemma tshape P Dx (T : list (tsect F)) e0 e1 eW eE cl RE on out ow : tame (chanShape P Dx T e0 e1 eW eE cl RE on out ow). Proof. unfold chanShape. tm. Qed.
  Lemma thyd (T : list (tsect F)) cl a b c d e f g h on out : tame (chanHyd T cl a b c d e f g h on out). Proof. unfold chanHyd. tm. Qed.
  Hint Resolve toutlet tlagoon tcut tshape thyd : tame.
  Lemma tassemble (T : list (tsect F)) e0 e1 eW eE Cl RE RD RV LWL LVel OD OV ED EV Dx P : tame (assembleChannel T e0 e1 eW eE Cl RE RD RV LWL LVel OD OV ED EV Dx P).
  Proof. unfold assembleChannel. tm. Qed.
  Lemma tstore a b on out fl (LE : list F) cl : tame (storeHydraulics a b on out fl LE cl). Proof. unfold storeHydraulics. tm. Qed.
  Lemma tstoreBed (b : list F) n on out fl cl : tame (storeBedload b n on out fl cl). Proof. unfold storeBedload. tm. Qed.
  Hint Resolve tassemble tstore tstoreBed : tame.

  (** ** The water *)
  Lemma tnewton f : forall cnt maxit tol a bc cc (h : F), (Nat.max 1 (maxit - cnt) <= f)%nat -> tame (steadyNewton f cnt maxit tol a bc cc h).
  Proof.
    induction f as [|f IH]; intros cnt maxit tol a bc cc h Hf; [lia|]. cbn [steadyNewton]. cbv zeta. destruct (_ <? _); [|apply tOk].
    destruct (Nat.ltb (S cnt) maxit) eqn:E; [|apply tAs]. apply Nat.ltb_lt in E. apply IH. lia.
  Qed.
  Lemma tmarch (N : nump F) rough q w : forall zs dx bs, tame (steadyMarch (S (nMaxIt N)) N rough q w dx zs bs).
  Proof.
    induction zs as [|z zs IH]; intros dx bs; [cbn [steadyMarch]; apply tIx|]. cbn [steadyMarch]. destruct zs as [|z' zs], bs as [|b [|b' bs]], dx as [|d dx]; try solve [tm];
      (apply tBind; [apply IH|intros r; apply tBind; [apply tix|intros s; apply tBind; [|intros; apply tOk]]]; unfold steadyStep; cbv zeta; apply tBind; [apply tnewton; lia|intros; apply tOk]).
  Qed.
  Lemma thydraulics o (v : env F) c fl se : tame (hydraulics o v c fl se).
  Proof.
    unfold hydraulics. destruct (solveFullPreissmann _ _ _ _ _ _ _ _ _ _ _ _ _ _); [apply tOk|]. apply tBind; [apply tlast|]. intros q. apply tBind; [apply tlast|]. intros w.
    unfold solveSteady, solveSteadyF. apply tBind; [apply tmarch|]. intros. apply tOk.
  Qed.
  Lemma tinterpolate (s : series F) ts : tame (interpolateAt s ts). Proof. unfold interpolateAt. tm. Qed.
  Hint Resolve thydraulics tinterpolate : tame.
  Lemma tat1 (s : series F) t : tame (at1 s t). Proof. unfold at1. tm. Qed.
  Lemma tovertop P r sl (T : list (tsect F)) : tame (overtopping P r sl T). Proof. unfold overtopping. tm. Qed.
  Hint Resolve tat1 tovertop : tame.

  (** ** The update *)
  Lemma tmaxl (l : list F) : tame (fmaxl l). Proof. destruct l; [apply tVa|apply tOk]. Qed.
  Lemma targmin (l : list F) : tame (argmin l). Proof. destruct l; [apply tVa|apply tOk]. Qed.
  Lemma targmax (l : list F) : tame (argmax l). Proof. destruct l; [apply tVa|apply tOk]. Qed.
  Hint Resolve tmaxl targmin targmax : tame.
  Lemma twater (T : list (tsect F)) LW OD out cl : tame (waterLevel T LW OD out cl). Proof. unfold waterLevel. tm. Qed.
  Lemma trates P Dx (T : list (tsect F)) e0 e1 W Z on out CW CD fl rbq LST B CST OW : tame (changeRates P Dx T e0 e1 W Z on out CW CD fl rbq LST B CST OW).
  Proof. unfold changeRates. tm. Qed.
  Lemma tmaxRate (R : rates F) : tame (maxRate R). Proof. unfold maxRate. tm. Qed.
  Lemma triver s (RE riv : list F) : tame (applyRiver s RE riv). Proof. unfold applyRiver. tm. Qed.
  Lemma trb (T : list (tsect F)) e1 : tame (outletRb T e1). Proof. apply tOf. Qed.
  Hint Resolve twater trates tmaxRate triver trb : tame.
  Lemma tlimit (N : nump F) TP rate dt R : seconds dt <> 0%Z -> tame (limitRates N TP rate dt R).
  Proof. intros H. unfold limitRates. destruct (_ <? _); [|apply tOk]. apply tBind; [apply tAssert|]. intros _. rewrite (proj2 (Z.eqb_neq _ _) H). apply tOk. Qed.
  (** The step chosen, whatever the rate: it ends and lasts a second at least. *)
  Definition settles (fuel : nat) (N : nump F) TP dt : Prop := forall rate, exists r, adaptStep fuel N TP rate dt = Ok r /\ seconds r <> 0%Z.
  Lemma tapply fuel P N TP (T : list (tsect F)) e0 e1 W Z RE on out LW OD CW CD fl cl LST B CST OW dt : settles fuel N TP dt ->
    tame (morApply fuel P N TP T e0 e1 W Z RE on out LW OD CW CD fl cl LST B CST OW dt).
  Proof.
    intros A. unfold morApply. cbv zeta. apply tBind; [apply tx0|intros x0]. apply tBind; [tm|intros rbq]. apply tBind; [apply twater|intros WL]. apply tBind; [apply tAssert|intros _].
    apply tBind; [apply trates|intros R]. apply tBind; [apply tmaxRate|intros rate]. destruct (A rate) as (r & -> & S). cbn [bind]. apply tBind; [apply tlimit; exact S|intros R']. tm.
  Qed.
  Lemma tdomain (T : list (tsect F)) e1 : tame (domainCheck T e1). Proof. unfold domainCheck. tm. Qed.
  Lemma tneg p b c (t : tsect F) : tame (negWidth p b c t). Proof. unfold negWidth. tm. Qed.
  Lemma tnegs : forall ps (T0 T : list (tsect F)), tame (negWidths ps T0 T).
  Proof. induction ps as [|p ps IH]; intros [|t0 T0] [|t T]; cbn [negWidths]; try apply tOk. apply tBind; [apply tneg|intros r]. apply tBind; [apply IH|intros; apply tOk]. Qed.
  Hint Resolve tdomain tnegs : tame.
  Lemma tnegStep ps (T0 T : list (tsect F)) : tame (negWidthStep ps T0 T). Proof. unfold negWidthStep. tm. Qed.
  Lemma textend P (T : list (tsect F)) e0 e1 W Z out : tame (extendStep P T e0 e1 W Z out). Proof. unfold extendStep. tm. Qed.
  Lemma tseaward (T : list (tsect F)) out : tame (seawardFirstStep T out). Proof. unfold seawardFirstStep. tm. Qed.
  Lemma ttrunc (T : list (tsect F)) ps e0 e1 out : tame (lagoonTrunc T ps e0 e1 out). Proof. unfold lagoonTrunc. tm. Qed.
  Lemma tsea Dx (T : list (tsect F)) e0 e1 out : tame (seaTrunc Dx T e0 e1 out). Proof. unfold seaTrunc. tm. Qed.
  Lemma tlagLast P (T : list (tsect F)) out : tame (lagoonLastStep P T out). Proof. unfold lagoonLastStep. tm. Qed.
  Hint Resolve tnegStep textend tseaward ttrunc tsea tlagLast : tame.
  Lemma tcorrect P Dx (T0 T : list (tsect F)) e0 e1 W Z out cl : tame (morCorrect P Dx T0 T e0 e1 W Z out cl). Proof. unfold morCorrect. tm. Qed.

  Lemma pynth_in {A} (l : list A) z a : pynth l z = Ok a -> (- Z.of_nat (length l) <= z < Z.of_nat (length l))%Z.
  Proof. unfold pynth, pyix. destruct (z <? 0)%Z eqn:E; [apply Z.ltb_lt in E; destruct (_ <=? _)%Z eqn:Q; [apply Z.leb_le in Q; lia|discriminate]|apply Z.ltb_ge in E; destruct (_ <? _)%Z eqn:Q; [apply Z.ltb_lt in Q; lia|discriminate]]. Qed.
  Lemma tleft fuel : forall wide (WL : list F) lo, (2 * Z.of_nat (length wide) <= Z.of_nat fuel)%Z \/ (lo + Z.of_nat (length wide) <= Z.of_nat fuel)%Z -> tame (searchLeft fuel wide WL lo).
  Proof.
    induction fuel as [|f IH]; intros wide WL lo H; cbn [searchLeft]; (apply tBindE; [apply tpynth|intros w Ew]); apply pynth_in in Ew; destruct w; try apply tOk; [lia|].
    apply tBind; [apply tpynth|intros x]. apply tBind; [apply tOf|intros i]. apply IH. right. lia.
  Qed.
  Lemma tright fuel : forall wide (WL : list F) hi, (0 <= hi)%Z -> (Z.of_nat (length wide) <= hi + 1 + Z.of_nat fuel)%Z -> tame (searchRight fuel wide WL hi).
  Proof.
    induction fuel as [|f IH]; intros wide WL hi H0 H; cbn [searchRight]; (apply tBindE; [apply tpynth|intros w Ew]); apply pynth_in in Ew; destruct w; try apply tOk; [lia|].
    apply tBind; [apply tpynth|intros x]. apply tBind; [apply tOf|intros i]. apply IH; lia.
  Qed.
  Lemma tconnect P (T : list (tsect F)) ps lo x0 e0 cl out WL : tame (connect P T ps lo x0 e0 cl out WL).
  Proof.
    unfold connect. cbv zeta. apply tBind; [apply targmin|intros us].
    assert (L : (length (map2 (wideEnough P) ps T) <= length T)%nat) by (rewrite map2_length; lia).
    assert (K : forall a b (x : F), tame (let! (lo, WL) := searchLeft (2 * length T) (map2 (wideEnough P) ps T) WL (Z.of_nat a) in
      let! (hi, WL) := searchRight (2 * length T) (map2 (wideEnough P) ps T) WL (Z.of_nat b) in let! _ := assert_ (negb (existsb fisnan WL)) in Ok (Some (lo, hi), WL, x))).
    { intros a b x. apply tBind; [apply tleft; left; lia|intros [lo' W1]]. apply tBind; [apply tright; lia|intros [hi' W2]]. tm. }
    destruct cl; cbn [negb].
    - destruct (negb (fisnan e0)); cbn [bind]; [|tm]. unfold ix. destruct (nth_error _ us) as [w|]; cbn [of_opt bind]; [|apply tIx]. destruct (negb w); cbn [bind]; [tm|]. destruct (negb (forallb _ _)); cbn [bind]; [tm|]. apply K.
    - destruct out as [|y ys]; cbn [bind]; [apply tVa|]. apply K.
  Qed.
  Hint Resolve tconnect : tame.
  Lemma tshore P j (T : list (tsect F)) ps e0 cl cc : tame (shoreFill P j T ps e0 cl cc). Proof. unfold shoreFill. tm. Qed.
  Lemma terosion P (T0 T : list (tsect F)) lo x0 e0 cl b : tame (erosionBreach P T0 T lo x0 e0 cl b). Proof. unfold erosionBreach. tm. Qed.
  Lemma traise ps (T : list (tsect F)) : tame (raiseCrests ps T). Proof. unfold raiseCrests. tm. Qed.
  Lemma tspill P (T : list (tsect F)) x0 cl cc WL b : tame (spillBreach P T x0 cl cc WL b). Proof. unfold spillBreach. tm. Qed.
  Lemma tcreate P (T : list (tsect F)) e0 e1 W Z cc b : tame (createBreach P T e0 e1 W Z cc b). Proof. unfold createBreach. tm. Qed.
  Hint Resolve tshore terosion traise tspill tcreate : tame.
  Lemma tbreach P j1 j2 (T0 T : list (tsect F)) ps x0 e0 e1 W Z out cl WL : tame (morBreach P j1 j2 T0 T ps x0 e0 e1 W Z out cl WL). Proof. unfold morBreach. tm. Qed.
  Hint Resolve tcorrect tbreach : tame.
  Lemma tupdate fuel j1 j2 P N TP (T : list (tsect F)) e0 e1 W Z RE on out LW OD CW CD fl cl LST B CST OW dt : settles fuel N TP dt ->
    tame (updateMorphology fuel j1 j2 P N TP T e0 e1 W Z RE on out LW OD CW CD fl cl LST B CST OW dt).
  Proof. intros A. unfold updateMorphology. apply tBind; [apply tapply; exact A|intros a]. tm. Qed.

  (** ** The step settles *)
  Local Open Scope Z_scope.
  Lemma plain_settles fuel (N : nump F) TP dt : plainSteps TP -> (47 <= fuel)%nat -> sec 1 <= dt < oneDay -> settles fuel N TP dt.
  Proof.
    intros (H1 & H2 & H3) Hf Hd rate. destruct (adapt_half N rate TP dt fuel) as (r & E & B & _ & Q); try (unfold sec in *; lia). exists r. split; [exact E|].
    rewrite seconds_small by lia. assert (G : 1000000000 <= r) by (unfold sec in *; destruct Q; lia). pose proof (Z.div_le_lower_bound r 1000000000 1 ltac:(lia) ltac:(lia)). lia.
  Qed.
  Lemma hyd_none start dur freq : 0 < freq -> dur < freq -> hydTimes start dur freq = [].
  Proof.
    intros Hf H. unfold hydTimes. replace (Z.to_nat (dur / freq)) with 0%nat; [reflexivity|]. assert (dur / freq < 1) by (apply Z.div_lt_upper_bound; lia). lia.
  Qed.
  Lemma tstep af o (v : env F) s : plainSteps (vTP v) -> gDt s < oneDay -> (47 <= af)%nat -> tame (step af o v s).
  Proof.
    intros PS D Hf. unfold step. cbv zeta. apply tBind; [apply tassemble|intros c]. destruct (Z_lt_ge_dec (gDt s) (tHydDt (vTP v))) as [L|L].
    - rewrite hyd_none by (destruct PS as (H & _); unfold sec in *; lia). unfold interpolateAt. cbn [ix nth_error of_opt bind]. apply tIx.
    - apply tBind; [apply tinterpolate|intros fl]. apply tBind; [apply tinterpolate|intros se]. apply tBind; [apply thydraulics|intros [dep vel]]. apply tBind; [apply tstore|intros [[[[[lwl lvel] odep] ovel] edep] evel]].
      apply tBind; [apply tAssert|intros _]. do 5 (apply tBind; [apply tat1|intros ?]). do 2 (apply tBind; [apply tlast|intros ?]). apply tBind; [apply tovertop|intros [cst ow]].
      apply tBind; [apply tupdate, plain_settles; [exact PS|exact Hf|destruct PS as (H & _); lia]|intros m]. tm.
  Qed.

  (** ** More fuel, same result *)
  Lemma down_more (N : nump F) m rate : forall f f' dt r, (f <= f')%nat -> adaptDown f N m rate dt = Ok r -> adaptDown f' N m rate dt = Ok r.
  Proof.
    induction f as [|f IH]; intros [|f'] dt r L; try lia; cbn [adaptDown]; destruct (_ && _); try discriminate; try (intros E; exact E). apply IH. lia.
  Qed.
  Lemma up_more (N : nump F) m rate : forall f f' dt r, (f <= f')%nat -> adaptUp f N m rate dt = Ok r -> adaptUp f' N m rate dt = Ok r.
  Proof.
    induction f as [|f IH]; intros [|f'] dt r L; try lia; cbn [adaptUp]; destruct (_ && _); try discriminate; try (intros E; exact E). apply IH. lia.
  Qed.
  Lemma adapt_more (N : nump F) TP rate f f' dt r : (f <= f')%nat -> adaptStep f N TP rate dt = Ok r -> adaptStep f' N TP rate dt = Ok r.
  Proof.
    intros L H. unfold adaptStep in *. destruct (adaptDown f _ _ _ _) as [d|] eqn:E; [|discriminate]. rewrite (down_more _ _ _ _ _ _ _ L E). cbn [bind] in *. exact (up_more _ _ _ _ _ _ _ L H).
  Qed.
  Lemma bind_cong {A B} (r : res A) (k k' : A -> res B) : (forall a, k a = k' a) -> bind r k = bind r k'.
  Proof. intros H. destruct r; cbn [bind]; [apply H|reflexivity]. Qed.
  Lemma apply_more f f' P N TP (T : list (tsect F)) e0 e1 W Z RE on out LW OD CW CD fl cl LST B CST OW dt : (f <= f')%nat -> settles f N TP dt ->
    morApply f' P N TP T e0 e1 W Z RE on out LW OD CW CD fl cl LST B CST OW dt = morApply f P N TP T e0 e1 W Z RE on out LW OD CW CD fl cl LST B CST OW dt.
  Proof.
    intros L A. unfold morApply. cbv zeta. do 6 (apply bind_cong; intros ?). match goal with |- context [adaptStep f N TP ?rate dt] => destruct (A rate) as (r & E & _) end. rewrite E, (adapt_more _ _ _ _ _ _ _ L E). reflexivity.
  Qed.
  Lemma step_more af o (v : env F) s : plainSteps (vTP v) -> gDt s < oneDay -> (47 <= af)%nat -> step af o v s = step 47 o v s.
  Proof.
    intros PS D Hf. unfold step. cbv zeta. apply bind_cong. intros c. destruct (Z_lt_ge_dec (gDt s) (tHydDt (vTP v))) as [L|L].
    - rewrite hyd_none by (destruct PS as (H & _); unfold sec in *; lia). reflexivity.
    - do 2 (apply bind_cong; intros ?). apply bind_cong. intros [dep vel]. apply bind_cong. intros [[[[[lwl lvel] odep] ovel] edep] evel]. do 8 (apply bind_cong; intros ?). apply bind_cong. intros [cst ow].
      unfold updateMorphology. rewrite (apply_more 47 af); [reflexivity|exact Hf|]. apply plain_settles; [exact PS|lia|destruct PS as (H & _); lia].
  Qed.
  Lemma step_dt af o (v : env F) s s' : plainSteps (vTP v) -> gDt s < oneDay -> (47 <= af)%nat -> step af o v s = Ok s' -> gDt s' < oneDay.
  Proof.
    intros PS D Hf H. unfold step in H. cbv zeta in H. bok H c. destruct (Z_lt_ge_dec (gDt s) (tHydDt (vTP v))) as [L|L].
    - rewrite hyd_none in H by (destruct PS as (H0 & _); unfold sec in *; lia). discriminate H.
    - bok H fl. bok H se. bok H hy. destruct hy as [dep vel]. bok H st. destruct st as [[[[[lwl lvel] odep] ovel] edep] evel]. bok H u1. bok H u2. bok H u3. bok H u4. bok H u5. bok H u6. bok H u7. bok H u8. bok H ot. destruct ot as [cst ow].
      bok H m. bok H rdep. bok H rvel. bok H outs. destruct outs as [outs outT]. bok H ts. destruct ts as [ts tsT]. apply Ok_inj in H. subst s'. cbn [gDt].
      assert (M : oDt m < oneDay); [|unfold clampDt; destruct (_ <? _) eqn:Q; [apply Z.ltb_lt in Q; lia|exact M]].
      unfold updateMorphology in Em. bok Em a. bok Em b. destruct b as [[[[b1 b2] b3] b4] b5]. bok Em g. destruct g as [[[[[g1 g2] g3] g4] g5] g6]. apply Ok_inj in Em. subst m. cbn [oDt].
      unfold morApply in Ea. cbv zeta in Ea. bok Ea x0. bok Ea rbq. bok Ea WL. bok Ea u9. bok Ea R. bok Ea rate. bok Ea d. bok Ea R'. bok Ea river.
      assert (Q : aDt a = d) by (destruct (chClosed c); apply Ok_inj in Ea; subst a; reflexivity). rewrite Q.
      destruct PS as (P1 & P2 & P3). destruct (adapt_half (vN v) rate (vTP v) (gDt s) af) as (r & E & B & _); try (unfold sec in *; lia). rewrite E in Ed. apply Ok_inj in Ed. lia.
  Qed.
  Lemma steps_dt af o (v : env F) : plainSteps (vTP v) -> (47 <= af)%nat -> forall n k s s', gDt s < oneDay -> steps af n k o v s = Ok s' -> gDt s' < oneDay.
  Proof.
    intros PS Hf. induction n as [|n IH]; intros k s s' D H; cbn [steps] in H; [apply Ok_inj in H; subst; exact D|]. bok H s1. eapply IH; [|exact H]. eapply step_dt; eauto.
  Qed.
  Lemma loop_more o (v : env F) af : plainSteps (vTP v) -> (47 <= af)%nat -> forall fuel fuel' k s e, (fuel <= fuel')%nat -> gDt s < oneDay -> pyError e ->
    loop 47 fuel k o v s = Exc e -> loop af fuel' k o v s = Exc e.
  Proof.
    intros PS Hf. induction fuel as [|f IH]; intros fuel' k s e L D PE H.
    - cbn [loop] in H. destruct (_ <=? _); [|discriminate]. injection H as <-. destruct PE as [X|[X|X]]; discriminate X.
    - destruct fuel' as [|f']; [lia|]. cbn [loop] in *. destruct (_ <=? _); [|discriminate]. rewrite step_more by assumption. destruct (step 47 (o k) v s) as [s1|e1] eqn:E; cbn [bind] in *; [|exact H].
      apply IH; [lia| |exact PE|exact H]. eapply step_dt; [exact PS|exact D| |exact E]. lia.
  Qed.
  (** A simulation with plain steps ends with one of the three exceptions, the same however long one is prepared to wait. *)
  Lemma run_ends o (v : env F) T e0 e1 W Z0 River RWL RV LWL LVel OD OV ED EV Cl s0 : plainSteps (vTP v) -> tStart (vTP v) <= tEnd (vTP v) ->
    init v T e0 e1 W Z0 River RWL RV LWL LVel OD OV ED EV Cl = Ok s0 ->
    exists e, pyError e /\ forall af fuel, (47 <= af)%nat -> (tEnd (vTP v) - tStart (vTP v)) / tHydDt (vTP v) + 2 < Z.of_nat fuel -> loop af fuel 0 o v s0 = Exc e.
  Proof.
    intros PS HE I. destruct PS as (P1 & P2 & P3) eqn:EP. assert (PS' : plainSteps (vTP v)) by exact PS. clear EP PS.
    set (B := (tEnd (vTP v) - tStart (vTP v)) / tHydDt (vTP v) + 2). assert (HB : 0 <= B) by (unfold B; pose proof (Z.div_pos (tEnd (vTP v) - tStart (vTP v)) (tHydDt (vTP v))); unfold sec in *; lia).
    pose proof (init_facts _ _ _ _ _ _ _ _ _ _ _ _ _ _ _ _ _ I) as (_ & ID & _).
    assert (D0 : gDt s0 < oneDay) by (rewrite ID; lia).
    assert (X1 : 0 < tHydDt (vTP v)) by (unfold sec in *; lia). assert (X2 : 0 <= tMorDtMin (vTP v)) by (unfold sec in *; lia).
    assert (X3 : (tEnd (vTP v) - tStart (vTP v)) / tHydDt (vTP v) + 2 < Z.of_nat (S (Z.to_nat B))) by (fold B; lia).
    destruct (run_stops 47 _ o v _ _ _ _ _ _ _ _ _ _ _ _ _ _ _ s0 X1 HE X2 I X3) as (n & sn & e & Ln & Hs & He & Hl).
    assert (PE : pyError e). { apply (tstep 47 (o n) v sn); [exact PS'| |lia|exact He]. eapply steps_dt; [exact PS'| |exact D0|exact Hs]. lia. }
    exists e. split; [exact PE|]. intros af fuel Ha Hfu. fold B in Hfu. apply (loop_more o v af PS' Ha (S (Z.to_nat B))); try assumption. lia.
  Qed.

  (** ** A pass that never ends *)
  Definition passRate (o : oracle F) (v : env F) (s : state F) : res F :=
    let! c := assembled v s in
    let times := hydTimes (gTime s) (gDt s) (tHydDt (vTP v)) in
    let! flow := interpolateAt (vFlow v) times in
    let! sea := interpolateAt (vSea v) times in
    let! (dep, vel) := hydraulics o v c flow sea in
    let! (lwl, lvel, odep, ovel, edep, evel) := storeHydraulics dep vel (chOnline c) (chOutlet c) (chFlag c) (map tZ3 (gT s)) (chClosed c) in
    let bed := calcBedload (chWidth c) dep vel (vP v) (nPsi (vN v)) in
    let! _ := assert_ (Nat.eqb (length bed) (length (chElev c) - 1)) in
    let! dir := at1 (wvDir (vWaves v)) (gTime s) in
    let! pow := at1 (wvPow (vWaves v)) (gTime s) in
    let! per := at1 (wvPer (vWaves v)) (gTime s) in
    let! len := at1 (wvLen (vWaves v)) (gTime s) in
    let! hs := at1 (wvHs (vWaves v)) (gTime s) in
    let lst := longShoreTransport (map tY0 (gT s)) (nDx (vN v)) pow per len dir (vP v) in
    let! seaN := last_ sea in
    let! flowN := last_ flow in
    let! (cst, ow) := overtopping (vP v) (runup per hs (pBeachSlope (vP v))) seaN (gT s) in
    let! x0 := x0Ix (gT s) in
    let! rbq := (if chClosed c then Ok None else let! rb := outletRb (gT s) (gE1 s) in let! q := ix lst (prevIx (length lst) rb) in Ok (Some (rb, q))) in
    let! WL := waterLevel (gT s) lwl odep (chOutlet c) (chClosed c) in
    let! _ := assert_ (forallb (fun t => f0 <? crestWidth t)%n (gT s)) in
    let! R := changeRates (vP v) (nDx (vN v)) (gT s) (gE0 s) (gE1 s) (gW s) (gZ s) (chOnline c) (chOutlet c) (chWidth c) dep (chFlag c) rbq lst bed cst ow in
    maxRate R.
  Lemma step_forever af o (v : env F) s rate : passRate o v s = Ok rate -> adaptStep af (vN v) (vTP v) rate (gDt s) = Exc EFuel -> step af o v s = Exc EFuel.
  Proof.
    unfold passRate, step, assembled. cbv zeta. intros H A.
    bok H c. rewrite Ec. cbn [bind]. bok H fl. rewrite Efl. cbn [bind]. bok H se. rewrite Ese. cbn [bind]. bok H hy. rewrite Ehy. destruct hy as [dep vel]. cbn [bind].
    bok H st. rewrite Est. destruct st as [[[[[lwl lvel] odep] ovel] edep] evel]. cbn [bind]. bok H u1. rewrite Eu1. cbn [bind]. bok H u2. rewrite Eu2. cbn [bind]. bok H u3. rewrite Eu3. cbn [bind].
    bok H u4. rewrite Eu4. cbn [bind]. bok H u5. rewrite Eu5. cbn [bind]. bok H u6. rewrite Eu6. cbn [bind]. bok H u7. rewrite Eu7. cbn [bind]. bok H u8. rewrite Eu8. cbn [bind]. bok H ot. rewrite Eot. destruct ot as [cst ow]. cbn [bind].
    unfold updateMorphology, morApply. cbv zeta. bok H x0. rewrite Ex0. cbn [bind]. bok H rbq. rewrite Erbq. cbn [bind]. bok H WL. rewrite EWL. cbn [bind]. bok H u9. rewrite Eu9. cbn [bind]. bok H R. rewrite ER. cbn [bind]. rewrite H. cbn [bind]. rewrite A. reflexivity.
  Qed.
End Ends.
