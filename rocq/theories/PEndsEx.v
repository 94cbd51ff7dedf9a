Set Warnings "-inexact-float".
(** Simulations that end, and one whose first pass does not. *)
From Coq Require Import ZArith List Bool Lia Floats.
From Verif Require Import Base Num Flt MState MRiv MMor MCore SAdapt SEnds SRun PAdapt PEnds Sim SimEx PCoreEx.
Import ListNotations.
Local Open Scope Z_scope.

Lemma plain_long : plainSteps (vTP vLong) /\ tStart (vTP vLong) <= tEnd (vTP vLong) /\ exists s, simInit vLong 30 false = Ok s /\ @loop float sim_num 47 800 0 simOr vLong s = Exc EIndex.
Proof.
  split; [unfold plainSteps; cbn; unfold oneDay, halfDay, sec; lia|]. split; [cbn; unfold sec; lia|]. destruct (simInit vLong 30 false) as [s|] eqn:E; [|vm_compute in E; discriminate E]. exists s. split; [reflexivity|].
  assert (X : match simInit vLong 30 false with Ok s => @loop float sim_num 47 800 0 simOr vLong s | Exc e => Exc e end = Exc EIndex) by (vm_compute; reflexivity). rewrite E in X. exact X.
Qed.

(** The same with steps of up to 80000 s and a limit to the change per step that is never reached. *)
Definition vEver : env float :=
  mkEnv (vP vLong) (mkNum 20 0 0.75 0.375 0.001 30 0.125 1000000000)%float (simTP 0 86400 5 15 80000) (vFlow vLong) (vSea vLong) (vWaves vLong) (vOutInt vLong) (vTsInt vLong).
Lemma up_orbit {F} {NF : Num F} (N : nump F) rate : (forall x, In x orbit -> (rate * fofZ x <? nMaxMorChange N / f2)%n = true) ->
  forall fuel b, In (b mod 86400) orbit -> adaptUp fuel N (sec 80000) rate (sec b) = Exc EFuel.
Proof.
  intros Hr. assert (S : forall b, seconds (sec b) = b mod 86400) by (intros b; unfold seconds, sec; rewrite Z.div_mul by lia; auto).
  induction fuel as [|f IH]; intros b Hb; cbn [adaptUp]; rewrite !S; change (80000 mod 86400) with 80000;
    pose proof (orbit_closed _ Hb) as [H1 H2]; rewrite (proj2 (Z.ltb_lt _ _) H2); cbn [andb]; rewrite (Hr _ Hb); [auto|].
  rewrite sec_double. apply IH. rewrite <- Z.mul_mod_idemp_r by lia. auto.
Qed.
Definition everRate : res (float * Z) := let! s := simInit vEver 30 false in let! r := @passRate float sim_num (simOr 0) vEver s in Ok (r, gDt s).
Lemma never : tMorDtMin (vTP vEver) = sec 15 /\ tMorDtMax (vTP vEver) = sec 80000 /\ exists s, simInit vEver 30 false = Ok s /\ forall af, @step float sim_num af (simOr 0) vEver s = Exc EFuel.
Proof.
  split; [reflexivity|]. split; [reflexivity|]. destruct everRate as [[rate dt]|] eqn:E; [|vm_compute in E; discriminate E].
  assert (OK : match everRate with Ok (r, d) => forallb (fun x => @fltb float sim_num (@fmul float sim_num r (@fofZ float sim_num x)) (@fdiv float sim_num (nMaxMorChange (vN vEver)) (@f2 float sim_num))) orbit && (d =? sec 15) | Exc _ => false end = true) by (vm_compute; reflexivity).
  rewrite E in OK. apply andb_prop in OK as [O1 O2]. apply Z.eqb_eq in O2. subst dt. rewrite forallb_forall in O1. unfold everRate in E.
  destruct (simInit vEver 30 false) as [s|]; [|discriminate E]. cbn [bind] in E. destruct (@passRate float sim_num (simOr 0) vEver s) as [r|] eqn:ER; [|discriminate E]. cbn [bind] in E. apply Ok_inj in E. injection E as -> E.
  exists s. split; [reflexivity|]. intros af. apply (@step_forever float sim_num af (simOr 0) vEver s rate ER). rewrite E.
  assert (AD : @adaptDown float sim_num af (vN vEver) (tMorDtMin (vTP vEver)) rate (sec 15) = Ok (sec 15)) by (change (tMorDtMin (vTP vEver)) with (sec 15); destruct af; cbn [adaptDown]; rewrite Z.ltb_irrefl; reflexivity).
  unfold adaptStep. change (@bind Z Z (@adaptDown float sim_num af (vN vEver) (tMorDtMin (vTP vEver)) rate (sec 15)) (fun dt => @adaptUp float sim_num af (vN vEver) (sec 80000) rate dt) = Exc EFuel).
  rewrite AD. apply (@up_orbit float sim_num (vN vEver) rate O1 af 15). vm_compute. auto.
Qed.
