(** The unit of mass does not matter. *)
From Coq Require Import ZArith List Reals Floats.
From Verif Require Import Base Num Xr MState MCoast MRiv MMor MOut MCore MLoad SAdapt SMass Sim SimEx PCoreEx PMass PMassEx.
Import ListNotations.
Local Open Scope R_scope.

(** Longshore transport and bedload: the same volumes. *)
Theorem C128_transport k (P : phys xr) : 0 < k ->
  (forall Y Dx power per len dir, longShoreTransport Y Dx (inUnits k power) per len dir (derive (heavier k P)) = longShoreTransport Y Dx power per len dir (derive P)) /\
  (forall B h V psi, calcBedload B h V (derive (heavier k P)) psi = calcBedload B h V (derive P) psi).
Proof. exact (fun Hk => conj (sc_lst k Hk P) (sc_bed k Hk P)). Qed.
Print Assumptions C128_transport.

(** The interpolated wave power, in the new unit. *)
Theorem C128_power k (l : list (Z * xr)) t : 0 < k -> at1 (map (fun p => (fst p, inUnits k (snd p))) l) t = let! x := at1 l t in Ok (inUnits k x).
Proof. exact (fun Hk => sc_at1 k Hk l t). Qed.
Print Assumptions C128_power.

(** The start, every pass, any number of passes and the whole simulation: the same results, records and errors. *)
Theorem C128_run k (P : phys xr) (v : env xr) : 0 < k -> let v' := inMass k (loadedWith (heavier k P) v) in
  (forall T e0 e1 W Z0 River RWL RV LWL LVel OD OV ED EV Cl, init v' T e0 e1 W Z0 River RWL RV LWL LVel OD OV ED EV Cl = init (loadedWith P v) T e0 e1 W Z0 River RWL RV LWL LVel OD OV ED EV Cl) /\
  (forall af o s, step af o v' s = step af o (loadedWith P v) s) /\
  (forall af n j o s, steps af n j o v' s = steps af n j o (loadedWith P v) s) /\
  (forall af n j o s, loop af n j o v' s = loop af n j o (loadedWith P v) s).
Proof. exact (fun Hk => conj (sc_init k P v) (conj (sc_step k Hk P v) (conj (sc_steps k Hk P v) (sc_loop k Hk P v)))). Qed.
Print Assumptions C128_run.

(** Three passes in double arithmetic in units of 1/1024 kg: bit by bit the same. *)
Theorem C128_example : after (vFine (1024 * 1000)%float) true 3 = after vFill true 3 /\ exists s, after vFill true 3 = Ok s.
Proof. exact fine_same. Qed.
Print Assumptions C128_example.

(** Changing the densities alone changes the transport. *)
Theorem C128_densities_alone_refuted : exists l, @longShoreTransport float sim_num [0; 1]%float 20%float 1000%float 8%float 70%float 0.125%float (vP (vFine 1000%float)) = [l] /\
  (negb (PrimFloat.eqb l (hd 0%float (@longShoreTransport float sim_num [0; 1]%float 20%float 1000%float 8%float 70%float 0.125%float (vP vFill)))) && negb (PrimFloat.eqb l 0%float))%bool = true.
Proof. exact fine_other. Qed.
Print Assumptions C128_densities_alone_refuted.
