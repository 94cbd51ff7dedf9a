(** C25-C28: riv.py storeHydraulics, calcBedload, storeBedload. *)
From Coq Require Import Reals ZArith List Bool Floats.
From Verif Require Import Base Num Xr Flt MState MRiv SRiv SChan SHyd SBed PCoast PChanEx PHyd PBed PRound PBedEx.
Import ListNotations.
Local Open Scope R_scope.

(** [R L O E] are the depths in river, online lagoon, outlet and outlet end, [R' L' O' E'] the velocities. *)
Theorem C25_round_trip : forall T e0 e1 eW eElev Closed RE RD RV LW LV OD OV ED EV Dx (P : phys xr) ch R L O E R' L' O' E',
  assembleChannel T e0 e1 eW eElev Closed RE RD RV LW LV OD OV ED EV Dx P = Ok ch -> chClosed ch = Closed ->
  (forall i t, In i (chOnline ch) -> nth_error T i = Some t -> is_fin (tZ3 t)) ->
  length R = length RE -> length R' = length RE ->
  length L = length (chOnline ch) -> length L' = length (chOnline ch) ->
  (Closed = false -> length O = length (chOutlet ch) /\ length O' = length (chOutlet ch) /\ length E = 2%nat /\ length E' = 2%nat) ->
  Forall is_fin (sections Closed R L O E) -> Forall is_fin (sections Closed R' L' O' E') ->
  exists wl lv od ov ed ev,
    storeHydraulics (sections Closed R L O E) (sections Closed R' L' O' E') (chOnline ch) (chOutlet ch) (chFlag ch) (map tZ3 T) Closed
    = Ok (wl, lv, od, ov, ed, ev) /\
    assembleChannel T e0 e1 eW eElev Closed RE R R' wl lv od ov ed ev Dx P =
    Ok (mkChan (chDx ch) (chElev ch) (chWidth ch) (chLagArea ch) (chLagLen ch) (sections Closed R L O E)
               (if Closed then R' ++ removelast L' ++ [Fin 0] else sections Closed R' L' O' E')
               (chOnline ch) (chOutlet ch) (chFlag ch) (chClosed ch)).
Proof. exact round_trip. Qed.
Print Assumptions C25_round_trip.

Theorem C25_example : exists ch, exAsm 2 2 false = Ok ch /\ chClosed ch = false /\
  (forall i t, In i (chOnline ch) -> nth_error exT i = Some t -> is_fin (tZ3 t)) /\
  length (chOnline ch) = 2%nat /\ length (chOutlet ch) = 1%nat.
Proof. exact round_trip_example. Qed.

Theorem C26_stored : forall F (NF : Num F) closed R L O E R' L' O' E' online outlet Z,
  (closed = false -> length E = 2%nat /\ length E' = 2%nat) -> length R' = length R ->
  length L = length online /\ length L' = length online ->
  (closed = false -> length O = length outlet /\ length O' = length outlet) ->
  NoDup online -> NoDup outlet -> forall wl lv od ov ed ev,
  storeHydraulics (sections closed R L O E) (sections closed R' L' O' E') online outlet (flagsOf closed R L O) Z closed
    = Ok (wl, lv, od, ov, ed, ev) ->
  let n := length Z in
  length wl = n /\
  (forall k i z d, nth_error online k = Some i -> nth_error Z i = Some z -> nth_error L k = Some d -> nth_error wl i = Some (z + d)%n) /\
  (forall m i, In m online -> (forall j, In j online -> (m <= j)%nat) -> (i < m)%nat -> nth_error wl i = nth_error wl m) /\
  (forall m i, In m online -> (forall j, In j online -> (j <= m)%nat) -> (m < i < n)%nat -> nth_error wl i = nth_error wl m) /\
  holds n online L' fnan lv /\
  (if closed then od = repeat fnan n /\ ov = repeat fnan n /\ ed = [fnan; fnan] /\ ev = [fnan; fnan]
   else holds n outlet O fnan od /\ holds n outlet O' fnan ov /\ ed = E /\ ev = E').
Proof. exact @store_spec. Qed.
Print Assumptions C26_stored.

Theorem C26_succeeds : forall F (NF : Num F) closed R L O E R' L' O' E' online outlet (Z : list F),
  (closed = false -> length E = 2%nat /\ length E' = 2%nat) -> length R' = length R ->
  length L = length online /\ length L' = length online ->
  (closed = false -> length O = length outlet /\ length O' = length outlet) ->
  NoDup online -> online <> [] -> (forall i, In i online -> (i < length Z)%nat) ->
  (closed = false -> forall i, In i outlet -> (i < length Z)%nat) ->
  exists r, storeHydraulics (sections closed R L O E) (sections closed R' L' O' E') online outlet (flagsOf closed R L O) Z closed = Ok r.
Proof. exact @store_ok. Qed.
Print Assumptions C26_succeeds.

Theorem C26_example :
  storeHydraulics [1; 2; 3; 4; 5; 6; 7]%float [11; 12; 13; 14; 15; 16; 17]%float [1; 2]%nat [3]%nat
    (flagsOf false [1; 2]%float [3; 4]%float [5]%float) [0.5; 0.25; 0.5; 0.5; 0.5]%float false =
  Ok ([3.25; 3.25; 4.5; 4.5; 4.5], [nan; 13; 14; nan; nan], [nan; nan; nan; 5; nan], [nan; nan; nan; 15; nan], [6; 7], [16; 17])%float.
Proof. exact store_example. Qed.

(** One value per reach: the weighted mean of the transport at its two ends. *)
Theorem C27_formula : forall b P, sedPars b P -> sedOk b -> forall n B h V psi,
  (forall k, (k < n)%nat -> 0 < h k) ->
  calcBedload (tab n B) (tab n h) (tab n V) P (Fin psi) =
  tab (n - 1) (fun k => (1 - psi) * transport b (B k) (h k) (V k) + psi * transport b (B (S k)) (h (S k)) (V (S k))).
Proof. exact bedload_fin. Qed.
Print Assumptions C27_formula.

Theorem C27_transport : forall b, sedOk b -> forall B h V, 0 <= bCrit b -> 0 <= bCoef b -> 0 <= B ->
  (shields b h V <= bCrit b -> transport b B h V = 0) /\
  (0 <= V -> 0 <= transport b B h V) /\ (V <= 0 -> transport b B h V <= 0) /\
  (bCrit b < shields b h V -> 0 < bCoef b -> 0 < B -> 0 < Rabs (transport b B h V)) /\
  transport b B h (- V) = - transport b B h V.
Proof. exact transport_facts. Qed.
Print Assumptions C27_transport.

Theorem C27_between : forall psi x y, 0 <= psi <= 1 -> Rmin x y <= (1 - psi) * x + psi * y <= Rmax x y.
Proof. exact between. Qed.
Print Assumptions C27_between.

Theorem C27_reverse : forall b P, sedPars b P -> sedOk b -> forall n B h V psi,
  (forall k, (k < n)%nat -> 0 < h k /\ 0 <= B k) -> 0 <= bCrit b -> 0 <= bCoef b ->
  calcBedload (tab n B) (tab n h) (tab n (fun k => - V k)) P (Fin psi) =
  map fopp (calcBedload (tab n B) (tab n h) (tab n V) P (Fin psi)).
Proof. exact reverse_bedload. Qed.
Print Assumptions C27_reverse.

Theorem C27_example : sedPars exSed exP /\ sedOk exSed /\ 0 <= bCrit exSed /\ 0 < bCoef exSed /\
  shields exSed 1 2 = 4 /\ shields exSed 1 (1/2) = 1/4.
Proof. exact bed_example. Qed.

(** Reach k runs from section k to section k+1; the k-th online transect is section nr + k. *)
Theorem C28_open : forall F (NF : Num F) bed n online outlet nr lb ob eb, NoDup online -> NoDup outlet ->
  length bed = (nr + length online + length outlet + 1)%nat ->
  storeBedload bed n online outlet (repeat 0%nat nr ++ repeat 1%nat (length online) ++ repeat 2%nat (length outlet) ++ [3; 4]%nat) false
    = Ok (lb, ob, eb) ->
  (length lb = n /\ (forall k i, nth_error online k = Some i -> nth_error lb i = nth_error bed (nr + k)) /\
                    (forall i, (i < n)%nat -> ~ In i online -> nth_error lb i = Some f0)) /\
  (length ob = n /\ (forall k i, nth_error outlet k = Some i -> nth_error ob i = nth_error bed (nr + length online + k)) /\
                    (forall i, (i < n)%nat -> ~ In i outlet -> nth_error ob i = Some f0)) /\
  exists q, eb = [q] /\ nth_error bed (nr + length online + length outlet) = Some q.
Proof. exact @bedload_open. Qed.
Print Assumptions C28_open.

Theorem C28_closed : forall F (NF : Num F) bed n online outlet nr lb ob eb, NoDup online -> online <> [] ->
  (forall i, In i online -> (i < n)%nat) -> length bed = (nr + length online - 1)%nat ->
  storeBedload bed n online outlet (repeat 0%nat nr ++ repeat 1%nat (length online)) true = Ok (lb, ob, eb) ->
  length lb = n /\
  (forall k i, nth_error online k = Some i ->
     nth_error lb i = Some (match nth_error bed (nr + k) with Some q => q | None => f0 end)) /\
  (forall i, (i < n)%nat -> ~ In i online -> nth_error lb i = Some f0) /\ ob = repeat f0 n /\ eb = [f0].
Proof. exact @bedload_closed. Qed.
Print Assumptions C28_closed.

Theorem C28_example :
  storeBedload [1; 2; 3; 4; 5; 6]%float 5 [1; 2]%nat [3]%nat ([0; 0] ++ [1; 1] ++ [2] ++ [3; 4])%nat false =
    Ok ([0; 3; 4; 0; 0], [0; 0; 0; 5; 0], [6])%float /\
  storeBedload [1; 2; 3]%float 5 [1; 2]%nat [] ([0; 0] ++ [1; 1])%nat true = Ok ([0; 3; 0; 0; 0], [0; 0; 0; 0; 0], [0])%float.
Proof. exact store_bed_example. Qed.
