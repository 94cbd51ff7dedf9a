# HapuaModel: what is modelled, what is proved, what is trusted

Subject: the Python sources in `/repo/hapuamod` (hapua = river mouth lagoon
behind a gravel barrier). The sources are read as text; nothing is executed.

## 1. Shape of the development

| file | content |
|---|---|
| `Base.v` | exceptions as values, numpy-style list operations and their lemmas |
| `Num.v` | the arithmetic interface (`Num` class) the model is written over |
| `Xr.v` | instance: exact reals + NaN + infinities (quantitative proofs) |
| `Flt.v` | instance: IEEE binary64 (running the model, refutation witnesses) |
| `Sim.v`, `SimEx.v` | instance: binary64 with approximated elementary functions, and a small hapua to run; used only for example runs and refutation witnesses of structural claims, no accuracy claimed |
| `S*.v` | specification vocabulary of the property theorems |
| `M*.v` | the model, one file per Python module, each definition citing file and lines |
| `P*.v` | lemmas and proofs |
| `Prop_*.v` | the property theorems only, each closed by `exact lemma.`, with `Print Assumptions` and a concrete non-trivial case beside it |

**Arithmetic.** The code computes in float64. The model is polymorphic in the
number type. Theorems about control flow, sizes, indices, masks and time hold for
*every* instance, so in particular for binary64 with NaN. Theorems about
quantities (budgets, positions, bounds) are proved for exact reals extended
with NaN and the infinities: NaN propagation and comparisons behave as in IEEE,
rounding and signed zero do not exist there. So those theorems say that the
formulas are right, not that rounding errors are small.

**Exceptions.** A function that can raise returns `res A = Ok a | Exc e`.
`while` loops take fuel; exhausted fuel is the separate outcome `EFuel`.
"Terminates" means some fuel suffices and more fuel does not change the result;
"does not terminate" means `EFuel` for every fuel.

**In-place updates.** numpy arrays modified in place are passed in and returned.
Where aliasing matters (a view in `mor.py:601`, rebinding in `riv.py:304`) the
model makes it explicit.

**Arrays of transects.** `ShoreX`, `ShoreY[:,0..4]`, `ShoreZ[:,0..3]` always have
one row per transect; the model stores one record per transect.

**Time.** `pd.Timestamp`/`pd.Timedelta` are integer nanoseconds (`Z`);
`.seconds` is `(ns / 10^9) mod 86400`. The int64 range of pandas (about 292 years)
is not modelled.

**Oracles** (universally quantified in the theorems): `scipy.linalg.solve_banded`,
the random generator, uninitialised memory returned by `np.greater(..., where=)`,
single-precision rounding on file write, files and user answers.

## 2. Trusted base

* Coq 8.16.1 kernel (and `coqchk`), the standard library.
* Axioms: none of our own. `Print Assumptions` stands under every property
  theorem, and the table in section 5 records its result. The real-number theorems
  use the standard library's `Reals` axioms (`ClassicalDedekindReals.sig_forall_dec`,
  `sig_not_dec`, `FunctionalExtensionality.functional_extensionality_dep`, and
  `Classical_Prop.classic` where trigonometry is used). Witnesses computed in
  binary64 use the primitive-float/int63 constants of `Coq.Floats`/`Coq.Numbers`.
* That the model says what the Python says. Each definition cites its lines;
  there is no extraction or differential testing (the code must not be run).
* numpy/pandas/scipy semantics as written in the comments of the definitions
  (NaN comparisons, boolean masks, fancy indexing, `arange`, `date_range`,
  `interp`, `Timedelta.seconds`).

## 3. Modelled / not modelled

Modelled: `geom.py` (all live code), `coast.py` (all), `riv.py` (all),
`mor.py` (all), `core.py` (`interpolate_at`, the whole of `main`: loading, result
files in a file system, time stepping with the fallback, live figures), `synth.py`, `out.py` (overwrite logic,
append/read of records, closest time, declared dimensions, variables, units, attributes, coordinates), `__main__.py`, `loadmod.py` with `configspec.cnf`
(validation of the configuration, whole of `loadModel`; file contents and the
conversion of text to numbers, instants and durations are arguments); `visualise.py` and `animate.py` as far as the data of the drawn
lines, polygons and frames go (long section, transect, plan view, map);
`preprocessing/WaveDataFromSwanOutput.py` (one row at a time, without the
rounding of the written numbers to three decimals).

Not modelled: what matplotlib does with the drawn data (of the boundary condition
plot only its rows are modelled), the wording and places of log messages (the command line, message levels and the log file are
modelled; abbreviated or joined options are not), the ConfigObj syntax (sections, quotes,
interpolation), shapefile and CSV readers, long names and calendar attributes of netCDF
variables (names, types, dimensions, units and parameters are modelled), `np.polyfit`, calendar formatting, memory and
performance. Logging calls are dropped because they have no effect on results
(format strings that could themselves fail are not modelled).

## 4. Status convention in MANIFEST.json

`proved`: the statement in `properties.jsonl` is what the listed theorems say.
Many properties are *characterisations of a defect*: the statement describes what
the code does, and a theorem named `..._refuted` shows that the behaviour a user
would expect fails, with a witness. `partial`: the theorem (`..._partial`)
covers less than the statement; the note says what is missing.


## 5. Per property

### C01 World to model coordinates and back is the identity

*Model and proof.* mod2real/real2mod modelled line by line over the number class; proof over the reals by angle-addition and a lemma that (r cos atan2, r sin atan2) recovers the point in every quadrant.

*Theorems* (proved): `C01_world_model_world`, `C01_example`

*Print Assumptions*: `C01_world_model_world`: classic, functional_extensionality_dep, sig_forall_dec, sig_not_dec

### C02 Model to world and back is the identity, and distances are preserved

*Model and proof.* Same model as C01; cos^2+sin^2=1 and the round trip of C01.

*Theorems* (proved): `C02_model_world_model`, `C02_isometry`, `C02_example`

*Print Assumptions*: `C02_model_world_model`, `C02_isometry`: classic, functional_extensionality_dep, sig_forall_dec, sig_not_dec

### C03 Polyline/transect intersection returns exactly the crossings

*Model and proof.* List model of the mask/where/loop; specification is an independent recursive definition over consecutive pairs; induction on the polyline.

*Theorems* (proved): `C03_intersect`, `C03_crossings_unique`, `C03_closed_even`, `C03_example`

*Print Assumptions*: `C03_intersect`, `C03_closed_even`: classic, functional_extensionality_dep, sig_forall_dec, sig_not_dec; `C03_crossings_unique`: functional_extensionality_dep, sig_forall_dec

### C04 Trimming a line moves only its end nodes and puts them on the trim line

*Model and proof.* Loop modelled with fuel; partial correctness for every fuel, by the intersection algebra; a concrete pair of trim segments on which every fuel is exhausted; success for straight trim lines by induction on the distance to the segment. Only the collinearity and extent facts are claimed, not that the nearest intersection is chosen.

*Theorems* (proved): `C04_trimLine`, `C04_example`, `C04_terminates_refuted`, `C04_succeeds`, `C04_range`, `C04_outside`, `C04_straight_example`

*Print Assumptions*: `C04_trimLine`, `C04_succeeds`, `C04_range`, `C04_outside`: classic, functional_extensionality_dep, sig_forall_dec, sig_not_dec; `C04_terminates_refuted`: primitive floats/ints

*Note.* Termination is false (C04_terminates_refuted); the facts about the returned line are proved for increasing trim X, as documented. A coordinate can be NaN when line and trim segment are collinear; the facts are about numeric results.

### C05 Longshore transport: closed form, direction, bound

*Model and proof.* The vector code modelled per consecutive pair; sin(arcsin x)=x, sign analysis of sin a cos a, double angle bound.

*Theorems* (proved): `C05_one_per_segment`, `C05_closed_form`, `C05_normal_waves`, `C05_odd`, `C05_sign_right`, `C05_sign_left`, `C05_bound`, `C05_example`

*Print Assumptions*: `C05_one_per_segment`: closed under the global context; `C05_closed_form`: classic, functional_extensionality_dep, sig_forall_dec, sig_not_dec; `C05_normal_waves`, `C05_odd`, `C05_sign_right`, `C05_sign_left`, `C05_bound`: functional_extensionality_dep, sig_forall_dec, sig_not_dec

### C06 Offshore-directed waves still transport sediment

*Model and proof.* Universal statement about the same model, plus a _refuted theorem for the documented rule.

*Theorems* (proved): `C06_offshore_transport`, `C06_offshore_rule_refuted`, `C06_example`

*Print Assumptions*: `C06_offshore_transport`, `C06_offshore_rule_refuted`: classic, functional_extensionality_dep, sig_forall_dec, sig_not_dec

*Note.* The documented rule is refuted; the universal statement about what happens instead is proved.

### C07 Runup is non-negative and monotone

*Model and proof.* Direct real analysis of 0.49*sqrt(slope)*T*H.

*Theorems* (proved): `C07_runup`, `C07_value`, `C07_example`

*Print Assumptions*: `C07_runup`, `C07_value`: classic, functional_extensionality_dep, sig_forall_dec, sig_not_dec

### C08 Overtopping flux and its partition

*Model and proof.* Per-transect model with the numpy comparison semantics for NaN; independent specification of the three-way rule.

*Theorems* (proved): `C08_overtopping`, `C08_flux_nonneg`, `C08_flux_zero`, `C08_flux_monotone`, `C08_rule_deterministic`, `C08_example`

*Print Assumptions*: `C08_overtopping`, `C08_flux_nonneg`, `C08_flux_zero`, `C08_flux_monotone`: classic, functional_extensionality_dep, sig_forall_dec, sig_not_dec; `C08_rule_deterministic`: functional_extensionality_dep, sig_forall_dec

### C09 A uniform straight coast is in longshore equilibrium

*Model and proof.* Shift invariance and equality of the pairwise differences.

*Theorems* (proved): `C09_uniform_coast`, `C09_shift`, `C09_example`, `C09_no_movement`

*Print Assumptions*: `C09_uniform_coast`: closed under the global context; `C09_shift`, `C09_no_movement`: classic, functional_extensionality_dep, sig_forall_dec, sig_not_dec

### C10 Steady solution conserves discharge

*Model and proof.* The upstream march is a fold over cross-sections; invariant by induction.

*Theorems* (proved): `C10_discharge`, `C10_example`

*Print Assumptions*: `C10_discharge`: classic, functional_extensionality_dep, sig_forall_dec, sig_not_dec

### C11 Steady solution: boundary, critical limit and energy residual

*Model and proof.* Loop exit condition plus the critical-depth clamp; residual specification written independently in terms of energy and friction slopes of the two sections.

*Theorems* (proved): `C11_downstream`, `C11_energy`, `C11_depths`, `C11_critical_unique`, `C11_example`

*Print Assumptions*: `C11_downstream`, `C11_energy`, `C11_depths`: classic, functional_extensionality_dep, sig_forall_dec, sig_not_dec; `C11_critical_unique`: functional_extensionality_dep, sig_forall_dec

### C12 Steady solution terminates within the iteration limit or asserts

*Model and proof.* Fuel MaxIt+1 suffices; induction on the remaining iteration count; instance independent.

*Theorems* (proved): `C12_terminates`, `C12_few_updates`

*Print Assumptions*: `C12_terminates`, `C12_few_updates`: closed under the global context

### C13 Steady solver gives up silently

*Model and proof.* Symbolic evaluation of one march step with a negative estimate, for any tolerance; NaN propagation by induction along the channel.

*Theorems* (proved): `C13_negative_estimate`, `C13_example`, `C13_dry_end`, `C13_dry_example`, `C13_numbers_refuted`

*Print Assumptions*: `C13_negative_estimate`, `C13_dry_end`, `C13_numbers_refuted`: classic, functional_extensionality_dep, sig_forall_dec, sig_not_dec

### C14 Unsteady solver leaves positive depths and nonzero velocities in the caller

*Model and proof.* solve_banded and the random noise are oracles; invariant over both nested loops.

*Theorems* (proved): `C14_positive`, `C14_positive_exact`, `C14_example`

*Print Assumptions*: `C14_positive`: closed under the global context; `C14_positive_exact`: classic, functional_extensionality_dep, sig_forall_dec, sig_not_dec

### C15 Unsteady solver: zero residual means water volume is conserved

*Model and proof.* Telescoping sum by induction; the balance is stated from the physical quantities, not from C1.

*Theorems* (proved): `C15_setup`, `C15_residual`, `C15_balance`, `C15_offline`, `C15_example`, `C15_example_setup`

*Print Assumptions*: `C15_setup`, `C15_residual`, `C15_balance`: classic, functional_extensionality_dep, sig_forall_dec, sig_not_dec; `C15_offline`: functional_extensionality_dep, sig_forall_dec

### C16 The banded matrix is the exact Jacobian for forward flow

*Model and proof.* Derivatives stated with the standard library derivable_pt_lim on the residual function itself.

*Theorems* (proved): `C16_newton`, `C16_example`

*Print Assumptions*: `C16_newton`: classic, functional_extensionality_dep, sig_forall_dec, sig_not_dec

### C17 The Jacobian is wrong for reverse flow

*Model and proof.* Same residual function as C16; derivative of V|V| is 2|V|, the code uses 2V.

*Theorems* (proved): `C17_reverse_refuted`, `C17_example`

*Print Assumptions*: `C17_reverse_refuted`: classic, functional_extensionality_dep, sig_forall_dec, sig_not_dec

### C18 The steady fallback on non-convergence never reaches the caller

*Model and proof.* The model keeps caller arrays and local rebinding apart; theorem that the caller arrays do not depend on the steady solver's result in the last step.

*Theorems* (proved): `C18_iterate`, `C18_first_step_only`, `C18_example`

*Print Assumptions*: `C18_iterate`, `C18_first_step_only`: closed under the global context

### C19 Singular matrix handling

*Model and proof.* Oracle returning None at the iteration in question.

*Theorems* (proved): `C19_first`, `C19_later`, `C19_compose`, `C19_example`

*Print Assumptions*: `C19_first`, `C19_later`, `C19_compose`: closed under the global context

### C20 Assembled channel layout

*Model and proof.* Full functional model; list-length bookkeeping.

*Theorems* (proved): `C20_layout`, `C20_hydraulics`, `C20_contents`, `C20_example`

*Print Assumptions*: `C20_layout`, `C20_hydraulics`, `C20_contents`: closed under the global context

### C21 Outlet closure criterion

*Model and proof.* Exact characterisation of the returned flag in terms of the input arrays only.

*Theorems* (proved): `C21_closure`, `C21_example`

*Print Assumptions*: `C21_closure`: classic, functional_extensionality_dep, sig_forall_dec, sig_not_dec

### C22 Online lagoon is a contiguous run starting at the river

*Model and proof.* arange/truncate-at-first-narrow model; prefix lemma.

*Theorems* (proved): `C22_online`, `C22_example`

*Print Assumptions*: `C22_online`: closed under the global context

### C23 Offline lagoon storage accounting

*Model and proof.* Sum specification over transects by position; departures as separate universal theorems and a _refuted theorem with a concrete lagoon.

*Theorems* (proved): `C23_storage`, `C23_total_open`, `C23_total_shut`, `C23_single`, `C23_inline`, `C23_conserved_refuted`, `C23_example`

*Print Assumptions*: `C23_storage`, `C23_total_open`, `C23_total_shut`, `C23_single`, `C23_inline`, `C23_conserved_refuted`: classic, functional_extensionality_dep, sig_forall_dec, sig_not_dec

### C24 Assembled channel contains no missing values

*Model and proof.* The trailing assertions as guards; np.interp modelled; bound of the interpolated values by the neighbours.

*Theorems* (proved): `C24_numbers`, `C24_filled`, `C24_range`, `C24_example`

*Print Assumptions*: `C24_numbers`, `C24_filled`: closed under the global context; `C24_range`: classic, functional_extensionality_dep, sig_forall_dec, sig_not_dec

### C25 Storing and re-assembling hydraulics is lossless

*Model and proof.* Scatter followed by gather with distinct indices; x + z - z = x in exact arithmetic.

*Theorems* (proved): `C25_round_trip`, `C25_example`

*Print Assumptions*: `C25_round_trip`: classic, functional_extensionality_dep, sig_forall_dec, sig_not_dec

### C26 Stored lagoon levels extend to the offline lagoon

*Model and proof.* List model of slice assignment.

*Theorems* (proved): `C26_stored`, `C26_succeeds`, `C26_example`

*Print Assumptions*: `C26_stored`, `C26_succeeds`: closed under the global context

### C27 Bedload: direction, threshold, weighting

*Model and proof.* Node formula over reals with Rpower; sign analysis; convexity for Psi in [0,1].

*Theorems* (proved): `C27_formula`, `C27_transport`, `C27_between`, `C27_reverse`, `C27_example`

*Print Assumptions*: `C27_formula`, `C27_transport`, `C27_reverse`: classic, functional_extensionality_dep, sig_forall_dec, sig_not_dec; `C27_between`: functional_extensionality_dep, sig_forall_dec

### C28 Bedload is stored at the reach downstream of its transect

*Model and proof.* Mask/scatter model with the flag layout of C20.

*Theorems* (proved): `C28_open`, `C28_closed`, `C28_example`

*Print Assumptions*: `C28_open`, `C28_closed`: closed under the global context

### C29 Interpolation of boundary conditions

*Model and proof.* Model of select/reindex/sort/interpolate(method=time)/loc; specification is the piecewise-linear interpolant by neighbours.

*Theorems* (proved): `C29_interpolates`, `C29_between`, `C29_unique`, `C29_example`

*Print Assumptions*: `C29_interpolates`: classic, functional_extensionality_dep, sig_forall_dec, sig_not_dec; `C29_between`, `C29_unique`: functional_extensionality_dep, sig_forall_dec

### C30 Interpolation outside the data range raises

*Model and proof.* Characterisation of the two where()[0][i] look-ups.

*Theorems* (proved): `C30_raises`, `C30_index`

*Print Assumptions*: `C30_raises`, `C30_index`: closed under the global context

### C31 Simulation clock never passes EndTime and never runs backwards

*Model and proof.* Loop as an iterated step function in the result monad; induction on steps; needs only that the adaptive step returns a non-negative duration.

*Theorems* (proved): `C31_clock`, `C31_example`

*Print Assumptions*: `C31_clock`: closed under the global context

### C32 A run never finishes normally

*Model and proof.* Invariant MorTime <= EndTime implies the guard is always true; the modelled loop returns Ok for no fuel.

*Theorems* (proved): `C32_never_ends`, `C32_example`

*Print Assumptions*: `C32_never_ends`: closed under the global context

### C33 What stops the run: the step after EndTime

*Model and proof.* date_range with closed=right modelled exactly on integer nanoseconds; empty exactly when the duration is below the frequency.

*Theorems* (proved): `C33_at_end`, `C33_short`, `C33_two_at_end`, `C33_bound`, `C33_stops`, `C33_example`

*Print Assumptions*: `C33_at_end`, `C33_short`, `C33_two_at_end`, `C33_bound`, `C33_stops`: closed under the global context

### C34 Output records: spacing and monotone times

*Model and proof.* Output lists are part of the loop state; induction on steps; falling behind by witness.

*Theorems* (proved): `C34_records`, `C34_complete_refuted`, `C34_example`

*Print Assumptions*: `C34_records`: closed under the global context; `C34_complete_refuted`: primitive floats/ints

### C35 The open/closed flag changes only by closure and breach

*Model and proof.* Composition of C21 with the loop model.

*Theorems* (proved): `C35_opens`, `C35_shuts`, `C35_shuts_criterion`, `C35_opens_example`, `C35_shuts_example`

*Print Assumptions*: `C35_opens`, `C35_shuts`: closed under the global context; `C35_shuts_criterion`: classic, functional_extensionality_dep, sig_forall_dec, sig_not_dec

### C36 Hydraulics and morphology may cover different durations

*Model and proof.* Direct from the loop model: hydraulic times are determined by the old MorDt, the clock by the new one.

*Theorems* (proved): `C36_times`, `C36_hydraulic_times`, `C36_end_ignored`, `C36_example`, `C36_end_example`

*Print Assumptions*: `C36_times`, `C36_hydraulic_times`, `C36_end_ignored`: closed under the global context

### C37 Adaptive time step: range

*Model and proof.* Both while loops with fuel over integer nanoseconds; loop invariants.

*Theorems* (proved): `C37_range`, `C37_quality`, `C37_example`

*Print Assumptions*: `C37_range`: closed under the global context; `C37_quality`: classic, functional_extensionality_dep, sig_forall_dec, sig_not_dec

### C38 Adaptive time step: termination up to half a day

*Model and proof.* Variant functions; the wrapped doubling orbit of 15 s below 86400 s shown to stay below the limit for ever.

*Theorems* (proved): `C38_terminates`, `C38_terminates_refuted`, `C38_forever`

*Print Assumptions*: `C38_terminates`: closed under the global context; `C38_terminates_refuted`, `C38_forever`: classic, functional_extensionality_dep, sig_forall_dec, sig_not_dec

### C39 Adaptive time step: the maximum may be overshot, and one day means zero

*Model and proof.* Computed on the time model.

*Theorems* (proved): `C39_limits_refuted`, `C39_minimum_refuted`, `C39_one_day`, `C39_example`

*Print Assumptions*: `C39_limits_refuted`, `C39_minimum_refuted`: classic, functional_extensionality_dep, sig_forall_dec, sig_not_dec; `C39_one_day`: closed under the global context

### C40 Change per step is capped

*Model and proof.* max of maxima bounds every component; clipping branch otherwise.

*Theorems* (proved): `C40_transects`, `C40_river`, `C40_end`, `C40_exact`, `C40_example`, `C40_example_exact`

*Print Assumptions*: `C40_transects`, `C40_river`, `C40_end`, `C40_exact`: classic, functional_extensionality_dep, sig_forall_dec, sig_not_dec

### C41 Longshore supply to the outlet from the right bypasses the time step and the cap

*Model and proof.* Universal statement on the modelled step; _refuted theorem for the expected mass balance.

*Theorems* (proved): `C41_supply`, `C41_cap_refuted`, `C41_example`

*Print Assumptions*: `C41_supply`, `C41_cap_refuted`: classic, functional_extensionality_dep, sig_forall_dec, sig_not_dec

### C42 Bedload budget telescopes

*Model and proof.* Telescoping by induction.

*Theorems* (proved): `C42_telescopes`, `C42_example`

*Print Assumptions*: `C42_telescopes`: classic, functional_extensionality_dep, sig_forall_dec, sig_not_dec

### C43 Bed and bank changes account for each cross-section's budget

*Model and proof.* Algebra on the rate definitions; volumes reconstructed from the returned rates and the geometry.

*Theorems* (proved): `C43_lagoon`, `C43_outlet`, `C43_river`, `C43_end`, `C43_elsewhere`, `C43_example`

*Print Assumptions*: `C43_lagoon`, `C43_outlet`, `C43_river`, `C43_end`, `C43_elsewhere`: classic, functional_extensionality_dep, sig_forall_dec, sig_not_dec

### C44 Longshore budget

*Model and proof.* Telescoping; algebra.

*Theorems* (proved): `C44_pointwise`, `C44_total`, `C44_bank`, `C44_only`, `C44_example`

*Print Assumptions*: `C44_pointwise`, `C44_total`, `C44_bank`, `C44_only`: classic, functional_extensionality_dep, sig_forall_dec, sig_not_dec

### C45 Cross-shore budget

*Model and proof.* Algebra per transect.

*Theorems* (proved): `C45_shoreface`, `C45_barrier`, `C45_rest`, `C45_present`, `C45_example`

*Print Assumptions*: `C45_shoreface`, `C45_barrier`, `C45_rest`: classic, functional_extensionality_dep, sig_forall_dec, sig_not_dec; `C45_present`: closed under the global context

### C46 River sediment discharged to the shore

*Model and proof.* Partition-of-unity of the hat function on a regular grid, by induction; counterexample otherwise.

*Theorems* (proved): `C46_spread`, `C46_total`, `C46_ends`, `C46_total_refuted`, `C46_example`

*Print Assumptions*: `C46_spread`, `C46_total`, `C46_ends`, `C46_total_refuted`: classic, functional_extensionality_dep, sig_forall_dec, sig_not_dec

### C47 Domain ends move only by the prescribed erosion rate

*Model and proof.* Direct from the rate model; every other contribution is overwritten.

*Theorems* (proved): `C47_ends`, `C47_example`

*Print Assumptions*: `C47_ends`: closed under the global context

### C48 Outlet kept inside the domain - except that overrunning on the right jumps to the left end

*Model and proof.* Characterisation of the two-if sequence; _refuted theorem for clamping.

*Theorems* (proved): `C48_within_domain`, `C48_jump`, `C48_clamp_refuted`, `C48_example`

*Print Assumptions*: `C48_within_domain`, `C48_clamp_refuted`, `C48_example`: classic, functional_extensionality_dep, sig_forall_dec, sig_not_dec; `C48_jump`: closed under the global context

### C49 Cliff collision: gap restored and sediment conserved

*Model and proof.* Field algebra per transect.

*Theorems* (proved): `C49_cliff`, `C49_applied`, `C49_example`

*Print Assumptions*: `C49_cliff`: classic, functional_extensionality_dep, sig_forall_dec, sig_not_dec; `C49_applied`: closed under the global context; `C49_example`: functional_extensionality_dep, sig_forall_dec

### C50 Overwash into a closed channel: no negative widths, sediment conserved

*Model and proof.* Per-transect case analysis.

*Theorems* (proved): `C50_redistribution`, `C50_elsewhere`, `C50_every_transect`, `C50_no_negative_width`, `C50_example`

*Print Assumptions*: `C50_redistribution`, `C50_no_negative_width`, `C50_example`: classic, functional_extensionality_dep, sig_forall_dec, sig_not_dec; `C50_elsewhere`, `C50_every_transect`: closed under the global context

### C51 Outlet elongation

*Model and proof.* Mask model.

*Theorems* (proved): `C51_elongation`, `C51_example`

*Print Assumptions*: `C51_elongation`: closed under the global context; `C51_example`: classic, functional_extensionality_dep, sig_forall_dec, sig_not_dec

### C52 Seaward truncation at the first transect is prevented with sediment balance

*Model and proof.* Field algebra.

*Theorems* (proved): `C52_bank`, `C52_first_only`, `C52_example`

*Print Assumptions*: `C52_bank`, `C52_example`: classic, functional_extensionality_dep, sig_forall_dec, sig_not_dec; `C52_first_only`: closed under the global context

### C53 Lagoonward truncation handles only the first of several intersections

*Model and proof.* Characterisation of the new end; _refuted theorem for "no merged transect remains".

*Theorems* (proved): `C53_untouched`, `C53_first`, `C53_rest_refuted`, `C53_example`

*Print Assumptions*: `C53_untouched`, `C53_first`: closed under the global context; `C53_rest_refuted`, `C53_example`: classic, functional_extensionality_dep, sig_forall_dec, sig_not_dec

### C54 Seaward truncation keeps at least one transect for left-to-right outlets

*Model and proof.* List prefix reasoning on the regular grid; mirror-image witness.

*Theorems* (proved): `C54_left_to_right`, `C54_right_to_left`, `C54_mirror_refuted`, `C54_example`

*Print Assumptions*: `C54_left_to_right`, `C54_right_to_left`, `C54_mirror_refuted`, `C54_example`: classic, functional_extensionality_dep, sig_forall_dec, sig_not_dec

### C55 Lagoon collision at the last channel transect

*Model and proof.* Field algebra.

*Theorems* (proved): `C55_collision`, `C55_applied`, `C55_example`

*Print Assumptions*: `C55_collision`, `C55_applied`, `C55_example`: classic, functional_extensionality_dep, sig_forall_dec, sig_not_dec

### C56 Channel/lagoon merging depends on uninitialised memory

*Model and proof.* Memory content is an explicit argument; result independent of it at channel transects; if the memory is all true no spurious merging, otherwise AssertionError at the end.

*Theorems* (proved): `C56_channel_transects`, `C56_success_needs_true`, `C56_success_is_unique`, `C56_update`, `C56_all_true`, `C56_deterministic_refuted`

*Print Assumptions*: `C56_channel_transects`, `C56_all_true`: closed under the global context; `C56_success_needs_true`, `C56_success_is_unique`, `C56_update`, `C56_deterministic_refuted`: classic, functional_extensionality_dep, sig_forall_dec, sig_not_dec

### C57 Merging a channel into the lagoon conserves water surface and, if adjacent, bed volume

*Model and proof.* Algebra and witness.

*Theorems* (proved): `C57_merge`, `C57_bed_volume_refuted`, `C57_every_transect`

*Print Assumptions*: `C57_merge`, `C57_bed_volume_refuted`: classic, functional_extensionality_dep, sig_forall_dec, sig_not_dec; `C57_every_transect`: closed under the global context

### C58 Filling an eroded channel from the shoreface conserves sediment

*Model and proof.* Algebra.

*Theorems* (proved): `C58_fill`, `C58_every_transect`, `C58_presence`, `C58_example`

*Print Assumptions*: `C58_fill`, `C58_example`: classic, functional_extensionality_dep, sig_forall_dec, sig_not_dec; `C58_every_transect`, `C58_presence`: closed under the global context

### C59 The transect that breaches is filled in nonetheless

*Model and proof.* Mask model with numpy's bool/int comparison.

*Theorems* (proved): `C59_filled`, `C59_nearest`, `C59_index`, `C59_open_refuted`, `C59_example`

*Print Assumptions*: `C59_filled`: closed under the global context; `C59_nearest`, `C59_index`, `C59_open_refuted`, `C59_example`: classic, functional_extensionality_dep, sig_forall_dec, sig_not_dec

### C60 Restoring an eroded barrier is not mass conserving

*Model and proof.* Algebra; universal strict inequality.

*Theorems* (proved): `C60_restored`, `C60_every_transect`, `C60_conservation_refuted`

*Print Assumptions*: `C60_restored`, `C60_conservation_refuted`: classic, functional_extensionality_dep, sig_forall_dec, sig_not_dec; `C60_every_transect`: closed under the global context

### C61 Checking for overtopping raises the barrier crest

*Model and proof.* View modelled as in-place update.

*Theorems* (proved): `C61_crests`, `C61_check_only_refuted`

*Print Assumptions*: `C61_crests`: closed under the global context; `C61_check_only_refuted`: classic, functional_extensionality_dep, sig_forall_dec, sig_not_dec

### C62 Geometry of a new breach

*Model and proof.* Algebra.

*Theorems* (proved): `C62_geometry`, `C62_open`, `C62_example`

*Print Assumptions*: `C62_geometry`, `C62_open`, `C62_example`: classic, functional_extensionality_dep, sig_forall_dec, sig_not_dec

### C63 Breach on an existing channel is practically never recognised

*Model and proof.* Model of `in` on a boolean array.

*Theorems* (proved): `C63_new_channel`, `C63_index_one`, `C63_index_zero`, `C63_recognised_refuted`

*Print Assumptions*: `C63_new_channel`, `C63_index_one`, `C63_index_zero`, `C63_recognised_refuted`: closed under the global context

### C64 After every update the lagoon at the river is at least MinOutletWidth wide and key columns are numbers

*Model and proof.* Composition of all modelled steps.

*Theorems* (proved): `C64_shape`, `C64_lagoon_width`, `C64_order_corrections`, `C64_order`, `C64_example`

*Print Assumptions*: `C64_shape`, `C64_order_corrections`, `C64_order`: closed under the global context; `C64_lagoon_width`, `C64_example`: classic, functional_extensionality_dep, sig_forall_dec, sig_not_dec

### C65 Which update can breach

*Model and proof.* Case analysis on the modelled breach logic.

*Theorems* (proved): `C65_cause`, `C65_none`, `C65_eroded_closed`, `C65_calm`, `C65_levels`, `C65_example_levels`, `C65_erosion_place`, `C65_spill_place`, `C65_spill_none`, `C65_stuck`, `C65_example_stuck`, `C65_example_erosion`, `C65_example_spill`, `C65_example_calm`

*Print Assumptions*: `C65_cause`, `C65_none`, `C65_eroded_closed`, `C65_calm`, `C65_levels`, `C65_spill_none`, `C65_stuck`: closed under the global context; `C65_erosion_place`, `C65_spill_place`, `C65_example_stuck`, `C65_example_erosion`, `C65_example_spill`, `C65_example_calm`: classic, functional_extensionality_dep, sig_forall_dec, sig_not_dec

### C66 Derived parameters

*Model and proof.* Algebra.

*Theorems* (proved): `C66_line`, `C66_k2`, `C66_breaker`, `C66_derive`, `C66_example`

*Print Assumptions*: `C66_line`, `C66_k2`, `C66_breaker`: classic, functional_extensionality_dep, sig_forall_dec, sig_not_dec; `C66_derive`: closed under the global context; `C66_example`: functional_extensionality_dep, sig_forall_dec

### C67 Initial river bed

*Model and proof.* np.arange modelled by its documented length formula.

*Theorems* (proved): `C67_bed`, `C67_example`

*Print Assumptions*: `C67_bed`: classic, functional_extensionality_dep, sig_forall_dec, sig_not_dec; `C67_example`: sig_forall_dec

### C68 Default straight shoreline

*Model and proof.* arange model and floor.

*Theorems* (proved): `C68_grid`, `C68_transects`, `C68_example`, `C68_float_refuted`, `C68_channel_refuted`

*Print Assumptions*: `C68_grid`, `C68_transects`: classic, functional_extensionality_dep, sig_forall_dec, sig_not_dec; `C68_example`: functional_extensionality_dep, sig_forall_dec; `C68_float_refuted`, `C68_channel_refuted`: primitive floats/ints

### C69 Wave direction conversion

*Model and proof.* Python % semantics with floor.

*Theorems* (proved): `C69_direction`, `C69_example`

*Print Assumptions*: `C69_direction`, `C69_example`: classic, functional_extensionality_dep, sig_forall_dec, sig_not_dec

### C70 Trimming of boundary series keeps the simulation covered but does not trim the start

*Model and proof.* Mask list model; precise characterisation by kept indices.

*Theorems* (proved): `C70_kept`, `C70_accepted`, `C70_total`, `C70_covers`, `C70_trimmed_refuted`

*Print Assumptions*: `C70_kept`, `C70_accepted`, `C70_total`, `C70_covers`, `C70_trimmed_refuted`: closed under the global context

### C71 Outlet end initialisation for straight outlets uses Y instead of X

*Model and proof.* Model of the branch; invariance under change of X coordinates.

*Theorems* (proved): `C71_same_y`, `C71_position_refuted`, `C71_inserted`, `C71_overlap`, `C71_example`

*Print Assumptions*: `C71_same_y`: closed under the global context; `C71_position_refuted`, `C71_inserted`, `C71_overlap`: classic, functional_extensionality_dep, sig_forall_dec, sig_not_dec; `C71_example`: functional_extensionality_dep, sig_forall_dec

### C72 Harmonic tide

*Model and proof.* date_range on integer nanoseconds and |sin| <= 1.

*Theorems* (proved): `C72_times`, `C72_range`, `C72_value`, `C72_accepted`, `C72_example`, `C72_accepted_refuted`

*Print Assumptions*: `C72_times`, `C72_accepted`: closed under the global context; `C72_range`, `C72_value`, `C72_example`, `C72_accepted_refuted`: classic, functional_extensionality_dep, sig_forall_dec, sig_not_dec

### C73 Shot noise: the documented default always fails

*Model and proof.* Prefix of the function modelled with an option type.

*Theorems* (proved): `C73_default`, `C73_never`, `C73_short`, `C73_whole_days`, `C73_example`

*Print Assumptions*: `C73_default`, `C73_never`, `C73_short`, `C73_whole_days`: closed under the global context; `C73_example`: primitive floats/ints

### C74 Shot noise: generated flows are positive and decay between events

*Model and proof.* Random draws are an oracle list; induction over events; the short-gap branch included.

*Theorems* (proved): `C74_positive`, `C74_decay`, `C74_total`, `C74_example`, `C74_fine_example`

*Print Assumptions*: `C74_positive`, `C74_decay`, `C74_total`, `C74_example`: classic, functional_extensionality_dep, sig_forall_dec, sig_not_dec; `C74_fine_example`: functional_extensionality_dep, sig_forall_dec

### C75 Shot noise: event loop ends after EndDate

*Model and proof.* Fuel model.

*Theorems* (proved): `C75_stops`, `C75_stops_refuted`, `C75_example`

*Print Assumptions*: `C75_stops`: closed under the global context; `C75_stops_refuted`, `C75_example`: classic, functional_extensionality_dep, sig_forall_dec, sig_not_dec

### C76 Output files are overwritten only with consent

*Model and proof.* File system as a finite map, user answers as an oracle.

*Theorems* (proved): `C76_results`, `C76_timeseries`, `C76_both`, `C76_example`

*Print Assumptions*: `C76_results`, `C76_timeseries`, `C76_both`: closed under the global context; `C76_example`: classic, functional_extensionality_dep, sig_forall_dec, sig_not_dec

### C77 Refusing the second file still loses the first

*Model and proof.* Composition of the two models in the order used by main.

*Theorems* (proved): `C77_lost`, `C77_lost_example`, `C77_same_name`, `C77_same_name_example`

*Print Assumptions*: `C77_lost`, `C77_same_name`: closed under the global context; `C77_lost_example`, `C77_same_name_example`: classic, functional_extensionality_dep, sig_forall_dec, sig_not_dec

### C78 Written records can be read back

*Model and proof.* File as a list of rows per variable; single-precision rounding an abstract function applied on write.

*Theorems* (proved): `C78_read_back`, `C78_earlier`, `C78_times`, `C78_accepts`, `C78_rejects`, `C78_timeseries`, `C78_example`

*Print Assumptions*: `C78_read_back`, `C78_earlier`, `C78_times`, `C78_accepts`, `C78_rejects`, `C78_timeseries`: closed under the global context; `C78_example`: classic, functional_extensionality_dep, sig_forall_dec, sig_not_dec

### C79 Outlet-end bedload is never written and the wave direction is never read

*Model and proof.* Same model.

*Theorems* (proved): `C79_ignored`, `C79_never_stored`, `C79_direction`, `C79_written`, `C79_example`

*Print Assumptions*: `C79_ignored`, `C79_never_stored`, `C79_direction`, `C79_written`: closed under the global context; `C79_example`: classic, functional_extensionality_dep, sig_forall_dec, sig_not_dec

### C80 Closest output time

*Model and proof.* List minimum by induction.

*Theorems* (proved): `C80_closest`, `C80_total`, `C80_at_most_two`, `C80_example`

*Print Assumptions*: `C80_closest`, `C80_total`, `C80_at_most_two`, `C80_example`: closed under the global context

### C81 Undefined breaking angle gives an undefined transport

*Model and proof.* Same model as C05; arcsin outside [-1,1] is NaN as in numpy.

*Theorems* (proved): `C81_undefined_breaking_angle`, `C81_example`

*Print Assumptions*: `C81_undefined_breaking_angle`: classic, functional_extensionality_dep, sig_forall_dec, sig_not_dec

### C84 Hot starts resume the saved state

*Model and proof.* Main loop step, file model and hot start model composed; field by field.

*Theorems* (proved): `C84_written`, `C84_status_refuted`, `C84_resumes`, `C84_depth`, `C84_no_depth`, `C84_example`, `C84_tie`, `C84_tie_example`, `C84_spacing`

*Print Assumptions*: `C84_written`, `C84_resumes`, `C84_tie`, `C84_spacing`: closed under the global context; `C84_status_refuted`: primitive floats/ints; `C84_depth`, `C84_no_depth`, `C84_example`, `C84_tie_example`: classic, functional_extensionality_dep, sig_forall_dec, sig_not_dec

### C85 Model coordinate system

*Model and proof.* atan2 and the rotation over the reals; division by zero as in numpy.

*Theorems* (proved): `C85_origin`, `C85_points`, `C85_inflow`, `C85_landward_refuted`, `C85_flat`

*Print Assumptions*: `C85_origin`, `C85_points`, `C85_inflow`, `C85_landward_refuted`, `C85_flat`: classic, functional_extensionality_dep, sig_forall_dec, sig_not_dec

### C86 Initial channel from a polyline

*Model and proof.* Row function inverted; minimum and maximum over lists; induction over transects.

*Theorems* (proved): `C86_fits`, `C86_ends`, `C86_bed`, `C86_levels`, `C86_example`, `C86_fits_example`, `C86_lines`, `C86_shape`, `C86_shape_example`

*Print Assumptions*: `C86_fits`, `C86_ends`, `C86_levels`, `C86_example`, `C86_fits_example`, `C86_lines`, `C86_shape`, `C86_shape_example`: classic, functional_extensionality_dep, sig_forall_dec, sig_not_dec; `C86_bed`: closed under the global context

### C87 Shot noise: the resampled series

*Model and proof.* Bins as filters of the generated series; regular grids by induction; means by exact sums; the loop invariant of C74.

*Theorems* (proved): `C87_series`, `C87_limb_refuted`, `C87_example`, `C87_end_refuted`

*Print Assumptions*: `C87_series`: classic, functional_extensionality_dep, sig_forall_dec, sig_not_dec; `C87_limb_refuted`: closed under the global context; `C87_example`, `C87_end_refuted`: primitive floats/ints

### C88 Fallback hydraulics

*Model and proof.* The pass is inverted once into its intermediate values; the steady discharge comes from C10.

*Theorems* (proved): `C88_forced`, `C88_hydraulics`, `C88_discharge`, `C88_example`

*Print Assumptions*: `C88_forced`, `C88_hydraulics`: closed under the global context; `C88_discharge`: classic, functional_extensionality_dep, sig_forall_dec, sig_not_dec

### C89 Data flow of one pass

*Model and proof.* Same inversion as C88; the refutation runs the small hapua with rising boundary series.

*Theorems* (proved): `C89_morphology`, `C89_record`, `C89_bedload`, `C89_series`, `C89_example`, `C89_stamp_refuted`

*Print Assumptions*: `C89_morphology`, `C89_record`, `C89_bedload`, `C89_series`: closed under the global context; `C89_stamp_refuted`: primitive floats/ints

### C90 Long section

*Model and proof.* Arrays as functions of the section number; sums by induction; the steady part from C10.

*Theorems* (proved): `C90_lines`, `C90_chainage`, `C90_steady`, `C90_gravity_refuted`, `C90_axis_refuted`, `C90_example`

*Print Assumptions*: `C90_lines`, `C90_steady`, `C90_gravity_refuted`, `C90_axis_refuted`: classic, functional_extensionality_dep, sig_forall_dec, sig_not_dec; `C90_chainage`: functional_extensionality_dep, sig_forall_dec

### C91 Transect view

*Model and proof.* Minimum over a list; the two lines as explicit point lists with the four cases channel or not, lagoon or not.

*Theorems* (proved): `C91_nearest`, `C91_title`, `C91_ground`, `C91_water`, `C91_folds_refuted`, `C91_example`, `C91_nearest_example`

*Print Assumptions*: `C91_nearest`, `C91_title`, `C91_ground`, `C91_water`, `C91_folds_refuted`: classic, functional_extensionality_dep, sig_forall_dec, sig_not_dec

### C92 Plan view

*Model and proof.* Interpolation is shown equal to the height of a polyline; banks by inversion of the two branches each; refutations on a five-transect coast.

*Theorems* (proved): `C92_drawable`, `C92_first_drawing`, `C92_outline`, `C92_closed`, `C92_hatch`, `C92_shoreline`, `C92_lagoon`, `C92_cliff`, `C92_channel`, `C92_arrow`, `C92_interpolation`, `C92_left_bank_refuted`, `C92_mirror_refuted`, `C92_hatch_refuted`, `C92_example`, `C92_closed_example`

*Print Assumptions*: `C92_drawable`, `C92_first_drawing`, `C92_outline`, `C92_closed`, `C92_hatch`, `C92_channel`: closed under the global context; `C92_shoreline`, `C92_lagoon`, `C92_cliff`, `C92_arrow`, `C92_interpolation`: classic, functional_extensionality_dep, sig_forall_dec, sig_not_dec; `C92_left_bank_refuted`, `C92_mirror_refuted`, `C92_hatch_refuted`: primitive floats/ints

### C93 Animations

*Model and proof.* Python ranges by division; reading from C78; failure of the first drawing from C92; files written by the simulated small hapua.

*Theorems* (proved): `C93_frames`, `C93_interval_zero`, `C93_end_excluded`, `C93_map`, `C93_longsection`, `C93_transect`, `C93_parameters`, `C93_closed_start`, `C93_example`, `C93_closed_refuted`

*Print Assumptions*: `C93_frames`, `C93_interval_zero`, `C93_end_excluded`, `C93_map`, `C93_longsection`, `C93_transect`, `C93_parameters`, `C93_closed_start`: closed under the global context; `C93_closed_refuted`: primitive floats/ints

### C94 Wave energy flux in the input file

*Model and proof.* Polar coordinates of atan2, periodicity of sine and cosine under the two reductions modulo a full circle.

*Theorems* (proved): `C94_direction`, `C94_frame`, `C94_rows`, `C94_minutes_refuted`

*Print Assumptions*: `C94_direction`, `C94_frame`, `C94_minutes_refuted`: classic, functional_extensionality_dep, sig_forall_dec, sig_not_dec; `C94_rows`: closed under the global context

### C95 Offshore wave height in the input file

*Model and proof.* Specification by Snell law and equality of energy fluxes; bounds on x/sinh x and tanh by the mean value theorem.

*Theorems* (proved): `C95_excess`, `C95_exists`, `C95_group`, `C95_flux_refuted`, `C95_grazing`, `C95_offshore`, `C95_example`, `C95_grazing_example`, `C95_offshore_example`

*Print Assumptions*: `C95_excess`, `C95_exists`, `C95_group`, `C95_flux_refuted`, `C95_grazing`, `C95_offshore`, `C95_example`, `C95_grazing_example`: classic, functional_extensionality_dep, sig_forall_dec, sig_not_dec; `C95_offshore_example`: functional_extensionality_dep, sig_forall_dec, sig_not_dec

### C96 Boundary series with missing records

*Model and proof.* Specification by window and valued neighbours; the select/reindex/interpolate model is shown to agree by induction on sortedness.

*Theorems* (proved): `C96_values`, `C96_nan`, `C96_bridged_refuted`, `C96_independent_refuted`, `C96_example`

*Print Assumptions*: `C96_values`, `C96_nan`, `C96_independent_refuted`: classic, functional_extensionality_dep, sig_forall_dec, sig_not_dec; `C96_bridged_refuted`: closed under the global context

### C97 Configuration files that are accepted

*Model and proof.* Tables of required keys, defaults and limits written separately from the model table; agreement by computation, acceptance by induction over the table.

*Theorems* (proved): `C97_accepted`, `C97_meaning`, `C97_error`, `C97_required`, `C97_limits`, `C97_unknown`, `C97_nan_refuted`, `C97_typo_refuted`, `C97_example`

*Print Assumptions*: `C97_accepted`, `C97_meaning`, `C97_error`, `C97_required`, `C97_unknown`: closed under the global context; `C97_limits`: classic, functional_extensionality_dep, sig_forall_dec, sig_not_dec; `C97_nan_refuted`, `C97_typo_refuted`: primitive floats/ints

### C98 Loaded parameters

*Model and proof.* Inversion of the load; one table key to parameter in the specification.

*Theorems* (proved): `C98_parameters`, `C98_example`

*Print Assumptions*: `C98_parameters`: closed under the global context

### C99 From loading to the first step

*Model and proof.* Composition of the load with the initial state and the step theorems; refutations by evaluating the shipped synthetic configuration with one changed line.

*Theorems* (proved): `C99_sound`, `C99_missing`, `C99_invalid`, `C99_clock`, `C99_run`, `C99_stuck`, `C99_backwards`, `C99_runs_refuted`, `C99_order_refuted`, `C99_example`

*Print Assumptions*: `C99_sound`, `C99_missing`, `C99_invalid`, `C99_clock`, `C99_run`, `C99_stuck`, `C99_backwards`: closed under the global context; `C99_runs_refuted`, `C99_order_refuted`: primitive floats/ints

### C100 Names of the result files

*Model and proof.* Character lists of names; last slash and last dot by induction.

*Theorems* (proved): `C100_names`, `C100_differ`, `C100_shared`, `C100_distinct_refuted`, `C100_two_refuted`, `C100_example`

*Print Assumptions*: `C100_names`, `C100_differ`, `C100_shared`: closed under the global context; `C100_distinct_refuted`, `C100_two_refuted`: primitive floats/ints

### C101 Where the data of a run come from

*Model and proof.* Inversion of the load per source; case-insensitive words by an inductive relation; a whole cycle configuration, run, results, hot start is evaluated as example.

*Theorems* (proved): `C101_flow`, `C101_sea`, `C101_waves`, `C101_hot`, `C101_tide`, `C101_range`, `C101_shotnoise`, `C101_cold`, `C101_hot_only`, `C101_continue_refuted`, `C101_example_hot_only`, `C101_example_shotnoise`, `C101_straight`, `C101_shapes`, `C101_straight_example`, `C101_shapes_example`

*Print Assumptions*: `C101_flow`, `C101_sea`, `C101_waves`, `C101_hot`, `C101_tide`, `C101_range`, `C101_shotnoise`, `C101_cold`, `C101_hot_only`, `C101_straight`, `C101_shapes`: closed under the global context; `C101_continue_refuted`: primitive floats/ints

### C102 What a program leaves on disk

*Model and proof.* Whole main modelled over a file system; invariant of the loop relating files and recorded passes; reading back by the theorems of C78; example runs evaluated from a configuration file.

*Theorems* (proved): `C102_files`, `C102_unloadable`, `C102_refused`, `C102_cold`, `C102_schedule`, `C102_ends`, `C102_one_name`, `C102_example`, `C102_example_end`, `C102_example_one_name`

*Print Assumptions*: `C102_files`, `C102_unloadable`, `C102_refused`, `C102_cold`, `C102_schedule`, `C102_ends`, `C102_one_name`: closed under the global context

### C103 Live plotting does not change the results

*Model and proof.* Simulation relation between the two loops; invariant of the drawn rows and figures.

*Theorems* (proved): `C103_files`, `C103_schedule`, `C103_example`

*Print Assumptions*: `C103_files`, `C103_schedule`: closed under the global context

### C104 What the live figures show

*Model and proof.* Inversion of the pass and of the drawing; refutations by evaluating a filling lagoon and a closed hot start.

*Theorems* (proved): `C104_records`, `C104_closed`, `C104_first`, `C104_current_refuted`, `C104_plottable_refuted`

*Print Assumptions*: `C104_records`, `C104_closed`, `C104_first`: closed under the global context; `C104_current_refuted`, `C104_plottable_refuted`: primitive floats/ints

### C105 How far the boundary conditions must reach

*Model and proof.* The interpolation needs a record at or after the last hydraulic time; dates of the tide are bounded by EndTime; witness by evaluation.

*Theorems* (proved): `C105_covered`, `C105_tide`, `C105_stops`, `C105_reaches_end_refuted`

*Print Assumptions*: `C105_covered`, `C105_tide`, `C105_stops`: closed under the global context; `C105_reaches_end_refuted`: primitive floats/ints

### C106 Sediment balance of the movement

*Model and proof.* Section area as a polynomial in the edges; the derivative per transect is matched with the fluxes, the sum over transects telescopes by induction; the refutation compares two durations.

*Theorems* (proved): `C106_transect`, `C106_total`, `C106_conserved_refuted`, `C106_example`

*Print Assumptions*: `C106_transect`, `C106_total`, `C106_conserved_refuted`: classic, functional_extensionality_dep, sig_forall_dec, sig_not_dec

### C107 Updates in which nothing happens but movement

*Model and proof.* Each correction is shown to be the identity under the conditions; composition with C106; a worked update as example.

*Theorems* (proved): `C107_quiet`, `C107_balance`, `C107_example`

*Print Assumptions*: `C107_quiet`, `C107_balance`: classic, functional_extensionality_dep, sig_forall_dec, sig_not_dec

### C108 Which channel is joined to the lagoon

*Model and proof.* Induction on the search with Python indexing; witness by evaluation.

*Theorems* (proved): `C108_open`, `C108_closed`, `C108_forgotten`, `C108_edge`, `C108_ends`, `C108_levels_refuted`, `C108_example`

*Print Assumptions*: `C108_open`, `C108_forgotten`, `C108_edge`, `C108_ends`: closed under the global context; `C108_closed`, `C108_levels_refuted`: classic, functional_extensionality_dep, sig_forall_dec, sig_not_dec

### C83 For how long the bed is moved

*Model and proof.* Inversion of the applied movement; seconds by division with remainder; the witness halves 15 s once.

*Theorems* (proved): `C83_moved`, `C83_elapsed_refuted`, `C83_example`

*Print Assumptions*: `C83_moved`: closed under the global context; `C83_elapsed_refuted`: classic, functional_extensionality_dep, sig_forall_dec, sig_not_dec

### C109 Sediment made or destroyed after the movement

*Model and proof.* An inductive relation lists the reworkings with their results; the update is followed stage by stage for an arbitrary transect; algebra per kind; induction over the list of reworkings and over the transects.

*Theorems* (proved): `C109_story`, `C109_step`, `C109_ledger`, `C109_movement`, `C109_seaward`, `C109_cliff`, `C109_squeeze`, `C109_conserved_refuted`, `C109_example`

*Print Assumptions*: `C109_story`: closed under the global context; `C109_step`, `C109_ledger`, `C109_movement`, `C109_cliff`, `C109_squeeze`, `C109_conserved_refuted`: classic, functional_extensionality_dep, sig_forall_dec, sig_not_dec; `C109_seaward`: sig_forall_dec

### C110 Result files describe their contents

*Model and proof.* The declarations are a table beside the rows of the file model; induction over the records written; real arithmetic for times and angles.

*Theorems* (proved): `C110_described`, `C110_timeseries`, `C110_created`, `C110_parameters`, `C110_animation`, `C110_segments`, `C110_coordinates`, `C110_frame`, `C110_resumed`, `C110_midnight`, `C110_time`, `C110_first`, `C110_parameters_refuted`, `C110_degrees_refuted`, `C110_described_example`, `C110_time_example`

*Print Assumptions*: `C110_described`, `C110_timeseries`, `C110_created`, `C110_parameters`, `C110_animation`, `C110_segments`, `C110_coordinates`, `C110_midnight`: closed under the global context; `C110_frame`, `C110_resumed`, `C110_time`, `C110_first`, `C110_degrees_refuted`, `C110_described_example`, `C110_time_example`: classic, functional_extensionality_dep, sig_forall_dec, sig_not_dec; `C110_parameters_refuted`: primitive floats/ints

### C111 Command line and log

*Model and proof.* Parser as a fold over the words, characterised by an order-free description; permutation lemma; messages by induction.

*Theorems* (proved): `C111_words`, `C111_order`, `C111_messages`, `C111_name`, `C111_runs`, `C111_refuses`, `C111_silent`, `C111_logs_refuted`, `C111_words_example`, `C111_messages_example`

*Print Assumptions*: `C111_words`, `C111_order`, `C111_messages`, `C111_name`, `C111_runs`, `C111_refuses`, `C111_silent`, `C111_logs_refuted`, `C111_words_example`, `C111_messages_example`: closed under the global context

### C112 Map view in world coordinates

*Model and proof.* Trigonometric identities for the transformation, the polyline crossing theorem of C03.

*Theorems* (proved): `C112_drawn`, `C112_when`, `C112_fails`, `C112_river_refuted`, `C112_example`

*Print Assumptions*: `C112_drawn`, `C112_when`, `C112_fails`, `C112_river_refuted`, `C112_example`: classic, functional_extensionality_dep, sig_forall_dec, sig_not_dec

### C113 What an update can change, and which way cliff and crest go

*Model and proof.* Case analysis over the kinds of reworking of C109, induction over the story of a transect, sign of the rates through the cap.

*Theorems* (proved): `C113_columns`, `C113_untouched`, `C113_place`, `C113_step`, `C113_update`, `C113_cliff_refuted`, `C113_crest_refuted`, `C113_example_keep`, `C113_example`

*Print Assumptions*: `C113_columns`, `C113_untouched`, `C113_place`: closed under the global context; `C113_step`, `C113_update`, `C113_cliff_refuted`, `C113_crest_refuted`, `C113_example_keep`, `C113_example`: classic, functional_extensionality_dep, sig_forall_dec, sig_not_dec

### C114 Uninitialised memory can stop a run but not change it

*Model and proof.* NaN tracked from the wrongly merged transect to the final assertion; induction over the passes. The NaN laws of doubles come from the IEEE specification in the standard library.

*Theorems* (proved): `C114_exact`, `C114_double`, `C114_update`, `C114_steps`, `C114_program`, `C114_unique`, `C114_disk`, `C114_example`

*Print Assumptions*: `C114_exact`: classic, functional_extensionality_dep, sig_forall_dec, sig_not_dec; `C114_double`, `C114_example`: primitive floats/ints; `C114_update`, `C114_steps`, `C114_program`, `C114_unique`, `C114_disk`: closed under the global context

### C115 Whether the next update can start from the coast an update leaves

*Model and proof.* Order of shoreline, channel and cliff followed through the twelve kinds of reworking; the exception comes from the membership test on a boolean array. Counterexamples by running the model in double precision.

*Theorems* (proved): `C115_start`, `C115_stuck`, `C115_update`, `C115_breach_refuted`, `C115_fill_refuted`, `C115_example_calm`, `C115_example`

*Print Assumptions*: `C115_start`, `C115_stuck`: closed under the global context; `C115_update`, `C115_example`: classic, functional_extensionality_dep, sig_forall_dec, sig_not_dec; `C115_breach_refuted`, `C115_fill_refuted`, `C115_example_calm`: primitive floats/ints

### C116 What a run of passes keeps

*Model and proof.* Induction over the passes from the properties of one update.

*Theorems* (proved): `C116_grid`, `C116_mapped`, `C116_records`, `C116_stood`, `C116_stuck`, `C116_lagoon`, `C116_example`

*Print Assumptions*: `C116_grid`, `C116_mapped`, `C116_records`, `C116_stood`, `C116_stuck`: closed under the global context; `C116_lagoon`: classic, functional_extensionality_dep, sig_forall_dec, sig_not_dec; `C116_example`: primitive floats/ints

### C117 A closed outlet without channels: the update gets through

*Model and proof.* Stage by stage: shapes of the rate arrays, the adaptive step on its grid of doublings, finiteness of the rates, then each correction and breach shown to be defined. Counterexamples by running the model in double precision.

*Theorems* (proved): `C117_through`, `C117_seconds_refuted`, `C117_first_refuted`, `C117_example`

*Print Assumptions*: `C117_through`, `C117_example`: classic, functional_extensionality_dep, sig_forall_dec, sig_not_dec; `C117_seconds_refuted`, `C117_first_refuted`: primitive floats/ints

### C118 Recording a run does not change it

*Model and proof.* A pass split into what it computes and what it notes; the computations made only for a record are shown never to fail after an update that succeeded. Induction over the passes.

*Theorems* (proved): `C118_passes`, `C118_loop`, `C118_records`, `C118_example`

*Print Assumptions*: `C118_passes`, `C118_loop`, `C118_records`: closed under the global context; `C118_example`: primitive floats/ints

### C119 Where cross-shore positions are measured from does not matter

*Model and proof.* Equivariance of every row operation under a map that keeps differences and order, lifted through every list operation and the passes; instantiated with adding a distance.

*Theorems* (proved): `C119_update`, `C119_start`, `C119_passes`, `C119_loop`, `C119_rounded_refuted`, `C119_example`

*Print Assumptions*: `C119_update`, `C119_start`, `C119_passes`, `C119_loop`, `C119_example`: classic, functional_extensionality_dep, sig_forall_dec, sig_not_dec; `C119_rounded_refuted`: primitive floats/ints

### C120 The date of a run does not matter

*Model and proof.* Equivariance of the series lookup under a shift of all times, then of a pass, by induction over the passes.

*Theorems* (proved): `C120_passes`, `C120_loop`, `C120_start`, `C120_anyNumbers`, `C120_nanoseconds_refuted`, `C120_example`

*Print Assumptions*: `C120_passes`, `C120_loop`, `C120_start`: classic, functional_extensionality_dep, sig_forall_dec, sig_not_dec; `C120_anyNumbers`: closed under the global context; `C120_nanoseconds_refuted`, `C120_example`: primitive floats/ints

### C121 The level heights are measured from does not matter, except where a channel merges with the lagoon

*Model and proof.* Equivariance of every operation under adding a constant to heights; the water level array is related entry by entry because entries without lagoon hold the constant -9999.9. Counterexamples by running the model in double precision.

*Theorems* (proved): `C121_steady`, `C121_unsteady`, `C121_channel`, `C121_update`, `C121_start`, `C121_passes`, `C121_merge`, `C121_merge_refuted`, `C121_low_refuted`, `C121_example`, `C121_calm_example`

*Print Assumptions*: `C121_steady`, `C121_unsteady`, `C121_channel`, `C121_update`, `C121_start`, `C121_passes`, `C121_merge`, `C121_example`, `C121_calm_example`: classic, functional_extensionality_dep, sig_forall_dec, sig_not_dec; `C121_merge_refuted`, `C121_low_refuted`: primitive floats/ints

### C122 Only the boundary records around the simulated time matter, and records on the line do not

*Model and proof.* The slice taken by the lookup lies within the common records; uniqueness of the piecewise linear curve for records on the line; induction over the passes.

*Theorems* (proved): `C122_around`, `C122_onLine`, `C122_passes`, `C122_loop`, `C122_run`, `C122_setup`, `C122_edge_refuted`, `C122_rounding_refuted`, `C122_example`, `C122_run_example`, `C122_line_example`

*Print Assumptions*: `C122_around`, `C122_passes`, `C122_loop`, `C122_run`, `C122_setup`: closed under the global context; `C122_onLine`: classic, functional_extensionality_dep, sig_forall_dec, sig_not_dec; `C122_edge_refuted`, `C122_rounding_refuted`, `C122_example`, `C122_run_example`: primitive floats/ints; `C122_line_example`: functional_extensionality_dep, sig_forall_dec

### C123 A longer simulation begins like a shorter one

*Model and proof.* A pass uses the end only to cut off the step after the update; trimming keeps an initial part of the longer series; induction over the passes.

*Theorems* (proved): `C123_passes`, `C123_last`, `C123_start`, `C123_loaded`, `C123_program`, `C123_final_refuted`, `C123_example`, `C123_example_run`, `C123_program_example`, `C123_program_example_ends`, `C123_program_example_run`, `C123_program_example_flow`, `C123_program_example_files`

*Print Assumptions*: `C123_passes`, `C123_last`, `C123_start`, `C123_loaded`, `C123_program`, `C123_program_example`: closed under the global context; `C123_final_refuted`, `C123_example`, `C123_example_run`, `C123_program_example_ends`, `C123_program_example_run`, `C123_program_example_flow`, `C123_program_example_files`: primitive floats/ints

### C124 The water, the waves and the transport know no left and right; the coast does

*Model and proof.* Reversal lemmas for every list operation used (selection, scatter, interpolation, first and last match) and oddness of sine, arcsine and arctangent; the remainder used for the last reach is shown to mirror off the grid. Counterexamples by running the model in double precision.

*Theorems* (proved): `C124_channel`, `C124_stored`, `C124_bedload`, `C124_longshore`, `C124_overtopping`, `C124_waves`, `C124_pass`, `C124_facing_refuted`, `C124_grid_refuted`, `C124_coast_refuted`, `C124_example`, `C124_example_water`, `C124_example_depths`, `C124_example_channel`

*Print Assumptions*: `C124_channel`, `C124_stored`, `C124_bedload`, `C124_longshore`, `C124_overtopping`, `C124_waves`, `C124_pass`: classic, functional_extensionality_dep, sig_forall_dec, sig_not_dec; `C124_facing_refuted`, `C124_grid_refuted`, `C124_coast_refuted`, `C124_example_water`, `C124_example_depths`, `C124_example_channel`: primitive floats/ints; `C124_example`: functional_extensionality_dep, sig_forall_dec

### C125 Without outlet and channels the coast knows no left and right either, until the next pass

*Model and proof.* Each part of the update is shown to commute with the reversal (rates, cap, application, restoring the spit, overtopped volumes); parts that act on channels are shown to do nothing. The leftward lagoon follows from the comparisons with NaN being false. Counterexample by running two passes in double precision.

*Theorems* (proved): `C125_update`, `C125_pass`, `C125_leftwards`, `C125_next_refuted`, `C125_example`, `C125_example_pass`

*Print Assumptions*: `C125_update`, `C125_pass`, `C125_leftwards`, `C125_example`: classic, functional_extensionality_dep, sig_forall_dec, sig_not_dec; `C125_next_refuted`, `C125_example_pass`: primitive floats/ints

### C126 Failing passes raise ordinary errors, and simulations end

*Model and proof.* Every function called in a pass is shown to return a value or one of the three exceptions, following its structure; the loops by induction on the iterations allowed (Newton count, channel search by distance to the ends, time step by C31). The clock advances by a hydraulic step or more in each pass. Counterexample: steps of 15 s doubled modulo a day form a cycle below 80000 s.

*Theorems* (proved): `C126_pass`, `C126_outcome`, `C126_run`, `C126_long_refuted`, `C126_example`

*Print Assumptions*: `C126_pass`, `C126_outcome`, `C126_run`: closed under the global context; `C126_long_refuted`, `C126_example`: primitive floats/ints

### C127 Where no bedload moves, the river bed stays

*Model and proof.* The set of zero and NaN is closed under the operations of the bedload formula, the volume rates and the cap. Induction over the passes; the assembly of the next pass excludes NaN. In double arithmetic the same closure is shown from the specification of the IEEE operations, for any powers.

*Theorems* (proved): `C127_update`, `C127_pass`, `C127_run`, `C127_double`, `C127_example`, `C127_example_run`, `C127_example_double`

*Print Assumptions*: `C127_update`, `C127_pass`, `C127_run`, `C127_example`: classic, functional_extensionality_dep, sig_forall_dec, sig_not_dec; `C127_double`, `C127_example_run`, `C127_example_double`: primitive floats/ints

### C128 The unit of mass does not matter

*Model and proof.* Each use of a density is shown to be a ratio of densities or a product of wave power with the reciprocal of a density, including division by zero; interpolation commutes with the factor; the rest of the pass does not look at densities. Induction over the passes.

*Theorems* (proved): `C128_transport`, `C128_power`, `C128_run`, `C128_example`, `C128_densities_alone_refuted`

*Print Assumptions*: `C128_transport`, `C128_power`, `C128_run`: classic, functional_extensionality_dep, sig_forall_dec, sig_not_dec; `C128_example`, `C128_densities_alone_refuted`: primitive floats/ints

### C129 What a run does not look at

*Model and proof.* Each part of the pass is shown to be unchanged when these fields are replaced; induction over the passes. For the target barrier slope and intercept of the derived line are computed.

*Theorems* (proved): `C129_unseen`, `C129_target`, `C129_example`, `C129_height_alone_refuted`

*Print Assumptions*: `C129_unseen`: closed under the global context; `C129_target`, `C129_example`, `C129_height_alone_refuted`: classic, functional_extensionality_dep, sig_forall_dec, sig_not_dec

### C130 A run carries on from its record

*Model and proof.* The hot start takes the state of the record (C84). Level minus bed gives depth again; interpolating missing values on assembly leaves the river as it was, so the start of main keeps it. No pass looks at the start time, and recording does not change a run (C118).

*Theorems* (proved): `C130_restart`, `C130_shows`, `C130_example_shows`, `C130_real`, `C130_example_real`, `C130_example`, `C130_step`, `C130_always_refuted`

*Print Assumptions*: `C130_restart`, `C130_shows`, `C130_step`: closed under the global context; `C130_example_shows`, `C130_example`, `C130_always_refuted`: primitive floats/ints; `C130_real`, `C130_example_real`: classic, functional_extensionality_dep, sig_forall_dec, sig_not_dec
