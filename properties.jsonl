{"id": "C01", "title": "World to model coordinates and back is the identity", "statement": "Converting any real-world point to model coordinates and back with the same origin and shore-normal direction returns exactly the same point.", "quantifier": "every point, every origin, every direction (exact arithmetic)", "why_tests_cant": "A test samples a few points and angles; the quadrant cases of the arctangent make the claim about all of the plane.", "anchors": ["hapuamod/geom.py: real2mod, mod2real", "hapuamod/loadmod.py: loadModel lines 451-474"]}
{"id": "C02", "title": "Model to world and back is the identity, and distances are preserved", "statement": "Converting any model point to world coordinates and back returns the same point, and the squared distance between two points is the same in both systems.", "quantifier": "every pair of points, every origin, every direction (exact arithmetic)", "why_tests_cant": "Isometry is a statement about all pairs of points.", "anchors": ["hapuamod/geom.py: mod2real, real2mod"]}
{"id": "C03", "title": "Polyline/transect intersection returns exactly the crossings", "statement": "Intersecting a polyline with X = x returns one Y per segment whose two ends lie on different sides of x (strictly left versus not), in order along the line; each Y lies on that segment between its end Ys; the division is never by zero; for a closed polyline the number of crossings is even.", "quantifier": "every polyline of any length and every x (exact arithmetic; finite coordinates)", "why_tests_cant": "The polyline length is unbounded and vertical segments or vertices on the line are the corner cases.", "anchors": ["hapuamod/geom.py: intersectPolyline"]}
{"id": "C04", "title": "Trimming a line moves only its end nodes and puts them on the trim line", "statement": "When trimLine returns, only the first and last node of the line changed, each new end node lies on a segment of its trim line and on the (extended) end segment of the original line. Straight trim lines that the end segments meet within their extent are always found. An end node left of or on the first position of the trim line, or beyond its last, raises IndexError. It can also search forever: there are trim lines for which the search alternates between two segments.", "quantifier": "every line with at least three nodes, every trim line (exact arithmetic); non-termination by witness", "why_tests_cant": "A non-terminating search cannot be observed by a finite test and correctness is over all lines.", "anchors": ["hapuamod/geom.py: trimLine"]}
{"id": "C05", "title": "Longshore transport: closed form, direction, bound", "statement": "When the breaking angle is defined, the transport in each shore segment equals minus K2 x wave power x sin(a) x cos(a) x (celerity ratio), a being the wave angle relative to the segment. Hence it is zero for shore-normal waves, opposite in sign to a for |a| < 90 degrees, odd in a, and at most K2 x power x ratio / 2 in size. There is one value per segment.", "quantifier": "every shoreline of any length, every wave state with sin(a) x ratio in [-1,1] (exact arithmetic)", "why_tests_cant": "Universal over shoreline shape and wave angle.", "anchors": ["hapuamod/coast.py: longShoreTransport"]}
{"id": "C06", "title": "Offshore-directed waves still transport sediment", "statement": "The documented rule \"set wave power to zero for segments where waves are directed offshore\" is not implemented: for wave angles strictly between 90 and 180 degrees from the segment normal the computed transport is nonzero whenever wave power is positive.", "quantifier": "every segment with 90 < |a| < 180 degrees and positive power (exact arithmetic)", "why_tests_cant": "The zeroed array is dead code; every run silently uses the unmasked power.", "anchors": ["hapuamod/coast.py: longShoreTransport lines 59-62, 78"]}
{"id": "C07", "title": "Runup is non-negative and monotone", "statement": "Runup is zero exactly when wave height or period (or slope) is zero, non-negative for non-negative inputs, proportional to height and to period, and increasing in slope.", "quantifier": "all non-negative slopes, heights and periods (exact arithmetic)", "why_tests_cant": "Monotonicity over a continuum.", "anchors": ["hapuamod/coast.py: runup"]}
{"id": "C08", "title": "Overtopping flux and its partition", "statement": "The cross-shore flux is never negative, is zero exactly where runup + sea level does not exceed the crest (positive coefficient and exponent), and does not decrease when runup or sea level rises. Overwash is 0 or 1 at every transect: 1 wherever the channel in the barrier has no width, 0 wherever there is neither lagoon nor channel, otherwise decided by comparing the crest height with the target height for the crest width. With number-valued inputs, non-negative coefficient and positive exponent the function never raises.", "quantifier": "every number of transects, every geometry (NaN channel columns allowed) (exact arithmetic)", "why_tests_cant": "Quantifies over all transect geometries including every NaN pattern.", "anchors": ["hapuamod/coast.py: overtopping"]}
{"id": "C09", "title": "A uniform straight coast is in longshore equilibrium", "statement": "If every shore segment has the same orientation, the transport is the same in every segment and so the longshore contribution to the movement of every interior transect is zero; adding a constant to the whole shoreline changes no transport.", "quantifier": "every number of transects, every wave state (exact arithmetic)", "why_tests_cant": "Universal over domain size and wave state.", "anchors": ["hapuamod/coast.py: longShoreTransport", "hapuamod/mor.py: updateMorphology line 137"]}
{"id": "C10", "title": "Steady solution conserves discharge", "statement": "At every cross-section of a steady solution, width x depth x velocity equals the inflow (depth and width nonzero).", "quantifier": "every channel of any length (exact arithmetic)", "why_tests_cant": "Unbounded channel length.", "anchors": ["hapuamod/riv.py: solveSteady"]}
{"id": "C11", "title": "Steady solution: boundary, critical limit and energy residual", "statement": "The downstream depth is the larger of (sea level - bed) and critical depth. At every other section the depth is either critical depth, or at least critical depth with the discretised energy equation satisfied to within the tolerance - provided the Newton iterate is a number.", "quantifier": "every channel of any length, every tolerance (exact arithmetic)", "why_tests_cant": "The Newton iteration has unbounded input space.", "anchors": ["hapuamod/riv.py: solveSteady"]}
{"id": "C12", "title": "Steady solution terminates within the iteration limit or asserts", "statement": "Each cross-section takes fewer than MaxIt Newton updates or the call ends in AssertionError; no input makes it run forever.", "quantifier": "every input, both arithmetics (any number instance)", "why_tests_cant": "Termination over all inputs.", "anchors": ["hapuamod/riv.py: solveSteady lines 56-61"]}
{"id": "C13", "title": "Steady solver gives up silently", "statement": "If the first depth estimate at a section is negative (the bed rises by more than the water depth), its fractional power is not a number, the loop stops as though it had converged, and critical depth is returned without the energy equation being solved. With zero inflow and the sea at or below the downstream bed, the downstream velocity and every depth and velocity upstream are NaN, with no exception. So \"every returned value is a number\" is false.", "quantifier": "universal over channels with a negative first estimate, and over channels with zero inflow and a dry end (exact arithmetic)", "why_tests_cant": "Needs a bed step steeper than the water is deep, or a dry river; silent in both cases.", "anchors": ["hapuamod/riv.py: solveSteady lines 32-35, 48-65"]}
{"id": "C14", "title": "Unsteady solver leaves positive depths and nonzero velocities in the caller", "statement": "Whatever the linear solver returns, when the unsteady solver returns normally every depth in the caller's array is positive or NaN and every velocity is nonzero or NaN.", "quantifier": "every linear-solver behaviour, every channel length, any number of hydraulic steps", "why_tests_cant": "The linear solver is adversarial here.", "anchors": ["hapuamod/riv.py: solveFullPreissmann lines 133-134, 277-278"]}
{"id": "C15", "title": "Unsteady solver: zero residual means water volume is conserved", "statement": "If the continuity residuals vanish at the accepted iterate, then the change of stored volume over the time step (channel plus offline lagoon storage, trapezoidal in space) equals the weighted inflow minus outflow minus barrier seepage, summed over the whole channel. Offline lagoon area attached to an interior section counts in full; area attached to the first or last section counts by half only.", "quantifier": "every channel length, every theta, dt, seepage (exact arithmetic)", "why_tests_cant": "Telescoping over an unbounded number of reaches.", "anchors": ["hapuamod/riv.py: solveFullPreissmann lines 136-144, 171-175, 194-197"]}
{"id": "C16", "title": "The banded matrix is the exact Jacobian for forward flow", "statement": "For positive depths and velocities every entry stored in the banded matrix is the partial derivative of the corresponding residual with respect to the corresponding depth or velocity, at the position the banded format prescribes, and all entries outside are zero.", "quantifier": "every channel length, every section (exact arithmetic; positive depths and velocities)", "why_tests_cant": "A wrong derivative only slows Newton down; output-based tests do not see it.", "anchors": ["hapuamod/riv.py: solveFullPreissmann lines 194-263"]}
{"id": "C17", "title": "The Jacobian is wrong for reverse flow", "statement": "For a section with negative velocity (nonzero momentum coefficient, dt and theta) the velocity derivative stored for the momentum equation differs from the true derivative.", "quantifier": "every section with negative velocity (exact arithmetic)", "why_tests_cant": "The method still converges, more slowly; nothing visible in tests.", "anchors": ["hapuamod/riv.py: solveFullPreissmann lines 244-255"]}
{"id": "C18", "title": "The steady fallback on non-convergence never reaches the caller", "statement": "When the Newton loop of a hydraulic step exhausts MaxIt, the depths and velocities the caller sees are those of the last Newton iterate, not of the steady solution that was computed. Later hydraulic steps of the same call do not reach the caller either: once a step fails to converge the arrays of the caller stay at the last iterate of that step.", "quantifier": "every input (any number instance)", "why_tests_cant": "The log message says the opposite; only comparison with an independent steady solve would show it.", "anchors": ["hapuamod/riv.py: solveFullPreissmann lines 302-304", "hapuamod/core.py: main lines 127-131"]}
{"id": "C19", "title": "Singular matrix handling", "statement": "If the very first linear solve of a call reports a singular matrix, the call ends in UnboundLocalError (the noise is added after the failed solve and never used). If a later one does, the previous correction is applied again.", "quantifier": "every input, every linear-solver behaviour (any number instance)", "why_tests_cant": "Needs a singular matrix at a particular iteration.", "anchors": ["hapuamod/riv.py: solveFullPreissmann lines 266-274"]}
{"id": "C20", "title": "Assembled channel layout", "statement": "On success the assembled channel is river, then online lagoon, then (if open) outlet transects, outlet end and sea dummy: flags are that many 0s, 1s, 2s, then 3, 4; elevation, width, depth, velocity, offline area and seepage length have exactly the same length as the flags and the spacing array is one shorter.", "quantifier": "every geometry and state (any number instance)", "why_tests_cant": "Universal over geometry.", "anchors": ["hapuamod/riv.py: assembleChannel"]}
{"id": "C21", "title": "Outlet closure criterion", "statement": "An open outlet becomes closed in assembleChannel exactly when some outlet transect (a missing one counts as width 0) or the outlet end is no wider than MinOutletWidth, or some lagoon transect between the river (included) and the outlet (excluded) is narrower than MinOutletWidth; a closed outlet never opens here.", "quantifier": "every geometry on which the call succeeds (exact arithmetic, transects in increasing order)", "why_tests_cant": "Universal over geometry.", "anchors": ["hapuamod/riv.py: assembleChannel lines 354-379, 433-440"]}
{"id": "C22", "title": "Online lagoon is a contiguous run starting at the river", "statement": "On success the online lagoon is non-empty, starts at the transect X=0, moves by exactly one transect at a time in the direction of the outlet, and every transect in it is at least MinOutletWidth wide and wider than zero.", "quantifier": "every geometry on which the call succeeds (any number instance)", "why_tests_cant": "Universal over geometry.", "anchors": ["hapuamod/riv.py: assembleChannel lines 388-444"]}
{"id": "C23", "title": "Offline lagoon storage accounting", "statement": "The lagoon area on the far side of the river is attached to the first online section, the area beyond the outlet (or beyond the closure point) to the last. With the outlet away from the river and at least two online transects, online plus attached area is the whole lagoon when the outlet is shut, and the whole lagoon except the transect exactly at the outlet position when it is open. Departures proved: with a single online transect the far-side area is dropped; with the outlet in line with the river the left-hand area is never counted and the right-hand seepage length is counted twice. Hence conservation of lagoon area is refuted in general.", "quantifier": "every geometry on which the call succeeds (exact arithmetic, transects in increasing order); departures universal under the stated condition", "why_tests_cant": "Storage only affects water-level response; no test checks the sum.", "anchors": ["hapuamod/riv.py: assembleChannel lines 388-440, 471-476"]}
{"id": "C24", "title": "Assembled channel contains no missing values", "statement": "On success every width is a positive number and every elevation, depth and velocity is a number; missing depths were filled by linear interpolation between (or constant extension of) the nearest sections that have one.", "quantifier": "every geometry and state (exact arithmetic)", "why_tests_cant": "All NaN patterns.", "anchors": ["hapuamod/riv.py: assembleChannel lines 494-514"]}
{"id": "C25", "title": "Storing and re-assembling hydraulics is lossless", "statement": "If the morphology is unchanged, extracting the hydraulics of a channel and assembling the channel again reproduces the same depths and velocities, except that for a closed channel the last velocity becomes zero.", "quantifier": "every geometry and every finite hydraulic state, finite bed levels in the online lagoon, a call that does not itself close the outlet (exact arithmetic)", "why_tests_cant": "A round trip over all geometries.", "anchors": ["hapuamod/riv.py: storeHydraulics, assembleChannel"]}
{"id": "C26", "title": "Stored lagoon levels extend to the offline lagoon", "statement": "After storing, each online transect has level = bed + depth; every transect left (right) of the online range has the level of the leftmost (rightmost) online transect; velocities and outlet values are NaN exactly off-line; if closed, all outlet values are NaN.", "quantifier": "every geometry (any number instance)", "why_tests_cant": "Universal over geometry.", "anchors": ["hapuamod/riv.py: storeHydraulics"]}
{"id": "C27", "title": "Bedload: direction, threshold, weighting", "statement": "There is one bedload value per reach; node transport has the sign of velocity, is zero below the critical Shields stress, and the reach value is the Psi-weighted mean of its two nodes, hence between them; reversing all velocities negates all bedload.", "quantifier": "every channel length (exact arithmetic; positive depths)", "why_tests_cant": "Unbounded channels, all parameter values.", "anchors": ["hapuamod/riv.py: calcBedload"]}
{"id": "C28", "title": "Bedload is stored at the reach downstream of its transect", "statement": "On success the value stored at an online transect is the bedload of the reach that starts there, all other transects hold zero, and for a closed channel the last online transect holds zero.", "quantifier": "every geometry (any number instance)", "why_tests_cant": "Universal over geometry.", "anchors": ["hapuamod/riv.py: storeBedload"]}
{"id": "C29", "title": "Interpolation of boundary conditions", "statement": "For strictly increasing data times, the interpolated value at each requested time inside the data range equals the data value at a data time and otherwise the linear interpolation between the two data neighbours (for finite data), so it lies between them; one value is returned per requested time.", "quantifier": "every series length, every increasing list of requested times within range (exact arithmetic)", "why_tests_cant": "Unbounded series.", "anchors": ["hapuamod/core.py: interpolate_at"]}
{"id": "C30", "title": "Interpolation outside the data range raises", "statement": "interpolate_at raises IndexError exactly when no time is requested, or the first requested time precedes all data, or the last follows all data.", "quantifier": "every series and request (any number instance)", "why_tests_cant": "Universal.", "anchors": ["hapuamod/core.py: interpolate_at lines 252-253"]}
{"id": "C31", "title": "Simulation clock never passes EndTime and never runs backwards", "statement": "In every run, after any number of steps, the model time is between StartTime and EndTime and non-decreasing.", "quantifier": "every model, any number of steps", "why_tests_cant": "Invariant over unbounded runs.", "anchors": ["hapuamod/core.py: main lines 99-183"]}
{"id": "C32", "title": "A run never finishes normally", "statement": "Because the loop condition is MorTime <= EndTime and the last step is clamped to land exactly on EndTime, no run that starts at or before EndTime ever leaves the loop: it continues until an exception is raised.", "quantifier": "every model and every number of steps", "why_tests_cant": "Observing that a program never returns normally is beyond tests; the exception at the end of a run is easily taken for a data problem.", "anchors": ["hapuamod/core.py: main lines 107, 179-183"]}
{"id": "C33", "title": "What stops the run: the step after EndTime", "statement": "Once the clock stands at EndTime, the step taken there ends with duration zero and the following step raises IndexError because no hydraulic time is requested; more generally any morphological step shorter than the hydraulic step raises IndexError. Hence every run whose start does not lie after its end stops with an exception after at most (EndTime - StartTime)/HydDt + 2 completed steps.", "quantifier": "every model state (any number instance)", "why_tests_cant": "The failing condition is a timing coincidence of parameters.", "anchors": ["hapuamod/core.py: main lines 121-125, 179-183, interpolate_at"]}
{"id": "C34", "title": "Output records: spacing and monotone times", "statement": "At most one map record and one time-series record is written per step; record times are those of the step ends, non-decreasing; the k-th record is written at or after StartTime + k x interval. The converse fails: when steps are longer than the interval the schedule falls behind.", "quantifier": "every run, any number of steps", "why_tests_cant": "Invariant over unbounded runs.", "anchors": ["hapuamod/core.py: main lines 99-104, 186-213"]}
{"id": "C35", "title": "The open/closed flag changes only by closure and breach", "statement": "Between steps the outlet goes from closed to open only in a step whose morphology update reported a breach, and from open to closed only through the closure criterion of the channel assembly.", "quantifier": "every run, any number of steps", "why_tests_cant": "Invariant over unbounded runs.", "anchors": ["hapuamod/core.py: main lines 109-118, 169-176, 233-235", "hapuamod/riv.py: assembleChannel"]}
{"id": "C36", "title": "Hydraulics and morphology may cover different durations", "statement": "The hydraulic times of a step span the step length chosen in the previous step, whereas the clock then advances by the newly chosen length; the two differ whenever the adaptive step changed. The forcing stored with a record is that of the last hydraulic time, not of the time stamped on it. EndTime does not enter the morphological change: the clamp shortens the clock advance after the change for the full step was applied.", "quantifier": "every step (any number instance); mismatch by witness", "why_tests_cant": "No output shows the mismatch.", "anchors": ["hapuamod/core.py: main lines 121-131, 169-183"]}
{"id": "C37", "title": "Adaptive time step: range", "statement": "If the minimum step is a whole number of seconds, the maximum is minimum x 2^k and at most half a day, and the current step is minimum x 2^j with j <= k, then the adaptive step terminates and the new step is again minimum x 2^i with i <= k, hence between minimum and maximum.", "quantifier": "every rate of change (also NaN or infinite), every such pair of limits, any number instance", "why_tests_cant": "Universal over rates and limits, and inductive over steps.", "anchors": ["hapuamod/mor.py: updateMorphology lines 183-189", "hapuamod/configspec.cnf: Time"]}
{"id": "C38", "title": "Adaptive time step: termination up to half a day", "statement": "For every maximum step of at most half a day both loops terminate, whatever the rates. Without that condition they need not: because the code reads the seconds field of the duration (which wraps at one day) there are limits for which doubling goes on for ever.", "quantifier": "every rate, every limits with maximum <= 43200 s; witness for non-termination", "why_tests_cant": "Non-termination and modular wrap-around.", "anchors": ["hapuamod/mor.py: updateMorphology lines 183-189"]}
{"id": "C39", "title": "Adaptive time step: the maximum may be overshot, and one day means zero", "statement": "The step can exceed the configured maximum (by less than a factor of two) and fall below the minimum; a maximum of exactly one day disables growth entirely since its seconds field is 0.", "quantifier": "witnesses and universal statement for the one-day case (any number instance)", "why_tests_cant": "Parameter-value specific.", "anchors": ["hapuamod/mor.py: updateMorphology lines 183-189"]}
{"id": "C40", "title": "Change per step is capped", "statement": "On success the applied river-bed, shoreline, elevation and outlet-end changes (rate x step) are each at most MaxMorChange in size, for number-valued inputs; the cap acts only on steps not longer than the minimum step, otherwise every change is exactly rate x step.", "quantifier": "every geometry and rates (exact arithmetic)", "why_tests_cant": "Universal over rates.", "anchors": ["hapuamod/mor.py: updateMorphology lines 176-215"]}
{"id": "C41", "title": "Longshore supply to the outlet from the right bypasses the time step and the cap", "statement": "When longshore transport at an open outlet is not positive, the shoreline just left of the outlet is moved directly by LST/(height x Dx) - a rate added to a position - independent of the time step and outside the cap of C40.", "quantifier": "every state with LST <= 0 at the outlet (exact arithmetic)", "why_tests_cant": "The displacement is small and looks like noise.", "anchors": ["hapuamod/mor.py: updateMorphology lines 150-153"]}
{"id": "C42", "title": "Bedload budget telescopes", "statement": "The sum of the volume change rates of all cross-sections equals bedload in at the upstream end minus bedload out at the downstream end (zero when closed).", "quantifier": "every channel length (exact arithmetic)", "why_tests_cant": "Unbounded sums.", "anchors": ["hapuamod/mor.py: updateMorphology lines 76-89"]}
{"id": "C43", "title": "Bed and bank changes account for each cross-section's budget", "statement": "For every lagoon and outlet cross-section, deposition minus bed erosion minus bank erosion equals the volume change rate, exactly one of bed or bank takes the erosion, and the bed rise and bank retreats times their areas add up to it; for the river all goes to the bed.", "quantifier": "every cross-section, every width/depth (exact arithmetic)", "why_tests_cant": "Universal.", "anchors": ["hapuamod/mor.py: updateMorphology lines 90-119"]}
{"id": "C44", "title": "Longshore budget", "statement": "Summed over interior transects, the volume rate given to the shoreline by longshore transport is LST in at the left end minus LST out at the right end; with an open outlet and transport from the left, what is withheld from the transect right of the outlet equals the volume put on the outlet bank (width reduction x spit width x depth).", "quantifier": "every number of transects (exact arithmetic)", "why_tests_cant": "Unbounded sums.", "anchors": ["hapuamod/mor.py: updateMorphology lines 137-149"]}
{"id": "C45", "title": "Cross-shore budget", "statement": "At every interior transect the volume rate taken off the shoreface by overtopping equals the rate put on the crest plus the rate put on the back of the barrier.", "quantifier": "every transect, every overwash flag (exact arithmetic; nonzero widths and heights)", "why_tests_cant": "Universal.", "anchors": ["hapuamod/mor.py: updateMorphology lines 162-169"]}
{"id": "C46", "title": "River sediment discharged to the shore", "statement": "If the spreading distance is k x Dx and the outlet lies at least that far inside a regular grid, the sediment spread over the shoreline adds up to exactly the bedload leaving the channel; it is non-negative for non-negative bedload and zero beyond the spreading distance. Without the divisibility condition the sum need not match.", "quantifier": "every k, every grid, every outlet position (exact arithmetic)", "why_tests_cant": "A sum over an unbounded grid with an arbitrary offset.", "anchors": ["hapuamod/mor.py: updateMorphology lines 131-133"]}
{"id": "C47", "title": "Domain ends move only by the prescribed erosion rate", "statement": "The two end transects' shoreline rate is exactly minus the configured erosion rate per year, whatever the waves, river and overtopping do.", "quantifier": "every state (any number instance)", "why_tests_cant": "Universal.", "anchors": ["hapuamod/mor.py: updateMorphology line 172"]}
{"id": "C48", "title": "Outlet kept inside the domain - except that overrunning on the right jumps to the left end", "statement": "After the domain check the outlet end lies within the second to second-last transect; an outlet end beyond the right limit is put at the LEFT limit.", "quantifier": "every grid and position (any number instance for the jump)", "why_tests_cant": "Requires a run in which the outlet reaches the right edge.", "anchors": ["hapuamod/mor.py: updateMorphology lines 217-223"]}
{"id": "C49", "title": "Cliff collision: gap restored and sediment conserved", "statement": "Where the shoreline has retreated to the cliff toe or beyond, afterwards it is exactly 1 mm seaward of it, the lagoon has zero width there, and volume eroded from the cliff equals volume added to the shoreface; other transects are untouched.", "quantifier": "every transect (exact arithmetic; positive shoreface height and cliff not below the crest)", "why_tests_cant": "Universal.", "anchors": ["hapuamod/mor.py: updateMorphology lines 225-235"]}
{"id": "C50", "title": "Overwash into a closed channel: no negative widths, sediment conserved", "statement": "After redistribution no channel has negative width; where sediment is put at the front or back of the barrier, or the barrier is levelled, the volume gained by the barrier equals the volume of the negative-width overlap (with the widths used by the code).", "quantifier": "every transect on which the step succeeds (exact arithmetic)", "why_tests_cant": "Universal, with three branches.", "anchors": ["hapuamod/mor.py: updateMorphology lines 237-281"]}
{"id": "C51", "title": "Outlet elongation", "statement": "When the outlet end has crossed transect lines, every transect between the old channel end and the new outlet end gets a channel of the outlet-end width, SpitWidth behind the shoreline, with the outlet-end bed level, inner crest = old crest and outer crest = BeachTopElev; all other transects are unchanged.", "quantifier": "every geometry (any number instance)", "why_tests_cant": "Universal.", "anchors": ["hapuamod/mor.py: updateMorphology lines 283-323"]}
{"id": "C52", "title": "Seaward truncation at the first transect is prevented with sediment balance", "statement": "If the first channel transect has met the sea, its seaward bank ends exactly 1 mm behind the shoreline and both banks move so that excavated and deposited volumes match.", "quantifier": "every state (exact arithmetic; inner and outer crest above channel bed)", "why_tests_cant": "Universal.", "anchors": ["hapuamod/mor.py: updateMorphology lines 331-341"]}
{"id": "C53", "title": "Lagoonward truncation handles only the first of several intersections", "statement": "When several online channel transects have merged with the lagoon, the upstream outlet end is moved one transect past the FIRST of them only; the remaining ones stay in the channel.", "quantifier": "every geometry (any number instance); witness of a remaining merged transect", "why_tests_cant": "Needs two simultaneous intersections.", "anchors": ["hapuamod/mor.py: updateMorphology lines 346-373"]}
{"id": "C54", "title": "Seaward truncation keeps at least one transect for left-to-right outlets", "statement": "For an outlet running left to right whose first transect is intact, truncation places the outlet end half a cell before the first breached transect and leaves a non-empty channel with no breached transect; right to left it uses the LAST breached transect and may keep breached ones.", "quantifier": "every geometry (exact arithmetic); witness for right-to-left", "why_tests_cant": "Mirror-image asymmetry.", "anchors": ["hapuamod/mor.py: updateMorphology lines 405-420"]}
{"id": "C55", "title": "Lagoon collision at the last channel transect", "statement": "After step 8 the lagoon edge at the last channel transect is landward of the channel's inner bank; when the cliff had to give way, cliff and lagoon edge coincide and eroded cliff volume equals volume deposited in the channel.", "quantifier": "every state (exact arithmetic; elevations in order)", "why_tests_cant": "Universal.", "anchors": ["hapuamod/mor.py: updateMorphology lines 422-441"]}
{"id": "C56", "title": "Channel/lagoon merging depends on uninitialised memory", "statement": "The set of transects merged into the lagoon (and that filled from the shoreface) is determined by the geometry only at transects that have a channel; at the others numpy's where= without out= returns whatever was in memory, and if that happens to be false the transect's lagoon edge becomes NaN and the update fails its own assertion.", "quantifier": "every geometry and every content of memory (channel transects: any number instance; the failure: exact arithmetic with NaN, see C114 for doubles)", "why_tests_cant": "Depends on the allocator; passes on most runs.", "anchors": ["hapuamod/mor.py: updateMorphology lines 449, 519, 690-692"]}
{"id": "C57", "title": "Merging a channel into the lagoon conserves water surface and, if adjacent, bed volume", "statement": "Merging adds exactly the channel width to the lagoon width and removes the channel; the new bed level is the width-weighted mean exactly when inner bank and lagoon edge coincide, otherwise bed volume is not conserved.", "quantifier": "every transect (exact arithmetic)", "why_tests_cant": "Universal.", "anchors": ["hapuamod/mor.py: updateMorphology lines 454-461"]}
{"id": "C58", "title": "Filling an eroded channel from the shoreface conserves sediment", "statement": "Where the sea has eroded into a relic channel, the volume taken off the shoreface (down to closure depth) equals the volume filling the channel; afterwards there is no channel and the inner crest becomes the crest.", "quantifier": "every transect (exact arithmetic)", "why_tests_cant": "Universal.", "anchors": ["hapuamod/mor.py: updateMorphology lines 531-545"]}
{"id": "C59", "title": "The transect that breaches is filled in nonetheless", "statement": "When erosion into a relic channel triggers a breach at a transect of index >= 2, that transect is filled along with the others (the exclusion compares a boolean mask with an index); for index 0 or 1 the mask shortens and IndexError follows.", "quantifier": "every geometry with such a breach (any number instance)", "why_tests_cant": "Mask/index confusion that usually has no visible effect.", "anchors": ["hapuamod/mor.py: updateMorphology lines 522-545"]}
{"id": "C60", "title": "Restoring an eroded barrier is not mass conserving", "statement": "At an eroded transect that does not breach, the shoreline ends exactly 1 mm seaward of the lagoon edge; both adjustments add barrier volume, so the claimed mass conservation fails by an amount that is always positive.", "quantifier": "every such transect (exact arithmetic; positive heights)", "why_tests_cant": "The comment claims conservation.", "anchors": ["hapuamod/mor.py: updateMorphology lines 590-596"]}
{"id": "C61", "title": "Checking for overtopping raises the barrier crest", "statement": "Evaluating the overtopping check itself raises the stored barrier crest to the inner crest level wherever a channel is present and the inner crest is higher.", "quantifier": "every state (any number instance)", "why_tests_cant": "An aliasing effect (numpy view).", "anchors": ["hapuamod/mor.py: updateMorphology lines 600-604"]}
{"id": "C62", "title": "Geometry of a new breach", "statement": "After creating a breach channel at a transect: both outlet ends are at that transect, the width is at least twice MinOutletWidth, the seaward bank is at least SpitWidth behind the shoreline, the channel has exactly the outlet width, and lagoon edge and cliff are landward of it; hence the breach is open at the next channel assembly as far as that transect is concerned.", "quantifier": "every state (exact arithmetic)", "why_tests_cant": "Universal.", "anchors": ["hapuamod/mor.py: updateMorphology lines 652-682", "hapuamod/riv.py: assembleChannel"]}
{"id": "C63", "title": "Breach on an existing channel is practically never recognised", "statement": "The test whether the breach transect is in the connected channel compares an index with booleans, so for every breach index of 2 or more the \"existing channel\" branch is never taken and a new channel is cut instead.", "quantifier": "every state with breach index >= 2 (any number instance)", "why_tests_cant": "Python int/bool comparison.", "anchors": ["hapuamod/mor.py: updateMorphology lines 654-659"]}
{"id": "C64", "title": "After every update the lagoon at the river is at least MinOutletWidth wide and key columns are numbers", "statement": "On success: the lagoon width at X=0 is at least MinOutletWidth; shoreline, lagoon edge and cliff are numbers at every transect; the number of transects and the number of river sections are unchanged; the transect positions are untouched.", "quantifier": "every state, every content of memory (exact arithmetic for the width, any number instance for the rest)", "why_tests_cant": "Whole-function postcondition.", "anchors": ["hapuamod/mor.py: updateMorphology"]}
{"id": "C65", "title": "Which update can breach", "statement": "A breach is reported only if some transect's barrier was completely eroded, or its water level exceeded its crest, or the sea reached a relic channel connected to a closed lagoon; if none of these holds the update reports no breach and leaves the outlet upstream end where the truncation steps put it. The water level of a transect is the channel level in the open outlet channel, else the lagoon level where there is a lagoon; elsewhere the transect cannot overtop.", "quantifier": "every state (any number instance)", "why_tests_cant": "Whole-function postcondition.", "anchors": ["hapuamod/mor.py: updateMorphology lines 507-683"]}
{"id": "C66", "title": "Derived parameters", "statement": "The overwash threshold line passes through (SpitWidth, BeachTopElev) and (TargetBarWidth, TargetBarHeight); K2 x (RhoSed-RhoSea) x g x (1-VoidRatio) = K.", "quantifier": "every parameter set with nonzero denominators (exact arithmetic)", "why_tests_cant": "Universal.", "anchors": ["hapuamod/loadmod.py: loadModel lines 270-282"]}
{"id": "C67", "title": "Initial river bed", "statement": "The initial river bed has ceil(UpstreamLength/Dx) sections, ends at the lagoon bed level at the downstream end and rises upstream by RiverSlope x Dx per section.", "quantifier": "every positive slope, length and spacing (exact arithmetic)", "why_tests_cant": "Unbounded length.", "anchors": ["hapuamod/loadmod.py: loadModel lines 294-298"]}
{"id": "C68", "title": "Default straight shoreline", "statement": "In exact arithmetic the default grid is regular with spacing Dx, contains X = 0 exactly once, covers the requested lengths on both sides with less than one Dx to spare, and at X=0 the initial positions are in order shoreline > channel > lagoon edge > cliff with lagoon width RiverWidth - 1 mm. In floating point X = 0 can be missing, and then there is no channel.", "quantifier": "every positive Dx and non-negative lengths (exact arithmetic)", "why_tests_cant": "Unbounded grid.", "anchors": ["hapuamod/loadmod.py: loadModel lines 327-367"]}
{"id": "C69", "title": "Wave direction conversion", "statement": "After conversion every wave angle lies in [-pi, pi) and differs from (direction in radians - shore normal) by a multiple of 2 pi.", "quantifier": "every direction and shore normal (exact arithmetic)", "why_tests_cant": "Universal.", "anchors": ["hapuamod/loadmod.py: loadModel lines 618-621"]}
{"id": "C70", "title": "Trimming of boundary series keeps the simulation covered but does not trim the start", "statement": "A boundary series is accepted exactly when it covers the simulation. The records kept are: the first one if the second is later than StartTime, and every other one whose predecessor is earlier than EndTime + MorDtMax. The kept series still covers the simulation. Records before StartTime other than the first are kept, although the code means to drop them.", "quantifier": "every series of any length (coverage: increasing times, StartTime before EndTime)", "why_tests_cant": "Unbounded series; interplay of two overlapping assignments.", "anchors": ["hapuamod/loadmod.py: loadModel lines 648-674"]}
{"id": "C71", "title": "Outlet end initialisation for straight outlets uses Y instead of X", "statement": "For an outlet polyline crossing no transect, the initial outlet position is derived from the mean Y coordinate of the polyline, so moving the outlet along the shore does not move the initial outlet. Where the barrier is narrower than spit plus channel, the lagoon edge is then put 1 mm seaward of the inner channel bank.", "quantifier": "every such polyline (any number instance)", "why_tests_cant": "Only in the special case.", "anchors": ["hapuamod/loadmod.py: loadModel lines 520-534"]}
{"id": "C72", "title": "Harmonic tide", "statement": "The series starts at StartDate at mean level, is regular with the requested interval, ends at or before EndDate by less than one interval, and every value is within half the range of the mean. loadModel accepts it for the same period exactly when the interval divides the duration; for other intervals its coverage assertion fails.", "quantifier": "every start, end, interval, mean and range (exact arithmetic)", "why_tests_cant": "Unbounded length.", "anchors": ["hapuamod/synth.py: harmonicTide"]}
{"id": "C73", "title": "Shot noise: the documented default always fails", "statement": "With DecayRate2 left at its default None, every call with otherwise valid inputs raises TypeError, although the documentation makes it optional when PropRate1 = 1; with a mean gap below one day ZeroDivisionError is raised. Only the whole days of the mean gap have any effect.", "quantifier": "every such input (any number instance)", "why_tests_cant": "Universal.", "anchors": ["hapuamod/synth.py: shotNoise lines 84-98"]}
{"id": "C74", "title": "Shot noise: generated flows are positive and decay between events", "statement": "Before resampling, every generated value is positive when the mean event increase is positive, the components decay exponentially between events and jump by exactly the event size at each event. The points never go back in time, and with valid parameters the only way not to return is never to reach EndDate.", "quantifier": "every sequence of random draws in (0,1), any number of events (exact arithmetic)", "why_tests_cant": "Unbounded random sequences.", "anchors": ["hapuamod/synth.py: shotNoise lines 94-153"]}
{"id": "C75", "title": "Shot noise: event loop ends after EndDate", "statement": "The event loop stops at the first event at or after EndDate; with draws that keep producing zero-length gaps it never stops.", "quantifier": "every draw sequence", "why_tests_cant": "Termination.", "anchors": ["hapuamod/synth.py: shotNoise lines 111-153"]}
{"id": "C76", "title": "Output files are overwritten only with consent", "statement": "An existing output file is removed only if Overwrite was given or the user answered one of the five accepted words; otherwise the call raises and the file is untouched.", "quantifier": "every file system state and every answer", "why_tests_cant": "All user answers.", "anchors": ["hapuamod/out.py: newOutFile, newTsOutFile"]}
{"id": "C77", "title": "Refusing the second file still loses the first", "statement": "In a run that may not overwrite, consenting to the first file and refusing the second ends in an exception after the first file has already been replaced.", "quantifier": "every file system state with both files present", "why_tests_cant": "Interaction of two prompts.", "anchors": ["hapuamod/out.py: newOutFile, newTsOutFile", "hapuamod/core.py: main lines 61-80"]}
{"id": "C78", "title": "Written records can be read back", "statement": "Reading the record just written returns the written shoreline, elevations, levels, velocities, transports, outlet ends and status up to single-precision storage (outlet water level relative to the channel bed, transports through the hourly units), and earlier records are unchanged.", "quantifier": "every file with any number of records, every record (rounding as an arbitrary function)", "why_tests_cant": "Round trip over unbounded files.", "anchors": ["hapuamod/out.py: writeCurrent, readTimestep"]}
{"id": "C79", "title": "Outlet-end bedload is never written and the wave direction is never read", "statement": "No sequence of writes stores the outlet-end bedload passed to writeCurrent; reading a record always reports wave direction 0, although every write stores the direction, and likewise the lagoon, outlet and river bedload and the overwash proportion, each under its own name in the new record.", "quantifier": "every sequence of writes", "why_tests_cant": "Absence over all executions.", "anchors": ["hapuamod/out.py: writeCurrent, readTimestep lines 439, 476"]}
{"id": "C80", "title": "Closest output time", "statement": "The returned index set is exactly the set of records at minimal distance from the requested time, and the returned time is that of the first; with a unique minimum it is a singleton, with a tie it has two elements.", "quantifier": "every non-empty list of times", "why_tests_cant": "Unbounded lists.", "anchors": ["hapuamod/out.py: closestTimeIx"]}
{"id": "C81", "title": "Undefined breaking angle gives an undefined transport", "statement": "Where sin(wave angle) x (breaking celerity / celerity at data depth) exceeds 1 in size, the longshore transport of that segment is NaN; no error or warning is raised by the function.", "quantifier": "every shoreline, every wave state with that condition (exact arithmetic)", "why_tests_cant": "A region of wave states, not a single case.", "anchors": ["hapuamod/coast.py: longShoreTransport"]}
{"id": "C84", "title": "Hot starts resume the saved state", "statement": "A record written in a time step holds exactly the transects, outlet ends, width, river bed, levels, depths and velocities the run carries on with (the open/closed status is the one before a breach, so a record written in the step of a breach says closed although the run continues open). Starting from a file takes the state of the record nearest to the requested time up to single-precision storage and, when continuing, its time; a tie or a different transect spacing is an error.", "quantifier": "every time step, every file built by any sequence of writes, every requested time (rounding as an arbitrary function)", "why_tests_cant": "Agreement of writer and reader over all states and file lengths.", "anchors": ["hapuamod/out.py: writeCurrent, readTimestep, closestTimeIx", "hapuamod/core.py: main lines 82-160", "hapuamod/loadmod.py: loadModel (hot start)"]}
{"id": "C85", "title": "Model coordinate system", "statement": "The origin is the foot of the perpendicular from the river inflow on the fitted baseline, so the river is at X = 0, and Y is the distance from the baseline. Which side is land is decided by the sign of the world Y coordinate of the baseline at the river, not by where the river is, so the river can come to lie on the sea side. An exactly east-west baseline has no origin and the shoreline is refused.", "quantifier": "every baseline, inflow and point (exact arithmetic)", "why_tests_cant": "Continuous family of geometries.", "anchors": ["hapuamod/loadmod.py: loadModel lines 433-456", "hapuamod/geom.py: real2mod"]}
{"id": "C86", "title": "Initial channel from a polyline", "statement": "Transects lie at the multiples of the spacing from the first shoreline node up to, not including, the last. On each the shoreline is the input line, cliff and lagoon edge are the seaward-most crossings of their lines (the lagoon edge being the cliff outside the lagoon extent), and the channel is centred on the only crossing of the outlet line. A transect gets a channel of exactly the requested width, strictly between lagoon edge and shoreline, or none. The outlet starts at the upstream-most such transect and ends half a spacing beyond the downstream-most one. Bed levels fall linearly from the lagoon bed at the upstream end towards the outlet bed; transects without channel are unchanged.", "quantifier": "every set of polylines, any number of transects (exact arithmetic where positions are compared)", "why_tests_cant": "All geometries and numbers of transects.", "anchors": ["hapuamod/loadmod.py: loadModel lines 491-561"]}
{"id": "C87", "title": "Shot noise: the resampled series", "statement": "The returned series is regular with the output interval on a grid counted from midnight of the day of the first point, starts no later than StartDate and ends less than one interval before EndDate. Each value is the mean of the points generated in its interval, hence positive, or missing when there is none. It covers the period, so that loadModel accepts it, exactly when EndDate is on that grid. Refuted: that the series has no gaps; every interval within the rising limb of the final event is missing when no other event interferes, and the shipped one-day rising limb with hourly output shows it.", "quantifier": "every sequence of random draws, any number of events (exact arithmetic); the gap result for any number instance", "why_tests_cant": "Unbounded random sequences and series lengths.", "anchors": ["hapuamod/synth.py: shotNoise lines 136-162", "hapuamod/loadmod.py: loadModel"]}
{"id": "C88", "title": "Fallback hydraulics", "statement": "When the unsteady solution of a pass raises any exception, the pass goes on with the steady solution for the river flow and sea level at the last hydraulic time of the pass, so that every river section carries exactly that flow; otherwise the unsteady solution is used. The river part of it is carried to the next pass, and so are the lagoon and outlet values stored from it.", "quantifier": "every pass that ends, in any number instance and with any linear solver; the discharge in exact arithmetic", "why_tests_cant": "A failing linear solver cannot be provoked at will, and the choice must hold for every channel and boundary series.", "anchors": ["hapuamod/core.py: main lines 121-144", "hapuamod/riv.py: solveSteady, storeHydraulics"]}
{"id": "C89", "title": "Data flow of one pass", "statement": "In each pass wave direction, power, period, length and height are each taken from their own series at the time at which the pass starts; alongshore transport, run-up and overtopping use them, the shore at the start of the pass, and the sea level at the last hydraulic time. The morphology receives exactly these, the bedload of the new flow and the old time step, and its result is the state of the next pass. A written record holds these same transports and boundary values, and the time series record holds the mean lagoon level, depth times velocity times width at the last section, the first bedload value, the outlet position, the closure flag before any breach and the new time step. Refuted: that the sea level in a record is the sea level at the time of the record: the record carries the time advanced by the new step but the values at the end of the old one.", "quantifier": "every pass that ends, in any number instance", "why_tests_cant": "A swapped argument or a value from the wrong time gives plausible output; only an exact statement for every pass excludes it.", "anchors": ["hapuamod/core.py: main lines 107-235"]}
{"id": "C90", "title": "Long section", "statement": "For a channel of any length the long section draws bed level, water level, width, flow and velocity at every cross-section and energy head and bedload at every reach middle, at the distances given by the reach lengths, and the axis limits contain all flows. Drawn for a steady solution the flow line is constant. Refuted: that the energy line uses the gravity of the simulation (it is always 9.81), and that the bedload axis contains every value (upstream transport is below it).", "quantifier": "every channel of any number of sections (exact arithmetic)", "why_tests_cant": "All channel lengths and values; a wrong reach or a wrong mean still draws a plausible line.", "anchors": ["hapuamod/visualise.py: longSection, updateLongSection"]}
{"id": "C91", "title": "Transect view", "statement": "The view shows the transect nearest to the requested position (the first one on a tie), refuses positions outside the model, and names the side and distance from the river. The ground line passes beach face, crest, channel bed, inner crest, lagoon bed and backshore in this order with the levels of the transect; the water line shows sea, channel and lagoon level over their own extents; the filled areas are these lines closed at -100. Refuted: that the ground line never turns back: a shoreline beyond 1000 m folds it.", "quantifier": "every transect and set of parameters (exact arithmetic)", "why_tests_cant": "Continuous positions and levels, any number of transects.", "anchors": ["hapuamod/visualise.py: newTransectFig, updateTransectFig"]}
{"id": "C92", "title": "Plan view", "statement": "With an open outlet the view can be drawn exactly if there are two transects, a lagoon somewhere, and a channel with valid transects; with a closed one, if there is a transect. It shows the whole shoreline except between the two banks at the sea, the whole lagoon edge except between the two banks at the lagoon, and the whole cliff except across the river; every point drawn is on the respective line, and the banks end exactly on these lines half a width to either side of the mouth. Apart from the points next to the ends, bank points are channel edges. The water outline is closed. Wave arrows point with the waves and have length power times scale. Refuted: that the left bank follows the channel (when the channel runs to the right one of its points is overwritten with a level computed for the right bank), that a mirrored coast gives a mirrored drawing, and that the hatched land stays landward of the shore (one corner is at (x, x)). The first drawing always fails for a closed outlet because the closed flag is not passed on.", "quantifier": "every state with any number of transects; positions on lines in exact arithmetic", "why_tests_cant": "All coast lines and channel positions.", "anchors": ["hapuamod/visualise.py: modelView, updateModelView"]}
{"id": "C93", "title": "Animations", "statement": "An animation with start s, end e and interval r shows exactly the records s, s+r, s+2r, ... before min(e, number of records), in order, each picture drawn from its own record; a transect animation keeps the transect chosen at the start; interval zero is refused. The long section needs only the three parameters stored in the file, and its depths are the saved water levels less the saved beds of the same places. Refuted: that the end record is shown (it is documented as the last one to animate but left out), and that every result file can be animated: a map animation starting at a record of a closed outlet raises.", "quantifier": "every result file of any number of records, every start, end and interval", "why_tests_cant": "Unbounded files and argument ranges; off-by-one errors at the ends.", "anchors": ["hapuamod/animate.py: main, animateMap, animateTransect, animateLongSec", "hapuamod/out.py: readTimestep"]}
{"id": "C94", "title": "Wave energy flux in the input file", "statement": "For every row of wave model output the written power is non-negative and the written direction is in [0, 360); together they are exactly the energy transport vector of the row, turned round (direction it comes from) and multiplied by density and gravity. After the conversion made when a model is loaded, power and direction are the same vector expressed across and along the model coast. Period, wavelength and order of the rows are unchanged. Refuted: that rows keep their time: the minutes are dropped, so rows of the same hour get the same time.", "quantifier": "every table of any number of rows; vectors in exact arithmetic", "why_tests_cant": "All directions including the four axes; a mirrored or turned frame gives plausible numbers.", "anchors": ["preprocessing/WaveDataFromSwanOutput.py: lines 14-26", "hapuamod/loadmod.py: loadModel lines 618-621"]}
{"id": "C95", "title": "Offshore wave height in the input file", "statement": "For every onshore-going wave that can come from deep water the written offshore height is the height of the wave that refracts and shoals to the given one without energy loss, divided by the ratio of group speed to wave speed: it is too large by a factor strictly between 1 and 2. Waves going along or away from the coast, and rows without direction, get height 0. Refuted: that the energy flux towards the coast is the same for the written offshore wave and for the given wave. Waves too oblique to come from deep water get an infinite height.", "quantifier": "every wavelength, depth, height and direction (exact arithmetic)", "why_tests_cant": "Continuous wave states; the error factor depends on wavelength and depth and looks like natural variation.", "anchors": ["preprocessing/WaveDataFromSwanOutput.py: lines 28-55"]}
{"id": "C96", "title": "Boundary series with missing records", "statement": "Interpolation looks only at the records from the last one not after the first requested time to the first one not before the last requested time. Within them, a requested time gets the value on the line through the neighbouring valued records, the last value if no valued record follows, and NaN exactly when no valued record of that window is at or before it. Refuted: that a missing record is bridged by the valued records around it, and that the value at a time is independent of the other times requested with it.", "quantifier": "every strictly ordered series with any pattern of missing values, every list of requested times (exact arithmetic)", "why_tests_cant": "Depends on where a gap in the data falls relative to the time steps chosen at run time; the results look plausible or become NaN much later.", "anchors": ["core.py: interpolate_at"]}
{"id": "C97", "title": "Configuration files that are accepted", "statement": "A configuration is accepted exactly if every required key is there, text keys hold text, yes/no keys hold one of the eight words in any capitals, whole numbers and numbers can be read and are not below the minimum or above the maximum of their key; otherwise loading raises ConfigError and nothing else. In an accepted configuration every key has the value written, or its documented default when left out, and numbers respect their limits. Keys that are not in the specification change nothing. Refuted: that an accepted number lies within its limits (NaN passes every check), and that a misspelt key is reported (the default is used silently).", "quantifier": "every configuration file (any text behind any key), every reading of text as numbers", "why_tests_cant": "The space of configuration files is infinite; each of some 80 keys has its own type, limits and default.", "anchors": ["hapuamod/configspec.cnf", "hapuamod/loadmod.py: loadModel lines 239-249"]}
{"id": "C98", "title": "Loaded parameters", "statement": "If a model loads, the configuration file exists and is accepted, and each of the 33 physical and 8 numerical parameters, the end time and the seven durations (time steps, output, log and plot intervals) of the loaded model is the value the configuration gives to the key of that name.", "quantifier": "every configuration, every content of the input files", "why_tests_cant": "A swapped pair of keys gives plausible results; no test compares all parameters.", "anchors": ["hapuamod/loadmod.py: loadModel lines 251-286, 648-706"]}
{"id": "C99", "title": "From loading to the first step", "statement": "A loaded model never divides by zero in its derived parameters, holds the documented derived values and has flow, wave and sea level records that reach from its start to its end. A missing file gives an error before anything else, an unacceptable configuration ConfigError. The run starts at the start time with the smallest morphological step and no records. If that step is shorter than the hydraulic step, every first step raises; if the end is before the start, nothing is simulated and nothing reported. Refuted: that a model that loads and starts can do a step, and that its end is not before its start.", "quantifier": "every configuration and all input data; every solver behaviour", "why_tests_cant": "Combinations of keys that are each within limits.", "anchors": ["hapuamod/loadmod.py: loadModel", "hapuamod/core.py: main lines 28-106"]}
{"id": "C100", "title": "Names of the result files", "statement": "For a configuration file DIR/NAME.EXT without names for the results the two result files are NAME_outputs.nc and NAME_TSoutputs.nc in the working directory (not in DIR), and they differ; given names are used as they are. Refuted: that configurations in different directories have different result files (equal NAME gives equal names), and that the two result files of a run differ (the same name can be given for both).", "quantifier": "every directory and file name, including names with several dots", "why_tests_cant": "Infinitely many names; collisions happen between separate runs.", "anchors": ["hapuamod/loadmod.py: loadModel lines 677-684"]}
{"id": "C101", "title": "Where the data of a run come from", "statement": "Flow and sea level come from the named files unless the name is the word shotnoise or harmonic in any capitals, waves always from the named file with only the direction changed; relative names are looked up beside the configuration file, absolute names as they are. A synthetic tide starts at the configured start time, loads only with a tidal range and with an interval that divides the simulated time; synthetic flow loads only if all six parameters (SlowDecayRate included) are given. A cold start has an open outlet and zero water levels, depths and speeds, starts at the configured time and, without shapefile, needs the three lengths: then every transect is the configured beach, except the one at the river with a channel of the configured width behind a spit and a lagoon as wide as the river, beds and crest at the configured levels; with shapefiles the five named lines and the same levels make the transects (C86). The river bed rises upstream from the lagoon bed with the configured slope; width and bed of the outlet end are the configured ones. A hot start takes everything from the record of the results file and loads the same model whatever the spatial inputs and initial conditions say. Refuted: that results from before the configured start can be continued with a synthetic tide (it never covers the actual start).", "quantifier": "every configuration and all input data", "why_tests_cant": "Depends on combinations of options and on calendar arithmetic.", "anchors": ["hapuamod/loadmod.py: loadModel lines 288-646", "hapuamod/synth.py: harmonicTide, shotNoise"]}
{"id": "C102", "title": "What a program leaves on disk", "statement": "A program that cannot be loaded or prepared writes nothing. If the two result files may be created (a cold start whose files do not exist, or with overwriting allowed), then whenever the program is looked at - running, stopped by an exception in any pass, or by a drawing - the results file holds exactly the initial record and the records of the completed passes, each reading back as the state it was written from, the time-series file holds the corresponding rows, and no other file has changed. The record times start at the start time, do not pass the clock, are in order and never early. After more than (end - start) / HydDt + 2 passes the program has raised an exception. If both files have the same name, the program runs only as long as no results record is due, and the file holds the time series only.", "quantifier": "every configuration, all input data, every number of passes, every file system, every behaviour of the solver, random numbers and uninitialised memory", "why_tests_cant": "It is about all runs of any length, including those interrupted by an exception at any point.", "anchors": ["hapuamod/core.py: main", "hapuamod/out.py: newOutFile, writeCurrent, newTsOutFile, writeTsOut", "hapuamod/loadmod.py: loadModel"]}
{"id": "C103", "title": "Live plotting does not change the results", "statement": "Two configurations that differ only in PlotInt, the second without live plotting: the files of the first program are those of the second after some number of passes not larger than the number tried, and the program is in the same state, unless a drawing raised. While the program runs, one figure and one boundary condition row exist per drawing; the first is at the start and shows outflow equal to inflow, the others come in order and never before their due time, and each figure shows all rows so far. Without live plotting nothing is drawn.", "quantifier": "every pair of such configurations, all input data, every number of passes", "why_tests_cant": "Two whole runs are compared, for all inputs.", "anchors": ["hapuamod/core.py: main lines 84-97, 186-189, 216-231"]}
{"id": "C104", "title": "What the live figures show", "statement": "The row of a drawing has the time, inflow and sea level of the results record and the outflow of the time-series record saved in the same pass, and the plan view has the geometry after the pass but the open/closed state at its start: a pass that begins closed is drawn closed even when it opens a breach. A lagoon that is closed at the start (hot start) cannot be run with live plotting at all: the first drawing raises, leaving only the initial records on disk. Refuted: that the figure shows the state the run goes on with, and that a run which works without live plotting works with it.", "quantifier": "every state, every pass, every configuration", "why_tests_cant": "The wrong figure is drawn only in the pass of a breach; nobody tests plotting with a closed hot start.", "anchors": ["hapuamod/core.py: main lines 84-97, 216-231", "hapuamod/visualise.py: modelView, updateModelView"]}
{"id": "C105", "title": "How far the boundary conditions must reach", "statement": "A pass is completed only if flow and sea level records reach to the end of its hydraulic period, which is as long as the previous morphological step and is not limited by EndTime. A synthetic tide ends at EndTime at the latest, so with it a pass whose step exceeds the time left by a hydraulic step always raises. Refuted: that a model whose data reach from start to end gets to its end: with the shipped synthetic configuration (shortened) the run stops at 18240 s of 21600 s.", "quantifier": "every state, every configuration with a synthetic tide, every solver behaviour", "why_tests_cant": "Whether a run is cut short depends on the step chosen adaptively hours of simulation earlier.", "anchors": ["hapuamod/core.py: main lines 121-125, 178-183, interpolate_at", "hapuamod/synth.py: harmonicTide", "hapuamod/loadmod.py: loadModel lines 560-646"]}
{"id": "C106", "title": "Sediment balance of the movement", "statement": "Take the sediment along a transect to be the shoreface down to the closure depth, the barrier, the beds of lagoon and channel and the backshore. Moving every edge and level for s seconds at the rates of an update changes the sediment of a transect by s times what the fluxes bring it (longshore drift, bedload of the channel section above it, river sediment landing on the shore; at the two end transects the prescribed retreat and the overwash) plus s squared times a term where an edge and a level move together. Summed over the domain, with the river bed and the outlet end: what enters by the river and by the drift at both sides, what the end transects gain, the landed river sediment, plus the drift arriving at the outlet in absolute value minus that drift when it is positive. Refuted: that the movement adds what the fluxes bring; drift from right to left past an open outlet is given to the bank and taken from nowhere.", "quantifier": "every geometry with numbers, every number of transects, open and closed, every flux, every duration (exact arithmetic)", "why_tests_cant": "Volume errors are small per step and only show as drift over years; no test has a closed volume balance.", "anchors": ["hapuamod/mor.py: updateMorphology lines 70-172, 206-215"]}
{"id": "C107", "title": "Updates in which nothing happens but movement", "statement": "If after the movement no barrier, channel or cliff is touched, the outlet end has neither left the domain nor reached another transect, the water is below every crest, the lagoon at the river is wide enough and uninitialised memory holds true, then the update does nothing else: positions and levels are the moved ones except that the crest beside a channel is raised to the inner crest, the outlet end is the moved one, no breach is reported and the upstream end of the outlet is kept (closed: kept or forgotten). The change of the sediment in transects, river bed and outlet end over such an update (step above the minimum) is the balance of C106, plus the sediment made by raising crests, plus, with drift from right to left past an open outlet, the drift of a single second.", "quantifier": "every geometry, flux and step satisfying the listed conditions, any number of transects (exact arithmetic)", "why_tests_cant": "A statement about the whole update function for all inputs without an event; it shows every place where sediment is made or lost.", "anchors": ["hapuamod/mor.py: updateMorphology"]}
{"id": "C108", "title": "Which channel is joined to the lagoon", "statement": "With an open outlet, the channel taken as joined to the lagoon is the longest stretch of transects with a channel at least MinOutletWidth wide around the outlet channel. With a closed outlet it is such a stretch around the transect nearest to the upstream end of the old channel, if that transect is wide enough and the lagoon is open all the way from there to the river; otherwise nothing is joined and the upstream end is forgotten. Water levels in the stretch become those at its core and others are kept, unless the channel is wide up to the first transect. A channel wide up to the last transect always raises. The search always ends. Refuted: that only levels in the stretch change (from the first transect the search goes on at the last one).", "quantifier": "every geometry and number of transects, every set of water levels, open and closed", "why_tests_cant": "Relic channels up to the edge of the domain appear only in long runs.", "anchors": ["hapuamod/mor.py: updateMorphology lines 463-505"]}
{"id": "C83", "title": "For how long the bed is moved", "statement": "Write the morphological time step of an update as days, whole seconds within the day and nanoseconds. While the step is above the minimum, the update moves the river bed, the outlet end and, with a closed outlet, every edge and level of the transects at their rates for the whole seconds within the day only; the fraction of a second and full days are not used, although the clock is advanced by the full step. Refuted: that the bed moves for as long as the step lasts. Fifteen seconds halved once give a step of 7.5 s in which the bed moves for 7 s.", "quantifier": "every geometry, flux, step and number of transects", "why_tests_cant": "A loss of up to a second per step is invisible in a single step; full days are only lost with unusual settings.", "anchors": ["hapuamod/mor.py: updateMorphology lines 184-228", "hapuamod/core.py: main lines 181-183"]}
{"id": "C109", "title": "Sediment made or destroyed after the movement", "statement": "Every transect of a finished update is the moved transect put through at most one each, and in this order, of twelve kinds of reworking: cliff collision, banks pushed past each other, new channel at the moving end, channel moved back from the sea, channel swallowed at the cliff, lagoon crowded by the channel, channel merged into the lagoon, channel filled from the shoreface, barrier restored, crest raised, breach, lagoon at the river kept open. Each has a known result and makes or destroys a known amount of sediment in the cross-section, given by a formula in the transect it is applied to (no division by zero); the sediment in the domain after the update is that after the movement plus spacing times the sum of these amounts, and that after the movement is given by the fluxes for any update. Moving the channel back from the sea makes nothing, nor does a cliff collision without channel or lagoon at an unchanged crest, nor pushing banks together at unchanged heights with the inner barrier lower. Refuted: that reworking only moves sediment about; a breach takes 350 cubic metres out of a small coast.", "quantifier": "every geometry, flux and step, any number of transects and any combination of events (amounts: exact arithmetic)", "why_tests_cant": "Conservation over all combinations of events is a sum over an unbounded set of cases; leaks of a few cubic metres do not show in a run.", "anchors": ["hapuamod/mor.py: updateMorphology lines 217-692"]}
{"id": "C110", "title": "Result files describe their contents", "statement": "Both result files are created exactly when there are at least two transects and one river section (otherwise a second unlimited dimension is refused). Variable and dimension names are unique; every stored row belongs to a declared time variable, is as long as its declared dimension and of the declared type (whole numbers 0 or 1 for the closed status, single precision otherwise), and every declared time variable has a row for every output time, with one exception: the bedload at the outlet end is declared but never holds data. The coordinates of the shoreline segments lie halfway between neighbouring transects, river section i is at i times the spacing. Times are seconds since midnight of the start day; reading back gives the time cut to whole microseconds, the first one lies within the first day. The origin and orientation in the file lead a hot start back to exactly the same world frame, and an animation finds every parameter it needs. Refuted: the file records every physical parameter (the bedload coefficient and exponent and the grain roughness are missing); wave directions are in the declared degrees (they are radians relative to the shore normal).", "quantifier": "every number of transects, sections and records, every parameter set (frame and times: exact arithmetic)", "why_tests_cant": "Metadata errors do not fail any computation; they show when a file is read by somebody else.", "anchors": ["hapuamod/out.py: newOutFile, writeCurrent, newTsOutFile, writeTsOut", "hapuamod/loadmod.py: loadModel lines 301-325", "hapuamod/animate.py: lines 139-191"]}
{"id": "C111", "title": "Command line and log", "statement": "The program starts exactly when the words on the command line are one configuration file and flags -o, -v, -q (or the long forms) in any order and number; a flag counts however often it is given. A message reaches console and log file in order and exactly when it is severe enough: warnings with -q, everything with -v, otherwise information and above; -q beats -v. The log is NAME_log.txt for configuration NAME in the working directory; earlier contents and other files stay. With -o the answers to questions make no difference to the run. Refuted: different configurations have different logs.", "quantifier": "every list of words, every list of messages, every configuration and file system", "why_tests_cant": "Tests try a few combinations of flags; order independence and append-only logs are statements over all lists.", "anchors": ["hapuamod/__main__.py", "hapuamod/core.py: main"]}
{"id": "C112", "title": "Map view in world coordinates", "statement": "The map is drawn exactly when there are transects, the cliff line crosses the river axis and there is a lagoon somewhere (otherwise IndexError, or ValueError without transects). Then shore, channel, lagoon and cliff lines go through the world positions of the transects, with gaps where there is no channel or lagoon; the river runs along the model Y axis from three times the lowest cliff position to the first crossing of the cliff; the ends of the lagoon are closed at its first and last transect; both arrows start at the origin, are a twentieth of the modelled coast long, perpendicular, and point along the shore and out to sea. Refuted: the river is drawn on the land side of the cliff.", "quantifier": "every number of transects, origin and orientation (exact arithmetic)", "why_tests_cant": "Drawing is only inspected by eye.", "anchors": ["hapuamod/visualise.py: mapView", "hapuamod/geom.py: mod2real, intersectPolyline"]}
{"id": "C113", "title": "What an update can change, and which way cliff and crest go", "statement": "Each of the twelve kinds of reworking after the movement changes only the columns listed for it and leaves every other column as it is, bit by bit; transects never move along the shore. On a coast with ordinary heights (cliff top and shoreface above the closure depth, channel beds below what is beside them, barriers above the water behind them) an update never moves the cliff seaward, and lowers a crest only where the channel was filled from the shoreface or lengthened; this needs lagoon beds below the cliff top where the lagoon takes part in the flow, and cross-shore transport that does not take sediment from the crest. Refuted without ordinary heights: that the cliff never advances (a channel bed above the inner crest pushes it seaward); refuted even with them: that the crest is never lowered (a channel with a low inner crest is met by the sea).", "quantifier": "every geometry, flux and step, any number of transects and any combination of events (columns: any arithmetic; directions: exact arithmetic)", "why_tests_cant": "A one-way quantity is a statement about every update; a run only shows the events it happens to have.", "anchors": ["hapuamod/mor.py: updateMorphology lines 20-692"]}
{"id": "C114", "title": "Uninitialised memory can stop a run but not change it", "statement": "The two tests of an update that read memory never written (where= without out=) can make the program fail its own assertion, but cannot change any result: whenever an update, a sequence of passes or a whole program gets through with some content of that memory, it gives the same geometry, the same state, the same files and the same figures as with true everywhere; two programs with different memory contents that both get through agree; and whatever a stopped program left on disk is what the program with true everywhere has on disk after some smaller or equal number of passes.", "quantifier": "every memory content, changing from pass to pass; every configuration, solver, number of passes; every arithmetic in which NaN propagates through + - * / and fails <= (proved of exact arithmetic with NaN and of IEEE double precision)", "why_tests_cant": "Memory contents depend on the allocator and cannot be enumerated by a test.", "anchors": ["hapuamod/mor.py: updateMorphology lines 449, 519, 690-692", "hapuamod/core.py: main"]}
{"id": "C115", "title": "Whether the next update can start from the coast an update leaves", "statement": "An update begins by asserting that the seaward barrier (from the shoreline to the channel, or to the lagoon where there is no channel) has a positive width at every transect, so an update that gets through started from such a coast, and on any other coast every update fails. On ordinary geometry an update leaves a positive width at every transect again, with one exception: where the sea breaks through at one of the first two transects and this is taken for a breach on an existing channel. The conditions are that no divisor vanishes, that filling a channel from the shoreface leaves the shoreline in front of the cliff, that the bed of a pushed channel lies below inner crest and cliff top, and that a restored barrier stands above the lagoon bed. Both the exception and the filling condition are real: two updates in double precision that get through and leave a coast on which no update whatever gets through.", "quantifier": "every geometry, flux, step and number of transects; every story of events at a transect (start and stuck: any arithmetic; what is left: exact arithmetic)", "why_tests_cant": "The failing assertion comes one update after its cause, and only for a particular index of the breached transect.", "anchors": ["hapuamod/mor.py: updateMorphology lines 60-62, 217-692"]}
{"id": "C116", "title": "What a run of passes keeps", "statement": "However many passes a run makes: the transects stay where they are along the shore, the number of transects and of river sections stays the same, after every pass shoreline, lagoon edge and cliff are numbers at every transect, every record added to the results file is on the grid the run started with and has numbers in these columns, before every pass the seaward barrier has a positive width everywhere (otherwise the pass fails whatever the river, the sea and the solver do), and after every pass the lagoon at the river mouth is at least the minimum outlet width wide.", "quantifier": "every number of passes, boundary condition, parameter set, solver, memory content and initial state (lagoon width: exact arithmetic; everything else: any arithmetic)", "why_tests_cant": "A run exercises one sequence of passes; the invariants must hold after each of any number of them.", "anchors": ["hapuamod/core.py: main", "hapuamod/mor.py: updateMorphology"]}
{"id": "C117", "title": "A closed outlet without channels: the update gets through", "statement": "While the outlet is closed and no transect has a channel, an update succeeds whatever bedload, longshore transport, overtopping and lagoon level do, provided the arrays fit together, every barrier has a positive width, reaches above the closure depth and stands above the lagoon bed by more than twice the largest change of an update, and the minimum step is a whole number of seconds with maximum and current step that minimum doubled some number of times (at most half a day). Afterwards every edge and level is a number, every barrier has a positive width again (so that the next update can start) except possibly at the first transect in an update with a breach, there is no channel unless there was a breach, and crest and lagoon bed have moved by at most the largest change. Refuted: that the steps may be any durations: with a minimum of 1.5 s the program stops at its own assertion for a middling transport although weaker and stronger transports pass. The exception at the first transect occurs.", "quantifier": "every number of transects, fluxes, levels, parameters and starting step of this kind (exact arithmetic; memory as if written)", "why_tests_cant": "Success for all fluxes is a universally quantified statement over real-valued arrays; the failing band of fluxes is narrow.", "anchors": ["hapuamod/mor.py: updateMorphology"]}
{"id": "C118", "title": "Recording a run does not change it", "statement": "Two runs with the same inputs and the same starting point but different output intervals, different due times and different records so far go through the same passes: after any number of passes, and after the whole loop, coast, river, water, outlet, clock and time step are the same, or both fail in the same way at the same pass. There is one sequence of possible records of either kind, one per pass, that does not depend on the intervals; an interval only decides which of them are kept, from the times at which passes end and nothing else: a record is kept when the next one is due by then, and the due time moves on by the interval once.", "quantifier": "every pair of output intervals and due times, every configuration, solver, memory content, number of passes and arithmetic", "why_tests_cant": "Independence of two runs for all intervals is a two-run property over unboundedly many passes; the writing code shares its variables with the computation.", "anchors": ["hapuamod/core.py: main lines 107-235", "hapuamod/riv.py: storeBedload"]}
{"id": "C119", "title": "Where cross-shore positions are measured from does not matter", "statement": "If every shoreline, channel edge, lagoon edge and cliff position is moved by the same distance, then the initial state, an update, any number of passes and the whole run give the same result with these positions (and those in the records) moved by that distance and everything else unchanged: the same transports, water levels, widths, time steps, breaches and failures. Refuted for double precision: measured from far enough away the shore has another direction and another longshore transport.", "quantifier": "every distance, geometry, boundary condition, configuration, solver, memory content and number of passes (exact arithmetic with infinities and NaN)", "why_tests_cant": "A test compares two particular origins on one run; the claim is an equation between all runs.", "anchors": ["hapuamod/core.py: main", "hapuamod/mor.py: updateMorphology", "hapuamod/riv.py: assembleChannel", "hapuamod/coast.py: longShoreTransport, overtopping"]}
{"id": "C120", "title": "The date of a run does not matter", "statement": "If start, end, clock, due times and the times of all boundary series are later by the same time, then the initial state, any number of passes and the whole loop give the same result with every recorded time later by that time, and fail where and as before; the time step never depends on the date. This holds for every arithmetic in which the difference of two converted instants does not depend on the date. Refuted for double precision: instants are nanoseconds since 1970, and interpolation between two instants less than a microsecond apart changes in the year 2006.", "quantifier": "every shift, boundary series, configuration, solver, memory content and number of passes (exact arithmetic; any arithmetic with the stated law)", "why_tests_cant": "A test compares two particular dates; the claim is an equation between all runs.", "anchors": ["hapuamod/core.py: main, interpolate_at"]}
{"id": "C121", "title": "The level heights are measured from does not matter, except where a channel merges with the lagoon", "statement": "If every height (crests, beds, river, lagoon level, sea level, cliff top, beach top, highest outlet bed, overwash level) is raised by the same amount and the closure depth reduced by it, then steady and unsteady flow have the same depths and velocities, the assembled channel differs in its bed only, and the initial state, an update and any number of passes give the same result with heights raised and everything else unchanged (same widths, transports, time steps, breaches, failures), provided that after the corrections of each update every channel lies clear of the lagoon and every crest lies above -9999.9 m measured from either level. The bed of a section that merges with the lagoon depends on the level: it moves by the raise times one plus the overlap divided by the width from channel edge to cliff. Refuted without the provisos: ten metres up, a merged bed comes out almost a metre too high; measured from 16384 m above, transects without lagoon count as flooded and a pass ends with an IndexError.", "quantifier": "every raise, geometry, boundary condition, configuration with a finite time weighting, solver, memory content and number of passes (exact arithmetic with infinities and NaN)", "why_tests_cant": "A test compares two particular levels on one run; the claim is an equation between all runs, and the merging case needs an overlap.", "anchors": ["hapuamod/core.py: main", "hapuamod/mor.py: updateMorphology", "hapuamod/riv.py: solveSteady, solveFullPreissmann, assembleChannel, storeHydraulics", "hapuamod/coast.py: overtopping"]}
{"id": "C122", "title": "Only the boundary records around the simulated time matter, and records on the line do not", "statement": "Two runs whose seven boundary series (flow, sea level and five wave columns) have the same records around the time from lo to hi, that is, differ in records before lo and after hi only while some common record is not after lo and some not before hi, are the same run as long as every pass asks within that time: same state after any number of passes, same failure of the loop; a run from its start needs only that the time covers the simulated time plus its length once more. In exact arithmetic the same holds if one series has additional records on the straight lines between the records of the other. Refuted: that the record after the last asked time may be left out (the lookup raises IndexError), and that with doubles a record holding the interpolated value may be added.", "quantifier": "every pair of series so related, every window, configuration, solver, memory content, number of passes and arithmetic (second part: exact arithmetic)", "why_tests_cant": "A test compares particular files; the claim is an equation between all pairs of runs.", "anchors": ["hapuamod/core.py: main, interpolate_at"]}
{"id": "C123", "title": "A longer simulation begins like a shorter one", "statement": "Two runs that differ in a later end, and in boundary records outside the time asked for, start alike, and agree in everything (clock, step, coast, water, records) after any number of passes as long as the clock of the shorter run has not reached its end. The pass in which it does moves the coast exactly as the longer run does; only clock and records may differ. Two configurations that differ in EndTime only load models that differ in the end of the simulation and in records outside the shorter one only, unless the flow is drawn at random, so the programs agree in the same way. Refuted: that the coast a run ends with is the coast at EndTime. The step is cut off after the coast was moved by all of it, so a run to 140 s ends with the coast that the longer run has at 150 s.", "quantifier": "every pair of set-ups so related, every solver, memory content, number of passes and arithmetic; for the program every configuration, files with ordered times", "why_tests_cant": "A test compares particular end times; the claim is an equation between all pairs of runs, and the refuted part needs an end between two passes.", "anchors": ["hapuamod/core.py: main", "hapuamod/loadmod.py: loadModel"]}
{"id": "C124", "title": "The water, the waves and the transport know no left and right; the coast does", "statement": "On the coast seen from the other side (transects in the opposite order, alongshore positions and wave directions negated, outlet ends negated) the assembled channel is the mirror image of the channel through the original coast and fails alike; so are the water and bedload handed back to the transects, the cross-shore transport and the overtopped crests; the longshore transport is mirrored with the opposite sign. Hence, if a pass and the pass on the mirrored coast both succeed, lagoon levels, depths and velocities are mirror images, those of river and outlet end are the same, and so are the records but for the coast in them. This needs transects at different positions, an upstream outlet end that is not exactly at the river, and, with an open outlet, a downstream end between two transects (or a straight outlet at one). Refuted without these: with an outlet that starts exactly at the river the lagoon on the same side is counted twice, so the mirrored channel has another lagoon area; with an outlet that ends at a transect the mirrored channel is one transect spacing longer. Refuted for the coast: after a pass the shoreline at the outlet is not the mirror image.", "quantifier": "every coast, outlet, boundary condition, configuration, solver and memory content with the stated positions (exact arithmetic with infinities and NaN)", "why_tests_cant": "A test compares one coast with its image; the claim is an equation between all pairs, and the exceptions need an outlet end exactly at a transect or at the river.", "anchors": ["hapuamod/riv.py: assembleChannel, storeHydraulics, storeBedload", "hapuamod/coast.py: longShoreTransport, overtopping", "hapuamod/core.py: main"]}
{"id": "C125", "title": "Without outlet and channels the coast knows no left and right either, until the next pass", "statement": "On a coast without outlet channels and with the outlet closed, the morphology update of the mirrored coast (transects in the opposite order, positions and longshore transport negated) gets through whenever the update does and no new outlet is opened, and leaves the mirror image of the updated coast, with the same river bed, outlet end and time step. Hence a whole pass over the mirrored coast succeeds and leaves the mirror image, coast and water. Both passes leave the upstream end of the outlet undefined, and from an undefined end the lagoon is always followed to the left of the river, whatever the coast. Refuted for the pass after that: the two lagoons lie on the same side, and the levels at one transect and at its image differ by more than 0.125 m.", "quantifier": "every coast without channels with transects at different positions, every boundary condition, configuration and solver, where memory flags not yet written read as true (exact arithmetic with infinities and NaN)", "why_tests_cant": "A test compares one coast with its image over one pass; the claim is an equation between all pairs, and the asymmetry only appears in the pass after the outlet end became undefined.", "anchors": ["hapuamod/mor.py: updateMorphology", "hapuamod/riv.py: assembleChannel", "hapuamod/core.py: main"]}
{"id": "C126", "title": "Failing passes raise ordinary errors, and simulations end", "statement": "With a hydraulic step of a second or more, a minimum morphological step between two seconds and a day and a maximum of at most half a day, a pass that fails (and started with a step below a day) raises an IndexError, an AssertionError or a ValueError and nothing else: it never hangs and never divides by zero. Its outcome does not depend on how long one is prepared to wait for the time step to settle. A whole simulation whose start is not after its end always ends, within as many passes as hydraulic steps fit into it plus two, and always with one of these three exceptions. Refuted for longer maximum steps: with 80000 s there is a simulation whose first pass never ends, however long one waits.", "quantifier": "every state, configuration with these steps, boundary record and solver, in any arithmetic", "why_tests_cant": "A test that hangs or crashes shows one case; that nothing else can happen over all states and records, and that waiting longer changes nothing, is a statement about all executions.", "anchors": ["hapuamod/core.py: main", "hapuamod/mor.py: updateMorphology", "hapuamod/riv.py: assembleChannel, solveSteady, storeHydraulics"]}
{"id": "C127", "title": "Where no bedload moves, the river bed stays", "statement": "A morphology update with zero bedload at every cross-section leaves the river bed exactly as it was, whatever happens to coast, lagoon and outlet (cell area of the river not zero, limit of the change per step not negative). With the bedload coefficient zero each height of the river bed stays the same in a pass or becomes NaN; as a channel with NaN in its bed is rejected, the river bed is exactly that of the start for as long as passes still assemble their channel. The same holds in double arithmetic, whatever the library returns for powers and other functions, up to the sign of zero, if the limit of the change per step is not negative.", "quantifier": "every state, configuration with that coefficient, number of passes, boundary record and solver (exact arithmetic with infinities and NaN; double arithmetic with any mathematical library)", "why_tests_cant": "The bed must stay over arbitrarily many passes with all depths, velocities and time steps, including divisions by zero inside the bedload formula.", "anchors": ["hapuamod/mor.py: updateMorphology", "hapuamod/riv.py: calcBedload, assembleChannel", "hapuamod/core.py: main"]}
{"id": "C128", "title": "The unit of mass does not matter", "statement": "Give the three densities of the configuration in another unit of mass and the recorded wave power in the same unit: longshore transport, bedload, the start, every pass, any number of passes and the whole simulation give exactly the same results, records and errors. Refuted for the densities alone, which change the transport.", "quantifier": "every positive ratio of the units, configuration, wave record (gaps and infinities included), state and solver (exact arithmetic with infinities and NaN)", "why_tests_cant": "An invariance under a continuous family of changes of unit, for every configuration and any number of passes.", "anchors": ["hapuamod/loadmod.py: loadModel", "hapuamod/coast.py: longShoreTransport", "hapuamod/riv.py: calcBedload", "hapuamod/core.py: main, interpolate_at"]}
{"id": "C129", "title": "What a run does not look at", "statement": "After loading, the density of the sea, the K coefficient, the breaker ratio, the river slope, the upstream length and the height and width of the target barrier make no difference: two runs from the same coast, river bed and water that differ in these values only have the same start, passes, records and errors. Hence the target barrier counts only through its line: moving it along the line through it and the spit at beach-top height gives the same simulation. Refuted off that line.", "quantifier": "every configuration, state, record and solver in any arithmetic; for the target barrier every position on the line but its end (exact arithmetic)", "why_tests_cant": "Independence of a parameter is a statement about all pairs of runs.", "anchors": ["hapuamod/loadmod.py: loadModel", "hapuamod/core.py: main", "hapuamod/coast.py: overtopping", "hapuamod/mor.py: updateMorphology"]}
{"id": "C130", "title": "A run carries on from its record", "statement": "A simulation that is hot started from a record of an earlier one, continuing at the time of the record with the same inputs, starts in exactly the state the earlier run was in, and then both give the same passes, end or errors, whatever their output intervals. Conditions: storage keeps the numbers of the record and depths can be got back from stored levels (always so in exact arithmetic with lossless storage for real depths and bed levels), the record is the only closest one and shows the state (open or closed included), the earlier run was at its smallest morphology step, the lagoon flow is not zero everywhere, river depths and velocities are there, and the channel does not close on assembly. The record a pass writes shows the state it ends in unless it opened the outlet. Refuted without the condition on the step: its length is not recorded and a restart takes the smallest.", "quantifier": "every file written by the program, record in it, state, configuration, pair of output intervals, number of further passes and solver, in any arithmetic", "why_tests_cant": "A comparison of two simulations over arbitrarily many passes, through writing, storing, reading and assembling of all state.", "anchors": ["hapuamod/out.py: writeCurrent, readTimestep, closestTimeIx", "hapuamod/loadmod.py: loadModel", "hapuamod/core.py: main", "hapuamod/riv.py: assembleChannel"]}
