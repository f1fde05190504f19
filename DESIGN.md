# satellite-rs: formal model and proofs in Rocq (Coq 8.16.1)

## 1. Approach

The library is arithmetic over `f64`, a little integer/calendar logic, and text parsing.
The model is written **once**, as total Gallina functions over an abstract `f64`
(`Class FloatOps F` in `Model/Float.v`: + - * / %, comparisons, floor, sqrt, sin, cos, asin, atan2, powf,
powi, decimal literals, int conversions), in `theories/Model/`, one file per source file.
It is then used at three levels:

| level | instance | what it settles |
|---|---|---|
| generic (G) | *every* `FloatOps` (no laws assumed) | control flow, error reporting, mutation/frame, history independence, text parsing |
| real (R) | exact real arithmetic, real `sin`/`cos`/`sqrt`, `atan2`, `x^y` (`Inst/RInst.v`) | geometry, calendar, ranges, agreement with the published orbital theory |
| binary64 (B) | IEEE-754 binary64 (Flocq `BinarySingleNaN`, prec 53, emax 1024), round-to-nearest-even; `sin/cos/asin/atan2/pow` are an *arbitrary* `libm` record (`Inst/B64.v`) | NaN/inf behaviour, rounding at boundaries, termination of floating loops |

* `&mut` becomes returning the new record; `Result` is data; a Rust panic is the value `Panic`;
  loops whose bound depends on data take explicit fuel and return `NoFuel`; every theorem either
  speaks of runs that return (`Done`), proves that they do, or proves divergence (`NoFuel` for every fuel).
* Rust `&str` is a list of Unicode scalar values with UTF-8 byte lengths, so byte-offset slicing
  and its char-boundary panics are modelled for all strings, not just ASCII.
* `str::parse::<f64>` / `<i64>` are modelled by their documented grammar (Rust >= 1.55);
  the decimal value is rounded correctly in B and kept exact in R.

A property that turned out false of the code is restated as what the code does, with the word "defect" in its
statement in `properties.jsonl`, and that true statement is proved (for instance C09, C18, C26, C27, C29, C30, C37, C38).

## 2. Layout (`rocq/theories`)

* `Model/` - the model only; each definition cites file:lines.
* `Inst/` - the R and B instances, rounding and remainder lemmas, `atan2`, tactics.
* `Spec/` - small independent specifications: Gregorian calendar (`Calendar`), numeric text (`NumText`), TLE
  columns (`TextSpec`, `TleSpec`), vectors (`Vectors3`), Kepler's equation (`KeplerSpec`), guards and scratch
  fields of a propagation (`Sgp4Spec`, `StateSpec`, `DeepSpec`, `DspaceSpec`, `PeriodicSpec`), SGP4 as printed in
  Spacetrack Report 3 (`Str3`, `Str3Api`), third-body potential and Lagrange's equations (`ThirdBody`),
  tesseral resonance potential and its integration (`Resonance`), rotations and whole turns (`Symmetry`), the outcome of a propagation in terms of the theory (`Outcome`), how accurate a mathematical library is (`LibmAccuracy`), closeness of a binary64 state to an exact one (`NearAccuracy`).
* `Proofs/` - lemmas, by topic.
* `Props/Cxx.v` - the theorems of property Cxx, each followed by `Print Assumptions`, and an `Example` showing a
  concrete case meeting the hypotheses.
* `Golden/` - concrete satellites used by those examples (`Sats`, `RSat`, `RDeep`), and the repo's own unit-test
  vectors evaluated on the B model (`Vectors`, with a table-driven `Libm`; these are tests of the transcription,
  not proofs). `Flat` is a cheap `libm` for examples that only need control flow.

`seeded/` holds the mutation runner (`run.py`), the mutants (`mutants.py`) and the log of what they broke (`LOG.jsonl`).
`tools/` generates `properties.jsonl`, `_CoqProject`, `MANIFEST.json` and the table of section 4.

## 3. Properties and method

| id | level | model / method |
|---|---|---|
| C01 | G | `sgp4` as state transformer; scratch-field equivalence is an invariant; induction on the list of calls |
| C02 | G | case analysis on every return path |
| C03 | G | same; `code` injective |
| C04 | G | each guard characterised by an independent predicate, in order |
| C05 | G | two runs from arbitrary records |
| C06 | G, R | decision tables |
| C07 | G | over all texts |
| C08 | G, R, B | reduction to `sgp4`; minutes by the calendar specification; rounding bound |
| C09 | G | refutation: result invariant under the nanosecond field |
| C10, C11 | R | trigonometric identities |
| C12 | G, R | iteration bound; step bound, residual and contraction up to eccentricity 0.77 |
| C13 | R | two-run proof through `sgp4init` and `sgp4` |
| C14 | R | `Rpower` algebra |
| C15 | R, B | exactness of the IEEE remainder, monotone rounding |
| C16 | R, B | deterministic step sequence, invariant over call histories |
| C17 | R, B | step count; bound and divergence for huge or infinite times |
| C18, C19 | G | two-run non-interference (refutes the expectation) |
| C20 | G | |
| C21 | R | |
| C22, C23, C24 | R, B | against the calendar specification, by induction; exactness in B |
| C25-C37 | G | over all strings; column frames, first failing field, grouping of lines by induction |
| C38 | B | NaN absorbs every operation on the path to the result |
| C39-C44 | R, B | linear algebra, ellipsoid (intermediate value theorem for existence, tangent planes for uniqueness), contraction of the latitude iteration; loop termination/divergence |
| C45 | B | monotone rounding |
| C46, C47, C48 | R, B | algebra; rounding bounds |
| C49, C50 | R | equality with the equations of Spacetrack Report 3, written independently in `Spec/Str3.v` |
| C51 | R | derivatives of the orbit-averaged third-body potential, Lagrange's planetary equations |
| C52 | R | Fourier expansion of the tesseral harmonics along an orbit, derivative of the resonant potential, induction over the integrator's steps |
| C53 | R | relational: both runs refined to the published theory (C50), the theory shown equivariant under turns of the node, invariant under whole turns, and a flow without drag |
| C54 | R | composition of C28, C24/C08, C50 and C17, plus C33 for whole texts |

| C55 | B | interval-and-error calculus: each operation of the model carries a rational interval and error bound, computed by the kernel (`Inst/B64Calc.v`, `Proofs/CalcFun.v`) |
| C56 | B | the same calculus, with the library functions assumed accurate (`Spec/LibmAccuracy.v`: a predicate on the library, a hypothesis of the theorem, met by a correctly rounding library in `Proofs/LibmExists.v`); relative error of norms, conditioning of atan2 and asin |
| C57 | B | a second calculus with mixed relative and absolute errors (`Inst/ApxCalc.v`), run through initialisation, secular update, Kepler iteration (contraction towards the root, whichever step either run stops at), short-period terms and orientation vectors (`Proofs/Acc*.v`) in six classes of eccentricity for the full drag model (twice: any perigee from 221 km and a day, 400 km and three weeks in `AccWeek.v`) and nine for the short one; C50 for the exact side |
| C58 | B | C28 (nearest doubles; seven digits of eccentricity cannot fall between 1e-4 and its double) and the calculus for the unit changes; C08 for the time; `C57_rounded_elements`, whose calculus starts from rounded elements |
| C59 | B | relative error of plane norms; invariant of the twenty latitude steps (the error contracts by the flattening each step, `Proofs/GeoAcc.v`); quotient by the cosine; turn loops step by step; C42 for the true coordinates |
| C60 | R | the link to the published theory (C50); without drag all its elements stay bounded: radius bound by the size of the J2 and J3 terms with the perigee 50 km up; with drag the linear eccentricity term outgrows the bounded ones |
| C61 | B | C58 for the state, C55 for the sidereal angle, C56 for rotation and look angles; the exact maps are 1-Lipschitz (Cauchy-Schwarz, chord of a small angle, Bessel), quotients by nearby lengths |
| C62 | B | the calculus of C57 run through the deep-space initialisation (third-body geometry and coefficients in `Proofs/DeepMoon.v`, secular rates in `DeepBoot.v`), the simplified secular update over thirty days, the periodics and the tail (`Proofs/Deep*.v`); C50, C21 and C51 for the exact side; C17 for returning |
| C63 | B | C28 for the decimal numbers, C24 and an exact-difference bound for the epoch, C08 for the time asked for, `C62_rounded_elements` for the state |
| C64 | B | C63, C55 (sidereal time), and `C61_bearing`, now stated for any position error and distance that fit its error budget |
| C65 | B | C58/C63, C55 and C59: the exact position's neighbour has true geodetic coordinates, and the transform's own error is C42's |
| C66 | B | relative error of the rounded norm; the two ranges differ by a bounded multiple of the speed, so their difference keeps absolute accuracy; `rate_close`: the exact rate of range is Lipschitz in position and velocity; C61 (`turned_err`) for both vectors, C58/C63 and C55 for the state and the angle |
| C67 | B | the calculus of C62 on boxes for eccentricities up to 0.745 (`Proofs/High*.v`); Kepler's equation: contraction with factor 1/(1-e) (`AccKeplerHigh.v`); the error of the eccentric anomaly enters position and velocity through a Lipschitz bound (`HighLip.v`), the rest by the calculus; C28, C24, C08 for the text |
| C68 | B | C67 for the state, C55 for the angle, and the last steps of C61, C65 and C66, now stated for any error budget of the position and the velocity |
| C69 | B | C58, C63 and C67 behind one interface, composed with the parsers' theorems C33, C34 and C36; a record's name does not influence propagation (frame lemma of sgp4) |
| C70 | R, B | identities for Str3's short-period formulas: with x = k2/p^2, radius, radial and transverse speed are those of the ellipse times 1 + O(x) with explicit constants; C50 for exact states, C69's interface for binary64 states; `Spec/Energy.v` states vis-viva and angular momentum |
| C71 | B | C57, C62 and C67 for both libraries at one binary64 time: the elapsed minutes use no library function, the decoded epoch is the nearest double for both; the theory's answer is unique (Newton's stopping index; the state depends on the angle through sine and cosine only) |
| C72 | R, B | C40 (the vertical is the gradient of the ellipsoid) and C44 (range times sine of elevation is the vertical component): convexity of the ellipsoid above the horizon, a short step along the segment below it; binary64 from C61, C64 and C68 |
| C73 | G (given that casts give a u64), R, B | `Model/Machine.v` is the integer part of ext.rs and io.rs with checked machine integers and checked indices; equality with the model by induction along the month table and the lines |
| C74 | R, B | C42 (error of latitude), Lipschitz bound of the prime vertical radius, components along south, east and up in closed form; sight by C72; texts by C65 |

Nothing in the list is inexpressible; what the models do not carry (how accurate the platform's own libm is,
performance) is excluded from the statements.

## 4. Trusted base

* Coq 8.16.1's kernel (`coqc`, re-checked by `coqchk`). Some examples use `vm_compute`.
* The reading of the Rust source into `theories/Model`, which is manual (section 5), and the reading of the English
  properties into the theorem statements.
* Axioms, as listed by `Print Assumptions` (all from Coq's standard library):
  D = `ClassicalDedekindReals.sig_forall_dec`, N = `ClassicalDedekindReals.sig_not_dec`,
  E = `FunctionalExtensionality.functional_extensionality_dep`, C = `Classical_Prop.classic`.
  No axiom, parameter, admitted lemma or functor is added.

<!-- ASSUMPTIONS -->
| axioms | theorems |
|---|---|
| none | `C01_history_independence`, `C01_near_earth_record_too`, `C02_near_earth`, `C02_deep_space`, `C02_elements_preserved`, `C03_sgp4_flag`, `C03_sgp4init_flag`, `C03_flag_faithful`, `C04_error_conditions`, `C04_each_condition`, `C05_reinit`, `C05_unowned_fields`, `C05_idempotent`, `C06_selection`, `C07_ready`, `C08_is_sgp4`, `C08_repeatable`, `C09_subsecond_ignored`, `C11_state_formula`, `C18_resonance_discarded`, `C19_angles_discarded`, `C19_eccentricity_discarded`, `C20_identity`, `C20_elements_stored`, `C21_init_mode`, `C22_day_number_unique`, `C23_no_underflow`, `C24_year`, `C25_unused_columns_are_irrelevant`, `C25_fields_do_not_interfere`, `C25_byte_lengths`, `C26_checksum_and_satnum_never_read`, `C26_spoiled_sets_are_accepted`, `C27_truncated_lines_panic`, `C27_short_lines`, `C27_parse_multiple`, `C30_negative_second_derivative_is_rejected`, `C30_never_accepted`, `C31_first_faulty_field_is_reported`, `C31_float_errors_never_occur`, `C32_only_content_lines_matter`, `C32_blank_lines_can_be_inserted`, `C33_checks_come_first`, `C33_texts`, `C33_success_means_checked`, `C34_two_line_sets_have_no_name`, `C34_three_line_sets`, `C34_parse_multiple_trims`, `C34_trim_meaning`, `C34_marker_is_not_checked`, `C35_every_line_is_accounted_for`, `C36_catalogue`, `C36_entries_are_independent`, `C36_names_of_25_bytes_break`, `C37_single_set`, `C37_only_the_last_can_be_unnamed`, `C37_unnamed_catalogues_lose_records`, `C73_days`, `C73_two_lines`, `C73_catalogue` |
| C D E N | `C06_selection_exact`, `C08_elapsed_exact`, `C08_tle_elapsed_exact`, `C08_tle_elapsed_binary64`, `C10_never_below_surface`, `C10_decay_reported`, `C11_one_frame`, `C11_plane`, `C12_iteration`, `C12_iteration_binary64`, `C12_unique_solution`, `C12_residual`, `C12_converges`, `C12_converges_eccentric`, `C13_drag_at_epoch`, `C13_drag_at_epoch_propagated`, `C14_init_third_law`, `C14_recovered_mean_motion`, `C14_parsed_third_law`, `C14_propagated_third_law`, `C15_gstime`, `C15_unique`, `C15_datetime`, `C15_gsto`, `C15_binary64_range`, `C15_binary64_finite`, `C16_restartable_exact`, `C16_restartable_binary64`, `C17_steps_exact`, `C17_terminates_exact`, `C17_terminates_binary64`, `C17_hangs_binary64`, `C21_direct_elements`, `C21_direct`, `C21_lyddane`, `C22_jday_exact`, `C22_jday_drift`, `C22_midnight_binary64`, `C22_datetime_binary64`, `C23_date_exact`, `C23_date_binary64`, `C23_common_century_years`, `C24_epoch_exact`, `C24_epoch_of_record_exact`, `C24_epoch_binary64`, `C27_long_ascii_lines_never_panic`, `C27_parse`, `C27_parse_multiple_only`, `C28_exact_values`, `C28_nearest_doubles`, `C29_bstar`, `C29_nddot`, `C29_bstar_f64`, `C38_nan_in_nan_out`, `C38_nan_texts_never_give_numbers`, `C38_nan_accepted_and_propagated`, `C39_turn`, `C39_inverse`, `C39_isometry`, `C39_group`, `C39_faithful`, `C40_on_ellipsoid`, `C40_vertical`, `C40_surjective`, `C40_everywhere`, `C40_unique`, `C41_ranges`, `C41_terminates`, `C41_binary64_longitude`, `C41_binary64_termination`, `C42_longitude`, `C42_latitude_height_only_on_equator`, `C42_error_size`, `C42_every_position`, `C43_directions`, `C43_coordinates`, `C43_isometry`, `C44_look_angles`, `C44_unique`, `C45_guards`, `C45_round_trip`, `C46_inverse`, `C46_binary64`, `C47_formula`, `C47_bounds`, `C47_frame`, `C47_blind_to_sign`, `C47_binary64`, `C48_distance`, `C48_metric`, `C48_add_subtract`, `C48_binary64`, `C49_secular_coefficients`, `C49_near_earth_coefficients`, `C50_near_earth_state`, `C50_deep_space_state`, `C50_kepler_angle`, `C51_lagrange_equations`, `C51_epoch_phases`, `C52_classes`, `C52_one_day`, `C52_half_day`, `C53_near_earth`, `C53_deep_space`, `C53_flow`, `C54_near_earth`, `C54_deep_space`, `C54_text`, `C55_gstime`, `C55_gstime_datetime`, `C55_gsto`, `C56_rotation`, `C56_geodetic`, `C56_look_angles`, `C57_near_earth_accuracy`, `C57_rounded_elements`, `C57_always_returns`, `C58_text_to_binary64_state`, `C59_inverse_accuracy`, `C59_geodetic_coordinates`, `C60_drag_free_forever`, `C60_drag_ends`, `C60_deep_space_ends`, `C61_bearing`, `C61_text_to_bearing`, `C62_deep_space_accuracy`, `C62_rounded_elements`, `C62_always_returns`, `C63_text_to_deep_state`, `C64_text_to_deep_bearing`, `C65_subpoint`, `C65_text_to_subpoint`, `C65_text_to_deep_subpoint`, `C66_range`, `C66_doppler`, `C66_observed`, `C66_text_to_doppler`, `C66_text_to_deep_doppler`, `C67_eccentric_accuracy`, `C67_rounded_elements`, `C67_text_to_state`, `C68_text_to_observation`, `C69_file`, `C69_catalogue`, `C70_near_earth`, `C70_deep_space`, `C70_text`, `C70_drag_free_text`, `C71_decoding`, `C71_states`, `C72_above_horizon`, `C72_below_horizon`, `C72_text_near`, `C72_text_deep`, `C72_text_eccentric`, `C72_example`, `C73_casts`, `C73_example`, `C74_zenith`, `C74_text_near`, `C74_text_deep`, `C74_example` |
| D E N | `C43_basis`, `C51_potential_is_orbit_average`, `C52_inclination_functions`, `C70_speed` |
<!-- /ASSUMPTIONS -->

## 5. What is modelled and what is not

Every non-test function of the crate is modelled:

| source | model | simplifications |
|---|---|---|
| `src/constants.rs` | `Model/Constants.v` | decimal literals keep their decimal value and are rounded by the instance; derived constants are computed as written. |
| `src/lib.rs` (vectors) | `Model/Vec3.v` | |
| `src/ext.rs` | `Model/Ext.v` | `DateTime<Utc>` is a record of the calendar fields that are read; chrono itself is not modelled. Integer arithmetic is on `Z`; `Model/Machine.v` has it with checked u64 and indices, and C73 proves the two equal |
| `src/io.rs` | `Model/Io.v`, `Model/Str.v`, `Model/Satrec.v` | strings as above; `split`, `trim`, `parse` by their documentation |
| `src/propogation/gstime.rs`, `mod.rs` | `Model/Gstime.v`, `Model/Propagate.v` | |
| `src/propogation/initl.rs` | `Model/Initl.v` | |
| `src/propogation/sgp4init.rs` | `Model/Sgp4init.v` | split into named stages in source order |
| `src/propogation/sgp4.rs` | `Model/Sgp4.v` | split into named stages in source order; the Kepler loop has its source bound of 10 |
| `src/propogation/dscom.rs`, `dpper.rs`, `dsinit.rs`, `dspace.rs` | `Model/Dscom.v`, `Dpper.v`, `Dsinit.v`, `Dspace.v` | the resonance integration loop takes fuel |
| `src/transforms.rs` | `Model/Transforms.v` | the longitude loops take fuel |
| `src/doppler_factor.rs` | `Model/Doppler.v` | |

Not modelled: `src/main.rs` (prints a greeting), the `#[cfg(test)]` modules, derived `Debug`/`Clone`/`PartialEq`
implementations, chrono, allocation and stack limits, and the hardware (the B instance assumes each `f64`
operation is the correctly rounded IEEE operation, with no fused multiply-add and no extended precision, as
Rust specifies for x86-64 with SSE2 and aarch64).
