# Formal model of ghedt in Rocq (Coq 8.16.1)

## 1. What is modelled

The model follows `/repo/ghedt` function by function; every definition cites file and lines.

* **Exceptions** are values: `res A := Ok a | Err e`. Python's `ValueError`, `ZeroDivisionError`,
  `IndexError`, `KeyError`, `AssertionError`, `TypeError` are distinguished.
* **Loops** are structural recursion over the iterated range, or fuel. Where fuel is used, running
  out of it is its own exception (`OutOfFuel`), and a theorem proves it does not occur.
* **Numbers.** Numeric code is written once, over an operations-only class `Num F` (no laws), and
  instantiated at
  * `R` (exact real arithmetic): the theorems about geometry, loads and physics;
  * `Q` (exact, executable): examples and refutation witnesses by computation;
  * IEEE binary64 through the standard library's `SpecFloat` (executable, axiom-free): witnesses for what
    rounding does, and theorems for all doubles (C110-C118). `Float64.v` proves that its operations round correctly.
  Code that needs `log`, `sqrt`, `pi`, `cos` is modelled over `R` only.
* **Search values** (`search_routines.py`) are `Fin q | NegInf | NonFin` with `q` of any number type whose comparisons are those
  of real numbers (`Order.v`: class `Ordered`, `val : F -> R`; instances `R`, where `val` is the identity,
  `Q`, and the finite doubles `F64` of Binary64.v). The theorems hold for every such type. At `R` the search composes with the model of the heat exchanger, at `Q` it runs, at `F64`
  it is the search on doubles. In `F64` a result that overflows is read as zero; in the search only a number of boreholes times a height
  (the totals of `BisectionZD`) is such a result.
* **Oracles.** Thermal simulation (pygfunction, `interp1d` splines), `scipy.optimize.brentq`, and
  `cv2.pointPolygonTest` are universally quantified functions. Theorems hold for every behaviour of them
  (with the assumption on them, when there is one, visible in the theorem statement).
* **Whole heat exchanger.** `System.v` composes the parts without simulation oracle: `GHE.__init__`, `compute_g_functions`,
  `simulate`, `size` and the search's `initialize_ghe` and `calculate_excess` over one mutable object.
* **Whole program.** `Program.v` is the sequence of a user: `Design`, `find_design`, `compute_g_functions`, `size`, `oak_ridge_export`.
* **Scripts.** `Session.v` is a script with several designs, whose statements (find, compute g-functions, size, simulate) run in any order; designs
  may hold the same `Borehole` object, whose height every search and sizing assigns.
* **Files.** `Files.v` is a file system with the helpers that save and load designs; `pickle` and `json` are oracles.
* **Report.** `Printing.v` is the text of `print(ghe)`, line by line.
* **Figures.** `Figures.v` gives the lines, points and annotations of the figures, in the order drawn, with their labels and colours.
  Axes, limits, grids, ticks, sizes and the file format are left out; matplotlib is taken to draw what it is given and to refuse lists of different length.
* **Heat-exchanger scripts.** `ExchangerScripts.v` are the scripts in `examples/BHE` without their figures and without the comparison with GLHEPRO.
* **Library.** `Library.v` has the scripts in `examples/gFunctions`, where the user supplies the g-functions.
* **Mutable objects** (search object, GHE height, GFunction's cached table, borehole flow) are explicit
  state threaded through the functions.

* **Check against the repository's tests.** `ReferenceTests.v` runs the load analysis and the hybrid load in binary64 on the hourly loads of
  `tests/test_hyts.py` (`ReferenceLoads.v`); all monthly values and all entries of the hybrid load agree with those written in the test, bit for bit
  (the durations of the peaks, which need the equation solver, are taken from the test). This is a test of the model, not a claim.

## 2. What is not modelled

Plotting (except `MinorSymLogLocator` and what the figures of C138 contain), Excel reports, run-time measurements, `print`/warnings (except where which warning
is issued is part of the claim), the insides of pygfunction, scipy, cv2 and numpy, and `examples/` except what C122, C129, C130 and C134 say.
Floating-point rounding is covered only where a property says so (C16, C110-C118); other theorems are about exact arithmetic.

## 3. Trusted base

Coq's kernel; the reading of the Python source into Gallina; `Print Assumptions` output listed in section 5.
No axioms are added. Theorems over `R` rest on the standard library's axioms for the reals
(`ClassicalDedekindReals.sig_forall_dec`, `sig_not_dec`, `FunctionalExtensionality.functional_extensionality_dep`,
and `Classical_Prop.classic` where the reals library uses it); all others are closed.

## 4. Plan per property

Convention: a property that is true of the model is `proved`. A property that a user may rely on but that is false of
the code gets a `_refuted` theorem with a witness plus the strongest `_partial` theorem that holds, and is `partial`
in the manifest.

| ids | model file | how |
|---|---|---|
| C01-C06 | Coordinates | membership/length/`NoDup` characterisation by induction on ranges; C05 refuted (assertion always fails) |
| C07-C15, C17-C18 | Domains | loop invariants over the constructed lists; C08, C15, C17 refuted in general, conditional versions proved |
| C16 | Domains at binary64 (BinaryDomains) | witness by computation (refuted); loop invariant with error bounds for the spacing that is kept |
| C19-C20 | Features | filter characterisation for every point-in-polygon oracle |
| C21-C24 | Utilities | algebra over R / induction over polygons |
| C25-C35 | Search | invariants of the bisection loop over every oracle; C27, C29, C34, C35 have refutations |
| C36-C40, C46-C48 | Loads | list/slice lemmas, superposition argument |
| C41-C45 | Hybrid | per-month accounting, prefix sums, calendar induction |
| C49-C54, C69, C74, C75 | Ghe | superposition algebra, state machine for `size`; the simulation objective and root finder are oracles |
| C55-C60, C76 | GFun | state machine with cached table, R algebra; the interpolants (`interp1d`, `lagrange`) are an oracle `interp kind points height` |
| C61-C64, C77-C79 | Radial | M-matrix comparison principle by induction on cells and steps; the LAPACK solver is an oracle that solves diagonally dominant systems (`good_solver`, met by the elimination `thomas`); geometry `admissible` = positive sizes, pipes fitting the borehole |
| C65-C68, C80-C84 | Bhe, Equiv | state machines over R with the pygfunction routines (film coefficients, wall resistance, effective resistance) and `brentq` as oracles; where a theorem needs the wall formula it is `wall`, where it needs the root finder to answer correctly it assumes `settles tol` |
| C70-C71 | Design, Export | case analysis, list arithmetic |
| C85-C88 | Design (composes Domains and Search) | the domain theorems (C07-C15) applied to the candidate returned by the search theorems (C25-C33), for every construction, simulation and sizing oracle |
| C89-C94 | System (composes Ghe, GFun, Radial, Loads, Bhe, Equiv) | one `GHE` object as state (`ghe`), its construction by the search (`initialize_ghe`), `simulate` and `size`; the insides of a simulation are no oracle here: only `calculate_g_function`, `interp1d`/`lagrange`, the film, wall and effective resistance routines, `brentq` and the linear solver are. A root finder is a `dialogue`: it asks heights one after the other and ends with an answer or an error |
| C95-C100 | Program (composes Design, Search, System, Export) | the search with `calculate_excess` and `initialize_ghe` of System instead of an oracle, then `compute_g_functions`, `size` and `oak_ridge_export` on the heat exchanger it leaves; C85-C88 and C92-C94 applied to it. The concrete case beside the theorems is a plant with three candidate fields in which two boreholes are selected |
| C101-C104 | Radial, Loads, System (no new model) | concavity of the explicit temperatures of the implicit scheme by comparing heat flows between cells (RadialConcave); what the peak-duration table then gives for any load of one sign; conditions on hourly loads under which C94's hybrid condition holds, by comparing a load with the same amount of load put in the latest hours (C102_full_load_hours); the loads of the repository's tests meet them (Properties_Reference, computed on whole numbers). C94_hybrid_field_partial asks its condition only of the g-function the object computes itself. C104 is false (entries are one step ahead): refuted, with the exact relation as partial |
| C105 | Loads, System (no new model) | C102 twice on the same two days; the load objects made with two boreholes then agree in all tables the hybrid load is built from |
| C106 | Search, Design (no new model) | loop invariants of the outer and the inner search (SearchZoned.v): the outer search stops at a domain whose own search changes sign, so every later comparison has a sized field; refuted by a gap between two domains |
| C107 | Program, System (no new model) | after a search every routine leaves sizing the selected field (bi-zoned: sizing again, C98); C96 identifies the two excesses, C97_sizing_outcome the answer; C99_C107_example is a whole bi-zoned hybrid design |
| C108-C109 | Report | the table by computation on symbolic entries, its contents from C37; the ticks by induction on the major ticks |
| C110-C111 | Search and Utilities at `F64`, Num at binary64 (Float64, Binary64) | exact value of a double, correctness of SpecFloat's rounding (shift invariant, location of the exact value, nearest by cases), comparisons exact, hence `Ordered F64`; the search theorems instantiate |
| C112-C114 | Utilities, Coordinates, Domains at binary64 (BinaryGrid) | error bounds of each operation; counts by monotonicity of rounding; loop invariant of `rectangular`; witnesses by computation |
| C115-C116 | Domains and Design at binary64 (BinaryDomains, DesignProofs) | counts of rows grow because rounding is monotone; the search theorems with any ordered numbers (DesignProofs) applied to candidates of doubles |
| C117-C118 | zoned domains at binary64 (BinaryZoned) | the spacing of a side times its gaps, divided by the gaps, gives back the spacing, so that the comparison of the loop is exact where it must be; loop theorems of DomainsProofs with any numbers |
| C119-C121 | Session (scripts over several designs; boreholes as objects that designs may share) | induction over the script: what a statement leaves alone; a search forgets the height it starts with at its first evaluation (SessionProofs); the refutation in the plant of C95 |
| C122 | Scripts (geometric part of the example scripts, keyword arguments) | the domain theorems for the candidates; computation for the failures, for all numbers |
| C123 | System, Program (settings with all temperatures shifted, InvarianceSpec) | the shift is pushed through every function up to the whole program (InvarianceProofs) |
| C124 | System, Program, Loads (settings with negated loads and limits reflected at the ground temperature, InvarianceSpec) | the hybrid load sequence is odd and everything after it linear in the loads; exchange of rejection and extraction in every function of Loads (MirrorProofs) |
| C125 | Search, Design, System, Program (settings with other limits) | a search with smaller excesses (Properties_Limits) and C85, C86; the refutation in the plant of C95 |
| C126 | Search, Design, System, Program | evaluations by C94 and C103, exceptions of a search by C28, the routines as in C85-C87 (Properties_Outcome); the bi-zoned routine by what its successive search leaves behind, as in C106 (Properties_ZonedOutcome) |
| C127 | System, Program (two fields with the same response, PlaceSpec) | equality is pushed through construction, g-functions, simulation and sizing; the spacing of the first two boreholes cancels (PlaceProofs) |
| C128 | Domains, Design, System, Program (land with its sides exchanged, TurnSpec) | the candidates are turned (any arithmetic); a search commutes with turning its candidates (TurnProofs) and C127; the refutations by computation |
| C129 | Files (files and directories as maps, encoders as oracles) | computation; a suffix makes a name longer |
| C130 | Library (the two scripts in examples/gFunctions), GFun, System | sizing with any set of tables that all answer alike (LibraryProofs); which table the first request makes |
| C131 | Coordinates, Domains, Features, Utilities, Search, Design over the reals; heat exchangers and point-in-polygon tests as oracles for each unit | every function commutes with multiplying lengths by a positive factor (ScaleProofs); computed counterexamples at Q and binary64 |
| C132 | Printing: `GHE.__repr__` and the texts it is made of; texts of numbers, classes, pygfunction and pandas objects as oracles | reader functions (`lookup`, `chapter`) in the statement; structured entries and a lookup lemma; delivered exchangers from C97; the plant of C95-C97 for the refuted heading |
| C133 | Program, with the limits of the height replaced | the excess at a height does not depend on the limits; outcome and minimality of the one-domain search applied to both ranges |
| C134 | ExchangerScripts: the scripts of examples/BHE, with the numbers in them as arguments | printed values against `reynolds`, `film`, `disc` of EquivSpec.v through C66, C81 and C84; induction over the list of flows; the scripts' own radii for the refutations |
| C135 | Design.design for two sets of geometric constraints, any construction and any excess | the lists of C07 and C10 for a longer property or a smaller minimum spacing extend each other; the search on the extended list is C86/C87's least adequate field of both; Q designs for the refutations |
| C136 | Loads, System, Program, Search and Design for one set of settings and for the settings with proportional loads and limits | every function of the peak analysis, of the load sequence, of the simulation and of the sizing commutes with the multiplication (the 0.1 kW tolerance excepted, hence no_close_call); the search sees only signs, order and equality of excesses; C125 on the proportional settings for eased designs; the plant of C95-C97 and a year over Q for the refutations |
| C137 | GHE.simulate by the hourly method, System, Program, Search and Design for one set of settings and for the settings with a later end month | loads and times of the longer period begin with those of the shorter one, and step i of _simulate_detailed reads only the first i entries, so the list of temperatures is a prefix; maximum and minimum of a prefix; the search of C125 with another construction of the exchanger; the plant of C95-C97 over one and over two years as the example; the hybrid load sequence refuted by computation over Q |
| C138 | Figures.v: the functions that draw fields, areas, lists of fields, g-functions, hourly loads and a month's temperatures, as the list of what is drawn | fields, areas and files by induction on the list, file names read back as the index (`DecimalString`); g-functions per curve; loads by induction on the hours; the month's curves from `find_inv` and `perform_histories` (C40), as the months before it are not skipped; refutations by computation over Q |

## 5. Assumptions per theorem

Output of `Print Assumptions` (the commands are at the end of every `Properties_*.v`), grouped.

* `ClassicalDedekindReals.sig_forall_dec`, `ClassicalDedekindReals.sig_not_dec`, `Classical_Prop.classic`, `FunctionalExtensionality.functional_extensionality_dep`:
  C105_durations, C105_hybrid_load, C105_search, C107_after_the_search, C65_multiple, C65_coaxial, C65_others, C80_pipe_conductivity_partial, C80_resistive_wall_fails, C80_pipe_conductivity_refuted, C82_u_tube_partial, C82_u_tube_refuted, C82_coaxial_partial, C82_coaxial_refuted, C83_legs_partial, C83_legs_refuted, C84_reported_refuted, C58_radius_correction, C123_same_search, C123_same_design, C123_same_export, C124_same_search, C124_same_design, C124_same_export, C130_sizing, C130_one_curve, C130_short_library_fails, C130_late_library_answered, C130_file_script, C130_live_script, C130_more_curves_refuted, C125_excess, C125_rectangle_partial, C125_near_square_partial, C125_relaxed_limits_refuted, C126_field, C126_rectangle, C126_near_square, C126_bi_rectangle, C126_curve_too_short, C101_temperatures, C101_g_function, C104_one_step_ahead_partial, C104_recorded_times_refuted, C101_hours, C102_peak_duration, C102_full_load_hours, C102_isolated_peak, C103_durations, C103_hybrid_field, C127_same_evaluation, C127_same_exchanger, C128_rectangle, C128_bi_rectangle, C132_report, C132_report_of_delivered, C132_results_heading_refuted, C95_rectangle_program, C95_bi_rectangle_program, C95_near_square_program_partial, C95_bi_zoned_program_partial, C95_rectangle_fewest, C96_search_and_sizing_agree, C97_delivered_exchanger, C97_delivered_compliance, C97_sizing_outcome, C97_oversized, C98_sizing_again, C99_bi_zoned_delivered, C99_bi_zoned_drilling_partial, C100_export_of_delivered, C100_export_succeeds, C61_grid_complete, C61_contiguous_partial, C61_gap_and_overlap, C61_contiguous_refuted, C62_step, C62_energy, C62_grid, C63_temperatures, C63_g_function, C64_two_days_covered, C64_wall_option, C78_response_suits_peak_analysis, C78_peak_durations_exist, C77_fluid_capacity, C77_fluid_capacity_refuted, C79_layers_partial, C79_layers_refuted, C119_separate_boreholes, C119_later_designs, C119_shared_borehole_overwritten, C121_sizing_anew, C121_restored, C120_height_of_the_borehole, C120_find_again, C119_shared_borehole_refuted, C89_g_function_range, C90_simulation_range, C90_low_height_refuted, C92_sizing_without_history, C92_results_of_final_height, C94_simulation, C93_excess_is_compliance, C94_construction, C94_hourly_field, C94_hybrid_field_partial, C126_bi_zoned, C134_convective_refuted, C134_coaxial_reynolds_refuted, C134_double_to_single, C134_coaxial_to_single, C133_excess, C133_rectangle, C133_near_square, C135_program, C136_excess, C136_same_search, C136_same_design, C136_eased_rectangle_partial, C136_eased_near_square_partial, C136_eased_refuted, C137_temperatures, C137_excess, C137_keeps, C137_rectangle_partial, C137_near_square_partial
* `ClassicalDedekindReals.sig_forall_dec`, `FunctionalExtensionality.functional_extensionality_dep`:
  C01_rectangle_is_grid, C01_rectangle_no_duplicates, C03_open_rectangle_is_perimeter, C04_L_shape, C04_lopsided_U, C04_C_shape, C04_C_shape_duplicate_refuted, C05_U_shape_degenerate_partial, C85_rectangle_fewest, C85_rectangle_outcome, C85_rectangle_no_candidate_fails, C86_near_square_fewest, C87_bi_rectangle_succeeds, C87_bi_rectangle_no_candidate_fails, C88_bi_zoned_small_land_fails, C07_square_domain, C08_near_square_fits_partial, C09_rectangular_contents, C10_rectangular_grows, C10_rectangular_total, C72_densest_grid_partial, C11_bi_rectangle_contents, C11_bi_rectangular_contents, C12_bi_rectangle_grows, C12_bi_rectangle_largest_grow, C13_zoned_domain_error, C14_bi_zoned_errors, C18_verify_excess, C19_cutout_exact, C19_cutout_errors, C19_polygonal_land_allowed, C67_flows, C71_export_in_order, C111_operations, C111_exact_operations, C111_relative_error, C110_comparisons, C110_selected_field_meets_limits, C110_smallest_adequate_field, C112_round_down_partial, C112_round_up_partial, C112_round_trip_partial, C112_round_down_refuted, C112_round_up_refuted, C113_row_fills_length_partial, C113_row_fills_length_refuted, C114_within_land_refuted, C118_bi_zoned_land_refuted, C55_history_independent_partial, C56_stored_height_partial, C56_any_height_answered, C57_interpolation, C57_unknown_kind, C59_coordinates_scaled, C59_zero_spacing, C60_database_partial, C76_sizing_heights_are_covered, C49_cost_is_compliance, C50_superposition, C50_short_time_list, C50_linear, C50_zero_loads, C50_causal, C51_hourly_simulation_partial, C51_part_of_year_fails, C51_part_of_year_refuted, C52_combined_times_partial, C69_solve_root, C69_defaults_and_range, C53_height_within_limits, C53_results_of_final_height, C53_results_never_lost, C53_final_height_partial, C53_g_function_heights, C54_flow, C74_hybrid_simulation_partial, C75_simulation_extremes, C130_curve_used, C130_stored_curve, C36_heating_cooling_split, C37_monthly_analysis, C37_of_loads, C37_wrong_length, C38_peak_day_partial, C39_two_day_window, C73_window_days_partial, C40_one_month_partial, C40_all_months_partial, C41_monthly_energy_partial, C42_time_grid_partial, C44_step_loads, C45_peaks_kept_partial, C46_representation_partial, C47_doubling_profile_partial, C47_doubling_profile_refuted, C48_histories_partial, C132_rounding, C108_year, C109_ticks, C109_increasing_partial, C109_decades, C109_increasing_refuted, C131_fields, C131_candidates, C131_polygonal_candidates, C131_design, C131_bi_zoned_design_partial, C122_near_square_script_partial, C122_land_scripts_partial, C25_selected_field_meets_limits, C26_smallest_adequate_field, C26_returned_field_is_smallest, C26_best_of_evaluated, C27_ties_partial, C28_never_none, C28_no_index_error, C28_value_error_iff_not_bracketed, C28_every_error_explained, C29_zero_excess_partial, C30_logarithmic_effort, C31_nested_search_succeeds, C31_nested_search_is_two_searches, C32_single_field_suffices, C33_least_drilling_visited, C34_keeps_going_partial, C35_reports_sized_field_partial, C90_advancing_times, C90_equal_times, C90_hourly_times, C91_hours_advance_partial, C21_count_of_length, C21_spacing_of_length, C21_round_up, C21_round_down, C21_total, C21_zero_division, C22_area_is_shoelace, C22_area_nonneg, C22_area_translation, C22_area_reversal, C22_area_rotation, C22_area_rectangle, C24_sign, C24_bracket_of_signs, C24_mpe, C106_successive_search_succeeds, C135_near_square, C135_minimum_spacing, C135_rectangle_partial, C136_search, C138_g_functions, C138_loads_always_fails, C138_loads_swapped, C138_months_partial, C138_months_answered
* **Closed under the global context**:
  C01_rectangle_assertion, C02_transpose_swaps, C02_transpose_involution, C03_small_is_rectangle, C05_U_shape_always_fails, C05_U_shape_refuted, C70_missing_input, C70_dispatch, C70_unknown_routine_refuted, C70_unknown_routine_always_fails, C70_before_search, C70_candidates_suit, C86_near_square_land_refuted, C87_bi_rectangle_fewest_refuted, C87_binary64_spacing_refuted, C88_bi_zoned_land_refuted, C88_bi_zoned_spacing_refuted, C07_square_errors, C08_near_square_fits_refuted, C72_densest_grid_refuted, C15_bi_zoned_land_refuted, C15_bi_zoned_spacing_refuted, C16_binary64_spacing_refuted, C17_reorder_sorted, C17_reorder_permutation_partial, C17_reorder_permutation_refuted, C17_reorder_keeps_first, C19_no_empty_candidate_refuted, C71_export_partial, C71_short_table_fails, C71_export_refuted, C71_report_partial, C71_report_short_table_fails, C129_round_trip, C129_bare_name, C129_same_name_refuted, C129_last_save_wins, C129_failed_save_refuted, C129_from_file, C129_create_if_not, C110_sign, C112_round_trip_refuted, C55_history_refuted, C55_kind_kept_refuted, C56_rejected_refuted, C57_just_below_refuted, C60_order_refuted, C60_depth_refuted, C60_empty_database, C51_start_month_refuted, C52_touching_refuted, C52_repeated_time_refuted, C53_minimum_height_refuted, C53_exact_fit_refuted, C74_late_start_refuted, C75_unknown_method, C37_months_partition_the_year, C38_peak_day_refuted, C73_day_before_and_day_of_refuted, C40_interpolation_refuted, C41_monthly_energy_refuted, C42_time_grid_refuted, C43_calendar, C45_peaks_kept_refuted, C46_synthetic_month, C46_representation_refuted, C47_unknown_unit, C48_histories_refuted, C128_bi_zoned_refuted, C128_square_land_refuted, C132_layout, C108_month_names, C108_table, C131_bi_zoned_design_refuted, C131_doubles_refuted, C122_keywords, C122_input_file_scripts_always_fail, C122_ornl_script_always_fails, C122_scripts_refuted, C122_bi_zoned_script_refuted, C31_outer_domain, C25_adequate_at_maximum_height_refuted, C27_ties_refuted, C29_zero_excess_refuted, C34_keeps_going_refuted, C35_reports_sized_field_refuted, C91_full_day_refuted, C24_check_bracket, C106_bi_zoned_succeeds_refuted, C135_rectangle_land_refuted, C135_maximum_spacing_refuted, C136_close_call_refuted, C138_field, C138_area, C138_area_empty_zone, C138_domain, C138_domain_stops, C138_labels_refuted, C138_fluid_labels_refuted, C138_months_refuted, C137_hybrid_loads_refuted
* `ClassicalDedekindReals.sig_forall_dec`, `ClassicalDedekindReals.sig_not_dec`, `FunctionalExtensionality.functional_extensionality_dep`:
  C01_rectangle_default_origin, C06_zoned_rectangle_outcome, C06_zoned_rectangle_geometry, C85_rectangle_design, C86_near_square_design_partial, C87_bi_rectangle_design, C87_bi_rectangle_fewest_partial, C88_bi_zoned_design_partial, C09_rectangular_land_and_spacing, C11_bi_rectangle_land_and_spacing, C13_zoned_domain, C13_zoned_steps, C14_bi_zoned_staircase, C14_bi_zoned_domains_grow, C15_bi_zoned_land_partial, C15_bi_zoned_deep_land_partial, C68_positions, C68_none, C68_overlap, C68_one, C68_two, C68_no_overlap_refuted, C67_parallel_partial, C67_parallel_refuted, C66_constructed, C66_coaxial_constructed, C66_coaxial, C66_u_tube_partial, C66_u_tube_refuted, C81_grout, C81_initial_grout, C84_formulas, C84_reported_partial, C113_rectangle, C114_rectangular, C16_binary64_spacing_partial, C115_rectangular_grows, C116_rectangle_design, C116_rectangle_fewest, C116_bi_rectangle_design_partial, C116_near_square_design_partial, C117_zoned_domain, C117_zoned_steps, C117_zoned_land, C118_bi_zoned_candidates, C118_bi_zoned_grows, C118_bi_zoned_land_partial, C118_bi_zoned_deep_land_partial, C116_bi_zoned_design_partial, C116_bi_zoned_succeeds_partial, C131_helpers, C67_exchanger_of_a_design, C23_borehole_spacing, C106_bi_zoned_succeeds_partial, C134_single, C134_double, C134_convective_partial, C134_coaxial, C134_coaxial_reynolds_partial, C134_curves, C134_coaxial_curve, C134_order
* `ClassicalDedekindReals.sig_forall_dec`, `Classical_Prop.classic`, `FunctionalExtensionality.functional_extensionality_dep`:
  C19_polygonal_land_candidates, C20_largest_rectangle, C20_smallest_containing
* `FunctionalExtensionality.functional_extensionality_dep`:
  C128_rectangle_candidates, C128_bi_rectangle_candidates
* `ClassicalDedekindReals.sig_forall_dec`:
  C24_sign_zero

## 6. Wrong programs

`seeded/LOG.jsonl` has 421 edits of the model, each rebuilt outside this directory with failing proofs replaced one by one.
`claim_broken` begins with the claims an edit was run against, often a whole family; it is not the list of claims the edit makes false.

* In 14 of them (`outcome`: inconclusive) nothing was learnt: a file did not build outside its proofs, because the edit is ill-typed, because a lemma
  of a section lost an argument with its proof, or because a compiled file was out of date. They are neither caught nor survived.
* In 20 more some files did not build (`files_not_built`), but theorems of other files failed.
* In 4 (two of the film in Radial, two of the radius correction in Export) none of the claims run against failed, only theorems of other claims.
* 7 edits made no theorem fail; `theorems_tightened` names the theorem added or tightened for each. One of the 7 makes no claim false.
