{
 "claims": [
  {
   "property": "C01",
   "status": "proved",
   "theorems": [
    "C01_rectangle_is_grid",
    "C01_rectangle_no_duplicates",
    "C01_rectangle_assertion",
    "C01_rectangle_default_origin"
   ],
   "note": "Exact contents, order, count, distinctness and separation of the grid, and exactly when the length assertion fires."
  },
  {
   "property": "C02",
   "status": "proved",
   "theorems": [
    "C02_transpose_swaps",
    "C02_transpose_involution"
   ],
   "note": "For every coordinate list."
  },
  {
   "property": "C03",
   "status": "proved",
   "theorems": [
    "C03_open_rectangle_is_perimeter",
    "C03_small_is_rectangle"
   ],
   "note": "Exact contents, count and distinctness; small sizes fall back to the full rectangle."
  },
  {
   "property": "C04",
   "status": "proved",
   "theorems": [
    "C04_L_shape",
    "C04_lopsided_U",
    "C04_C_shape",
    "C04_C_shape_duplicate_refuted"
   ],
   "note": "L, lopsided U and C shapes. The C shape is duplicate free for Nx2 <= Nx1-2 only; C04_C_shape_duplicate_refuted shows why the bound is needed."
  },
  {
   "property": "C05",
   "status": "partial",
   "theorems": [
    "C05_U_shape_always_fails",
    "C05_U_shape_refuted",
    "C05_U_shape_degenerate_partial"
   ],
   "note": "False of the code: the right leg is never appended, so the assertion always fires. The fallback for small sizes is proved."
  },
  {
   "property": "C06",
   "status": "proved",
   "theorems": [
    "C06_zoned_rectangle_outcome",
    "C06_zoned_rectangle_geometry"
   ],
   "note": "Exact contents, count, separation and containment; ValueError exactly when too many interior boreholes."
  },
  {
   "property": "C07",
   "status": "proved",
   "theorems": [
    "C07_square_domain",
    "C07_square_errors"
   ],
   "note": "Exact list of fields, exact sizes, exact error condition."
  },
  {
   "property": "C08",
   "status": "partial",
   "theorems": [
    "C08_near_square_fits_refuted",
    "C08_near_square_fits_partial"
   ],
   "note": "False of the code: design.py passes the count along the length as upper bound and the n x (n+1) candidate is one spacing too deep. The partial theorem bounds the excess and shows that exactly the last candidate is affected."
  },
  {
   "property": "C09",
   "status": "proved",
   "theorems": [
    "C09_rectangular_contents",
    "C09_rectangular_land_and_spacing"
   ],
   "note": "Exact contents of the domain and the land and spacing guarantees, over the reals."
  },
  {
   "property": "C10",
   "status": "proved",
   "theorems": [
    "C10_rectangular_grows",
    "C10_rectangular_total"
   ],
   "note": "For all positive land sizes and spacings; the function never raises there."
  },
  {
   "property": "C11",
   "status": "proved",
   "theorems": [
    "C11_bi_rectangle_contents",
    "C11_bi_rectangular_contents",
    "C11_bi_rectangle_land_and_spacing"
   ],
   "note": "Exact contents of every domain and the guarantees, over the reals. See C16 for machine arithmetic."
  },
  {
   "property": "C12",
   "status": "proved",
   "theorems": [
    "C12_bi_rectangle_grows",
    "C12_bi_rectangle_largest_grow"
   ],
   "note": "Growth inside each domain and of the largest fields from domain to domain."
  },
  {
   "property": "C13",
   "status": "proved",
   "theorems": [
    "C13_zoned_domain",
    "C13_zoned_steps",
    "C13_zoned_domain_error"
   ],
   "note": "Length, growth, first and last sizes, the exact rule of the steps, and ValueError with two rows or columns."
  },
  {
   "property": "C14",
   "status": "proved",
   "theorems": [
    "C14_bi_zoned_staircase",
    "C14_bi_zoned_errors",
    "C14_bi_zoned_domains_grow"
   ],
   "note": "Exact staircase for non-empty ranges with at least three rows and columns; the outcome of every other case (ValueError, IndexError, empty) is proved as well."
  },
  {
   "property": "C15",
   "status": "partial",
   "theorems": [
    "C15_bi_zoned_land_partial",
    "C15_bi_zoned_deep_land_partial",
    "C15_bi_zoned_land_refuted",
    "C15_bi_zoned_spacing_refuted"
   ],
   "note": "True when the land is at least as wide as deep. False otherwise: the first zoned field is not transposed and the prefix mixes the sides up; the second partial theorem says what is left."
  },
  {
   "property": "C16",
   "status": "partial",
   "theorems": [
    "C16_binary64_spacing_refuted",
    "C16_binary64_spacing_partial"
   ],
   "note": "False: a binary64 witness with rows 3.675 m apart under a 4 m minimum. Proved for all ordinary doubles: the candidates are always produced and the i-th domain (from 0) keeps 1 - 1/(i+2) of the minimum spacing up to rounding."
  },
  {
   "property": "C17",
   "status": "partial",
   "theorems": [
    "C17_reorder_sorted",
    "C17_reorder_permutation_partial",
    "C17_reorder_permutation_refuted",
    "C17_reorder_keeps_first"
   ],
   "note": "Sorted and size preserving always; a permutation when sizes are distinct; refuted for equal sizes."
  },
  {
   "property": "C18",
   "status": "proved",
   "theorems": [
    "C18_verify_excess"
   ],
   "note": "For all real sequences."
  },
  {
   "property": "C19",
   "status": "partial",
   "theorems": [
    "C19_cutout_exact",
    "C19_cutout_errors",
    "C19_polygonal_land_allowed",
    "C19_polygonal_land_candidates",
    "C19_no_empty_candidate_refuted"
   ],
   "note": "Cut-outs proved exactly for every point-in-polygon oracle, including the domains of polygonal_land_constraint. That no candidate is empty is false (second cut-out is not followed by the emptiness test)."
  },
  {
   "property": "C20",
   "status": "proved",
   "theorems": [
    "C20_largest_rectangle",
    "C20_smallest_containing"
   ],
   "note": "For all boundaries; minimality in the first quadrant."
  },
  {
   "property": "C21",
   "status": "proved",
   "theorems": [
    "C21_count_of_length",
    "C21_spacing_of_length",
    "C21_round_up",
    "C21_round_down",
    "C21_total",
    "C21_zero_division"
   ],
   "note": "Over the reals; C21_binary64 shows the rounding effect on a machine-number input."
  },
  {
   "property": "C22",
   "status": "proved",
   "theorems": [
    "C22_area_is_shoelace",
    "C22_area_nonneg",
    "C22_area_translation",
    "C22_area_reversal",
    "C22_area_rotation",
    "C22_area_rectangle"
   ],
   "note": "Shoelace formula and its invariances over the reals."
  },
  {
   "property": "C23",
   "status": "proved",
   "theorems": [
    "C23_borehole_spacing"
   ],
   "note": "All list lengths. The empty field raises IndexError because coordinates[0] is read first."
  },
  {
   "property": "C24",
   "status": "proved",
   "theorems": [
    "C24_sign",
    "C24_sign_zero",
    "C24_check_bracket",
    "C24_bracket_of_signs",
    "C24_mpe"
   ],
   "note": "Exact specification of sign, check_bracket and compute_mpe."
  },
  {
   "property": "C25",
   "status": "partial",
   "theorems": [
    "C25_selected_field_meets_limits",
    "C25_adequate_at_maximum_height_refuted"
   ],
   "note": "The returned field is feasible whenever the search succeeds. It is feasible at its maximum height only under the stated behaviour of the excess; refuted otherwise."
  },
  {
   "property": "C26",
   "status": "proved",
   "theorems": [
    "C26_smallest_adequate_field",
    "C26_returned_field_is_smallest",
    "C26_best_of_evaluated"
   ],
   "note": "For every domain whose excess falls with index."
  },
  {
   "property": "C27",
   "status": "partial",
   "theorems": [
    "C27_ties_partial",
    "C27_ties_refuted"
   ],
   "note": "Equal excess values: the dictionary keyed by value loses a field; refuted in general, proved for distinct values."
  },
  {
   "property": "C28",
   "status": "proved",
   "theorems": [
    "C28_never_none",
    "C28_no_index_error",
    "C28_value_error_iff_not_bracketed",
    "C28_every_error_explained"
   ],
   "note": "Every outcome of the one-dimensional search, for every oracle."
  },
  {
   "property": "C29",
   "status": "partial",
   "theorems": [
    "C29_zero_excess_partial",
    "C29_zero_excess_refuted"
   ],
   "note": "An excess of exactly zero makes the search divide by zero (sign); C29_zero_excess_partial says this is the only way that error arises."
  },
  {
   "property": "C30",
   "status": "proved",
   "theorems": [
    "C30_logarithmic_effort"
   ],
   "note": "Bound on the number of evaluations."
  },
  {
   "property": "C31",
   "status": "proved",
   "theorems": [
    "C31_nested_search_succeeds",
    "C31_nested_search_is_two_searches",
    "C31_outer_domain"
   ],
   "note": "The two-level search, for every list of domains."
  },
  {
   "property": "C32",
   "status": "proved",
   "theorems": [
    "C32_single_field_suffices"
   ],
   "note": "Domain of one field."
  },
  {
   "property": "C33",
   "status": "proved",
   "theorems": [
    "C33_least_drilling_visited"
   ],
   "note": "The successive search returns the least total drilling among the fields it visited."
  },
  {
   "property": "C34",
   "status": "partial",
   "theorems": [
    "C34_keeps_going_partial",
    "C34_keeps_going_refuted"
   ],
   "note": "Continues while totals stay at or below the initial sentinel of 99999 m; refuted when the first total exceeds it."
  },
  {
   "property": "C35",
   "status": "partial",
   "theorems": [
    "C35_reports_sized_field_partial",
    "C35_reports_sized_field_refuted"
   ],
   "note": "Proved when no two evaluated fields of an inner domain have the same excess; refuted on ties, where the field is looked up by value."
  },
  {
   "property": "C36",
   "status": "proved",
   "theorems": [
    "C36_heating_cooling_split"
   ],
   "note": "Both units, all profiles; unknown unit raises ValueError."
  },
  {
   "property": "C37",
   "status": "proved",
   "theorems": [
    "C37_monthly_analysis",
    "C37_of_loads",
    "C37_months_partition_the_year",
    "C37_wrong_length"
   ],
   "note": "Totals, maxima and averages of the civil months, for every year, and the year total."
  },
  {
   "property": "C38",
   "status": "partial",
   "theorems": [
    "C38_peak_day_partial",
    "C38_peak_day_refuted"
   ],
   "note": "False when the peak is the first hour of a day: the recorded day is the day before (day 0 for the first hour of a month). Right otherwise."
  },
  {
   "property": "C39",
   "status": "proved",
   "theorems": [
    "C39_two_day_window"
   ],
   "note": "Every window is 48 consecutive cyclic hours, begins at midnight and contains the month peak."
  },
  {
   "property": "C40",
   "status": "partial",
   "theorems": [
    "C40_one_month_partial",
    "C40_all_months_partial",
    "C40_interpolation_refuted"
   ],
   "note": "Proved for non-negative loads and every non-decreasing response, with the exact duration, unless the window exceeds the month peak by less than 0.1 (tolerance branch); there the interpolation can fail (refuted)."
  },
  {
   "property": "C41",
   "status": "partial",
   "theorems": [
    "C41_monthly_energy_partial",
    "C41_monthly_energy_refuted"
   ],
   "note": "False when both peaks fall on the same day; the exact energy of every month is proved in all cases."
  },
  {
   "property": "C42",
   "status": "partial",
   "theorems": [
    "C42_time_grid_partial",
    "C42_time_grid_refuted"
   ],
   "note": "Month ends always right. Hours never decrease if kept peaks last at most 22 h and are on a day of the month; refuted for a peak in a month-first hour."
  },
  {
   "property": "C43",
   "status": "proved",
   "theorems": [
    "C43_calendar"
   ],
   "note": "All month numbers."
  },
  {
   "property": "C44",
   "status": "proved",
   "theorems": [
    "C44_step_loads"
   ],
   "note": "All load objects and horizons."
  },
  {
   "property": "C45",
   "status": "partial",
   "theorems": [
    "C45_peaks_kept_partial",
    "C45_peaks_kept_refuted"
   ],
   "note": "Exact contents of every month block; peaks on equal days are dropped (refuted)."
  },
  {
   "property": "C46",
   "status": "partial",
   "theorems": [
    "C46_synthetic_month",
    "C46_representation_partial",
    "C46_representation_refuted"
   ],
   "note": "Exact when the windows stay inside their months; refuted for 31 December, where the list grows. The representation puts the peak on the day after the recorded day."
  },
  {
   "property": "C47",
   "status": "partial",
   "theorems": [
    "C47_doubling_profile_partial",
    "C47_unknown_unit",
    "C47_doubling_profile_refuted"
   ],
   "note": "Extraction right in both units, rejection only in kW: its base load is not scaled in W (refuted)."
  },
  {
   "property": "C48",
   "status": "partial",
   "theorems": [
    "C48_histories_partial",
    "C48_histories_refuted"
   ],
   "note": "Right when every month has a positive peak; a load-free month shifts the tables (refuted)."
  },
  {
   "property": "C49",
   "status": "proved",
   "theorems": [
    "C49_cost_is_compliance"
   ],
   "note": "All temperatures and limits."
  },
  {
   "property": "C50",
   "status": "proved",
   "theorems": [
    "C50_superposition",
    "C50_short_time_list",
    "C50_linear",
    "C50_zero_loads",
    "C50_causal"
   ],
   "note": "Step response at every step is the superposition sum, for every g-function; linear and causal."
  },
  {
   "property": "C51",
   "status": "partial",
   "theorems": [
    "C51_hourly_simulation_partial",
    "C51_part_of_year_fails",
    "C51_part_of_year_refuted",
    "C51_start_month_refuted"
   ],
   "note": "Right for whole years beginning in January; any other number of months fails with IndexError (proved for all), and the start month is ignored."
  },
  {
   "property": "C52",
   "status": "partial",
   "theorems": [
    "C52_combined_times_partial",
    "C52_touching_refuted",
    "C52_repeated_time_refuted"
   ],
   "note": "Right for increasing inputs whose last short time differs from the first long time; refuted when they touch or when a time is repeated."
  },
  {
   "property": "C53",
   "status": "partial",
   "theorems": [
    "C53_height_within_limits",
    "C53_results_of_final_height",
    "C53_results_never_lost",
    "C53_final_height_partial",
    "C53_minimum_height_refuted",
    "C53_exact_fit_refuted",
    "C53_g_function_heights"
   ],
   "note": "Height always within limits and result belongs to the final height. That the minimum height remains when it suffices is false: the loads evaluated last are those of the upper end (exact statement proved)."
  },
  {
   "property": "C54",
   "status": "proved",
   "theorems": [
    "C54_flow"
   ],
   "note": "Both conventions and the rejection of others."
  },
  {
   "property": "C55",
   "status": "partial",
   "theorems": [
    "C55_history_independent_partial",
    "C55_history_refuted",
    "C55_kind_kept_refuted"
   ],
   "note": "True for requests of one kind between the stored heights (any number of them); refuted for a request outside and for a change of kind."
  },
  {
   "property": "C56",
   "status": "partial",
   "theorems": [
    "C56_stored_height_partial",
    "C56_any_height_answered",
    "C56_rejected_refuted"
   ],
   "note": "A request at the stored height is answered; every other is answered too (proved for all), so the rejection claimed is false."
  },
  {
   "property": "C57",
   "status": "partial",
   "theorems": [
    "C57_interpolation",
    "C57_unknown_kind",
    "C57_just_below_refuted"
   ],
   "note": "Kind table, clamping, extrapolation and errors of a fresh object. Refuted: a height up to 1 mm below the lowest curve fails although lower heights are extrapolated."
  },
  {
   "property": "C58",
   "status": "proved",
   "theorems": [
    "C58_radius_correction"
   ],
   "note": "All positive radii."
  },
  {
   "property": "C59",
   "status": "proved",
   "theorems": [
    "C59_coordinates_scaled",
    "C59_zero_spacing"
   ],
   "note": "All fields and spacings, zero spacing raises ZeroDivisionError."
  },
  {
   "property": "C60",
   "status": "partial",
   "theorems": [
    "C60_database_partial",
    "C60_order_refuted",
    "C60_depth_refuted",
    "C60_empty_database"
   ],
   "note": "Contents proved for all data; order holds up to the integer part of the heights (refuted within one metre); one entry without depth resets all depths (refuted)."
  },
  {
   "property": "C61",
   "status": "partial",
   "theorems": [
    "C61_grid_complete",
    "C61_contiguous_partial",
    "C61_gap_and_overlap",
    "C61_contiguous_refuted"
   ],
   "note": "All cells are filled, positive and typed, and contiguous except at two places: a gap before the convection cell and the pipe cells reaching into the grout (exact sizes proved, refuted in general)."
  },
  {
   "property": "C62",
   "status": "proved",
   "theorems": [
    "C62_step",
    "C62_energy",
    "C62_grid"
   ],
   "note": "Every grid of positive cells and every solver that solves diagonally dominant systems; uniqueness and the energy total."
  },
  {
   "property": "C63",
   "status": "proved",
   "theorems": [
    "C63_temperatures",
    "C63_g_function"
   ],
   "note": "Every number of steps; the recorded g-function is the same for every correct solver."
  },
  {
   "property": "C64",
   "status": "proved",
   "theorems": [
    "C64_two_days_covered",
    "C64_wall_option"
   ],
   "note": "All geometries; the borehole-wall option always fails."
  },
  {
   "property": "C65",
   "status": "proved",
   "theorems": [
    "C65_multiple",
    "C65_coaxial",
    "C65_others"
   ],
   "note": "Both kinds of original, every oracle: areas, fit, disjointness, and that the result is a consistently constructed single U-tube."
  },
  {
   "property": "C66",
   "status": "partial",
   "theorems": [
    "C66_constructed",
    "C66_coaxial_constructed",
    "C66_coaxial",
    "C66_u_tube_partial",
    "C66_u_tube_refuted"
   ],
   "note": "True for coaxial pipes, for every history of updates. False for U-tubes: resistances keep the flow of construction (proved for every history)."
  },
  {
   "property": "C67",
   "status": "partial",
   "theorems": [
    "C67_flows",
    "C67_parallel_partial",
    "C67_parallel_refuted",
    "C67_exchanger_of_a_design"
   ],
   "note": "True for two U-tubes only; three or more parallel U-tubes get half the borehole flow each (refuted)."
  },
  {
   "property": "C68",
   "status": "partial",
   "theorems": [
    "C68_positions",
    "C68_none",
    "C68_overlap",
    "C68_one",
    "C68_two",
    "C68_no_overlap_refuted"
   ],
   "note": "Positions proved for all counts, overlap characterised exactly; overlapping pipes are produced for small spacings of two or more U-tubes (refuted)."
  },
  {
   "property": "C69",
   "status": "proved",
   "theorems": [
    "C69_solve_root",
    "C69_defaults_and_range"
   ],
   "note": "All objectives and bounds, every root finder."
  },
  {
   "property": "C70",
   "status": "partial",
   "theorems": [
    "C70_missing_input",
    "C70_dispatch",
    "C70_unknown_routine_refuted",
    "C70_unknown_routine_always_fails",
    "C70_before_search",
    "C70_candidates_suit"
   ],
   "note": "Missing inputs and dispatch proved; an unknown routine with missing constraints raises AssertionError, not ValueError (refuted)."
  },
  {
   "property": "C71",
   "status": "partial",
   "theorems": [
    "C71_export_partial",
    "C71_export_in_order",
    "C71_short_table_fails",
    "C71_export_refuted",
    "C71_report_partial",
    "C71_report_short_table_fails"
   ],
   "note": "All table lengths: exact sample for at least 57 points (77 in the report), ValueError for 27 to 56 (refuted there)."
  },
  {
   "property": "C72",
   "status": "partial",
   "theorems": [
    "C72_densest_grid_refuted",
    "C72_densest_grid_partial"
   ],
   "note": "False of the code: a grid is skipped unless it has more rows than its predecessor, so narrow strips stop at N_min - 1 boreholes. Proved when the densest grid adds a row."
  },
  {
   "property": "C73",
   "status": "partial",
   "theorems": [
    "C73_day_before_and_day_of_refuted",
    "C73_window_days_partial"
   ],
   "note": "False: the window begins on the recorded day, which is the day of the peak (or the day before for a midnight peak); it is the day of the peak and the day after."
  },
  {
   "property": "C74",
   "status": "partial",
   "theorems": [
    "C74_hybrid_simulation_partial",
    "C74_late_start_refuted"
   ],
   "note": "Exact for horizons beginning in January; refuted for a later start."
  },
  {
   "property": "C75",
   "status": "proved",
   "theorems": [
    "C75_simulation_extremes",
    "C75_unknown_method"
   ],
   "note": "All load sequences and methods."
  },
  {
   "property": "C76",
   "status": "proved",
   "theorems": [
    "C76_sizing_heights_are_covered"
   ],
   "note": "All limits and heights; the field response is an oracle that returns one value per time."
  },
  {
   "property": "C77",
   "status": "partial",
   "theorems": [
    "C77_fluid_capacity",
    "C77_fluid_capacity_refuted"
   ],
   "note": "False: the fluid cells hold less than the fluid of the two legs; the exact value is proved."
  },
  {
   "property": "C78",
   "status": "proved",
   "theorems": [
    "C78_response_suits_peak_analysis",
    "C78_peak_durations_exist"
   ],
   "note": "Combines C63, C64 and C40."
  },
  {
   "property": "C79",
   "status": "partial",
   "theorems": [
    "C79_layers_partial",
    "C79_layers_refuted"
   ],
   "note": "The convection cell has the film resistance; pipe and grout cells do not have the remaining borehole resistance (exact values proved, refuted)."
  },
  {
   "property": "C80",
   "status": "partial",
   "theorems": [
    "C80_pipe_conductivity_partial",
    "C80_resistive_wall_fails",
    "C80_pipe_conductivity_refuted"
   ],
   "note": "True unless the wall would have to be more resistive than k/100; then the most conductive wall is kept, the worst one (refuted, exact)."
  },
  {
   "property": "C81",
   "status": "proved",
   "theorems": [
    "C81_grout",
    "C81_initial_grout"
   ],
   "note": "Every oracle; closeness for effective resistances decreasing in the grout conductivity and root finders that settle."
  },
  {
   "property": "C82",
   "status": "partial",
   "theorems": [
    "C82_u_tube_partial",
    "C82_u_tube_refuted",
    "C82_coaxial_partial",
    "C82_coaxial_refuted"
   ],
   "note": "Wall right; film resistance of U-tubes is off by the factor 1/(2 r_in), that of coaxial pipes uses the coefficient of the other surface (refuted, exact)."
  },
  {
   "property": "C83",
   "status": "partial",
   "theorems": [
    "C83_legs_partial",
    "C83_legs_refuted"
   ],
   "note": "False: the parallel resistance of the equivalent legs is the exact value proved, not that of the original."
  },
  {
   "property": "C84",
   "status": "partial",
   "theorems": [
    "C84_formulas",
    "C84_reported_partial",
    "C84_reported_refuted"
   ],
   "note": "Formulas right; the number printed for U-tubes is r/(r+eps) of the true one (refuted)."
  },
  {
   "property": "C85",
   "status": "proved",
   "theorems": [
    "C85_rectangle_design",
    "C85_rectangle_fewest",
    "C85_rectangle_outcome",
    "C85_rectangle_no_candidate_fails"
   ],
   "note": "Composes C09, C10, C25, C26 and C28 for every construction and simulation oracle. \"Fewest\" assumes the excess decreases with the number of boreholes and that one borehole adequate when shallow does not exceed the limits when deep."
  },
  {
   "property": "C86",
   "status": "partial",
   "theorems": [
    "C86_near_square_design_partial",
    "C86_near_square_fewest",
    "C86_near_square_land_refuted"
   ],
   "note": "Composes C07, C08, C25 and C26; the field may reach one spacing beyond the land in one direction (refuted on the land)."
  },
  {
   "property": "C87",
   "status": "partial",
   "theorems": [
    "C87_bi_rectangle_design",
    "C87_bi_rectangle_succeeds",
    "C87_bi_rectangle_no_candidate_fails",
    "C87_bi_rectangle_fewest_partial",
    "C87_bi_rectangle_fewest_refuted",
    "C87_binary64_spacing_refuted"
   ],
   "note": "Composes C11, C12, C25, C26 and C31. Fewest only among the fields with as many or fewer rows; refuted among all candidates. In binary64 the spacing may be below B_min (refuted)."
  },
  {
   "property": "C88",
   "status": "partial",
   "theorems": [
    "C88_bi_zoned_design_partial",
    "C88_bi_zoned_small_land_fails",
    "C88_bi_zoned_land_refuted",
    "C88_bi_zoned_spacing_refuted"
   ],
   "note": "Composes C14, C15 and C33; on land deeper than wide the field may leave the land and be too dense (refuted)."
  },
  {
   "property": "C89",
   "status": "proved",
   "theorems": [
    "C89_g_function_range"
   ],
   "note": "Every admissible borehole, correct solver and long-time curve whose first point is no short-time point."
  },
  {
   "property": "C90",
   "status": "partial",
   "theorems": [
    "C90_simulation_range",
    "C90_advancing_times",
    "C90_equal_times",
    "C90_hourly_times",
    "C90_low_height_refuted"
   ],
   "note": "Exact condition for success and the value of every temperature; advancing and hourly times meet it up to the last point of the curve. False for shallow boreholes: at 5 m thirty years lie beyond it (refuted)."
  },
  {
   "property": "C91",
   "status": "partial",
   "theorems": [
    "C91_hours_advance_partial",
    "C91_full_day_refuted"
   ],
   "note": "Proved for peaks shorter than 22 h on a day of their own month, any horizon. False for a 22 h peak on the last day of a month (refuted)."
  },
  {
   "property": "C92",
   "status": "proved",
   "theorems": [
    "C92_sizing_without_history",
    "C92_results_of_final_height"
   ],
   "note": "Every dialogue of the root finder with bounded questions, every oracle: the whole object afterwards is what sizing with a fresh object per trial leaves; height and results belong together."
  },
  {
   "property": "C93",
   "status": "proved",
   "theorems": [
    "C93_excess_is_compliance"
   ],
   "note": "Every oracle; both directions, and which height, count, spacing, flow and curve the simulation uses."
  },
  {
   "property": "C94",
   "status": "partial",
   "theorems": [
    "C94_simulation",
    "C94_construction",
    "C94_hourly_field",
    "C94_hybrid_field_partial"
   ],
   "note": "Hourly method: exact condition. Hybrid method: needs peaks as in C91 (C103 gives conditions on the loads alone), otherwise two load hours coincide and the simulation fails."
  },
  {
   "property": "C95",
   "status": "partial",
   "theorems": [
    "C95_rectangle_program",
    "C95_bi_rectangle_program",
    "C95_near_square_program_partial",
    "C95_bi_zoned_program_partial",
    "C95_rectangle_fewest"
   ],
   "note": "No simulation oracle: the simulations are those of System.v for every pygfunction, root finder, solver and interpolant. Near-square fields may exceed the land by one spacing, bi-zoned ones need land at least as wide as deep (C86, C88)."
  },
  {
   "property": "C96",
   "status": "proved",
   "theorems": [
    "C96_search_and_sizing_agree"
   ],
   "note": "Either method at the maximum height; at the minimum height hourly, or hybrid if the loads found at the two heights agree (C105 gives a condition on the hourly loads). In general the hybrid loads of the search at the minimum height are made for that height, those of sizing for the maximum height."
  },
  {
   "property": "C97",
   "status": "proved",
   "theorems": [
    "C97_delivered_exchanger",
    "C97_delivered_compliance",
    "C97_sizing_outcome",
    "C97_oversized"
   ],
   "note": "Every dialogue of the root finder that stays in its bracket; the compliance part for root finders that stop within their tolerance and, hybrid, for loads that agree at the two heights or an excess that falls with the height. A field that is enough at both height limits is delivered at the maximum height."
  },
  {
   "property": "C98",
   "status": "proved",
   "theorems": [
    "C98_sizing_again"
   ],
   "note": "Equality of the whole object or of the exception, either method first."
  },
  {
   "property": "C99",
   "status": "partial",
   "theorems": [
    "C99_bi_zoned_delivered",
    "C99_bi_zoned_drilling_partial"
   ],
   "note": "Height and object for every bi-zoned design; that the drilling is the least of those compared needs the condition of C35."
  },
  {
   "property": "C100",
   "status": "proved",
   "theorems": [
    "C100_export_of_delivered",
    "C100_export_succeeds"
   ],
   "note": "Every routine and method; the success part for long-time responses of at least 27 points."
  },
  {
   "property": "C101",
   "status": "proved",
   "theorems": [
    "C101_temperatures",
    "C101_g_function",
    "C101_hours"
   ],
   "note": "Every admissible borehole and every solver of the linear systems, every step."
  },
  {
   "property": "C102",
   "status": "proved",
   "theorems": [
    "C102_peak_duration",
    "C102_full_load_hours",
    "C102_isolated_peak"
   ],
   "note": "Every year of loads of one sign; the two bounds meet for a single block. The peak of the second day may exceed the peak of the month, which the code compares with a tolerance of 0.1: the theorem covers equal or clearly larger."
  },
  {
   "property": "C103",
   "status": "proved",
   "theorems": [
    "C103_durations",
    "C103_hybrid_field"
   ],
   "note": "Conditions on the hourly loads alone; every oracle. The office building of the repository's tests meets them (Properties_Reference)."
  },
  {
   "property": "C104",
   "status": "partial",
   "theorems": [
    "C104_one_step_ahead_partial",
    "C104_recorded_times_refuted"
   ],
   "note": "False: entry j, recorded for 120 j seconds, holds the response after j+1 steps, which is larger (refuted). The partial theorem says exactly that for every entry."
  },
  {
   "property": "C105",
   "status": "proved",
   "theorems": [
    "C105_durations",
    "C105_hybrid_load",
    "C105_search"
   ],
   "note": "Every pair of boreholes, every correct solver; the loads of the fields for every oracle."
  },
  {
   "property": "C106",
   "status": "partial",
   "theorems": [
    "C106_successive_search_succeeds",
    "C106_bi_zoned_succeeds_partial",
    "C106_bi_zoned_succeeds_refuted"
   ],
   "note": "Proved when no domain begins with a field that is enough at the minimum height. False otherwise: if the fewest boreholes that are enough fall between the last field of a domain and the first of the next, which is enough at both heights, the search raises ValueError (refuted)."
  },
  {
   "property": "C107",
   "status": "proved",
   "theorems": [
    "C107_after_the_search"
   ],
   "note": "Every routine and every dialogue of the root finder; with the hybrid method for loads that agree at the two height limits (C105 gives a condition on the hourly loads)."
  },
  {
   "property": "C108",
   "status": "proved",
   "theorems": [
    "C108_month_names",
    "C108_table",
    "C108_year"
   ],
   "note": "Any two load objects with an entry per month; the contents for every year of loads."
  },
  {
   "property": "C109",
   "status": "partial",
   "theorems": [
    "C109_ticks",
    "C109_increasing_partial",
    "C109_decades",
    "C109_increasing_refuted"
   ],
   "note": "The ticks are characterised for all increasing major ticks. That they increase is proved for an axis through zero and refuted for an axis of positive ticks (the added interval points inwards)."
  },
  {
   "property": "C110",
   "status": "proved",
   "theorems": [
    "C110_comparisons",
    "C110_sign",
    "C110_selected_field_meets_limits",
    "C110_smallest_adequate_field"
   ],
   "note": "Every search theorem of Search.v holds for any ordered numbers; instantiated at finite doubles, with infinities and nan classified as the search sees them. Heights times counts that overflow are read as zero (only totals of the zoned search)."
  },
  {
   "property": "C111",
   "status": "proved",
   "theorems": [
    "C111_operations",
    "C111_exact_operations",
    "C111_relative_error"
   ],
   "note": "Proved from the definitions of the standard library SpecFloat, which the binary64 instance of the model uses."
  },
  {
   "property": "C112",
   "status": "partial",
   "theorems": [
    "C112_round_down_partial",
    "C112_round_up_partial",
    "C112_round_trip_partial",
    "C112_round_down_refuted",
    "C112_round_up_refuted",
    "C112_round_trip_refuted"
   ],
   "note": "Exact counts are refuted (0.5 m by 0.1 m, 0.9 m by 0.3 m; sides made for four boreholes 3.04 m or 3.05 m apart). Proved: the count of exact arithmetic, or off by one when the quotient lies within rounding of an integer."
  },
  {
   "property": "C113",
   "status": "partial",
   "theorems": [
    "C113_rectangle",
    "C113_row_fills_length_partial",
    "C113_row_fills_length_refuted"
   ],
   "note": "The grid is proved. That a row spread over a length ends on that length is refuted (twelve boreholes over 50 m end beyond it) and proved up to a relative 2^-51."
  },
  {
   "property": "C114",
   "status": "partial",
   "theorems": [
    "C114_rectangular",
    "C114_within_land_refuted"
   ],
   "note": "The land limit holds up to a relative 2^-50; exactly it is refuted (50 m by 20 m, spacings 4.5 m to 4.6 m)."
  },
  {
   "property": "C115",
   "status": "proved",
   "theorems": [
    "C115_rectangular_grows"
   ],
   "note": "By monotonicity of rounding, no bound on the size."
  },
  {
   "property": "C116",
   "status": "partial",
   "theorems": [
    "C116_rectangle_design",
    "C116_rectangle_fewest",
    "C116_bi_rectangle_design_partial",
    "C116_near_square_design_partial",
    "C116_bi_zoned_design_partial",
    "C116_bi_zoned_succeeds_partial"
   ],
   "note": "Rectangle designs are proved. Bi-rectangle designs keep only half the minimum spacing in general (C16), near-square designs may stand out by one spacing in one direction (C08), and bi-zoned designs are proved for land at least as wide as deep (C15, C118), with an excess not above zero; the rest is proved for them."
  },
  {
   "property": "C117",
   "status": "proved",
   "theorems": [
    "C117_zoned_domain",
    "C117_zoned_steps",
    "C117_zoned_land"
   ],
   "note": "No bound on the number of boreholes below 2^31 a side. Positions proved for sides with length_x >= length_y; the other orientation has the same counts."
  },
  {
   "property": "C118",
   "status": "partial",
   "theorems": [
    "C118_bi_zoned_candidates",
    "C118_bi_zoned_grows",
    "C118_bi_zoned_land_partial",
    "C118_bi_zoned_deep_land_partial",
    "C118_bi_zoned_land_refuted"
   ],
   "note": "Existence and growth proved for both orientations; land and spacing proved for land at least as wide as deep, refuted for deeper land as in C15, with what is kept there."
  },
  {
   "property": "C119",
   "status": "partial",
   "theorems": [
    "C119_separate_boreholes",
    "C119_later_designs",
    "C119_shared_borehole_overwritten",
    "C119_shared_borehole_refuted"
   ],
   "note": "Proved for designs with borehole objects of their own. Refuted for designs that share one, as tests/test_design.py does: a later find_design gives every earlier exchanger its own maximum height; its temperatures stay."
  },
  {
   "property": "C120",
   "status": "proved",
   "theorems": [
    "C120_height_of_the_borehole",
    "C120_find_again"
   ],
   "note": "For every routine; calling again right after finding needs no condition for the routines that do not size."
  },
  {
   "property": "C121",
   "status": "proved",
   "theorems": [
    "C121_sizing_anew",
    "C121_restored"
   ],
   "note": "Unconditional for sizing anew; restoring needs the usual conditions of C98."
  },
  {
   "property": "C122",
   "status": "partial",
   "theorems": [
    "C122_keywords",
    "C122_near_square_script_partial",
    "C122_land_scripts_partial",
    "C122_input_file_scripts_always_fail",
    "C122_ornl_script_always_fails",
    "C122_scripts_refuted",
    "C122_bi_zoned_script_refuted"
   ],
   "note": "Geometric part of the scripts. Proved for find_near_square, find_rectangle, find_bi_rectangle and create_bi_rectangle_input_file. Refuted: create_near_square_input_file and create_rectangular_input_file pass a parameter that does not exist (TypeError for all numbers), design_from_ornl_json_input gives no length (AssertionError for every file), and find_bi_zoned_rectangle designs bi-rectangles for two of its three heat exchangers."
  },
  {
   "property": "C123",
   "status": "proved",
   "theorems": [
    "C123_same_search",
    "C123_same_design",
    "C123_same_export"
   ],
   "note": "Exact equality of whole runs, over the reals, with no condition."
  },
  {
   "property": "C124",
   "status": "proved",
   "theorems": [
    "C124_same_search",
    "C124_same_design",
    "C124_same_export"
   ],
   "note": "Exact equality of whole runs, over the reals, for nonzero soil conductivity."
  },
  {
   "property": "C125",
   "status": "partial",
   "theorems": [
    "C125_excess",
    "C125_rectangle_partial",
    "C125_near_square_partial",
    "C125_relaxed_limits_refuted"
   ],
   "note": "Every excess falls, by at most what the limits were moved. For rectangle and near-square designs whose excess falls with the number of boreholes the relaxed design has no more boreholes or raises ValueError, the latter only if one borehole keeps the relaxed limits at both heights. Refuted in general: it does raise it then."
  },
  {
   "property": "C126",
   "status": "proved",
   "theorems": [
    "C126_field",
    "C126_rectangle",
    "C126_near_square",
    "C126_bi_rectangle",
    "C126_curve_too_short",
    "C126_bi_zoned"
   ],
   "note": "C126_field says when a field is evaluated; the three routines then end with a candidate or one of three explained exceptions. C126_bi_zoned adds the two exceptions of the bi-zoned routine, which also sizes each of its selections (C106 says when it succeeds, C97 when sizing does)."
  },
  {
   "property": "C127",
   "status": "proved",
   "theorems": [
    "C127_same_evaluation",
    "C127_same_exchanger"
   ],
   "note": "C127_same_evaluation for what a search asks of a field, C127_same_exchanger for the sized heat exchanger. Moving the field as a whole, or listing it in another order, matters exactly as far as pygfunction makes it matter."
  },
  {
   "property": "C128",
   "status": "partial",
   "theorems": [
    "C128_rectangle_candidates",
    "C128_bi_rectangle_candidates",
    "C128_rectangle",
    "C128_bi_rectangle",
    "C128_bi_zoned_refuted",
    "C128_square_land_refuted"
   ],
   "note": "Proved for rectangle and bi-rectangle designs on land whose sides differ. Refuted for the bi-zoned design (the turned land gets as many boreholes in another pattern) and for a bi-rectangle design on square land with different greatest spacings (9 boreholes one way, 12 the other)."
  },
  {
   "property": "C129",
   "status": "partial",
   "theorems": [
    "C129_round_trip",
    "C129_bare_name",
    "C129_same_name_refuted",
    "C129_last_save_wins",
    "C129_failed_save_refuted",
    "C129_from_file",
    "C129_create_if_not"
   ],
   "note": "Proved for the name with its suffix (.json, .obj), which the writers add and the readers do not. Refuted: with the name itself the value is not found; a save that fails half-way destroys the file saved before. Bytes and their encoding are oracles."
  },
  {
   "property": "C130",
   "status": "partial",
   "theorems": [
    "C130_curve_used",
    "C130_stored_curve",
    "C130_sizing",
    "C130_one_curve",
    "C130_short_library_fails",
    "C130_late_library_answered",
    "C130_file_script",
    "C130_live_script",
    "C130_more_curves_refuted"
   ],
   "note": "Proved when the curves reach over both height limits, when there is one curve, and when they begin above the minimum height (then interpolants that extrapolate are kept). Refuted otherwise: curves that reach the minimum but not the maximum height can never be sized (C130_short_library_fails), although the same object answers at the maximum height when asked there first; so one curve more can make sizing fail."
  },
  {
   "property": "C131",
   "status": "partial",
   "theorems": [
    "C131_fields",
    "C131_candidates",
    "C131_polygonal_candidates",
    "C131_helpers",
    "C131_design",
    "C131_bi_zoned_design_partial",
    "C131_bi_zoned_design_refuted",
    "C131_doubles_refuted"
   ],
   "note": "Proved in exact arithmetic for all shapes, candidate lists (polygonal land included), helpers and for near-square, rectangle and bi-rectangle designs. Refuted for bi-zoned designs, which compare drilling with the number 99999 (in millimetres another field is selected); proved for them when no candidate is above 99999 in one of the units only. Refuted for doubles (9 m by 3 m, and the same in units of 10 m)."
  },
  {
   "property": "C132",
   "status": "partial",
   "theorems": [
    "C132_layout",
    "C132_rounding",
    "C132_report",
    "C132_report_of_delivered",
    "C132_results_heading_refuted"
   ],
   "note": "Proved for any text of numbers and of pygfunction and pandas objects that does not itself look like an entry or a heading; rounding is exact round-half-even in the reals. Refuted for the heading of the simulation results, which is made and dropped: the temperatures are printed below the heading of the simulation parameters."
  },
  {
   "property": "C133",
   "status": "proved",
   "theorems": [
    "C133_excess",
    "C133_rectangle",
    "C133_near_square"
   ],
   "note": "Assumed of the evaluations: every candidate is evaluated at the four heights and meets no limit exactly, more boreholes have the smaller excess at the maximum heights, and a candidate that keeps the temperature limits keeps them at a greater one of the four heights. The case is the plant of C95-C97 with one height and with the range."
  },
  {
   "property": "C134",
   "status": "partial",
   "theorems": [
    "C134_single",
    "C134_double",
    "C134_convective_partial",
    "C134_convective_refuted",
    "C134_coaxial",
    "C134_coaxial_reynolds_partial",
    "C134_coaxial_reynolds_refuted",
    "C134_curves",
    "C134_coaxial_curve",
    "C134_order",
    "C134_double_to_single",
    "C134_coaxial_to_single"
   ],
   "note": "The number called convective resistance contains the wall of the pipe, and the Reynolds number printed by Coaxial.py is that of a pipe of the outer radius of the outer pipe, neither that of the annulus nor of the inner pipe; both refuted, with the exact relation. For the equivalents a better grout must not raise the effective resistance, and the root finder must solve what it answers."
  },
  {
   "property": "C135",
   "status": "partial",
   "theorems": [
    "C135_near_square",
    "C135_minimum_spacing",
    "C135_rectangle_partial",
    "C135_program",
    "C135_rectangle_land_refuted",
    "C135_maximum_spacing_refuted"
   ],
   "note": "True for near-square fields on longer land and for rectangles with a smaller minimum spacing: the list of candidates is only extended, and the same field is selected. Refuted for rectangles on larger land and with a larger maximum spacing, by properties on which the coarser list leaves out the size needed; what holds there is that the design has at most the boreholes of any candidate with more boreholes than the first design. Assumed: every candidate is evaluated and meets no limit exactly, more boreholes have the smaller excess, and one borehole is no worse when deep."
  },
  {
   "property": "C136",
   "status": "partial",
   "theorems": [
    "C136_search",
    "C136_excess",
    "C136_same_search",
    "C136_same_design",
    "C136_eased_rectangle_partial",
    "C136_eased_near_square_partial",
    "C136_eased_refuted",
    "C136_close_call_refuted"
   ],
   "note": "Proved for all searches, and for whole designs if no month is a close call for the tolerance of 0.1 kW of the peak analysis (refuted without, by a year whose January peak gets another duration when all loads are multiplied by 10) and, where the sizing matters, if the root finder asks for the same points when all values are multiplied. Less load or wider limits never cost boreholes under the conditions of C125; refuted without them, by halved loads that have no design."
  },
  {
   "property": "C137",
   "status": "partial",
   "theorems": [
    "C137_temperatures",
    "C137_excess",
    "C137_keeps",
    "C137_rectangle_partial",
    "C137_near_square_partial",
    "C137_hybrid_loads_refuted"
   ],
   "note": "The temperatures, the excess and the limits are proved for all fields and heights. For the designs it is assumed, as in C125, that more boreholes have the smaller excess, that one borehole is no worse when deep, and that no candidate meets a limit exactly; the alternative outcome is ValueError when one borehole is enough at either height. Only the hourly method and whole years: parts of a year are not simulated (C51_part_of_year_fails), and the hybrid load sequence of a shorter period is not the beginning of that of a longer one (C137_hybrid_loads_refuted)."
  },
  {
   "property": "C138",
   "status": "partial",
   "theorems": [
    "C138_field",
    "C138_area",
    "C138_area_empty_zone",
    "C138_domain",
    "C138_domain_stops",
    "C138_g_functions",
    "C138_labels_refuted",
    "C138_loads_always_fails",
    "C138_loads_swapped",
    "C138_months_partial",
    "C138_months_answered",
    "C138_fluid_labels_refuted",
    "C138_months_refuted"
   ],
   "note": "Proved: fields, areas, the files of visualize_domain, and the g-function curves with the heights they are for. False: the labels truncate to whole metres, so two heights can share one (C138_labels_refuted); visualize_hourly_heat_extraction raises AttributeError for every HybridLoad (C138_loads_always_fails) and would show the rejection as extraction (C138_loads_swapped); the fluid figure labels rejection as extraction (C138_fluid_labels_refuted); after a month without load the months are shifted (C138_months_refuted). What the fluid figure shows is proved for a month up to which every month has load, and for every year: the m-th month with load, or IndexError (C138_months_answered)."
  }
 ]
}