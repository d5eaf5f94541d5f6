{"id": "C01", "title": "rectangle is the full grid", "statement": "coordinates.rectangle(Nx,Ny,Bx,By,origin) returns the Nx*Ny points origin+(i*Bx,j*By), 0<=i<Nx, 0<=j<Ny, each at position i*Ny+j of the list, none twice when Bx,By>0; it raises AssertionError exactly when Nx*Ny is not the number of loop iterations (both negative, or one negative and the other positive).", "quantifier": "all integer Nx, Ny, all spacings and origins", "why_tests_cant": "a test fixes one grid size and spacing", "anchors": ["ghedt/coordinates.py:rectangle"]}
{"id": "C02", "title": "transpose swaps axes and is an involution", "statement": "coordinates.transpose_coordinates returns the points with x and y exchanged, in the same order; applying it twice gives back the input.", "quantifier": "all coordinate lists", "why_tests_cant": "lists are unbounded", "anchors": ["ghedt/coordinates.py:transpose_coordinates"]}
{"id": "C03", "title": "open_rectangle is the perimeter", "statement": "For Nx,Ny>2 open_rectangle returns each perimeter point of the Nx x Ny grid exactly once and nothing else (2Nx+2Ny-4 points); otherwise it equals rectangle.", "quantifier": "all Nx, Ny and positive spacings", "why_tests_cant": "one test covers one size", "anchors": ["ghedt/coordinates.py:open_rectangle"]}
{"id": "C04", "title": "L, lopsided-U and C shapes", "statement": "L_shape, lop_U and C_shape never trip their own length assertion for arms of length at least one, and return exactly the points of the named arms; the points are pairwise distinct when the arms fit (C_shape: Nx_2<=Nx_1-2).", "quantifier": "all arm lengths and positive spacings", "why_tests_cant": "sizes are unbounded; off-by-one errors appear only on some arm lengths", "anchors": ["ghedt/coordinates.py:L_shape", "ghedt/coordinates.py:lop_U", "ghedt/coordinates.py:C_shape"]}
{"id": "C05", "title": "U_shape returns a U", "statement": "U_shape(Nx,Ny,Bx,By) returns the bottom row and both side columns of the Nx x Ny grid.", "quantifier": "all Nx>2, Ny>1", "why_tests_cant": "whether any input at all succeeds is a statement about every input", "anchors": ["ghedt/coordinates.py:U_shape"]}
{"id": "C06", "title": "zoned_rectangle geometry", "statement": "zoned_rectangle(Nx,Ny,Bx,By,Nix,Niy) raises ValueError exactly when the interior has more than Nx-2 columns or Ny-2 rows; otherwise it returns the perimeter plus an evenly spaced Nix x Niy interior strictly inside the perimeter, all points distinct, inside the (Nx-1)Bx by (Ny-1)By box, and no two boreholes closer than min(Bx,By).", "quantifier": "all Nx,Ny>2, 1<=Nix<=Nx-2, 1<=Niy<=Ny-2, positive spacings", "why_tests_cant": "minimum distance over all pairs for every size", "anchors": ["ghedt/coordinates.py:zoned_rectangle"]}
{"id": "C07", "title": "square and near-square domain", "statement": "square_and_near_square(lower,upper,B) raises ValueError exactly on non-positive bounds or upper<lower; otherwise it returns the fields i x i and i x (i+1) for i=lower..upper in this order, so the borehole counts strictly increase.", "quantifier": "all lower, upper, B", "why_tests_cant": "ranges are unbounded", "anchors": ["ghedt/domains.py:square_and_near_square"]}
{"id": "C08", "title": "near-square candidates fit the land length", "statement": "Every candidate field a near-square Design offers has both sides no longer than the length given in the geometric constraints.", "quantifier": "all lengths and spacings", "why_tests_cant": "holds or fails for all inputs, not a sampled one", "anchors": ["ghedt/design.py:Design.__init__", "ghedt/domains.py:square_and_near_square", "ghedt/utilities.py:number_of_boreholes"]}
{"id": "C09", "title": "rectangular candidates respect land and spacing", "statement": "Every candidate field of domains.rectangular lies inside the length_x by length_y land rectangle, and no two boreholes are closer than B_min (its uniform spacing is between B_min and B_max).", "quantifier": "all land sizes and spacing ranges with 0<B_min<=B_max and 0<lengths", "why_tests_cant": "floor/ceil boundary cases are inputs of measure zero", "anchors": ["ghedt/domains.py:rectangular"]}
{"id": "C10", "title": "rectangular domain grows", "statement": "The borehole counts of the fields of domains.rectangular strictly increase from one borehole; so bisection over the list index is bisection over field size.", "quantifier": "all land sizes and spacing ranges", "why_tests_cant": "monotonicity over the complete list for every input", "anchors": ["ghedt/domains.py:rectangular"]}
{"id": "C11", "title": "bi-rectangle candidates respect land and spacing", "statement": "Every candidate field in every domain returned by domains.bi_rectangle_nested lies inside the land rectangle, and no two boreholes are closer than B_min; spacings do not exceed B_max_x / B_max_y along the respective side for the complete grids.", "quantifier": "all land sizes and spacing ranges", "why_tests_cant": "boundary cases of floor/ceil", "anchors": ["ghedt/domains.py:bi_rectangular", "ghedt/domains.py:bi_rectangle_nested"]}
{"id": "C12", "title": "bi-rectangle domains grow", "statement": "Each domain of bi_rectangle_nested begins with one borehole at the origin and has strictly increasing borehole counts, and the largest fields of successive domains strictly increase.", "quantifier": "all land sizes and spacing ranges", "why_tests_cant": "needed by the nested bisection for every input", "anchors": ["ghedt/domains.py:bi_rectangular", "ghedt/domains.py:bi_rectangle_nested"]}
{"id": "C13", "title": "zoned domain terminates and fills up", "statement": "For n_x,n_y>=3 zoned_rectangle_domain terminates without raising, every step adds one interior row or one interior column, the last field is the full n_x x n_y grid point count, and it returns exactly 1+(n_x-3)+(n_y-3) fields with strictly increasing borehole counts; with n_x or n_y equal to 2 it raises ValueError.", "quantifier": "all lengths and n_x, n_y", "why_tests_cant": "termination of the while loop and absence of the ValueError for every input", "anchors": ["ghedt/domains.py:zoned_rectangle_domain"]}
{"id": "C14", "title": "bi-zoned nesting is a staircase", "statement": "bi_rectangle_zoned_nested never raises IndexError when both spacing ranges are non-empty, and visits (n_1,n_2) pairs from (N_min_1,N_min_2) to (N_max_1,N_max_2), raising exactly one of them by one at each step, one domain per pair.", "quantifier": "all land sizes and spacing ranges with non-empty ranges of rows", "why_tests_cant": "the alternation of the two counters for every pair of range lengths", "anchors": ["ghedt/domains.py:bi_rectangle_zoned_nested"]}
{"id": "C15", "title": "bi-zoned candidates respect land and spacing", "statement": "Every candidate field in every domain returned by bi_rectangle_zoned_nested lies inside the land rectangle and no two boreholes are closer than B_min.", "quantifier": "all land sizes (including length<width) and spacing ranges", "why_tests_cant": "transposed inputs and boundary cases", "anchors": ["ghedt/domains.py:bi_rectangle_zoned_nested", "ghedt/domains.py:zoned_rectangle_domain"]}
{"id": "C16", "title": "minimum spacing survives machine arithmetic", "statement": "The B_min guarantee of bi_rectangle_nested also holds when lengths and spacings are IEEE binary64 numbers, as they are in the running program.", "quantifier": "all binary64 land sizes and spacing ranges", "why_tests_cant": "rounding failures are isolated inputs", "anchors": ["ghedt/domains.py:bi_rectangle_nested", "ghedt/domains.py:bi_rectangular"]}
{"id": "C17", "title": "reorder_domain sorts a permutation", "statement": "domains.reorder_domain returns the fields of its argument, each exactly once, in order of non-decreasing borehole count.", "quantifier": "all domains", "why_tests_cant": "collisions of field sizes are rare in samples", "anchors": ["ghedt/domains.py:reorder_domain"]}
{"id": "C18", "title": "verify_excess decides monotonicity", "statement": "verify_excess returns the successive differences and reports True exactly when the sequence never increases.", "quantifier": "all sequences", "why_tests_cant": "sequences are unbounded", "anchors": ["ghedt/domains.py:verify_excess"]}
{"id": "C19", "title": "cut-outs keep only allowed boreholes", "statement": "remove_cutout keeps exactly the boreholes whose point-in-polygon class is permitted by (remove_inside, keep_contour), in the original order and position; in the domains of polygonal_land_constraint no borehole is outside the property or in/on the building, and no candidate field is empty.", "quantifier": "all coordinate lists, polygons and point-in-polygon classifications", "why_tests_cant": "polygons and point sets are unbounded", "anchors": ["ghedt/feature_recognition.py:remove_cutout", "ghedt/feature_recognition.py:scale_coordinates", "ghedt/domains.py:polygonal_land_constraint"]}
{"id": "C20", "title": "largest rectangle bounds the property", "statement": "determine_largest_rectangle returns the closed axis-aligned rectangle from the origin to the largest non-negative x and y of the boundary; for boundaries in the first quadrant it contains every boundary vertex and is the smallest such rectangle.", "quantifier": "all property boundaries", "why_tests_cant": "any vertex order", "anchors": ["ghedt/feature_recognition.py:determine_largest_rectangle"]}
{"id": "C21", "title": "borehole count, side length and spacing are inverse", "statement": "number_of_boreholes(length_of_side(N,B),B)=N and spacing_along_length(length_of_side(N,B),N)=B; with ceil the resulting spacing never exceeds B, with floor the row never exceeds the length and one more borehole would.", "quantifier": "all N, B>0 and lengths", "why_tests_cant": "floor/ceil boundaries", "anchors": ["ghedt/utilities.py:number_of_boreholes", "ghedt/utilities.py:length_of_side", "ghedt/utilities.py:spacing_along_length"]}
{"id": "C22", "title": "polygonal area is geometric", "statement": "polygonal_area is non-negative, unchanged by translating the polygon, by reversing its orientation and by starting at another corner; for make_rectangle_perimeter it is |length_x*length_y| for any origin.", "quantifier": "all polygons", "why_tests_cant": "polygons are unbounded", "anchors": ["ghedt/utilities.py:polygonal_area", "ghedt/utilities.py:make_rectangle_perimeter"]}
{"id": "C23", "title": "borehole_spacing", "statement": "borehole_spacing returns the borehole radius for one borehole and otherwise the larger of the radius and the distance of the first two boreholes; it raises on an empty field.", "quantifier": "all fields and radii", "why_tests_cant": "lists are unbounded", "anchors": ["ghedt/utilities.py:borehole_spacing"]}
{"id": "C24", "title": "sign, bracket and error helpers", "statement": "sign returns 1/-1 with the sign of a finite non-zero number and raises on zero; check_bracket is symmetric and true exactly when the two signs differ; compute_mpe is zero on equal lists and raises on unequal lengths.", "quantifier": "all numbers and lists", "why_tests_cant": "edge values", "anchors": ["ghedt/utilities.py:sign", "ghedt/utilities.py:check_bracket", "ghedt/utilities.py:compute_mpe"]}
{"id": "C25", "title": "selected field meets the temperature limits", "statement": "Whenever Bisection1D.search returns, the selected key indexes the domain, the selected coordinates are the field at that key, the search object's heat exchanger is built for that field at the maximum height, and the field's excess temperature is negative at the maximum height or (when sizing the smallest field) at one of the two height limits.", "quantifier": "all domains, all excess-temperature functions (including raising and non-finite ones), all iteration limits", "why_tests_cant": "every possible thermal response, not the responses of a few sampled buildings", "anchors": ["ghedt/search_routines.py:Bisection1D.search", "ghedt/search_routines.py:Bisection1D.calculate_excess", "ghedt/search_routines.py:Bisection1D.initialize_ghe"]}
{"id": "C26", "title": "bisection finds the smallest adequate field", "statement": "If excess temperature strictly decreases along the domain and the iteration limit is at least log2 of the domain size, the search returns the first field with negative excess; without any monotonicity the returned field's excess is at least as close to zero as that of every evaluated adequate field, among them one whose predecessor is inadequate.", "quantifier": "all domains and excess functions", "why_tests_cant": "every monotone response", "anchors": ["ghedt/search_routines.py:Bisection1D.search"]}
{"id": "C27", "title": "ties do not enlarge the selection", "statement": "If excess temperature is non-increasing along the domain (plateaus allowed), the search returns the smallest adequate field.", "quantifier": "all non-increasing excess functions", "why_tests_cant": "ties are rare in samples", "anchors": ["ghedt/search_routines.py:Bisection1D.search"]}
{"id": "C28", "title": "search outcome is always defined", "statement": "The search never returns (None, None) and never raises IndexError on a non-empty domain; when no evaluation raises it raises ValueError exactly when the excess at maximum height has the same sign at both ends of the domain and the smallest field is not bracketed by the height limits.", "quantifier": "all domains and excess functions", "why_tests_cant": "case analysis over every combination of signs", "anchors": ["ghedt/search_routines.py:Bisection1D.search", "ghedt/utilities.py:check_bracket", "ghedt/utilities.py:sign"]}
{"id": "C29", "title": "exact compliance is accepted", "statement": "A field whose excess temperature is exactly zero (temperatures exactly at the limit) is handled as adequate and does not make the search fail.", "quantifier": "all domains with a field at exactly zero excess", "why_tests_cant": "equality with zero is a measure-zero input", "anchors": ["ghedt/search_routines.py:Bisection1D.search", "ghedt/utilities.py:sign"]}
{"id": "C30", "title": "search effort is logarithmic", "statement": "One search evaluates each field of the domain at most once inside the loop and performs at most min(max_iter, ceil(log2(n-1))) loop evaluations plus four fixed ones, whatever the responses are.", "quantifier": "all domains, responses and iteration limits", "why_tests_cant": "a worst-case bound over all responses", "anchors": ["ghedt/search_routines.py:Bisection1D.search"]}
{"id": "C31", "title": "nested search always succeeds after the outer search", "statement": "In Bisection2D, if all inner domains start with the same field and the outer search selects a field by bisection then the inner search is bracketed, so it neither raises ValueError nor leaves the selected outer domain; the result has negative excess at maximum height.", "quantifier": "all nested domains and excess functions", "why_tests_cant": "cross-phase property over all responses", "anchors": ["ghedt/search_routines.py:Bisection2D.__init__"]}
{"id": "C32", "title": "nested search with a single sufficient borehole", "statement": "If the first field is already sufficient, Bisection2D returns that first field although index arithmetic (key-1) then points at the last inner domain.", "quantifier": "all nested domains with a common first field", "why_tests_cant": "negative-index wrap-around happens in one corner case", "anchors": ["ghedt/search_routines.py:Bisection2D.__init__"]}
{"id": "C33", "title": "successive search minimises drilling over what it visited", "statement": "BisectionZD visits consecutive inner domains starting at the one selected by the outer search, at most seven of them, stops at the first increase of total drilling or when a domain cannot be searched, and the selected inner domain has the least total drilling of the visited ones (the first such).", "quantifier": "all nested domains, excess functions and sized heights", "why_tests_cant": "loop over arbitrary histories of heights", "anchors": ["ghedt/search_routines.py:BisectionZD.search_successive"]}
{"id": "C34", "title": "successive search keeps going while drilling decreases", "statement": "As long as total drilling does not increase from one inner domain to the next, the successive search continues (up to its limit), whatever the size of the field.", "quantifier": "all drilling totals", "why_tests_cant": "needs totals beyond those in samples", "anchors": ["ghedt/search_routines.py:BisectionZD.search_successive"]}
{"id": "C35", "title": "successive search reports the field it sized", "statement": "The field BisectionZD returns is the very field whose total drilling was compared, and it has non-positive excess at maximum height.", "quantifier": "all excess functions", "why_tests_cant": "depends on dictionary order and ties", "anchors": ["ghedt/search_routines.py:BisectionZD.search_successive"]}
{"id": "C36", "title": "heating/cooling split loses nothing", "statement": "HybridLoad.split_heat_and_cool returns two non-negative lists of the input length, at no hour both non-zero, with extraction minus rejection equal to the load divided by 1000 (W) or 1 (kW); other units raise ValueError.", "quantifier": "all hourly load lists", "why_tests_cant": "lists are unbounded", "anchors": ["ghedt/peak_load_analysis_tool/ground_loads.py:HybridLoad.split_heat_and_cool"]}
{"id": "C37", "title": "monthly analysis is exact", "statement": "For a year of hourly loads the monthly totals, peaks and averages are the sum, maximum and mean over exactly that month's hours; months partition the year, so monthly totals add up to the annual total; wrong list lengths raise AssertionError.", "quantifier": "all hourly loads, every year (leap or not)", "why_tests_cant": "every load profile", "anchors": ["ghedt/peak_load_analysis_tool/ground_loads.py:Loads.__init__", "ghedt/peak_load_analysis_tool/ground_loads.py:Loads.split_load_by_month"]}
{"id": "C38", "title": "peak day is the day of month of the peak", "statement": "monthly_peak_day is the day of the month (1-31) on which the (first) peak hour of the month occurs.", "quantifier": "all hourly loads", "why_tests_cant": "depends on the hour of the peak", "anchors": ["ghedt/peak_load_analysis_tool/ground_loads.py:Loads.split_load_by_month"]}
{"id": "C39", "title": "two-day window contains the monthly peak", "statement": "process_two_day_loads never fails its assertions and for every month selects 48 consecutive hours (wrapping around the turn of the year) that contain the month's first peak hour.", "quantifier": "all hourly loads, every year", "why_tests_cant": "index arithmetic at month and year boundaries", "anchors": ["ghedt/peak_load_analysis_tool/ground_loads.py:Loads.process_two_day_loads"]}
{"id": "C40", "title": "nominal response never exceeds the peak response", "statement": "In the two-day simulations the fluid temperature rise under the nominal load never exceeds the final rise under the constant peak load, so the peak-duration interpolation cannot fail and the duration is between 0 and 48 hours.", "quantifier": "all load profiles, every non-decreasing short-time-step response", "why_tests_cant": "every load profile and borehole", "anchors": ["ghedt/peak_load_analysis_tool/ground_loads.py:Loads.find_peak_durations", "ghedt/peak_load_analysis_tool/ground_loads.py:Loads.perform_current_month_simulation", "ghedt/peak_load_analysis_tool/ground_loads.py:Loads.simulate_hourly"]}
{"id": "C41", "title": "hybrid loads conserve monthly energy", "statement": "For every simulated month the hybrid load sequence carries exactly the month's rejection minus extraction energy.", "quantifier": "all load profiles, start and end months", "why_tests_cant": "every profile; exceptional months differ", "anchors": ["ghedt/peak_load_analysis_tool/ground_loads.py:HybridLoad.process_monthly_loads"]}
{"id": "C42", "title": "hybrid time grid advances", "statement": "The hour values of the hybrid load sequence never decrease, and each month's last hour is the cumulative number of hours.", "quantifier": "all load profiles, start and end months", "why_tests_cant": "peaks near month boundaries", "anchors": ["ghedt/peak_load_analysis_tool/ground_loads.py:HybridLoad.process_monthly_loads", "ghedt/peak_load_analysis_tool/ground_loads.py:Loads.peak_hour_range"]}
{"id": "C43", "title": "month/hour calendar arithmetic", "statement": "firstmonthhour(m)=lastmonthhour(m-1)+1, lastmonthhour(m)-lastmonthhour(m-1)=24*monthdays(m), twelve consecutive months always make 8760 hours, and the calendar repeats with period 12.", "quantifier": "all month numbers", "why_tests_cant": "unbounded simulation lengths", "anchors": ["ghedt/peak_load_analysis_tool/ground_loads.py:monthdays", "ghedt/peak_load_analysis_tool/ground_loads.py:firstmonthhour", "ghedt/peak_load_analysis_tool/ground_loads.py:lastmonthhour"]}
{"id": "C44", "title": "step-function loads reconstruct the loads", "statement": "load, hour and sfload have equal lengths and every prefix sum of sfload is the load of that period.", "quantifier": "all load profiles and horizons", "why_tests_cant": "sequences are unbounded", "anchors": ["ghedt/peak_load_analysis_tool/ground_loads.py:HybridLoad.process_monthly_loads"]}
{"id": "C45", "title": "peaks only in the first and last year", "statement": "Monthly peaks are represented exactly in the first twelve and last twelve simulated months; all other months contribute one averaged entry.", "quantifier": "all horizons", "why_tests_cant": "every start/end month", "anchors": ["ghedt/peak_load_analysis_tool/ground_loads.py:HybridLoad.process_monthly_loads"]}
{"id": "C46", "title": "hourly representation covers one year", "statement": "hourly_load_representation and synthetic_load_function keep the number of hours unchanged and set exactly the peak window to the peak and the rest of the month to the average.", "quantifier": "all load profiles", "why_tests_cant": "slice assignment silently grows lists at the boundaries", "anchors": ["ghedt/peak_load_analysis_tool/ground_loads.py:synthetic_load_function", "ghedt/peak_load_analysis_tool/ground_loads.py:HybridLoad.hourly_load_representation"]}
{"id": "C47", "title": "synthetic doubling profile", "statement": "create_synthetic_doubling_load_profile returns two lists of one year's hours in which month i has base load and peak load in ratio one to two, for both load kinds and both units.", "quantifier": "both units, every year", "why_tests_cant": "all months of all years and units", "anchors": ["ghedt/peak_load_analysis_tool/ground_loads.py:create_synthetic_doubling_load_profile"]}
{"id": "C48", "title": "two-day temperature histories are indexed by month", "statement": "monthly_two_day_fluid_temps_pk[m] and _nm[m] are the histories of month m.", "quantifier": "all load profiles", "why_tests_cant": "only profiles with load-free months differ", "anchors": ["ghedt/peak_load_analysis_tool/ground_loads.py:Loads.find_peak_durations", "ghedt/peak_load_analysis_tool/ground_loads.py:HybridLoad.visualize_fluid_simulation_results"]}
{"id": "C49", "title": "cost is compliance", "statement": "BaseGHE.cost(max_EFT,min_EFT)<=0 exactly when both temperatures are within the allowable band; positive cost is the size of the worst violation.", "quantifier": "all temperatures and limits", "why_tests_cant": "all reals", "anchors": ["ghedt/ground_heat_exchangers.py:BaseGHE.cost"]}
{"id": "C50", "title": "simulation is linear, causal superposition", "statement": "The simulated temperature response is linear in the load sequence, zero loads leave the fluid at the ground temperature, and the temperature at step i depends only on loads and times up to step i.", "quantifier": "all load sequences, time grids and g-functions", "why_tests_cant": "all load histories", "anchors": ["ghedt/ground_heat_exchangers.py:BaseGHE._simulate_detailed"]}
{"id": "C51", "title": "hourly simulation covers any horizon", "statement": "simulate(method='hourly') simulates every hour of the requested months, for every start and end month.", "quantifier": "all start/end months, yearly load lists", "why_tests_cant": "only full-year horizons are tested", "anchors": ["ghedt/ground_heat_exchangers.py:GHE.simulate", "ghedt/ground_heat_exchangers.py:BaseGHE._simulate_detailed"]}
{"id": "C52", "title": "short and long time-step g-functions combine to a function", "statement": "combine_sts_lts returns strictly increasing times consisting of the short-time points before the first long-time point followed by all long-time points, and never fails for sorted inputs.", "quantifier": "all sorted time lists", "why_tests_cant": "overlap boundary cases", "anchors": ["ghedt/ground_heat_exchangers.py:BaseGHE.combine_sts_lts"]}
{"id": "C53", "title": "sizing leaves a height within the limits", "statement": "After GHE.size the borehole height is between the minimum and maximum height whatever the root finder does within its bracket; without a sign change the maximum height remains when the limits cannot be met, and the minimum height when even the minimum suffices.", "quantifier": "all objective functions and root-finder behaviours", "why_tests_cant": "every thermal response", "anchors": ["ghedt/ground_heat_exchangers.py:GHE.size", "ghedt/peak_load_analysis_tool/equivalance.py:solve_root"]}
{"id": "C54", "title": "flow bookkeeping is consistent", "statement": "For both flow conventions the heat exchanger's per-borehole mass flow equals the one used for the g-function, and system flow is per-borehole flow times the number of boreholes; other conventions raise ValueError.", "quantifier": "all flow rates, densities and fields", "why_tests_cant": "all inputs", "anchors": ["ghedt/search_routines.py:Bisection1D.retrieve_flow", "ghedt/ground_heat_exchangers.py:BaseGHE.__init__"]}
{"id": "C55", "title": "g-function interpolation does not depend on call history", "statement": "g_function_interpolation returns the same values for the same B/H (and kind) no matter which calls were made before.", "quantifier": "all call sequences", "why_tests_cant": "histories are unbounded", "anchors": ["ghedt/gfunction.py:GFunction.g_function_interpolation"]}
{"id": "C56", "title": "a single curve is used only near its height", "statement": "With one stored curve, g_function_interpolation returns it when the requested B/H is the stored one and raises ValueError otherwise.", "quantifier": "all heights and requests", "why_tests_cant": "all ratios", "anchors": ["ghedt/gfunction.py:GFunction.g_function_interpolation"]}
{"id": "C57", "title": "interpolation kind selection", "statement": "The kind used follows the number of curves (>=5 cubic, 3-4 quadratic, 2 linear), a requested kind is lowered to what the curves allow, and requests within 1e-6 of the outer heights are answered at the outer height.", "quantifier": "all curve counts, kinds and requests", "why_tests_cant": "case table over all counts", "anchors": ["ghedt/gfunction.py:GFunction.g_function_interpolation"]}
{"id": "C58", "title": "borehole radius correction composes", "statement": "borehole_radius_correction is the identity for equal radii, shifts all values equally, and correcting to r1 then r2 equals correcting to r2.", "quantifier": "all g-functions and positive radii", "why_tests_cant": "all reals", "anchors": ["ghedt/gfunction.py:GFunction.borehole_radius_correction"]}
{"id": "C59", "title": "correct_coordinates scales the field", "statement": "correct_coordinates(B) multiplies every coordinate by B/self.B, for every position including the axes, and is inverted by the inverse ratio.", "quantifier": "all fields and spacings", "why_tests_cant": "branches on exact zeros", "anchors": ["ghedt/gfunction.py:GFunction.correct_coordinates"]}
{"id": "C60", "title": "database configuration keeps every curve", "statement": "configure_database_file_for_usage stores for each height the curve, radius and depth of its key (last one wins for equal heights), with heights in increasing order.", "quantifier": "all data dictionaries", "why_tests_cant": "key orders and height collisions", "anchors": ["ghedt/gfunction.py:GFunction.configure_database_file_for_usage", "ghedt/gfunction.py:compute_live_g_function"]}
{"id": "C61", "title": "radial grid is complete and contiguous", "statement": "fill_radial_cell fills every column of the grid, and each cell begins where the previous one ends.", "quantifier": "all borehole geometries", "why_tests_cant": "all geometries", "anchors": ["ghedt/peak_load_analysis_tool/radial_numerical_borehole.py:RadialNumericalBH.__init__", "ghedt/peak_load_analysis_tool/radial_numerical_borehole.py:RadialNumericalBH.fill_radial_cell"]}
{"id": "C62", "title": "time step conserves energy", "statement": "Every time step of the short-time-step model changes the stored heat by the injected heat minus the heat leaving to the far-field cell.", "quantifier": "all positive cell properties and temperatures", "why_tests_cant": "all states", "anchors": ["ghedt/peak_load_analysis_tool/radial_numerical_borehole.py:RadialNumericalBH.calc_sts_g_functions"]}
{"id": "C63", "title": "short-time response rises monotonically and stays bounded", "statement": "Starting from uniform temperature, fluid temperature and hence the short-time g-function never decrease from step to step, never fall below the start value and never exceed the steady-state resistance value; the linear system of each step has exactly one solution.", "quantifier": "all positive cell properties, all numbers of steps", "why_tests_cant": "unbounded time", "anchors": ["ghedt/peak_load_analysis_tool/radial_numerical_borehole.py:RadialNumericalBH.calc_sts_g_functions"]}
{"id": "C64", "title": "short-time g-function covers two days", "statement": "The time grid of the short-time-step g-function always spans one hour to 48 hours, so the two-day peak simulations never interpolate outside it.", "quantifier": "all heights and soils", "why_tests_cant": "all geometries", "anchors": ["ghedt/peak_load_analysis_tool/radial_numerical_borehole.py:RadialNumericalBH.__init__", "ghedt/peak_load_analysis_tool/radial_numerical_borehole.py:RadialNumericalBH.calc_sts_g_functions", "ghedt/peak_load_analysis_tool/ground_loads.py:Loads.simulate_hourly"]}
{"id": "C65", "title": "equivalent U-tube preserves volumes and fits", "statement": "The equivalent single U-tube has the same fluid and pipe cross-section areas as the original, and its two pipes lie inside its borehole without overlapping.", "quantifier": "all double U-tube and coaxial geometries", "why_tests_cant": "all geometries", "anchors": ["ghedt/peak_load_analysis_tool/equivalance.py:equivalent_single_u_tube", "ghedt/peak_load_analysis_tool/equivalance.py:u_tube_volumes", "ghedt/peak_load_analysis_tool/equivalance.py:concentric_tube_volumes"]}
{"id": "C66", "title": "changing the flow rate changes the film resistance", "statement": "update_thermal_resistance(m_flow_borehole=m) leaves the heat exchanger in the state of one constructed with flow m.", "quantifier": "all flow rates and histories of updates", "why_tests_cant": "histories of updates", "anchors": ["ghedt/peak_load_analysis_tool/borehole_heat_exchangers.py:SingleUTube.update_thermal_resistance", "ghedt/peak_load_analysis_tool/borehole_heat_exchangers.py:MultipleUTube.update_thermal_resistance", "ghedt/peak_load_analysis_tool/borehole_heat_exchangers.py:CoaxialPipe.update_thermal_resistance", "ghedt/peak_load_analysis_tool/borehole_heat_exchangers.py:BasePipe.compute_resistances"]}
{"id": "C67", "title": "parallel pipes share the borehole flow", "statement": "The per-pipe mass flows add up to the borehole mass flow for any number of parallel U-tubes; unknown configurations raise ValueError.", "quantifier": "all flows, configurations and numbers of U-tubes", "why_tests_cant": "all counts", "anchors": ["ghedt/peak_load_analysis_tool/borehole_heat_exchangers.py:BasePipe.compute_mass_flow_rate_pipe", "ghedt/peak_load_analysis_tool/borehole_heat_exchangers.py:MultipleUTube.__init__"]}
{"id": "C68", "title": "pipes are placed on one circle", "statement": "place_pipes returns 2n positions on the circle of radius s/2+r_out, in/out legs of each U-tube adjacent and evenly spaced, no two pipes overlapping for the geometries that fit.", "quantifier": "all n, s, r_out", "why_tests_cant": "all pipe counts", "anchors": ["ghedt/peak_load_analysis_tool/media.py:Pipe.place_pipes"]}
{"id": "C69", "title": "root solving contract", "statement": "solve_root calls the root finder only on a bracket, returns the upper bound when the objective is negative at both ends and the lower bound when positive at both, and evaluates the objective only between the bounds.", "quantifier": "all objectives and bounds", "why_tests_cant": "all objectives", "anchors": ["ghedt/peak_load_analysis_tool/equivalance.py:solve_root"]}
{"id": "C70", "title": "design dispatch and input validation", "statement": "Design accepts exactly the four routines; an unknown routine raises ValueError and a missing required constraint raises AssertionError, before any search.", "quantifier": "all routine names and constraint combinations", "why_tests_cant": "all combinations", "anchors": ["ghedt/design.py:Design.__init__", "ghedt/design.py:Design.find_design", "ghedt/media.py:GeometricConstraints.check_inputs"]}
{"id": "C71", "title": "exported g-function sampling", "statement": "oak_ridge_export always exports the 27 long-time points in order preceded by evenly strided short-time points, in increasing time order.", "quantifier": "all g-function table lengths", "why_tests_cant": "all lengths", "anchors": ["ghedt/search_routines.py:oak_ridge_export"]}
{"id": "C72", "title": "rectangular domain reaches the densest admissible grid", "statement": "The last candidate field of domains.rectangular is the complete grid at the smallest spacing not below B_min, so that the search can use all the land.", "quantifier": "all land sizes and spacing ranges", "why_tests_cant": "all land sizes", "anchors": ["ghedt/domains.py:rectangular"]}
{"id": "C73", "title": "two-day window is the day before and the day of the peak", "statement": "The two-day window chosen for every month begins with the day before the day of the month's peak hour and ends with that day.", "quantifier": "all load profiles and years", "why_tests_cant": "peak hours at every position of the day", "anchors": ["ghedt/peak_load_analysis_tool/ground_loads.py:Loads.process_two_day_loads", "ghedt/peak_load_analysis_tool/ground_loads.py:Loads.split_load_by_month"]}
{"id": "C74", "title": "hybrid simulation applies each hybrid load over its own period", "statement": "simulate(method='hybrid') applies every step of the hybrid load sequence, with sign for extraction, over the period the sequence gives it, for every start month.", "quantifier": "all hybrid load sequences and start and end months", "why_tests_cant": "all horizons and load sequences", "anchors": ["ghedt/ground_heat_exchangers.py:GHE.simulate", "ghedt/ground_heat_exchangers.py:GHE._simulate_detailed"]}
{"id": "C75", "title": "simulation result is the extremes of the simulated temperatures", "statement": "simulate returns the largest and smallest stored heat pump entering temperature, so the cost of that pair is not positive exactly when every simulated temperature is within the limits; an unknown method raises ValueError.", "quantifier": "all load sequences and methods", "why_tests_cant": "unbounded sequences", "anchors": ["ghedt/ground_heat_exchangers.py:GHE.simulate", "ghedt/ground_heat_exchangers.py:BaseGHE.cost"]}
{"id": "C76", "title": "sizing stays inside the g-function heights", "statement": "The g-functions computed at the minimum, average and maximum height answer every height between the limits, at that height up to 2e-6, so sizing never extrapolates and never fails on the interpolation range.", "quantifier": "all height limits, spacings and heights between", "why_tests_cant": "all reals", "anchors": ["ghedt/gfunction.py:GFunction.g_function_interpolation", "ghedt/gfunction.py:compute_live_g_function", "ghedt/ground_heat_exchangers.py:GHE.compute_g_functions"]}
{"id": "C77", "title": "short-time model holds the fluid of both legs", "statement": "The fluid cells of the short-time model together have the heat capacity of the fluid in both legs of the U-tube, as equation (2) cited in the code requires.", "quantifier": "all borehole geometries and fluids", "why_tests_cant": "all geometries", "anchors": ["ghedt/peak_load_analysis_tool/radial_numerical_borehole.py:RadialNumericalBH.fill_radial_cell", "ghedt/peak_load_analysis_tool/radial_numerical_borehole.py:RadialNumericalBH.__init__"]}
{"id": "C78", "title": "short-time response suits the peak analysis", "statement": "The short-time g-function of every admissible borehole is a strictly increasing time list with non-decreasing values that starts before one hour and ends after 48 hours, so that the two-day peak analysis succeeds for every load profile outside its tolerance branch.", "quantifier": "all borehole geometries, load profiles and years", "why_tests_cant": "all geometries and load profiles", "anchors": ["ghedt/peak_load_analysis_tool/radial_numerical_borehole.py:RadialNumericalBH.calc_sts_g_functions", "ghedt/peak_load_analysis_tool/ground_loads.py:Loads.find_peak_durations", "ghedt/peak_load_analysis_tool/ground_loads.py:Loads.simulate_hourly"]}
{"id": "C79", "title": "short-time model has the borehole resistance", "statement": "The convection, pipe and grout cells of the short-time model have the film, pipe and borehole thermal resistances of the U-tube they replace.", "quantifier": "all borehole geometries", "why_tests_cant": "all geometries", "anchors": ["ghedt/peak_load_analysis_tool/radial_numerical_borehole.py:RadialNumericalBH.fill_radial_cell"]}
{"id": "C80", "title": "equivalent pipe wall meets the resistance target", "statement": "Among the wall conductivities equivalent_single_u_tube may choose (k/100 to 10k), the equivalent U-tube is left with the one whose fluid-to-pipe resistance is closest to the target.", "quantifier": "all geometries, flows, targets and root-finder behaviours", "why_tests_cant": "every thermal response of the objective", "anchors": ["ghedt/peak_load_analysis_tool/equivalance.py:equivalent_single_u_tube", "ghedt/peak_load_analysis_tool/equivalance.py:solve_root"]}
{"id": "C81", "title": "grout of the equivalent tube matches the effective resistance", "statement": "match_effective_borehole_resistance leaves a grout conductivity in [0.01, 7] whose effective borehole resistance is that of the original, or the closest attainable, with all resistances updated to it.", "quantifier": "all tubes, effective-resistance functions and root-finder behaviours", "why_tests_cant": "every thermal response", "anchors": ["ghedt/peak_load_analysis_tool/equivalance.py:match_effective_borehole_resistance", "ghedt/peak_load_analysis_tool/equivalance.py:solve_root"]}
{"id": "C82", "title": "resistances handed to the equivalence are those of the original", "statement": "u_tube_volumes and concentric_tube_volumes return the film and wall resistance of all flow channels in parallel, per metre.", "quantifier": "all geometries and film coefficients", "why_tests_cant": "all geometries", "anchors": ["ghedt/peak_load_analysis_tool/equivalance.py:u_tube_volumes", "ghedt/peak_load_analysis_tool/equivalance.py:concentric_tube_volumes"]}
{"id": "C83", "title": "equivalent legs resist like the original legs", "statement": "The legs of the equivalent single U-tube in parallel have the fluid-to-grout resistance of the legs of the original U-tubes in parallel.", "quantifier": "all geometries for which the target can be met", "why_tests_cant": "all geometries", "anchors": ["ghedt/peak_load_analysis_tool/equivalance.py:equivalent_single_u_tube", "ghedt/peak_load_analysis_tool/equivalance.py:u_tube_volumes"]}
{"id": "C84", "title": "Reynolds numbers", "statement": "compute_Reynolds and compute_Reynolds_concentric return m D_h/(A mu) with hydraulic diameter D_h = 4A/P, and the number reported for a U-tube is that of its pipes.", "quantifier": "all flows, radii and fluids", "why_tests_cant": "all reals", "anchors": ["ghedt/peak_load_analysis_tool/borehole_heat_exchangers.py:compute_Reynolds", "ghedt/peak_load_analysis_tool/borehole_heat_exchangers.py:compute_Reynolds_concentric", "ghedt/peak_load_analysis_tool/borehole_heat_exchangers.py:BasePipe.__repr__"]}
{"id": "C85", "title": "rectangle design end to end", "statement": "A rectangle design that succeeds returns a field on the land, no two boreholes closer than B_min, meeting the temperature limits, and no adequate candidate has fewer boreholes; with no admissible spacing it raises IndexError and with no bracketing it raises ValueError.", "quantifier": "all constraints, every construction, simulation and height limits", "why_tests_cant": "end-to-end over all inputs", "anchors": ["ghedt/design.py:Design.__init__", "ghedt/design.py:Design.find_design", "ghedt/search_routines.py:Bisection1D.__init__", "ghedt/search_routines.py:Bisection1D.search", "ghedt/domains.py:rectangular"]}
{"id": "C86", "title": "near-square design end to end", "statement": "A near-square design that succeeds returns a square or near-square grid of the given spacing that fits on a square land of the given length, meets the temperature limits, and has the fewest boreholes of the adequate candidates.", "quantifier": "all lengths, spacings, every construction and simulation", "why_tests_cant": "end-to-end over all inputs", "anchors": ["ghedt/design.py:Design.__init__", "ghedt/design.py:Design.find_design", "ghedt/utilities.py:number_of_boreholes", "ghedt/domains.py:square_and_near_square"]}
{"id": "C87", "title": "bi-rectangle design end to end", "statement": "A bi-rectangle design returns a field on the land at admissible spacing that meets the temperature limits and has the fewest boreholes of the adequate candidates; it succeeds whenever one borehole is not enough and the largest candidate is.", "quantifier": "all constraints, every construction and simulation", "why_tests_cant": "end-to-end over all inputs", "anchors": ["ghedt/design.py:Design.__init__", "ghedt/design.py:Design.find_design", "ghedt/search_routines.py:Bisection2D.__init__", "ghedt/domains.py:bi_rectangle_nested"]}
{"id": "C88", "title": "bi-zoned design end to end", "statement": "A bi-zoned design returns a field on the land, no two boreholes closer than B_min, within the temperature limits at the maximum height and left at its sized height.", "quantifier": "all constraints, every construction, simulation and sizing", "why_tests_cant": "end-to-end over all inputs", "anchors": ["ghedt/design.py:Design.__init__", "ghedt/design.py:Design.find_design", "ghedt/search_routines.py:BisectionZD.__init__", "ghedt/search_routines.py:BisectionZD.search_successive", "ghedt/domains.py:bi_rectangle_zoned_nested"]}
{"id": "C89", "title": "the combined g-function answers every simulated hour", "statement": "The curve joined from the short-time and the long-time response is strictly increasing in log time and answers every elapsed time from its first point up to the last long-time point with a value on the curve; any other elapsed time raises ValueError.", "quantifier": "all boreholes, long-time curves and elapsed times", "why_tests_cant": "all reals and geometries", "anchors": ["ghedt/ground_heat_exchangers.py:BaseGHE.grab_g_function", "ghedt/ground_heat_exchangers.py:BaseGHE.combine_sts_lts", "ghedt/ground_heat_exchangers.py:BaseGHE._simulate_detailed", "ghedt/peak_load_analysis_tool/radial_numerical_borehole.py:RadialNumericalBH.calc_sts_g_functions"]}
{"id": "C90", "title": "simulations of the design horizon never leave the g-function", "statement": "A detailed simulation of increasing times never asks the g-function for a time outside its curve, for every height within the limits and every horizon.", "quantifier": "all heights, horizons and load sequences", "why_tests_cant": "all horizons", "anchors": ["ghedt/ground_heat_exchangers.py:BaseGHE._simulate_detailed", "ghedt/ground_heat_exchangers.py:GHE.simulate"]}
{"id": "C91", "title": "the hybrid load sequence advances in time", "statement": "The hours of the hybrid load sequence built from the monthly loads increase strictly, from the start to the end of the last month.", "quantifier": "all monthly loads, durations, peak days and horizons", "why_tests_cant": "all durations and peak days", "anchors": ["ghedt/peak_load_analysis_tool/ground_loads.py:HybridLoad.process_monthly_loads"]}
{"id": "C92", "title": "sizing leaves no trace of its trials", "statement": "GHE.size leaves the height and results of its answer only: they are what a fresh heat exchanger at that height would produce, independent of the heights tried on the way.", "quantifier": "all root-finder dialogues, load sequences and height limits", "why_tests_cant": "all histories of trial heights", "anchors": ["ghedt/ground_heat_exchangers.py:GHE.size", "ghedt/ground_heat_exchangers.py:GHE.simulate", "ghedt/ground_heat_exchangers.py:BaseGHE.compute_g_functions"]}
{"id": "C93", "title": "excess not positive means limits met", "statement": "calculate_excess of a field at a height is not positive exactly when every temperature simulated for that field, height, spacing and per-borehole flow is within the limits.", "quantifier": "all fields, heights, flows and oracles", "why_tests_cant": "end-to-end over all inputs", "anchors": ["ghedt/search_routines.py:Bisection1D.calculate_excess", "ghedt/search_routines.py:Bisection1D.initialize_ghe", "ghedt/search_routines.py:Bisection1D.retrieve_flow", "ghedt/ground_heat_exchangers.py:GHE.simulate", "ghedt/ground_heat_exchangers.py:BaseGHE.cost"]}
{"id": "C94", "title": "the search can evaluate every field", "statement": "calculate_excess succeeds for every non-empty field of admissible boreholes and every year of loads whose horizon lies within the long-time response.", "quantifier": "all fields, boreholes and years of loads", "why_tests_cant": "end-to-end over all inputs", "anchors": ["ghedt/search_routines.py:Bisection1D.calculate_excess", "ghedt/search_routines.py:Bisection1D.initialize_ghe", "ghedt/ground_heat_exchangers.py:GHE.__init__", "ghedt/ground_heat_exchangers.py:GHE.simulate"]}
{"id": "C95", "title": "a returned design keeps the limits on the land", "statement": "Whatever routine is used, the field that find_design returns lies on the land at admissible spacing and a complete simulation of it at the maximum height (of a single borehole possibly at the minimum height) keeps every temperature within the limits; for the rectangle no candidate with fewer boreholes does, if more boreholes have the smaller excess.", "quantifier": "all constraints, boreholes, loads, height limits and oracles", "why_tests_cant": "end-to-end over all inputs", "anchors": ["ghedt/design.py:Design.find_design", "ghedt/search_routines.py:Bisection1D.search", "ghedt/search_routines.py:Bisection1D.calculate_excess", "ghedt/search_routines.py:Bisection1D.initialize_ghe", "ghedt/search_routines.py:Bisection2D.__init__", "ghedt/search_routines.py:BisectionZD.__init__", "ghedt/ground_heat_exchangers.py:GHE.simulate"]}
{"id": "C96", "title": "sizing continues from what the search saw", "statement": "After compute_g_functions the selected heat exchanger simulates at the maximum height (and, hourly, at the minimum height) exactly the temperatures the search simulated for that field and height.", "quantifier": "all fields, boreholes, loads, methods and oracles whose interpolants pass through their points", "why_tests_cant": "two separately built objects over all inputs", "anchors": ["ghedt/ground_heat_exchangers.py:BaseGHE.compute_g_functions", "ghedt/ground_heat_exchangers.py:GHE.simulate", "ghedt/search_routines.py:Bisection1D.initialize_ghe"]}
{"id": "C97", "title": "the delivered heat exchanger", "statement": "The heat exchanger after find_design, compute_g_functions and size has the boreholes of the selected field, a height within the limits and the results of a simulation at that height; within the tolerance of the root finder there is a height that keeps the limits, so the delivered one exceeds them by at most the change of the excess over the tolerance.", "quantifier": "all constraints, routines, methods, boreholes, loads and root-finder dialogues", "why_tests_cant": "end-to-end over all inputs and root finders", "anchors": ["ghedt/design.py:Design.find_design", "ghedt/ground_heat_exchangers.py:GHE.size", "ghedt/ground_heat_exchangers.py:BaseGHE.compute_g_functions", "ghedt/ground_heat_exchangers.py:GHE.simulate"]}
{"id": "C98", "title": "sizing again changes nothing", "statement": "compute_g_functions and size on a heat exchanger that has been sized before, with either method, leave exactly what they leave on the heat exchanger before.", "quantifier": "all fields, methods, boreholes, loads and root-finder dialogues", "why_tests_cant": "histories of method calls", "anchors": ["ghedt/ground_heat_exchangers.py:GHE.size", "ghedt/ground_heat_exchangers.py:BaseGHE.compute_g_functions", "ghedt/ground_heat_exchangers.py:GHE.simulate"]}
{"id": "C99", "title": "the bi-zoned design delivers the drilling it compared", "statement": "The heat exchanger of a bi-zoned design after sizing is the one the search left: its height is the height whose total drilling the search compared, and that drilling is the least of those compared.", "quantifier": "all constraints, boreholes, loads and root-finder dialogues", "why_tests_cant": "end-to-end over all inputs", "anchors": ["ghedt/search_routines.py:BisectionZD.search_successive", "ghedt/search_routines.py:BisectionZD.calculate_excess", "ghedt/ground_heat_exchangers.py:GHE.size"]}
{"id": "C100", "title": "the exported file describes the delivered heat exchanger", "statement": "oak_ridge_export after sizing writes the delivered height and number of boreholes, the equivalent U-tube at that height and points of the very g-function the delivered temperatures were calculated from; it succeeds whenever the long-time response begins after one hour.", "quantifier": "all constraints, routines, methods, boreholes and loads", "why_tests_cant": "end-to-end over all inputs", "anchors": ["ghedt/search_routines.py:oak_ridge_export", "ghedt/ground_heat_exchangers.py:BaseGHE.grab_g_function"]}
{"id": "C101", "title": "the short-time response slows down", "statement": "Under a constant heat flux the fluid temperature of the radial model rises every step by no more than the step before, the recorded g-function is strictly increasing and concave, and the hourly response read from it is positive, increasing and subadditive over two days.", "quantifier": "all admissible boreholes, correct solvers and numbers of steps", "why_tests_cant": "concavity is a statement about all steps of all boreholes", "anchors": ["ghedt/peak_load_analysis_tool/radial_numerical_borehole.py:RadialNumericalBH.calc_sts_g_functions", "ghedt/peak_load_analysis_tool/radial_numerical_borehole.py:RadialNumericalBH.fill_radial_cells"]}
{"id": "C102", "title": "the peak duration is the duration of the peak", "statement": "For loads of one sign whose highest hour on the two peak days is the peak of the month or exceeds it by at least 0.1, the duration found for a month does not exceed the span of the hours above the monthly average on the two peak days, and is at least the longest run of hours at the peak if the other hours are idle or above average; for a single block of k hours at the peak the duration is exactly k. If each hour counts by its load times its distance from the average, relative to the peak hour, the duration does not exceed K hours when the hours above the average count for at most 59/61 K, and is at least what is left of one hour when the hours below the average are taken off.", "quantifier": "all years of hourly loads, boreholes and solvers", "why_tests_cant": "the duration comes from interpolating a table of simulated peaks", "anchors": ["ghedt/peak_load_analysis_tool/ground_loads.py:HybridLoad.find_peak_durations", "ghedt/peak_load_analysis_tool/ground_loads.py:HybridLoad.perform_hrly_ExFT_simulation", "ghedt/peak_load_analysis_tool/radial_numerical_borehole.py:RadialNumericalBH.calc_sts_g_functions"]}
{"id": "C103", "title": "intermittent loads never break the hybrid method", "statement": "If in every month with load the first peak hour is not the month's first hour and lies above the mean, and on the peak day and the day after no hour exceeds it, the hours above the mean count (each by its load times its distance from the mean, relative to the peak hour) for at most 20 hours and those below it for at most 9/10 of an hour, then all durations lie between 1/10 and 21 hours, and evaluating a field succeeds exactly when its g-function reaches the end of the simulation.", "quantifier": "all years of loads, fields, boreholes and oracles", "why_tests_cant": "end-to-end over all inputs", "anchors": ["ghedt/peak_load_analysis_tool/ground_loads.py:HybridLoad.__init__", "ghedt/peak_load_analysis_tool/ground_loads.py:HybridLoad.process_month_loads", "ghedt/search_routines.py:Bisection1D.calculate_excess", "ghedt/ground_heat_exchangers.py:GHE.simulate"]}
{"id": "C104", "title": "short-time entries carry the time they are for", "statement": "Every entry of the short-time g-function is the response of the radial model at the recorded time.", "quantifier": "all admissible boreholes, solvers and entries", "why_tests_cant": "an off-by-one of 120 s is invisible to tolerances fitted to it", "anchors": ["ghedt/peak_load_analysis_tool/radial_numerical_borehole.py:RadialNumericalBH.calc_sts_g_functions"]}
{"id": "C105", "title": "hybrid loads of single-block peaks are the same for every borehole", "statement": "If in every month the two peak days hold one block of hours at the peak and no other load, every peak lasts exactly as long as its block, so the hybrid load sequence, and with it the loads of every field the search evaluates, does not depend on the height, the borehole, the soil, the fluid or the flow.", "quantifier": "all such years of loads, all pairs of boreholes, fields, heights and oracles", "why_tests_cant": "compares two arbitrary boreholes", "anchors": ["ghedt/peak_load_analysis_tool/ground_loads.py:HybridLoad.find_peak_durations", "ghedt/peak_load_analysis_tool/ground_loads.py:HybridLoad.process_month_loads", "ghedt/search_routines.py:Bisection1D.initialize_ghe"]}
{"id": "C106", "title": "a bi-zoned design exists when the densest grid is enough", "statement": "The bi-zoned search succeeds whenever one borehole is not enough, the densest grid is enough at the maximum height and every candidate can be evaluated and sized.", "quantifier": "all constraints, every construction, simulation and sizing", "why_tests_cant": "end-to-end over all inputs", "anchors": ["ghedt/design.py:Design.find_design", "ghedt/search_routines.py:BisectionZD.__init__", "ghedt/search_routines.py:BisectionZD.search_successive"]}
{"id": "C107", "title": "what follows a successful search", "statement": "The excess of the selected field at the two height limits decides the outcome: both are never positive; both negative, it is delivered at the maximum height; different signs, at the height the root finder evaluated last; exactly zero at a limit, sizing raises ZeroDivisionError.", "quantifier": "all constraints, routines, methods, boreholes, loads and root-finder dialogues", "why_tests_cant": "end-to-end over all inputs and root finders", "anchors": ["ghedt/design.py:Design.find_design", "ghedt/ground_heat_exchangers.py:GHE.size", "ghedt/ground_heat_exchangers.py:BaseGHE.compute_g_functions"]}
{"id": "C108", "title": "the table of the peak analysis", "statement": "create_dataframe_of_peak_analysis has a row for every month and a column for every quantity of either kind of load, and the cell of a month and a quantity is what was found for that month: the sum, largest and mean load of its hours, its peak day and peak duration.", "quantifier": "all loads of all years", "why_tests_cant": "all tables of loads", "anchors": ["ghedt/peak_load_analysis_tool/ground_loads.py:HybridLoad.create_dataframe_of_peak_analysis", "ghedt/peak_load_analysis_tool/ground_loads.py:number_to_month", "ghedt/peak_load_analysis_tool/ground_loads.py:monthindex"]}
{"id": "C109", "title": "minor ticks", "statement": "The minor ticks of a symmetric logarithmic axis increase and divide every interval between major ticks, and one on either side, into equal parts.", "quantifier": "all major ticks, thresholds and numbers of intervals", "why_tests_cant": "all lists of reals", "anchors": ["ghedt/utilities.py:MinorSymLogLocator.__call__"]}
{"id": "C110", "title": "the search at double precision", "statement": "Run on IEEE doubles, the sign function and every comparison of the search are exact, so the field it returns has a negative simulated excess at the maximum height (or is the first field and has one at the minimum height), and for excesses that fall from field to field it returns the first with a negative excess.", "quantifier": "all domains, all simulations returning any double including infinities and nan", "why_tests_cant": "all doubles", "anchors": ["ghedt/search_routines.py:Bisection1D.search", "ghedt/utilities.py:sign"]}
{"id": "C111", "title": "the arithmetic of the model at double precision", "statement": "The operations of the model on doubles are those of IEEE 754: every sum, difference, product and quotient is a double nearest to the exact result unless that overflows, within a relative 2^-53 unless a product or quotient underflows; comparisons, absolute values, floors and ceilings are exact.", "quantifier": "all pairs of finite doubles", "why_tests_cant": "2^128 pairs of doubles", "anchors": ["ghedt/utilities.py:sign", "ghedt/utilities.py:number_of_boreholes", "ghedt/coordinates.py:rectangle"]}
{"id": "C112", "title": "counting boreholes at double precision", "statement": "number_of_boreholes on doubles gives the count of exact arithmetic and recovers the number of boreholes a side was made for.", "quantifier": "all finite doubles with a quotient below 2^52", "why_tests_cant": "rounding decides only for particular pairs of doubles", "anchors": ["ghedt/utilities.py:number_of_boreholes", "ghedt/utilities.py:length_of_side"]}
{"id": "C113", "title": "grids at double precision", "statement": "A rectangular grid of doubles has every coordinate within a relative 2^-53 of its place, no two boreholes coincide, neighbours keep the spacing but for a relative 2^-52 per borehole in the row, and a row spread over a length ends at that length.", "quantifier": "all counts below 2^52 and all normal spacings", "why_tests_cant": "all grids of doubles", "anchors": ["ghedt/coordinates.py:rectangle", "ghedt/utilities.py:spacing_along_length"]}
{"id": "C114", "title": "rectangular candidates at double precision", "statement": "For land lengths of 2^-300 to 2^300, at most 2^30 times the minimum spacing and no less than 2^-50 times the maximum spacing, the rectangular domain is always produced on doubles and each candidate is not empty, stays on the land and keeps the minimum spacing up to relative errors of 2^-50 and 2^-20.", "quantifier": "all doubles in that range", "why_tests_cant": "all quadruples of doubles", "anchors": ["ghedt/domains.py:rectangular"]}
{"id": "C115", "title": "rectangular candidates grow at double precision", "statement": "For land and spacings of the range of C114 the rectangular candidates computed on doubles start with a single borehole and each has more boreholes than the one before.", "quantifier": "all doubles in that range", "why_tests_cant": "rounding could repeat or reverse a count for particular doubles", "anchors": ["ghedt/domains.py:rectangular"]}
{"id": "C116", "title": "designs at double precision", "statement": "With coordinates and temperatures in doubles, the field a design returns has a negative simulated excess at the maximum height (or is the first field and has one at the minimum height), lies on the land and keeps the minimum spacing up to rounding; a rectangle design returns the fewest boreholes if more boreholes have the smaller excess.", "quantifier": "all doubles of the range of C114, all simulations returning any double", "why_tests_cant": "end-to-end over all doubles", "anchors": ["ghedt/design.py:Design.find_design", "ghedt/domains.py:rectangular", "ghedt/domains.py:bi_rectangle_nested", "ghedt/domains.py:square_and_near_square", "ghedt/domains.py:bi_rectangle_zoned_nested", "ghedt/search_routines.py:Bisection1D.search", "ghedt/search_routines.py:Bisection2D.__init__", "ghedt/search_routines.py:BisectionZD.search_successive"]}
{"id": "C117", "title": "zoned rectangles at double precision", "statement": "On doubles a zoned domain is always produced for 3 or more rows and columns; it starts with the perimeter and one borehole inside, every field has more boreholes than the one before, it ends with the full grid, the rows inside are added in the order of exact arithmetic unless two choices are equally good, and all boreholes lie inside and keep the spacing of the perimeter up to rounding.", "quantifier": "all sides of 2^-300 to 2^300 and counts of 3 to 2^31", "why_tests_cant": "the loop ends on an equality of counts that rounded comparisons lead to", "anchors": ["ghedt/domains.py:zoned_rectangle_domain", "ghedt/coordinates.py:zoned_rectangle"]}
{"id": "C118", "title": "bi-zoned candidates at double precision", "statement": "For the doubles of C114 with one maximum spacing fitting into each side and room for one more row, the bi-zoned domains are produced on doubles; every domain grows with every field, and every field has boreholes, lies on the land and keeps the minimum spacing up to relative errors of 2^-49 and 2^-16.", "quantifier": "all doubles in that range", "why_tests_cant": "all quintuples of doubles", "anchors": ["ghedt/domains.py:bi_rectangle_zoned_nested", "ghedt/domains.py:zoned_rectangle_domain"]}
{"id": "C119", "title": "a finished design is not changed by later designs", "statement": "Work on other designs (find_design, compute_g_functions, size, simulate) leaves a finished heat exchanger with its height and its temperatures.", "quantifier": "all scripts over any number of designs, borehole objects and heat exchangers", "why_tests_cant": "aliasing of one mutable borehole object between designs shows only in histories of several designs", "anchors": ["ghedt/design.py:Design.find_design", "ghedt/search_routines.py:Bisection1D.__init__", "ghedt/search_routines.py:Bisection1D.initialize_ghe", "ghedt/ground_heat_exchangers.py:BaseGHE.__init__", "ghedt/ground_heat_exchangers.py:GHE.size"]}
{"id": "C120", "title": "finding a design again finds the same", "statement": "What find_design returns does not depend on the height that the given borehole has when it is called, as long as the first candidate can be built at that height; so calling it again, on the borehole it has changed, gives the same selection, evaluations and heat exchanger.", "quantifier": "all designs, heights of the borehole and oracles", "why_tests_cant": "pairs of runs from different states", "anchors": ["ghedt/design.py:Design.find_design", "ghedt/search_routines.py:Bisection1D.__init__", "ghedt/search_routines.py:Bisection1D.search", "ghedt/search_routines.py:Bisection2D.__init__", "ghedt/search_routines.py:BisectionZD.__init__"]}
{"id": "C121", "title": "sizing anew undoes what other designs did", "statement": "Whatever other designs did to the borehole in between, compute_g_functions and size on a heat exchanger give exactly what they would have given before, and restore one that had been sized.", "quantifier": "all scripts in between, all heat exchangers, methods and root-finder dialogues", "why_tests_cant": "histories of several designs", "anchors": ["ghedt/ground_heat_exchangers.py:GHE.size", "ghedt/ground_heat_exchangers.py:BaseGHE.compute_g_functions"]}
{"id": "C122", "title": "the example scripts get their designs", "statement": "Every script in ghedt/examples/Design constructs its Design objects and gets candidates from the routine it is named after, whatever positive lengths and spacings are written into it or read from its parameter file.", "quantifier": "for all lengths, widths, spacings and parameter files, in every arithmetic where the script fails", "why_tests_cant": "The scripts are not run by the tests; that a keyword or an argument is wrong for every input shows only when the script is run, and for which inputs it could work at all is not a question a run answers.", "anchors": ["ghedt/media.py:GeometricConstraints.__init__", "ghedt/media.py:GeometricConstraints.check_inputs", "ghedt/examples/Design/FromFile/design_from_ornl_json_input.py:main", "ghedt/examples/Design/FromFile/create_near_square_input_file.py:main", "ghedt/examples/Design/FromFile/create_rectangular_input_file.py:main", "ghedt/examples/Design/find_bi_zoned_rectangle.py:main"]}
{"id": "C123", "title": "only temperature differences matter", "statement": "Raising the ground temperature and both temperature limits by the same amount changes nothing in a design: every field evaluated has the same excess, the same field is selected, the exchanger gets the same height and is exported alike, and its fluid temperatures are higher by that amount; the same exceptions are raised.", "quantifier": "all amounts, all settings, loads, routines, methods and all pygfunctions, root finders, solvers and interpolants", "why_tests_cant": "compares two whole runs for every amount and every input", "anchors": ["ghedt/search_routines.py:Bisection1D.calculate_excess", "ghedt/search_routines.py:Bisection1D.search", "ghedt/ground_heat_exchangers.py:GHE._simulate_detailed", "ghedt/ground_heat_exchangers.py:GHE.simulate", "ghedt/ground_heat_exchangers.py:GHE.cost", "ghedt/ground_heat_exchangers.py:GHE.size", "ghedt/peak_load_analysis_tool/ground_loads.py:HybridLoad.__init__"]}
{"id": "C124", "title": "heating and cooling are treated alike", "statement": "Turning every heating load into the same cooling load and vice versa, and mirroring the temperature limits about the ground temperature, changes nothing in a design: the same fields are evaluated with the same excess, the same field is selected and sized to the same height, and the fluid temperatures are mirrored about the ground temperature; the same exceptions are raised.", "quantifier": "all settings with nonzero soil conductivity, loads, routines, methods and all pygfunctions, root finders, solvers and interpolants", "why_tests_cant": "compares two whole runs for every input; the code for the two kinds of load is written twice", "anchors": ["ghedt/search_routines.py:Bisection1D.calculate_excess", "ghedt/ground_heat_exchangers.py:GHE._simulate_detailed", "ghedt/ground_heat_exchangers.py:GHE.simulate", "ghedt/ground_heat_exchangers.py:GHE.cost", "ghedt/ground_heat_exchangers.py:GHE.size", "ghedt/peak_load_analysis_tool/ground_loads.py:HybridLoad.__init__", "ghedt/peak_load_analysis_tool/ground_loads.py:HybridLoad.split_heat_and_cool", "ghedt/peak_load_analysis_tool/ground_loads.py:HybridLoad.split_loads_by_month", "ghedt/peak_load_analysis_tool/ground_loads.py:HybridLoad.find_peak_durations", "ghedt/peak_load_analysis_tool/ground_loads.py:HybridLoad.process_month_loads"]}
{"id": "C125", "title": "relaxing the temperature limits never costs boreholes", "statement": "If a design succeeds, the design for the same input with a higher maximum and a lower minimum entering temperature succeeds too, with at most as many boreholes.", "quantifier": "all settings, loads, land, limits and all pygfunctions, root finders, solvers and interpolants", "why_tests_cant": "compares two whole runs for every input and every pair of limits", "anchors": ["ghedt/search_routines.py:Bisection1D.calculate_excess", "ghedt/search_routines.py:Bisection1D.search", "ghedt/ground_heat_exchangers.py:GHE.cost", "ghedt/design.py:Design.find_design"]}
{"id": "C126", "title": "how a design ends when the inputs make physical sense", "statement": "If every candidate can be built at both height limits and its g-function reaches the end of the simulation, a near-square, rectangle or bi-rectangle design returns one of the candidates, or it raises IndexError because there are no candidates, ValueError because one candidate at both heights and another at the maximum height are all within or all beyond the limits, or ZeroDivisionError because a candidate's excess is exactly 0. Nothing else can happen. A bi-zoned design on land with three or more rows and columns can also end with ValueError because a candidate is within the limits at the minimum height only, or with the exception of sizing one of its candidates. A g-function that ends too early also raises ValueError.", "quantifier": "all settings, years of loads with distinguishable peaks, land, methods hybrid and hourly, and all pygfunctions, root finders and interpolants, and solvers that solve", "why_tests_cant": "that no other exception is left is a statement about every input", "anchors": ["ghedt/search_routines.py:Bisection1D.__init__", "ghedt/search_routines.py:Bisection1D.calculate_excess", "ghedt/search_routines.py:Bisection1D.search", "ghedt/search_routines.py:Bisection2D.__init__", "ghedt/ground_heat_exchangers.py:GHE.simulate", "ghedt/ground_heat_exchangers.py:GHE.cost", "ghedt/design.py:Design.find_design"]}
{"id": "C127", "title": "the place and order of the boreholes matter only through the field response", "statement": "Two fields of as many boreholes, for which pygfunction gives the same response, are evaluated to the same excess at every height, can be built at the same heights, are sized to the same height and are exported alike.", "quantifier": "all pairs of fields, settings, loads, methods, pygfunctions, root finders, solvers and interpolants", "why_tests_cant": "compares two runs for every pair of fields", "anchors": ["ghedt/search_routines.py:Bisection1D.initialize_ghe", "ghedt/search_routines.py:Bisection1D.calculate_excess", "ghedt/ground_heat_exchangers.py:BaseGHE.__init__", "ghedt/ground_heat_exchangers.py:BaseGHE.compute_g_functions", "ghedt/ground_heat_exchangers.py:GHE.size", "ghedt/utilities.py:borehole_spacing"]}
{"id": "C128", "title": "turning the land by a quarter turns the design", "statement": "Exchanging length and width of the land (and the greatest spacings along them) gives the turned candidates and the turned design, with the same boreholes, height and temperatures, if pygfunction answers the same for a turned field.", "quantifier": "all land, spacings, settings, loads, methods and all pygfunctions that do not see the orientation", "why_tests_cant": "compares two whole runs for every input; the code has a branch for each orientation", "anchors": ["ghedt/domains.py:rectangular", "ghedt/domains.py:bi_rectangle_nested", "ghedt/domains.py:bi_rectangle_zoned_nested", "ghedt/coordinates.py:transpose_coordinates", "ghedt/design.py:Design.find_design"]}
{"id": "C129", "title": "what is saved to a file can be read back", "statement": "A value saved by js_dump or create_input_file is read back by js_load or read_input_file given the same name, no other file is changed, a failing save keeps the earlier file, and a design saved to a file and loaded exports what the design itself would have exported.", "quantifier": "all file systems, names, values, sequences of saves and all encoders", "why_tests_cant": "names, contents and histories of saves are unbounded", "anchors": ["ghedt/utilities.py:js_dump", "ghedt/utilities.py:js_load", "ghedt/utilities.py:create_if_not", "ghedt/utilities.py:create_input_file", "ghedt/utilities.py:read_input_file", "ghedt/examples/Design/FromFile/design_from_input.py:main"]}
{"id": "C130", "title": "g-functions supplied by the user are used at each height as stored", "statement": "A heat exchanger made with stored g-functions uses at every simulated height the curve interpolated at that height (times stored over given spacing), a stored curve itself at its own height; sizing it does not depend on the order of the simulations, ends within the limits and leaves the object that one simulation at the final height leaves; and supplying more curves does not make sizing fail.", "quantifier": "all stored curves, spacings, limits, settings, loads, methods and all root finders, solvers and interpolants", "why_tests_cant": "the interpolants are made once and kept, so the answer could depend on any earlier request", "anchors": ["ghedt/gfunction.py:GFunction.g_function_interpolation", "ghedt/gfunction.py:GFunction.configure_database_file_for_usage", "ghedt/gfunction.py:compute_live_g_function", "ghedt/ground_heat_exchangers.py:GHE.simulate", "ghedt/ground_heat_exchangers.py:GHE.size", "ghedt/examples/gFunctions/computed_g_function_sim_and_size.py:main", "ghedt/examples/gFunctions/live_g_function_sim_and_size.py:main"]}
{"id": "C131", "title": "the unit of length does not matter", "statement": "Giving all lengths (land, spacings, heights) in another unit gives the same candidates, the same search and the same design in that unit, if the heat exchangers themselves are evaluated the same.", "quantifier": "all units, land, spacings, height limits and all heat exchangers, point-in-polygon tests and polygons", "why_tests_cant": "compares two whole runs for every factor and input; any absolute length hidden in the code would break it", "anchors": ["ghedt/coordinates.py:rectangle", "ghedt/coordinates.py:open_rectangle", "ghedt/coordinates.py:L_shape", "ghedt/coordinates.py:lop_U", "ghedt/coordinates.py:C_shape", "ghedt/coordinates.py:zoned_rectangle", "ghedt/domains.py:square_and_near_square", "ghedt/domains.py:rectangular", "ghedt/domains.py:bi_rectangle_nested", "ghedt/domains.py:bi_rectangle_zoned_nested", "ghedt/domains.py:polygonal_land_constraint", "ghedt/utilities.py:polygonal_area", "ghedt/utilities.py:borehole_spacing", "ghedt/utilities.py:number_of_boreholes", "ghedt/search_routines.py:Bisection1D.search", "ghedt/search_routines.py:Bisection2D.__init__", "ghedt/search_routines.py:BisectionZD.search_successive"]}
{"id": "C132", "title": "the printed report shows the heat exchanger", "statement": "Printing a heat exchanger with twelve months of loads gives a report, changes nothing, and a reader who looks up a label below a heading finds the number of boreholes, height, spacing, the resistances and flows of the heat exchanger and of its equivalent, the design limits, the highest, lowest and excess temperature of the last simulation, the table of monthly peaks, the place of every borehole and a sample of the g-function, each rounded to at most 1/20000; the results are below a heading of their own.", "quantifier": "all heat exchangers a design can deliver, loads, and all texts of numbers and of objects of other packages that do not look like entries or headings", "why_tests_cant": "any label could be another's beginning and any value could be printed from the wrong object; the report has as many lines as there are boreholes", "anchors": ["ghedt/ground_heat_exchangers.py:BaseGHE.justify", "ghedt/ground_heat_exchangers.py:BaseGHE.header", "ghedt/ground_heat_exchangers.py:BaseGHE.__repr__", "ghedt/ground_heat_exchangers.py:GHE.__repr__", "ghedt/peak_load_analysis_tool/media.py:ThermalProperty.__repr__", "ghedt/peak_load_analysis_tool/media.py:Pipe.__repr__", "ghedt/peak_load_analysis_tool/media.py:Soil.__repr__", "ghedt/peak_load_analysis_tool/media.py:SimulationParameters.__repr__", "ghedt/peak_load_analysis_tool/borehole_heat_exchangers.py:BasePipe.__repr__", "ghedt/peak_load_analysis_tool/borehole_heat_exchangers.py:SingleUTube.__repr__", "ghedt/peak_load_analysis_tool/borehole_heat_exchangers.py:MultipleUTube.__repr__", "ghedt/peak_load_analysis_tool/borehole_heat_exchangers.py:CoaxialBase.__repr__", "ghedt/peak_load_analysis_tool/ground_loads.py:HybridLoad.__repr__"]}
{"id": "C133", "title": "a wider range of heights never costs boreholes", "statement": "If more boreholes and deeper boreholes help at the height limits, a rectangle or near-square design that succeeds also succeeds with a higher maximum and a lower minimum height, with at most as many boreholes; lowering only the minimum height leaves the selection as it is.", "quantifier": "all settings, loads, land, height limits and all pygfunctions, root finders, solvers and interpolants", "why_tests_cant": "compares two whole runs for every input and every pair of ranges", "anchors": ["ghedt/search_routines.py:Bisection1D.calculate_excess", "ghedt/search_routines.py:Bisection1D.search", "ghedt/design.py:Design.find_design"]}
{"id": "C134", "title": "what the heat-exchanger scripts print", "statement": "The scripts in examples/BHE print the Reynolds number, wall resistance, film coefficient and effective resistance of the exchanger with the given volume flow (half of it per parallel tube), and the convective resistance; validation.py collects one point per flow in the order of the flows; the equivalents they print have the given flow, the volumes of the original and its effective resistance unless the grout is at an end of its range.", "quantifier": "all flows, fluids, pipes and boreholes, lists of flows of any length, all pygfunctions and root finders", "why_tests_cant": "the values printed are not compared with anything; the claim is about every input and the whole list of flows", "anchors": ["ghedt/examples/BHE/BoreholeResistance/SingleUTube.py:main", "ghedt/examples/BHE/BoreholeResistance/DoubleUTube.py:main", "ghedt/examples/BHE/BoreholeResistance/Coaxial.py:main", "ghedt/examples/BHE/BoreholeResistance/validation.py:main", "ghedt/examples/BHE/EquivalentPipes/double_to_single_u_tube.py:main", "ghedt/examples/BHE/EquivalentPipes/coaxial_to_single_u_tube.py:main"]}
{"id": "C135", "title": "more land never costs boreholes", "statement": "With a longer property, and with a smaller permitted spacing, a near-square and a rectangle design select the field they selected before; a larger rectangle never selects a field with more boreholes than the smaller one.", "quantifier": "all lengths, widths and spacings, all simulations in which more boreholes have the smaller excess, candidate lists up to 32769 fields", "why_tests_cant": "each test designs for one property; the claim relates two designs, for all properties", "anchors": ["ghedt/domains.py:square_and_near_square", "ghedt/domains.py:rectangular", "ghedt/search_routines.py:Bisection1D.search", "ghedt/design.py:DesignNearSquare.__init__", "ghedt/design.py:DesignRectangle.__init__"]}
{"id": "C136", "title": "proportional loads and temperature differences give the same design", "statement": "With all loads, and the distances of both temperature limits from the temperature of the ground, multiplied by the same positive number, the search selects the same field after the same simulations with proportional excesses, and the delivered exchanger has the same height and g-functions and proportional temperatures; with smaller loads, or limits proportionally wider, a rectangle or near-square design has no more boreholes.", "quantifier": "all factors, loads, settings, constraints, routines and methods, all pygfunctions, solvers and interpolants, and all root finders that ask for the same points when all values are multiplied", "why_tests_cant": "compares two whole runs for every factor and input; any absolute load or temperature hidden in the code would break it", "anchors": ["ghedt/peak_load_analysis_tool/ground_loads.py:HybridLoad.find_peak_durations", "ghedt/peak_load_analysis_tool/ground_loads.py:HybridLoad.perform_current_month_simulation", "ghedt/peak_load_analysis_tool/ground_loads.py:HybridLoad.process_monthly_loads", "ghedt/ground_heat_exchangers.py:GHE.simulate", "ghedt/ground_heat_exchangers.py:BaseGHE.cost", "ghedt/ground_heat_exchangers.py:GHE.size", "ghedt/search_routines.py:Bisection1D.search", "ghedt/search_routines.py:BisectionZD.search_successive"]}
{"id": "C137", "title": "a shorter design period never needs more boreholes", "statement": "Simulated hour by hour over whole years, the temperatures of a shorter period are the beginning of those of a longer one, so a field that keeps the limits for the longer period keeps them for the shorter one, its excess is not larger, and a rectangle or near-square design for the shorter period has no more boreholes.", "quantifier": "all numbers of years, start months, loads, settings, fields, heights and land, all pygfunctions, root finders, solvers and interpolants", "why_tests_cant": "compares two runs for every pair of periods; each test has one period", "anchors": ["ghedt/ground_heat_exchangers.py:GHE.simulate", "ghedt/ground_heat_exchangers.py:BaseGHE._simulate_detailed", "ghedt/ground_heat_exchangers.py:BaseGHE.cost", "ghedt/search_routines.py:Bisection1D.calculate_excess", "ghedt/search_routines.py:Bisection1D.search"]}
{"id": "C138", "title": "the figures show what they are labelled", "statement": "Figures of a field or an area show every borehole, and every outline closed; visualize_domain writes one file per field, numbered by its index, none over another; the figure of g-functions has a curve per stored height with its own label; the figures of the loads show the rejection as rejection and the extraction as extraction; the figure of a month shows that month's temperatures.", "quantifier": "all fields, lists of fields of any length, outlines, g-function objects, load profiles and months", "why_tests_cant": "no test draws a figure; the claim is about every list of fields and every load profile", "anchors": ["ghedt/coordinates.py:visualize_coordinates", "ghedt/domains.py:visualize_domain", "ghedt/gfunction.py:GFunction.visualize_g_functions", "ghedt/gfunction.py:GFunction.visualize_borefield", "ghedt/gfunction.py:GFunction.visualize_area_and_constraints", "ghedt/peak_load_analysis_tool/ground_loads.py:HybridLoad.visualize_hourly_heat_extraction", "ghedt/peak_load_analysis_tool/ground_loads.py:HybridLoad.visualize_fluid_simulation_results"]}
