{"id": "C01", "title": "Heap is a priority queue", "statement": "After any history of insert(x, ID) and get_min() calls on an initialized heap (with finite x and never popping an empty heap), get_min returns the smallest value still stored, get_min_ID returns an ID that was inserted together with that value, and the multiset of (value, ID) pairs stored is exactly what was inserted minus what was popped; non-finite values are rejected and change nothing.", "quantifier": "all finite sequences of insert/get_min operations, all values and IDs", "why_tests_cant": "Heap order is an invariant over arbitrary operation histories; a test exercises only some histories and sizes.", "anchors": ["topoflow/utils/heap_base.py: heap_base.initialize, insert, get_min_ID, get_min"]}
{"id": "C02", "title": "Pit filling never lowers terrain, and terminates", "statement": "fill_pits(DEM) terminates on every DEM, leaves every elevation at least as high as before, raises a cell only to an elevation already present in the DEM, and leaves every start pixel unchanged.", "quantifier": "all grid shapes nx, ny >= 1 and all elevation grids", "why_tests_cant": "Termination and monotonicity are for-all-DEM claims about a heap driven loop.", "anchors": ["topoflow/utils/fill_pits.py: fill_pits, get_start_pixels"]}
{"id": "C03", "title": "Pit filling produces the lowest depression-free surface", "statement": "For a DEM without nodata cells, after fill_pits the elevation of every cell equals the minimum over all 8-neighbour paths from a start pixel of the maximum original elevation along the path; in particular every interior cell has a non-ascending 8-neighbour path to a start (boundary) pixel.", "quantifier": "all grid shapes, all nodata-free elevation grids, all paths", "why_tests_cant": "Optimality quantifies over all paths in all grids.", "anchors": ["topoflow/utils/fill_pits.py: fill_pits, get_start_pixels"]}
{"id": "C04", "title": "Pit filling respects boundary and nodata cells", "statement": "fill_pits leaves every DEM boundary cell (where water can exit) and every nodata cell unchanged.", "quantifier": "all DEMs", "why_tests_cant": "Which boundary/nodata layouts break it can only be excluded for all layouts by proof; here the code violates it.", "anchors": ["topoflow/utils/fill_pits.py: get_start_pixels (left/right edge IDs), fill_pits (CLOSED initialisation)"]}
{"id": "C05", "title": "D8 tie resolution picks one steepest direction", "statement": "For every nonzero combination of tied direction bits the resolve table returns exactly one of the tied directions.", "quantifier": "all 255 nonzero direction bit sets", "why_tests_cant": "The claim is about the entire table as generated by the cyclic construction, not a sampled entry.", "anchors": ["topoflow/components/d8_base.py: get_resolve_array, resolve_array_cycle"]}
{"id": "C06", "title": "D8 codes are valid and point downhill", "statement": "After update_flow_grid every cell holds 0 or one of the 8 direction codes; a cell with a nonzero code flows to a grid neighbour that is not higher than itself; if strictly lower neighbours exist the code is a direction of steepest descent; boundary cells of a non-periodic grid and nodata/NaN cells hold 0.", "quantifier": "all DEMs, grid shapes, cell sizes, option flags", "why_tests_cant": "Ranges over an unbounded family of inputs/histories; a test samples finitely many.", "anchors": ["topoflow/components/d8_global.py: update_flow_grid, start_new_d8_codes, break_flow_grid_ties, link_flats"]}
{"id": "C07", "title": "D8 flow network is acyclic", "statement": "Following D8 codes from any cell, for any DEM (including flats linked by LINK_FLATS), never revisits a cell: the walk reaches a cell with code 0 in fewer steps than there are cells.", "quantifier": "all DEMs and all starting cells", "why_tests_cant": "Loops in flats are a classic global failure that depends on the whole grid.", "anchors": ["topoflow/components/d8_global.py: link_flats, start_new_d8_codes, update_flow_grid"]}
{"id": "C08", "title": "Flat linking terminates and links every connectable flat", "statement": "link_flats terminates for every grid; when it stops, no still-unresolved flat has a neighbour of equal elevation (in its allowed directions) with a resolved, not-opposing code.", "quantifier": "all code grids produced from any DEM", "why_tests_cant": "Loop termination and a completeness claim at the fixpoint.", "anchors": ["topoflow/components/d8_global.py: link_flats"]}
{"id": "C09", "title": "Parent IDs are the D8 neighbour", "statement": "After update_parent_ID_grid, every interior cell with nonzero code has as parent the flat ID of the neighbour its code points to; cells with code 0 have parent 0; for each single direction code the map from cells to parents is injective.", "quantifier": "all code grids, all shapes, periodic or not", "why_tests_cant": "Index arithmetic over every cell/shape/wrap combination.", "anchors": ["topoflow/components/d8_global.py: update_parent_ID_grid, update_flow_from_IDs, update_flow_to_IDs", "topoflow/components/d8_base.py: get_flow_code_list, get_inc_map"]}
{"id": "C10", "title": "Contributing area is the sum of upstream pixel areas", "statement": "After update_area_grid on an acyclic flow grid, the area at every cell with nonzero code equals its pixel area plus the areas of every cell that drains to it, directly or indirectly; the loop terminates.", "quantifier": "all acyclic D8 grids and positive pixel areas", "why_tests_cant": "A global recursive quantity over arbitrary networks, plus loop termination.", "anchors": ["topoflow/components/d8_global.py: update_area_grid"]}
{"id": "C11", "title": "Channel routing conserves water", "statement": "In one update_flow_volume step (no clipping), total volume changes by exactly dt times (sum of R*da minus the discharge leaving through cells that have no downstream parent): every cell's outflow arrives in its parent, nothing is lost by the eight grouped scatter-adds.", "quantifier": "all D8 grids, discharges, runoff grids, time steps", "why_tests_cant": "The scatter-adds are only lossless if no two cells of one direction share a parent - a claim about all grids.", "anchors": ["topoflow/components/channels_base.py: update_flow_volume"]}
{"id": "C12", "title": "Channel volume never negative; clipping can only create water", "statement": "After each step volumes are >= 0, and the mass-balance error introduced by clipping is non-negative and zero exactly when no cell exports more than it holds.", "quantifier": "all states and histories of steps", "why_tests_cant": "Ranges over an unbounded family of inputs/histories; a test samples finitely many.", "anchors": ["topoflow/components/channels_base.py: update_flow_volume"]}
{"id": "C13", "title": "Channel/flood split is exact", "statement": "vol_chan + vol_flood = vol, 0 <= vol_chan <= vol_bankfull, and vol_flood > 0 only when the channel is full.", "quantifier": "all volumes and bankfull volumes", "why_tests_cant": "For-all inequality over reals.", "anchors": ["topoflow/components/channels_base.py: update_channel_volume, update_flood_volume"]}
{"id": "C14", "title": "Channel depth inverts the trapezoid volume", "statement": "The depth computed by update_channel_depth is the unique d >= 0 with ds*d*(width + d*tan(angle)) = vol (in both the rectangular and trapezoidal branches), and update_trapezoid_Rh returns exactly that cross-section area.", "quantifier": "all volumes >= 0, widths > 0, bank angles in [0, pi/2)", "why_tests_cant": "Algebraic inverse over the reals.", "anchors": ["topoflow/components/channels_base.py: update_channel_depth, update_trapezoid_Rh"]}
{"id": "C15", "title": "Hydraulic radius, Manning and law-of-wall velocities are well-behaved", "statement": "For positive depth 0 < Rh <= depth, velocity is >= 0, is 0 when depth is 0, and is non-decreasing in depth and |slope|.", "quantifier": "all physical parameter values", "why_tests_cant": "Ranges over an unbounded family of inputs/histories; a test samples finitely many.", "anchors": ["topoflow/components/channels_base.py: update_trapezoid_Rh, manning_formula, law_of_the_wall"]}
{"id": "C16", "title": "Peak values are running maxima", "statement": "Q_peak/u_peak/d_peak after any history equal the maximum of the outlet values seen (and the initial value), and T_peak is the first time at which that maximum was attained.", "quantifier": "all histories of outlet values", "why_tests_cant": "History property.", "anchors": ["topoflow/components/channels_base.py: update_peak_values"]}
{"id": "C17", "title": "Bad-slope repair", "statement": "remove_bad_slopes leaves all finite positive slopes unchanged and replaces every other value with the smallest positive finite slope of the original grid; afterwards all slopes are positive; it fails when no cell is good.", "quantifier": "all slope grids including NaN, zero, negative, infinite", "why_tests_cant": "Ranges over an unbounded family of inputs/histories; a test samples finitely many.", "anchors": ["topoflow/components/channels_base.py: remove_bad_slopes"]}
{"id": "C18", "title": "Invalid depth aborts the run", "statement": "check_flow_depth raises whenever any depth is negative, NaN or infinite and otherwise passes.", "quantifier": "all depth grids", "why_tests_cant": "For all NaN/inf patterns.", "anchors": ["topoflow/components/channels_base.py: check_flow_depth"]}
{"id": "C19", "title": "Rain/snow partition conserves precipitation", "statement": "At every step P_rain + P_snow = P at every cell and exactly one of them is P (the other 0); hence the domain integrals satisfy vol_PR + vol_PS = vol_P after any history; P_max is the running maximum.", "quantifier": "all temperature/precip grids and histories", "why_tests_cant": "History and grid quantification.", "anchors": ["topoflow/components/met_base.py: update_P_rain, update_P_snow, update_P_integral, update_P_rain_integral, update_P_snow_integral, update_P_max"]}
{"id": "C20", "title": "Snowpack mass balance", "statement": "For any history of nonnegative snowfall and arbitrary raw melt rates, 0 <= SM*dt <= h_swe before melt, h_swe >= 0, and total initial SWE + total snowfall = final SWE + total melt, cell by cell.", "quantifier": "all histories", "why_tests_cant": "Conservation over unbounded histories.", "anchors": ["topoflow/components/snow_base.py: update, enforce_max_meltrate, update_swe, update_SM_integral", "topoflow/components/snow_degree_day.py: update_meltrate", "topoflow/components/snow_energy_balance.py: update_meltrate"]}
{"id": "C21", "title": "Snow cold content energy balance", "statement": "In the energy-balance snow model, each step energy in = change in cold deficit + energy released for melt; cold content stays >= 0, and no melt energy is released until the cold content is exhausted.", "quantifier": "all energy inputs and histories", "why_tests_cant": "Conservation over histories.", "anchors": ["topoflow/components/snow_energy_balance.py: update_meltrate, update_cold_content"]}
{"id": "C22", "title": "Degree-day melt is monotone in temperature and zero below threshold", "statement": "The degree-day SM is 0 for T_air <= T0, non-decreasing in T_air and never exceeds the available SWE per step.", "quantifier": "all temperatures, coefficients c0 >= 0", "why_tests_cant": "Ranges over an unbounded family of inputs/histories; a test samples finitely many.", "anchors": ["topoflow/components/snow_degree_day.py: update_meltrate", "topoflow/components/snow_base.py: enforce_max_meltrate"]}
{"id": "C23", "title": "Glacier ice melts only when snow-free, and ice/snow mass is conserved", "statement": "Ice melt is nonzero only in cells with no snow now and at the previous step; SM and IM never exceed stored swe/iwe per step, both stay >= 0, and mass balance holds over any history.", "quantifier": "all histories", "why_tests_cant": "History property.", "anchors": ["topoflow/components/glacier_base.py: update, enforce_max_snow_meltrate, enforce_max_ice_meltrate, update_swe, update_iwe", "topoflow/components/glacier_energy_balance.py"]}
{"id": "C24", "title": "Infiltration never exceeds supply or capacity", "statement": "For every step of the Green-Ampt component, 0 <= IN <= P_total, IN <= capacity (except that all rain infiltrates when P_total < Ks), capacity >= Ks, cumulative depth I never decreases and stays >= its initial positive value, and cumulative infiltration never exceeds cumulative water supplied.", "quantifier": "all histories of rainfall and snowmelt, all soil parameters in range", "why_tests_cant": "History property.", "anchors": ["topoflow/components/infil_green_ampt.py: update_infil_rate", "topoflow/components/infil_base.py: adjust_infil_rate, check_low_rainrate, update_I, update_surface_influx"]}
{"id": "C25", "title": "Infiltration stops where the water table reaches the surface", "statement": "Whenever h_table >= elev at a cell, IN = 0 there after the update.", "quantifier": "all grids and scalars", "why_tests_cant": "Depends on shape (scalar vs grid) and value pattern of the inputs.", "anchors": ["topoflow/components/infil_base.py: adjust_infil_rate"]}
{"id": "C26", "title": "Smith-Parlange/Green-Ampt capacity decreases with cumulative infiltration", "statement": "Infiltration capacity is decreasing in I, tends to stay above Ks, for all admissible parameters.", "quantifier": "all I > 0 and parameter values", "why_tests_cant": "Ranges over an unbounded family of inputs/histories; a test samples finitely many.", "anchors": ["topoflow/components/infil_smith_parlange.py: update_infil_rate", "topoflow/components/infil_green_ampt.py: update_infil_rate"]}
{"id": "C27", "title": "Richards water content stays in range", "statement": "After enforce_theta_range every soil moisture value lies in [qr+0.001, qs] and values already in range are unchanged; update_theta conserves column water for uniform layers up to boundary fluxes.", "quantifier": "all profiles, fluxes, layer counts", "why_tests_cant": "Ranges over an unbounded family of inputs/histories; a test samples finitely many.", "anchors": ["topoflow/components/infil_richards_1D.py: enforce_theta_range, update_theta"]}
{"id": "C28", "title": "Evaporation is never negative", "statement": "ET rates from the Priestley-Taylor and energy-balance methods are >= 0 for all inputs and the ET volume integral never decreases.", "quantifier": "all inputs/histories", "why_tests_cant": "Ranges over an unbounded family of inputs/histories; a test samples finitely many.", "anchors": ["topoflow/components/evap_priestley_taylor.py: update_ET_rate", "topoflow/components/evap_energy_balance.py: update_ET_rate", "topoflow/components/evap_base.py: update_ET_integral"]}
{"id": "C29", "title": "Water-table update conserves water", "statement": "update_water_table changes stored water (sum over layers of porosity*wetted thickness, plus what is above/below) by exactly dzw.", "quantifier": "all layer stacks, all dzw", "why_tests_cant": "Conservation over all layer configurations; here the rising branch violates it.", "anchors": ["topoflow/components/satzone_base.py: update_water_table"]}
{"id": "C30", "title": "Wetted thicknesses are bounded by layer thickness", "statement": "0 <= y_k <= th_k for every layer after initialisation and after every update.", "quantifier": "all layer stacks and histories", "why_tests_cant": "Ranges over an unbounded family of inputs/histories; a test samples finitely many.", "anchors": ["topoflow/components/satzone_base.py: initialize_wetted_thicknesses, update_water_table"]}
{"id": "C31", "title": "Framework time step and scheduling", "statement": "The framework step is the minimum enabled component step; in each framework step every component is updated at most once; after each step every enabled component's time t satisfies T <= t <= T + dt_component.", "quantifier": "all component sets, all step sizes, all numbers of framework steps", "why_tests_cant": "Invariant over unbounded schedules.", "anchors": ["topoflow/framework/emeli.py: run_model, initialize_framework_dt, update_time"]}
{"id": "C32", "title": "Values are never requested from before the provider's interpolation window", "statement": "Whenever a component is updated, the time at which its inputs are requested is later than the start t1 of every provider's current interval, and no later than t2 (so values are interpolated, never extrapolated).", "quantifier": "all schedules", "why_tests_cant": "Schedule quantification; the t2 half fails for some schedules.", "anchors": ["topoflow/framework/emeli.py: run_model, get_required_vars", "topoflow/framework/time_interpolation.py: get_values"]}
{"id": "C33", "title": "Unique-provider check is sound and complete", "statement": "check_var_users_and_providers returns True exactly when every nonempty input name of every component is an output name of exactly one component (counted with multiplicity).", "quantifier": "all component sets and name lists", "why_tests_cant": "Ranges over an unbounded family of inputs/histories; a test samples finitely many.", "anchors": ["topoflow/framework/emeli.py: find_var_users_and_providers, check_var_users_and_providers"]}
{"id": "C34", "title": "Time interpolation is linear between the two latest provider states", "statement": "get_values(t) equals v1 at t1, v2 at t2 and lies between them for t in [t1,t2], cell by cell.", "quantifier": "all value arrays, all times, in-place or rebinding providers", "why_tests_cant": "For-all reals and aliasing patterns.", "anchors": ["topoflow/framework/time_interpolation.py: time_interp_data.__init__, update, time_interpolator.get_values"]}
{"id": "C35", "title": "update_until(t) reaches time t", "statement": "After update_until(t) with t >= current time the component's current time is t.", "quantifier": "all times and steps", "why_tests_cant": "For all real time/step ratios; the code violates it.", "anchors": ["topoflow/utils/BMI_base.py: update_until, update_frac, update_time"]}
{"id": "C36", "title": "A driver stops exactly when its stop rule is met", "statement": "With n_steps / stop_time rules, DONE becomes true at exactly the first step with time_index >= n_steps (time >= stop_time) and then stays true; runs always terminate.", "quantifier": "all step sizes, limits, histories", "why_tests_cant": "Termination and first-time property over unbounded runs.", "anchors": ["topoflow/utils/BMI_base.py: update_time, check_finished", "topoflow/components/topoflow_driver.py: check_finished, check_steady_state"]}
{"id": "C37", "title": "set_value / get_value round trip", "statement": "set_value followed by get_value returns the value set and leaves other variables unchanged; set_value_at_indices changes exactly the given cells.", "quantifier": "all variables, values, index lists", "why_tests_cant": "Ranges over an unbounded family of inputs/histories; a test samples finitely many.", "anchors": ["topoflow/utils/BMI_base.py: get_value, get_value_ptr, set_value, set_value_at_indices, get_value_at_indices"]}
{"id": "C38", "title": "Datetime string round trip", "statement": "get_datetime_str then split_datetime_str(ALL=True) returns the same six fields; standardize is idempotent.", "quantifier": "all nonnegative field values", "why_tests_cant": "Ranges over an unbounded family of inputs/histories; a test samples finitely many.", "anchors": ["topoflow/utils/time_utils.py: get_datetime_str, pad_with_zeros, split_datetime_str, split_date_str, split_time_str, standardize_datetime_str"]}
{"id": "C39", "title": "hhmm and minutes conversions are inverse", "statement": "convert_times_from_minutes_to_hhmm then convert_times_from_hhmm_to_minutes is the identity on [0, 1440).", "quantifier": "all lists of minute counts", "why_tests_cant": "Ranges over an unbounded family of inputs/histories; a test samples finitely many.", "anchors": ["topoflow/utils/time_utils.py: convert_times_from_hhmm_to_minutes, convert_times_from_minutes_to_hhmm"]}
{"id": "C40", "title": "time_since and datetime conversions are inverse", "statement": "For units weeks/days/hours/minutes/seconds, get_time_since_from_datetime(o, get_datetime_from_time_since(o, t, u), u) = t; month difference is antisymmetric and additive.", "quantifier": "all origins and durations", "why_tests_cant": "Ranges over an unbounded family of inputs/histories; a test samples finitely many.", "anchors": ["topoflow/utils/time_utils.py: get_time_since_from_datetime, get_datetime_from_time_since, get_month_difference, get_duration"]}
{"id": "C41", "title": "RTS grid-stack files return what was written", "statement": "After any sequence of add_grid calls on a new RTS file, number_of_grids is the number of calls and get_grid(k) returns the k-th grid written, for both byte orders; adding never changes earlier grids.", "quantifier": "all grid sequences, shapes, byte orders", "why_tests_cant": "Unbounded sequences and byte contents.", "anchors": ["topoflow/utils/rts_files.py: open_new_file, add_grid, get_grid, number_of_grids"]}
{"id": "C42", "title": "RTI header round trip", "statement": "read_info(write_info(info)) returns the same field values for all 19 fields.", "quantifier": "all info records whose text fields contain no newlines and are trimmed", "why_tests_cant": "Ranges over an unbounded family of inputs/histories; a test samples finitely many.", "anchors": ["topoflow/utils/rti_files.py: write_info, read_info, read_value"]}
{"id": "C43", "title": "check_overwrite never returns an existing name", "statement": "check_overwrite(name) returns name itself when it is free, otherwise the first free name of the form prefix_k.ext, k = 1,2,...; existing files are never selected.", "quantifier": "all sets of existing files", "why_tests_cant": "Ranges over an unbounded family of inputs/histories; a test samples finitely many.", "anchors": ["topoflow/utils/file_utils.py: check_overwrite, get_prefix_and_extension"]}
{"id": "C44", "title": "Time series input is consumed in order", "statement": "Successive read_next calls on a time_series file return its values in order and None after the end; grid_sequence reads return successive grids.", "quantifier": "all files", "why_tests_cant": "Ranges over an unbounded family of inputs/histories; a test samples finitely many.", "anchors": ["topoflow/utils/model_input.py: read_next, read_scalar, read_grid"]}
{"id": "C45", "title": "Outlet check accepts only cells in the grid", "statement": "check_outlet_IDs accepts an outlet list iff every (row, col) lies in the grid.", "quantifier": "all outlet lists and shapes", "why_tests_cant": "Ranges over an unbounded family of inputs/histories; a test samples finitely many.", "anchors": ["topoflow/utils/outlets.py: read_outlet_file, check_outlet_IDs"]}
{"id": "C46", "title": "Canal diversions are a pure delay line", "statement": "Water entering a canal of nt steps (its travel time rounded up) comes out in the nt-th step, counting the step in which it enters, in order, with none created or lost, for every canal independently; sources give the t-th value of their table in step t and nothing afterwards.", "quantifier": "all numbers of canals, travel times, inflow histories and lengths of runs", "why_tests_cant": "History property: depends on everything that entered before and on the shared buffer of all canals.", "anchors": ["topoflow/components/diversions_fraction_method.py: read_canal_data, update_canals, update_sources, update_sinks", "topoflow/components/diversions_base.py: set_computed_input_vars"]}
{"id": "C47", "title": "Runoff never charges more evaporation than a cell holds", "statement": "The runoff rate equals rain + snowmelt + groundwater + meltrunoff - infiltration - ET, where ET is the supplied rate wherever the cell holds enough water for the step and 0 elsewhere.", "quantifier": "all grids, rates, volumes and time steps", "why_tests_cant": "Ranges over all rate and volume grids, scalar or not.", "anchors": ["topoflow/components/channels_base.py: update_R"]}
{"id": "C48", "title": "Reported friction factor matches the velocity", "statement": "The friction factor f that is reported satisfies f*u^2 = g*Rh*|S| for the velocity formula in use.", "quantifier": "all depths, hydraulic radii, slopes, roughness parameters", "why_tests_cant": "Identity over the reals.", "anchors": ["topoflow/components/channels_base.py: update_friction_factor, manning_formula, law_of_the_wall"]}
{"id": "C49", "title": "Cold content only where there is snow", "statement": "After an update a cell without snow has zero snow cold content (and one without ice zero ice cold content).", "quantifier": "all states and inputs", "why_tests_cant": "Quantifies over all states and energy fluxes.", "anchors": ["topoflow/components/glacier_energy_balance.py: update_snowpack_cold_content, update_ice_meltrate", "topoflow/components/snow_energy_balance.py: update_cold_content"]}
{"id": "C50", "title": "A disabled groundwater component does not limit infiltration", "statement": "With the saturated-zone component disabled, the infiltration rate at every cell is min(capacity, supply).", "quantifier": "all DEMs, soils and supplies", "why_tests_cant": "Depends on the sign of every elevation in the DEM: the disabled component reports a water table at elevation 0.", "anchors": ["topoflow/components/satzone_base.py: initialize", "topoflow/components/infil_base.py: adjust_infil_rate"]}
{"id": "C51", "title": "Soil characteristic functions agree with each other", "statement": "Water content as a function of pressure head and head as a function of water content are inverse to each other; head increases with water content; hydraulic conductivity computed from water content, saturation or head is the same number, between 0 and Ks and increasing.", "quantifier": "all soil parameters in range, all water contents and heads", "why_tests_cant": "Identities between real functions over a continuum of arguments.", "anchors": ["topoflow/utils/soil_trans_BC.py: psi_of_sat, K_of_sat, theta_of_psi, K_of_psi, psi_of_theta, K_of_theta"]}
{"id": "C52", "title": "Evaporation uses only available energy", "statement": "The latent heat of the evaporated water is the positive part of the available energy (net radiation, sensible heat and conduction); in particular nothing evaporates where the available energy is not positive.", "quantifier": "all inputs, cells and states", "why_tests_cant": "Holds for all meteorological inputs; fails only in a corner (cold air) that examples do not visit.", "anchors": ["topoflow/components/evap_priestley_taylor.py: update_ET_rate", "topoflow/components/evap_energy_balance.py: update_ET_rate", "topoflow/components/evap_base.py: update_Qc"]}
{"id": "C53", "title": "Water table lies at the top of the wetted layers", "statement": "Whenever the top layer is not full, the water table height equals the bottom of the layers plus the total wetted thickness.", "quantifier": "all layer stacks, initial tables and histories of gains and losses", "why_tests_cant": "Relation between two state variables over unbounded histories.", "anchors": ["topoflow/components/satzone_base.py: initialize_wetted_thicknesses, update_water_table"]}
{"id": "C54", "title": "Groundwater outflow is the Darcy flow of the current water table", "statement": "After every update the groundwater outflow of a cell is the sum over layers of conductivity x table slope x flow width x wetted thickness at the start of that update.", "quantifier": "all grids, layers, histories", "why_tests_cant": "The accumulator is only reset when positive, which shows only after a reversal of the gradient in some history.", "anchors": ["topoflow/components/satzone_base.py: update_Sh, update_Q_gw"]}
{"id": "C55", "title": "Groundwater seeps out only above the land surface", "statement": "The seepage rate is never negative, the seepage volume never decreases, and water seeps only at cells whose water table is above the land surface and rising.", "quantifier": "all grids and histories", "why_tests_cant": "Depends on the whole history since initialisation.", "anchors": ["topoflow/components/satzone_base.py: update_seep_rate, update_GW_integral, initialize_wetted_thicknesses"]}
{"id": "C56", "title": "File name parts and line counts", "statement": "Splitting a file name into prefix and extension loses nothing; replacing the extension of stem.ext gives stem followed by the new extension; adding an extension is idempotent; and count_lines returns the number of lines that are not blank of any text file.", "quantifier": "all file names, extensions and text files", "why_tests_cant": "tests use a few names with one dot; the claim covers names with any number of dots and files of any size", "anchors": ["topoflow/utils/file_utils.py: get_prefix_and_extension, replace_extension, add_extension, count_lines"]}
{"id": "C57", "title": "Output time series files can be read back", "statement": "A time series written at the monitored cells is read back by the calibration reader: every time and every value of every cell, in order, to seven decimals; one column per cell.", "quantifier": "all grids and numbers below 10^10, all lists of cells, all numbers of rows", "why_tests_cant": "Ranges over all numbers and all lengths of tables; formatting width errors appear only for particular magnitudes.", "anchors": ["topoflow/utils/text_ts_files.py: open_new_file, write_header, add_values, values_at_IDs, add_values_at_IDs", "topoflow/utils/calibrate.py: read_any_time_series"]}
{"id": "C58", "title": "Configuration files mean what they say", "statement": "Reading a configuration file stores each setting under its name with its type (number, integer, switch, text, file name after a type line), the last setting of a name wins, nothing else changes, and comments, help texts, spacing and blank lines have no effect.", "quantifier": "all configuration files (any number of lines), all initial component states", "why_tests_cant": "The space of files is unbounded and the meaning of a line depends on the line before it.", "anchors": ["topoflow/utils/BMI_base.py: read_config_file, initialize_scalar"]}
{"id": "C59", "title": "Radiation comes with daylight", "statement": "The hours that Sunrise_Offset and Sunset_Offset return are exactly those between which the sun is above the horizon, day length is 0 to 24 hours (24 in polar day, 0 in polar night, 12 on the equator), and Clear_Sky_Radiation is positive exactly while the sun is above the horizon and in front of the slope.", "quantifier": "all latitudes, days (real Julian days), hours, slopes, aspects, albedos, dust and water contents", "why_tests_cant": "The functions range over continuous angles; a test samples a few places and days, and the error cases (polar summer midnight, slopes facing beyond the pole) are measure-thin or rare.", "anchors": ["topoflow/components/solar_funcs.py: Sunrise_Offset, Sunset_Offset, Day_Length, Clear_Sky_Radiation, Longitude_Offset, Equivalent_Latitude"]}
{"id": "C60", "title": "Solar fluxes obey geometry and energy limits", "statement": "The extraterrestrial flux is the solar constant (corrected for the distance of the sun) times the cosine of the angle between the sun and the normal of the surface, never negative; a slope of angle zero behaves like level ground; radiation at the ground is nonnegative and at most the flux outside the atmosphere; net shortwave radiation stays in that range; the day's course is symmetric about solar noon.", "quantifier": "all latitudes, days, hours, slopes, aspects, precipitable water, dust attenuation in [0,1], albedo in [0,1]", "why_tests_cant": "The bounds must hold over a continuum of inputs; tests check single values.", "anchors": ["topoflow/components/solar_funcs.py: ET_Radiation_Flux, ET_Radiation_Flux_Slope, Zenith_Angle, Optical_Air_Mass, Atmospheric_Transmissivity, Scattering_Attenuation, Global_Radiation_Flux, Clear_Sky_Radiation", "topoflow/components/met_base.py: update_net_shortwave_radiation"]}
{"id": "C61", "title": "Day of the year, solar clock, terrain angles and cell coordinates are right", "statement": "Julian_Day counts days since the first of January in every year; the equation of time stays small and depends on the year only through the perihelion; the offset from solar noon is the clock time minus solar noon; aspects and slopes are converted to azimuth and slope angle; latitude and longitude grids hold the cell centres, north on top.", "quantifier": "all dates and years, longitudes, time zones, aspects, slopes, grid sizes and resolutions", "why_tests_cant": "Calendar rules have exceptions outside the years tests use, and the clock must be right for all longitudes, time zones and minutes.", "anchors": ["topoflow/components/solar_funcs.py: Julian_Day, Equation_Of_Time, True_Solar_Noon, Latitude_Grid, Longitude_Grid", "topoflow/components/met_base.py: update_julian_day, set_slope_angle, set_aspect_angle"]}
{"id": "C62", "title": "Vapour pressure, turbulent and longwave fluxes have the right sign and size", "statement": "For every weather and surface state of a cell the meteorology component yields: saturation vapour pressure that is positive and rises with temperature; a dew point that inverts its defining curve, rises with humidity and is not above the air temperature; a snow or ice surface not warmer than freezing; a positive heat conductance, damped in stable and enhanced in unstable air, the same for a cell in a grid as for the cell alone; sensible and latent heat fluxes directed from the warm to the cold side; an emissivity between 0 and 1 and net longwave radiation equal to absorbed minus emitted radiation.", "quantifier": "all temperatures, humidities, winds, snow depths, grids", "why_tests_cant": "The claims hold over a continuum of weather states; tests sample few of them, and the exceptions (saturated air, calm air, overcast sky) lie at boundaries.", "anchors": ["topoflow/components/met_base.py: update_saturation_vapor_pressure, update_vapor_pressure, update_dew_point, update_T_surf, update_bulk_richardson_number, update_bulk_aero_conductance, update_sensible_heat_flux, update_latent_heat_flux, update_em_air, update_net_longwave_radiation"]}
{"id": "C63", "title": "Snow albedo follows the snowfall history", "statement": "For every sequence of weather steps, the albedo computed by the aging method is that of the surface present (snow between 0.4 and 0.84, ice 0.3, ground 0.15), the age of the snow is the time since the last step at which three-day snowfall reached 3 cm, fresh snow has albedo 0.84, snow gets darker with every step without new snow, and net shortwave radiation computed with it is never negative; a given time series is used unchanged.", "quantifier": "all histories of air temperature, snowfall, snow and ice depth; all time steps", "why_tests_cant": "The albedo depends on an unbounded history through a rolling window and an age counter.", "anchors": ["topoflow/components/met_base.py: update_albedo, initialize_computed_vars, update_net_shortwave_radiation"]}
{"id": "C64", "title": "The mass balance in the final report", "statement": "After any coupled run of meteorology, channels, snow, groundwater, evaporation and infiltration, the mass balance error in the driver's report (precipitation minus evaporation and edge outflow minus the change of reported storage) equals exactly: infiltrated water not shown as soil storage, minus groundwater seepage, plus the rates of the last step that the channels have not yet received, plus water held back by attenuation, minus evaporation reported but not taken, minus water created by clipping at zero, minus channel water counted twice. With surface water only, it is minus the water created, and zero if none was. The reported runoff volume agrees with the reported gains and losses up to the last step's rates and the evaporation not taken.", "quantifier": "every D8 flow grid, grid size, cell areas, time step, initial condition and input series; with and without floodplains and attenuation; both evaporation and both snow methods", "why_tests_cant": "a test compares one number of one run; the claim is about the meaning of the error for all input series and run lengths, and needs the composition of the components' updates in their provider order", "anchors": ["topoflow/components/topoflow_driver.py update_mass_totals", "topoflow/components/topoflow_driver.py add_mass_balance_to_report", "topoflow/framework/emeli.py update", "topoflow/components/channels_base.py update"]}
{"id": "C65", "title": "Pixel dimensions are those of the ellipsoid", "statement": "For a fixed-angle grid the width and height of every row are the lengths, on the reference ellipsoid, of its angular width and height at the row's latitude; sizes are positive away from the poles, the diagonal is that of the rectangle, rows towards a pole are narrower, taller and smaller in area, both hemispheres are alike; fixed-length grids have the header's sizes in all rows; kilometres are metres over 1000; the area grid holds every row's width times height in every pixel of the row.", "quantifier": "all ellipsoids (axes 0 < b <= a), heights, latitudes, resolutions, grid sizes and rows", "why_tests_cant": "a test compares a few latitudes with table values; the claims quantify over a continuum of latitudes and all grid shapes", "anchors": ["topoflow/utils/pixels.py get_sizes_by_row", "topoflow/utils/pixels.py get_da", "topoflow/utils/pixels.py meters_per_degree_lon", "topoflow/utils/pixels.py meters_per_degree_lat"]}
{"id": "C66", "title": "Flow lengths, widths, slopes and aspects follow the D8 directions", "statement": "The flow length of a pixel is the distance between its centre and the centre of the pixel it flows to; the flow width is the crossed side or the diagonal; slopes of a computed flow grid always exist, are the drop over that distance, never negative, positive exactly where there is a drop, zero without flow direction, and on grids with equal rows no neighbour is steeper; the aspect is the direction of flow counter-clockwise from east.", "quantifier": "all DEMs, grid sizes, pixel sizes (by row), periodic or not, flow codes", "why_tests_cant": "must hold for every DEM and every tie and flat resolution; a test sees a handful of DEMs", "anchors": ["topoflow/components/d8_global.py update_flow_length_grid", "topoflow/components/d8_global.py update_flow_width_grid", "topoflow/components/d8_global.py update_slope_grid", "topoflow/components/d8_global.py update_aspect_grid"]}
{"id": "C67", "title": "Channel parameter grids follow the stated power law of area", "statement": "A grid made from a contributing-area grid takes exactly the value asked for at the cell(s) of largest area (and at the smallest positive area when that value is given too), follows one power law of area at all other cells with area, lies between the two given values, and with a positive exponent never decreases downstream along the D8 directions.", "quantifier": "all area grids, all parameter values, all D8 direction grids without cycles", "why_tests_cant": "quantifies over every grid and parameter; a test sees a few cells", "anchors": ["topoflow/utils/parameterize.py: get_grid_from_TCA", "topoflow/components/d8_global.py: update_area_grid"]}
{"id": "C68", "title": "The initial depth grid carries the baseflow", "statement": "In every cell the initial depth that is written is the unique normal depth at which the trapezoidal channel carries the baseflow of its contributing area by Manning's formula, to within a small multiple of the tolerance, never less than it; the iteration always settles within its limit of tries; cells without area get (almost) no water; bad slopes are replaced by the smallest good slope.", "quantifier": "all grids of area, slope, width, roughness, bank angle and sinuosity, all baseflow rates, with normal depths up to 500 m", "why_tests_cant": "convergence from the fixed starting depth for every channel is a statement about all real parameters; tests run a few basins", "anchors": ["topoflow/utils/init_depth.py: compute_initial_depth, remove_bad_slopes, get_baseflow_volume_flux"]}
{"id": "C69", "title": "Calibration finds the best of the parameters tried", "statement": "Calibrating a parameter of the channel width or roughness grid runs the model once for each of n evenly spaced values and returns the first value whose simulated series has the least Lp distance (for p >= 1 a true metric) from the observed series, resampled by straight-line interpolation at the simulated times; afterwards the input grid file is what it was. The distance ignores the end of the longer series, observations more frequent than the simulated values are compared at other times, a failed run leaves the changed grid in place and a later calibration then loses the original, and a deleted output version makes the search read a stale file. The other cost on offer, from Spearman's rank coefficient, lies in [0,1], is 0 exactly for series in the same order and 1 exactly for series in opposite order, is NaN exactly when a series is constant (such a run is never chosen), equals 3 sum d^2/(n(n^2-1)) without ties, and does not see the size of the values; it is not a metric.", "quantifier": "every observed and simulated series, every exponent p, every parameter range, every model (a function from grid to series that may fail), every set of output file versions, every crash point", "why_tests_cant": "that the result is the minimiser and that files are restored must hold for all series, all models and all failing runs", "anchors": ["topoflow/utils/calibrate.py: calibrate", "topoflow/utils/calibrate.py: Lp_norm, compute_cost", "topoflow/utils/calibrate.py: interpolate_obs_time_series", "topoflow/utils/calibrate.py: backup_input_file, restore_input_file, update_sim_data_file", "topoflow/utils/calibrate.py: spearman_metric"]}
{"id": "C70", "title": "Results are saved at the requested times and places", "statement": "During a run each component saves a grid (or the values at the outlets) every save interval: with a step and an interval of whole seconds, frame k carries time k times the least common multiple of both, so a multiple of the step is kept exactly and any other interval is stretched at least twofold. Every frame is in the netCDF stack and the RTS file, in order, with the date start + time; a scalar becomes a uniform grid; a series has the position of its cell centre, a name from which symbol, row and column can be read back, and the values of its cell. A frame labelled t holds the state after the step that starts at t; X coordinates are up to half a cell off, Y coordinates run opposite to the stored rows, frames whose date cannot be computed are lost silently from the netCDF file, sub-second steps save several frames per time and sub-second intervals stop the run. A profile file holds, for every outlet and frame, the column of values of its cell, but no dates, and cannot be read back with its own reader; in a run, asking for soil profiles stops the initialization and asking for soil cubes saves nothing, silently.", "quantifier": "every step and interval, every number of updates, every state and update function, every sequence of frames, every start date, every outlet list, every symbol", "why_tests_cant": "whether all and only the requested frames are saved depends on arithmetic between step and interval over arbitrarily long runs", "anchors": ["topoflow/components/channels_base.py: write_output_files", "topoflow/utils/model_output.py: add_grid, open_new_ts_file", "topoflow/utils/ncgs_files.py: ncgs_file.add_grid, open_new_file", "topoflow/utils/ncts_files.py: ncts_file.open_new_file, add_values_at_IDs", "topoflow/utils/ncps_files.py: ncps_file.add_profiles_at_IDs, get_profile", "topoflow/utils/model_output.py: open_new_ps_file, open_new_cs_file, add_cube"]}
{"id": "C71", "title": "The channel network as a whole: closed kinematic and diffusive wave updates", "statement": "In every state that a run of the kinematic or diffusive wave channel component reaches, volumes, depths and velocities are not negative, the trapezoidal channel at depth d plus the flood plain hold exactly the cell's volume, and velocity is that of the chosen formula at that depth. The water in the network plus the water that left over the edges equals the initial water plus all runoff, as long as water nowhere moves more than one cell per step; the exact excess is given otherwise, and the limit is sharp. With the kinematic wave and Manning's formula (5/3 of the distance within a cell): more runoff or deeper initial water never gives less volume, depth, velocity or discharge anywhere at any time; under constant runoff from dry channels depths and discharges rise monotonically, never exceed their equilibrium, and discharge tends to the total runoff of the upstream cells. With either solver a state is steady iff each discharge is the upstream runoff. The diffusive wave uses the slope of the water surface between channel cells; a level surface does not flow.", "quantifier": "all grids and flow grids made by the D8 component (steady-flow parts: without cycles), all channel geometries, both solvers and velocity formulas, with and without flood plains, all initial depths >= 0, all runoff sequences of any length", "why_tests_cant": "The statements compare whole histories on arbitrary networks (two runs, limits of infinite runs, sums over upstream cells); a test fixes one network, one time step and finitely many steps.", "anchors": ["topoflow/components/channels_base.py: update, update_flow_volume, update_channel_depth, update_flood_depth, update_discharge, update_free_surface_slope, update_edge_values", "topoflow/components/channels_kinematic_wave.py: update_velocity", "topoflow/components/channels_diffusive_wave.py: update_velocity"]}
{"id": "C72", "title": "The glacier component accounts for ice", "statement": "One update of the glacier component changes the thickness of every cell only by snowfall, by flow between neighbouring cells, by melt of no more than the ice there is (the rest being made up where more flowed away than there was) and so that the total changes only by snow, melt, what leaves across the edges and made-up ice. Thickness and melt rate are never negative; the melt rate is exactly the ice that melted, as water per second. Ice flows only downhill, by Glen's law and the sliding law, never in across the edges, never from thin ice onto thick; bare ground below the equilibrium line stays bare; the mass balance is capped, positive exactly above the equilibrium line; directions are treated alike and only elevation differences matter. No ice is made up; the ice account equals the ice; the configured boundary conditions and flow parameters take effect; the adaptive time step works; the melt volume is reported.", "quantifier": "all grids, beds, thicknesses, climates, settings, time steps and numbers of steps", "why_tests_cant": "the claims range over all landscapes and all step sequences; a test sees a few glaciers", "anchors": ["topoflow/components/gc2d.py: update, update_vars, mass_conservation, mass_balance, basal_shear_stress, iceflow, ice_sliding, set_bc, get_timestep", "topoflow/components/ice_base.py: update, initialize_computed_vars"]}
{"id": "C73", "title": "Soil hydraulic parameters are in range", "statement": "The soil tool turns grids of clay, silt, organic carbon and bulk density into infiltration parameters. For any file contents with at least one non-zero measurement per grid, reading yields physically meaningful contents in every cell, keeps every measurement and gives missing cells the mid-range value. Each layer that is written has porosity in [0,1], positive conductivity, alpha in [-15,-0.4] 1/m, 1<n<=3, -10<L<10, bubbling pressure head in [-2.5,-1/15] m, eta=2+3*lambda, c=lambda+1 and capillary length in [0.08,2.3] m; results of a cell other than porosity depend on that cell only; denser soil has lower porosity and conductivity; the resulting retention curve equals van Genuchten's. Missing cells stay marked as missing.", "quantifier": "all grids of all sizes with any values, all layers, any gamma function values", "why_tests_cant": "the ranges come from clipping and from exponentials over unbounded inputs; a test sees only a few soils", "anchors": ["topoflow/utils/pedotransfer.py: read_soil_grid_files, check_soil_grid_values, convert_soil_grid_values, wosten_theta_s, wosten_K_s, wosten_alpha, wosten_n, wosten_L, get_tBC_from_vG_vars, capillary_length_G, save_soil_hydraulic_vars"]}
{"id": "C74", "title": "Slope grids follow the flow paths", "statement": "The slope tools derive channel slopes from a DEM and D8 flow codes. For every grid: the D8 tool gives each flowing cell its drop over distance or zero; the first flat-removing tool gives each cell the mean slope to the first lower, known cell downstream, gives zero where there is none, and writes a grid exactly when some cell drops to its parent; the chain tool gives every cell, on elevations that never rise downstream, the smallest of its own D8 slope and the mean slopes of the chains through it, never negative, positive on every flat above a drop, and never runs past its tables when flats are shorter than twice the grid size; smoothing keeps elevations between the lowest and highest, keeps outlets and heads, and keeps channels without confluences downhill. Water leaving the grid gives no slope; every flat above a drop gets a slope; every DEM gets a grid; slopes are never negative; smoothing keeps every DEM downhill and leaves missing values out.", "quantifier": "all grid sizes, all flow-code grids, all elevations, distances and missing values, any number of smoothing steps", "why_tests_cant": "flow paths of any length and shape: tests check some DEMs, while the loops end by conditions on all cells at once", "anchors": ["topoflow/utils/new_slopes.py: get_d8_slope_grid, get_new_slope_grid, get_new_slope_grid2, smooth_dem"]}
{"id": "C75", "title": "The NextGen wrapper advances all components together and in time", "statement": "One BMI object wraps a whole TopoFlow configuration (initialize, update, update_frac, update_until, set_value, get_value, get_value_at_indices). After any sequence of calls its clock has made a whole number of framework steps and every enabled component's clock is within one of its own steps of the last step's time. update_until(t) should end at t, a value given through set_value should be used by the components and returned by get_value, values at cells should be those of the cells asked for, and a configuration whose inputs are not all provided exactly once should be rejected.", "quantifier": "all component sets, steps, units and update rules of the components, all sequences of BMI calls and target times, all values", "why_tests_cant": "The wrapper's schedule depends on the ratio of all time steps and on every earlier call; tests can only try a few call patterns and configurations.", "anchors": ["topoflow/framework/multi_bmi.py: update, update_frac, update_until, set_value, get_value, get_value_at_indices, get_required_vars, initialize", "topoflow/framework/time_interpolation.py: get_values, update2"]}
{"id": "C76", "title": "An Erode step balances sediment and keeps its promises on slopes, time steps and boundaries", "statement": "One update of the landscape-evolution component lowers base-level cells at the base-level rate and moves every other cell by uplift, minus the sediment it sends to its flow parent, plus what its donors send, so that the land's volume changes only by uplift and by exchange with base level. The adaptive time step is positive whenever the land can be advanced, keeps every cell above its parent's old height and a parent below its donors; the clock and the reported uplift volume follow the steps; boundary conditions mark the sides they name; a run 'until steady' ends when the land no longer changes.", "quantifier": "all grids, flow options, elevations, pixel areas, transport laws, uplift and base-level rates, base cells, boundary conditions, and all numbers of updates", "why_tests_cant": "the flow grid, and with it donors, slopes and the time step, is recomputed from the evolving land; tests can only try some landscapes", "anchors": ["topoflow/components/erode_d8_global.py:update_slope_grid", "topoflow/components/erode_d8_global.py:update_dz_dt_grid", "topoflow/components/erode_d8_global.py:update_dt_grid_method1", "topoflow/components/erode_d8_global.py:update_DEM", "topoflow/components/erode_base.py:initialize_boundary_conditions", "topoflow/components/erode_base.py:check_finished"]}
{"id": "C77", "title": "Weather grids from other sources are put on the DEM's grid", "statement": "A stack of weather grids made from GPM, GLDAS or CHIRPS files has one frame for each file, in the order of file names whatever order the directory is listed in; files are used exactly when their box has a point in common with the DEM's; each frame holds that file's grid, resampled, in the documented unit, with missing values kept as missing; a file away from the DEM affects its own frame only.", "quantifier": "every list of files, every georeferencing and content of each of them, every DEM box, every variable, and every resampling function", "why_tests_cant": "which frame is affected by which file is a property of all sequences of files; tests use one directory of good files", "anchors": ["topoflow/utils/regrid.py: get_raster_bounds, bounds_disjoint, get_raster_cellsize, fix_gpm_file_as_geotiff, create_rts_from_nc_files, create_rts_from_chirps_files, regrid_rts_file"]}
{"id": "C78", "title": "Basins are given climate classes and indicators", "statement": "For basins of every precipitation phase, snow fraction and aridity in the documented ranges the seasonal water balance class is exactly one of the documented names, whose box contains the basin; the expanded classes agree with the original ones where those apply. Daylight hours lie in 0..24 (12 at the equator, complementary at opposite latitudes), potential evaporation is not negative and grows with temperature, the months split the year, the moisture index and the four Knoben indicators lie in their ranges for every basin, and the index converts back to evaporation over precipitation.", "quantifier": "every snow fraction, phase, aridity and option; every latitude, day, monthly precipitation and temperature", "why_tests_cant": "boxes must neither overlap nor leave gaps, ranges must hold for all real inputs; a test samples points", "anchors": ["topoflow/utils/ngen/swb_utils.py: get_swb_class, get_swb_class_names", "topoflow/utils/ngen/knoben_utils.py: get_total_PET_for_day, get_days_per_month, get_total_PET_for_month, get_knoben_monthly_moisture_index, get_annual_aridity, get_knoben_annual_aridity, get_knoben_annual_seasonality, get_knoben_annual_snow_fraction, calc_knoben_indicators", "topoflow/utils/ngen/classify.py: convert_knoben_aridity, get_gages2_indicators"]}
{"id": "C79", "title": "Local updates of flow codes agree with a full recomputation", "statement": "After any history of DEM changes, each passed to the component d8_local together with the changed cells, the flow codes and parent cells equal those that d8_global computes from the last DEM; only cells touching a changed cell are recomputed, the change flag is set exactly when some code changed, and the neighbour and kid queries return exactly the touching cells and the cells that flow into the given one.", "quantifier": "every grid size and spacing, every DEM (with nodata and nan), every history of changed cells, every set of IDs", "why_tests_cant": "Agreement of an incremental with a full computation must hold for every history of changes and every terrain; a few test grids cannot show that no distant cell depends on the changed ones.", "anchors": ["topoflow/components/d8_local.py: get_neighbors, is_a_pit, get_kid_IDs, update_flow_grid, start_new_d8_codes, break_flow_grid_ties, link_flats, update_parent_ID_grid, update_noflow_IDs, update_area_grid", "topoflow/components/d8_base.py: update"]}
{"id": "C80", "title": "Soil layers carry the values, depths and water of their layer", "statement": "In a run with several soil layers, every level of the profile carries the parameter of the layer it lies in (a number for all cells, or the value of the cell when a grid was given), depths add up layer by layer, the reported volume of soil water is the sum over cells and levels of water content times cell area times thickness, the reported wetting front lies at the deepest level that is wetter than the level below, conductivities read from a grid are made positive without touching valid ones, and later grids of a sequence replace earlier ones.", "quantifier": "every number of layers and levels, every spacing, every parameter value or grid, every profile of water content and every sequence of input grids", "why_tests_cant": "The layout depends on the number of layers, the mixture of numbers and grids, and on the history of the inputs; tests use one or two layouts.", "anchors": ["topoflow/components/infil_base.py: build_layer_z_vector, build_layered_var, update_total_storage, check_input_types", "topoflow/components/infil_richards_1D.py: initialize_layer_vars, update_Zw, read_input_files, read_richards_input"]}
{"id": "C81", "title": "Hydrologic indicators describe the stack they were made from", "statement": "From a stack of grids, the monthly statistics give for every cell and calendar month the smallest and largest value, the mean and the standard deviation (averaged over the years); the day counts give for every month of the file the number of days on which the condition (low, high, flooding, increasing, decreasing) held in some grid of the day; and the affected population of a month is the population of the cells with at least one such day.", "quantifier": "every stack: any number of grids, values, months and days, every condition, every population grid", "why_tests_cant": "The statistics are built up over the whole history of the file; errors appear only at month ends, at the first and last grid and in months seen once, for particular values.", "anchors": ["topoflow/utils/indicators.py: create_stat_grid_stacks, create_day_count_grid_stack, create_affected_population_grid_stack"]}
{"id": "C82", "title": "The conflict model keeps its books for every outcome of the random numbers", "statement": "In the cellular conflict model: conflicts exist only in cells with positive unrest, never on the border of the grid; the reported number of cells is the number of cells in conflict; a cell outside conflicts has ID 0 and a cell inside has an ID that was given out; a cell enters a conflict only by emergence or from one of its eight neighbours, whose ID it takes; unresolved conflicts stay; conflicts that emerge get new, different, nonzero IDs; no step stops with an error; the fraction is relative to the cells that can be in conflict.", "quantifier": "all grid sizes, unrest fields, parameters, all sequences of steps and all outcomes of the random numbers that their probabilities allow", "why_tests_cant": "the outcomes of the random numbers grow exponentially with cells and steps, a test sees one of them; the supply of IDs only runs out in long runs", "anchors": ["topoflow/utils/conflict.py: conflict.initialize, initialize_U, initialize_IDs, update_p, update_S, spread_conflicts1, finalize"]}
{"id": "C83", "title": "Event-driven erosion schedules every cell, never goes back in time and keeps the terrain continuous", "statement": "In the event-driven erosion component each update() processes the cell whose event is due first: the clock never goes back, every inner cell stays scheduled for a time that is not over, and no event search or splash zone goes on for ever. Elevations are continuous: an event changes only rates, not the elevation that a cell has reached by then; cells around every cell with an event are brought up to date, a cell whose change since its last event reaches the predicted one (or has the other sign, or is a moved pit) gets its event at once, and after an event the cell is due again strictly later. Rates equal uplift minus outflow plus inflow of sediment, and saved grids show all cells at the same time.", "quantifier": "every initial terrain, flow grids of every step, erosion law, uplift and limit, and every number of events", "why_tests_cant": "heap order, entries that are no longer valid and the growth of the splash zone depend on the whole history of events", "anchors": ["topoflow/components/erode_d8_local.py: update, get_next_active_cell, update_neighbors, update_dz_dt_grid, update_dt_grid, update_T_next_grid, initialize_computed_vars, finalize"]}
{"id": "C84", "title": "Map projections keep area or shape, are one-to-one and address the grid cell that contains the point", "statement": "The Albers projections (sphere and ellipsoid) and the Lambert azimuthal projection preserve area exactly, the Mercator projections (sphere and ellipsoid) preserve shape; Albers keeps lengths on its two standard parallels; each maps its origin to (0,0) and different points to different coordinates. The azimuthal projection is undefined only at the point opposite to its centre and keeps chord lengths from the centre; Mercator is increasing northward and symmetric about the equator. The HLR code of a point is read from the one-kilometre cell that contains its projection, and is 0 outside the grid.", "quantifier": "all longitudes and latitudes in the stated ranges, all centres of projection", "why_tests_cant": "equal area and conformality are statements about derivatives at every point; injectivity is about every pair of points", "anchors": ["topoflow/utils/projections.py: Albers_XY_Sphere, Albers_q_for_Ellipsoid, Albers_XY_Ellipsoid, Lambert_Azimuthal_Equal_Area_XY, Mercator_XY", "topoflow/utils/ngen/hlr_utils.py: get_hlr_grid_info, get_hlr_code_for_point"]}
{"id": "C85", "title": "Site searches use great-circle distance and boxes contain their basins", "statement": "The distance between two points given by longitude and latitude is the great-circle distance: symmetric, zero only for the same point of the sphere, unchanged by whole turns, and it satisfies the triangle inequality; the closest-site search returns the first site at least distance. The bounding box of a basin contains all its vertices after rounding and is not larger than buffer and rounding make it; box tests, centres and basin-in-DEM agree with plain inequalities. Degrees, minutes and seconds convert to decimal degrees with the sign of the angle. The outlet candidate of a basin is the first lowest cell that has data, with that cell's coordinates.", "quantifier": "all points, lists of sites, polygons, buffers, numbers of decimals and elevations", "why_tests_cant": "the triangle inequality and minimality range over all triples of points and all site lists; rounding and ties depend on the values", "anchors": ["topoflow/utils/ngen/usgs_utils.py: haversine, distance_on_sphere, get_closest_site", "topoflow/utils/ngen/data_utils.py: convert_dms_to_dec_deg", "topoflow/utils/ngen/shape_utils.py: get_bounding_box, check_bounding_box", "topoflow/utils/ngen/hlr_utils.py: basin_in_dem, get_zmin_lon_and_lat"]}
{"id": "C86", "title": "The smoothed DEM follows the slope-area law along the flow paths", "statement": "The DEM smoother keeps the elevation of start cells (those that flow to a cell without flow direction), gives every cell upstream of one the elevation of its parent plus slope times flow length, hence the sum along its flow path and its flow distance; water still runs downhill along the old paths; cells from which no start cell is reached, and cells without data, stay without data; the sweep ends for every flow grid. The slope is c A^p, never negative and decreasing with area for c >= 0, p <= 0. The lengths of a profile are distances between its points, and the fitted law is the best one: a profile that follows the law has error zero at its parameters.", "quantifier": "all grids, parents, slopes, lengths, start elevations and profiles", "why_tests_cant": "the sweep's number of passes and order depend on the whole network; optimality of the fit is a statement over all parameters", "anchors": ["topoflow/components/smooth_DEM.py: DEM_smoother.update_slopes, update_DEM, read_profile_data, find_best_fit_c_and_p"]}
{"id": "C87", "title": "Dynamic wave velocities obey a momentum balance; groundwater recharge reaches the water table", "statement": "In the dynamic wave component depth times velocity of a cell changes by gravity, friction and the momentum carried in and out, corrected for the change of depth; uniform steady flow is an equilibrium, water at rest with a level surface stays at rest and a slope sets it in motion, inflow never slows still water, and velocities are never negative. In the attenuating groundwater component the water that cells gain is the recharge minus the groundwater that leaves the grid.", "quantifier": "all networks, channels, depths, velocities, discharges and time steps", "why_tests_cant": "a balance over every cell and every set of inflowing neighbours; tests see single networks", "anchors": ["topoflow/components/channels_dynamic_wave.py: channels_component.update_velocity", "topoflow/components/satzone_attenuate.py: satzone_component.update_water_volume_change"]}
{"id": "C88", "title": "A component's grid, edges, folders, variables and run time are reported as documented", "statement": "For every grid the stored edge cells are exactly the cells of the outer rows and columns, each once when there are at least two rows and columns. Rank, size, shape, spacing and origin of grid 0 agree with each other, y before x. Input and output folders end in a separator, '~' and a leading '.' are resolved against the configuration folder, topography, soil, meteorology and miscellaneous folders are used only if present, and doing it again changes nothing. Updating a variable changes its items in place to value times factor, keeps its shape and touches no other variable. The run time report adds up to the elapsed time.", "quantifier": "All grid sizes, all folder names and file systems, all variables, values and factors, all elapsed times", "why_tests_cant": "Grid sizes, path names, file systems and aliasing between arrays are unbounded; tests see a few of them", "anchors": ["topoflow/utils/BMI_base.py: save_edge_ids", "topoflow/utils/BMI_base.py: get_grid_rank, get_grid_size, get_grid_type, get_grid_shape, get_grid_spacing, get_grid_origin", "topoflow/utils/BMI_base.py: get_run_time_string", "topoflow/utils/BMI_base.py: set_directories, prepend_directory", "topoflow/utils/BMI_base.py: initialize_scalar, initialize_grid, initialize_var, update_var"]}
{"id": "C89", "title": "Standard soils have consistent water contents and conductivities", "statement": "For every known soil type the water contents satisfy 0 < residual < hygroscopic < wilting < field capacity < upper < saturated = porosity < 1; the retention curve is strictly monotone; conductivity rises from 0 at the residual content to K_s at saturation; the water content returned for a steady rain has exactly that conductivity; unknown types set nothing and both soil modules agree.", "quantifier": "All type names, all pressure heads, water contents and rain rates, all sound parameter sets", "why_tests_cant": "Monotonicity and ordering are statements about real-valued curves and all names", "anchors": ["topoflow/components/soil_base.py: soil_base.initialize, theta_residual, theta_min, theta_wilting, theta_field, theta_max, K_of_theta, soil_type_list", "topoflow/components/soil_funcs.py: Get_Soil_Params, Theta_Max, Soil_Types"]}
{"id": "C90", "title": "Humidity, lapse-rate and time-step helpers", "statement": "Saturation vapour pressure is positive and grows with temperature for each method; relative humidity lies in [0,1], grows with specific humidity, falls with temperature and is 1 exactly from the saturation humidity on; lapsed temperature grids have one frame per time and fall by the lapse rate per metre; a time step passes the Courant test exactly when it is at most the stable time step.", "quantifier": "All temperatures above the formula's pole, humidities, pressures, grids, series, cell sizes, speeds and steps", "why_tests_cant": "Monotonicity and equivalence over real-valued inputs", "anchors": ["topoflow/utils/met_utils.py: saturation_vapor_pressure, relative_humidity, lapse_air_temperature", "topoflow/utils/tf_utils.py: Courant_Condition_OK, Stable_Timestep"]}
{"id": "C91", "title": "Pictures of grids keep the order of the values", "statement": "Every stretch gives each cell a number, keeps larger values larger, maps into [0,1] with the least value at 0 and the largest at 1, and cells without data neither influence the others nor are shown; the caller's grid is left alone.", "quantifier": "All grids, all stretches and positive parameters", "why_tests_cant": "Order must be kept for every pair of values of every grid", "anchors": ["topoflow/utils/visualize.py: normalize_grid, histogram_equalize, power_stretch0, power_stretch1, power_stretch2, power_stretch3, log_stretch, linear_stretch, tanh_stretch, stretch_grid", "topoflow/utils/visualize.py: show_grid_as_image"]}
{"id": "C92", "title": "A component starts from its path, time and component files", "statement": "When a component starts, it looks for the path file and the time file beside its own configuration file; every setting in them becomes a text attribute with the last value given; the input and output folders are the named ones, made absolute and closed, and stay so while the component's own file does not name them; the length of the run is the time between the start and end given in the time file, in minutes, whatever the file says about the length; a file without one of the needed settings stops the start; and without a time file the run lasts one day and output files can still be opened (the last point fails).", "quantifier": "every text of the files, every name of the configuration file, every file system and every prior attributes of the component", "why_tests_cant": "The files are free text with any number of lines, comments and repeated settings; tests read a few files of one layout.", "anchors": ["utils/BMI_base.py: read_path_info", "utils/BMI_base.py: read_time_info", "utils/BMI_base.py: initialize_config_vars", "utils/time_utils.py: get_duration", "utils/ncts_files.py: open_new_file"]}
{"id": "C93", "title": "Imported rasters keep their place and their numbers", "statement": "A raster that is imported into the project's own grid format gets a header that says where it lies, how its cells are measured and what type its numbers are; and the file that is written returns the raster's numbers when it is read, on any machine. False for what the header says about geographic rasters made from GeoTIFF, for projected rasters imported as a DEM, and for the numbers of every type but 32-bit float.", "quantifier": "every raster size, position, cell size, data type, coordinate system and cell contents, both byte orders of the writing and of the reading machine, every state of the folder", "why_tests_cant": "The repository's tests import no raster; the claim ranges over all rasters, types and pairs of machines.", "anchors": ["topoflow/utils/import_grid.py: import_dem_as_rtg, get_raster_bounds, get_raster_cellsize, get_rtg_type_from_gdal_type, read_from_geotiff, make_rti_for_gdal_grid, save_geotiff_as_rtg, read_from_rtg", "topoflow/utils/rtg_files.py: read_grid, write_grid"]}
{"id": "C94", "title": "The final report describes the end of the run", "statement": "When a run ends, the report gives the smallest and largest discharge, velocity and depth of the final grids, the volumes stored at the start and at the end, the mass balance and the simulated time. False when the provider file names the driver before the channels (the report then holds the initial values 10^6 and -10^6 and the initial volume), for edge cells, for values beyond 10^6, for grids of at most two rows or columns (no report), for the words gain and loss, which are exchanged, and for the simulated time when the run was to stop at a given time.", "quantifier": "every grid size, final grids and volumes, every order of the provider file, every set of switched-off components", "why_tests_cant": "The order of the provider file and the final state are arbitrary; a test of one example, where the driver is last, sees none of the failures.", "anchors": ["topoflow/framework/emeli.py: finalize_all", "topoflow/components/channels_base.py: finalize, update_mins_and_maxes, initialize_min_and_max_values, update_total_channel_water_volume, update_total_flood_water_volume", "topoflow/components/topoflow_driver.py: finalize, print_final_report, add_mins_and_maxes_to_report, add_storage_volumes_to_report, add_mass_balance_to_report, add_basic_info_to_report, vol_str"]}
{"id": "C95", "title": "Files of sources, sinks and canals", "statement": "A file of sources, sinks or canals in the documented layout gives every diversion its cell, its rates and its travel time; a wrong count of values is refused; the published coordinates are those of the cell and the channels find every diversion in its cell.", "quantifier": "all texts of such files, with any keys, blanks and numbers, all numbers of sources, all grids and cells", "why_tests_cant": "The readers are run by no test; which files are accepted and where a diversion lands depends on every number in the file and on the grid size.", "anchors": ["topoflow/components/diversions_fraction_method.py: read_source_data, read_sink_data, read_canal_data", "topoflow/utils/cfg_files.py: read_value, read_list_after_key", "topoflow/components/channels_base.py: initialize_diversion_vars"]}
{"id": "C96", "title": "Provider file", "statement": "A provider file names the components of a run: comments, blank lines and further words are passed over; each named component is created, initialised and finalised once, in the order of the file; an unknown name or a missing driver is refused before anything starts.", "quantifier": "all provider files, all repositories, all lists of names with repetitions", "why_tests_cant": "The tests run one or two shipped provider files; repeated, unknown and indented names are not among them.", "anchors": ["topoflow/framework/emeli.py: read_provider_file, instantiate_comp, run_model, initialize_comp_set, finalize_all"]}
{"id": "C97", "title": "The initial DEM of an erosion run is the one asked for", "statement": "The erosion model starts from the grid in the elevation file when told to read it, leaving the file as it was, and otherwise from a flat surface or a plane of the given slopes, with or without noise; a created DEM is saved and a later run that reads it starts from the same DEM.", "quantifier": "Every option setting, grid size, cell size, slopes, noise field, and elevation file of any number type", "why_tests_cant": "Each method, noise kind, spelling of the options and number type of the file combine; tests run one configuration, and the failing combinations are silent (a file overwritten, bits read as another type).", "anchors": ["topoflow/components/erode_base.py: initialize_DEM, create_initial_DEM", "topoflow/utils/midpoints.py: make_fractal_surface"]}
{"id": "C98", "title": "Snow depth follows the snow density; the snowpack starts with its cold content", "statement": "The snow and glacier components start with the nonnegative cold content of the initial snowpack, and after every update the snow depth is the water equivalent times the ratio of the densities of water and snow in force at that time, whether the snow density is a number, a grid, a time series or a sequence of grids.", "quantifier": "Every grid size, field of densities, depths, temperatures, every history of densities read and of water equivalents, also past the end of the file", "why_tests_cant": "The failing combination depends on which inputs are numbers and which are grids, and a density change is silently lost; a test would need every combination of input types and a long history.", "anchors": ["topoflow/components/snow_base.py: initialize_computed_vars, initialize_cold_content, update_density_ratio, update_depth", "topoflow/components/glacier_base.py: the same", "topoflow/utils/BMI_base.py: initialize_var, update_var"]}
{"id": "C99", "title": "A configuration file made from a template fills in exactly the named holes", "statement": "Making a configuration file from a template replaces every hole whose name is listed by its value, leaves all other text and holes unchanged, changes no other file, and writes nothing when it fails.", "quantifier": "Every template text with holes, list of names and values, and file system, for the {{name}} and the ${name} templates", "why_tests_cant": "Which replacements interfere depends on the texts of the values, the order of the names and on unbalanced braces; tests try a few templates.", "anchors": ["topoflow/utils/cfg_templates.py: make_new_cfg_file", "topoflow/utils/template_files.py: replace, get_replacements"]}
{"id": "C100", "title": "The wettest month of a rainfall file", "statement": "For a rainfall file whose records run through consecutive months from January of a year, over at most twenty years, the report of the wettest month names the year and month of the earliest month with the greatest rain, and that rain. (False of the code where the last record has rain, where the file starts in another month, where a month is missing, and for longer files.)", "quantifier": "all files of records of consecutive months, with any number of records per month and any rain rates", "why_tests_cant": "a test file has a few months; the claim is over every pattern of records and rates, and the faults appear only for certain starts, gaps and last records", "anchors": ["topoflow/utils/mct_files.py: mct_file.find_wettest_month"]}
{"id": "C101", "title": "Bundling grid files into one sequence of grids", "statement": "Bundling all grid files with a common name prefix writes one new file that holds the grids one after another in the order of time, leaves an existing file of that name and all other files unchanged, and takes the size of the grids from the arguments or the header. (False of the code where the time indices have no leading zeros, where a header has the prefix, for files of another size, for the byte order and for sizes given as numbers.)", "quantifier": "all sets of files, prefixes, numbers of grids, sizes and element types", "why_tests_cant": "the order depends on the texts of all the names, and the faults show only for certain names and sizes; tests use a few files with tidy names", "anchors": ["topoflow/utils/rtg2rts.py: rtg2rts", "topoflow/utils/rti_files.py: try_to_find_rti_file, read_info"]}
{"id": "C102", "title": "Standard names of saved variables", "statement": "A saved grid or pixel series carries the standard name of its variable: the standard name found for a short name maps back to that short name or the one it is a variant of, the name at a pixel is that of the variable, and every variable a component can save has a standard name. (False of the code for five variables whose saving stops with a KeyError, for ten standard names that share a short name with a later one, and for elevations and surface temperatures that get the names of other variables.)", "quantifier": "all short names, standard names, components, choices of grids and pixel series, rows and columns", "why_tests_cant": "the tables hold hundreds of names and faults show only for certain choices of output variables; tests save a few common ones", "anchors": ["topoflow/utils/svo_names.py: get_short_name, get_svo_name, get_svo_name_map", "topoflow/utils/ncts_files.py: add_series", "topoflow/utils/ncgs_files.py: open_new_file", "topoflow/utils/model_output.py: open_new_ts_file"]}
{"id": "C103", "title": "Calls pass the arguments that functions take", "statement": "Whenever one function of the project calls another, the arguments suit the parameters: not too many, no unknown or repeated keyword, no missing value; each parameter gets its positional argument, else its keyword argument, else its default. (False of 24 calls, which raise a TypeError whenever they are reached: run_model of every component, the reading of evaporation rates from a file, the clock of the ice component, and others.)", "quantifier": "all calls of the project's functions in the source (more than 3000), all argument values and defaults, all classes that inherit a calling method", "why_tests_cant": "tests reach few of the calls, and a call in an inherited method has a different target in each class", "anchors": ["topoflow/utils/BMI_base.py: run_model", "topoflow/components/evap_read_file.py: read_input_files", "topoflow/utils/model_input.py: read_next", "topoflow/components/ice_base.py: update, update_time", "topoflow/components/erode_d8_local.py", "topoflow/utils/parameterize.py", "topoflow/utils/pedotransfer.py"]}
{"id": "C104", "title": "The components of the repository fit together", "statement": "A set of components from the repository that includes the hydrology driver is accepted for coupling exactly when it holds one meteorology, one channel, one infiltration, one evaporation and one saturated-zone component and snow plus ice, or a glacier alone; whatever set is chosen, each pair of components that exchange a variable has a short name for it on both sides and the same units; every variable a component lists can be looked up.", "quantifier": "all sets of repository components; all pairs of components and variables", "why_tests_cant": "The sets are 2^22 and depend on tables spread over two dozen files; the examples use three of them.", "anchors": ["topoflow/framework/emeli.py:check_for_unique_providers", "topoflow/framework/emeli.py:connect_comps", "topoflow/components/channels_base.py:_input_var_names", "topoflow/components/topoflow_driver.py:_input_var_names", "topoflow/framework/component_repository.xml"]}
{"id": "C105", "title": "Preparing the inputs of a new basin", "statement": "For every combination of options, preparing a basin either makes the six configuration files with every field filled in, dates and stop time that agree, and the rainfall file and time step of the chosen product, or reports why not; the default outlet is the cell of largest contributing area with the coordinates of its centre, and reads back as that cell; the part cut from a forcing file holds exactly the lines of the period.", "quantifier": "all options, directories, sites and case prefixes; all area grids and georeferences; all forcing files", "why_tests_cant": "Options combine freely and grids and files have any size; the module has no tests and cannot be imported without its dependencies.", "anchors": ["topoflow/utils/prepare_inputs.py:prepare_all_inputs", "topoflow/utils/prepare_inputs.py:set_time_info", "topoflow/utils/prepare_inputs.py:set_met_info", "topoflow/utils/prepare_inputs.py:get_cfg_files", "topoflow/utils/prepare_inputs.py:get_outlets_file", "topoflow/utils/prepare_inputs.py:subset_ngen_csv_file"]}
{"id": "C106", "title": "The model clock in double precision", "statement": "Every component and the framework keep the time by adding the time step to a double at each update, and decisions (is a component due, has the stop time been reached) compare such sums. If the steps are whole multiples of a common power of two (whole seconds, halves, quarters ...) and the times stay below 2^53 of that unit, the clock is exactly n steps, its conversion to seconds is exact for every unit of time, a component is updated exactly when it would be with exact numbers, and the rule Until_model_time stops the run after exactly the update it should. For any other step the clock is n steps up to a factor (1 +- 2^-53)^n; a component with a step of 0.3 s is updated too early by a framework with steps of 0.1 s, and a run of one minute with a step of 2.4 s takes 26 steps and not 25.", "quantifier": "all time steps, units of time, numbers of updates and stop times (up to 2^53 of the step's unit)", "why_tests_cant": "a test runs one step size; drift shows only for some steps and some run lengths", "anchors": ["topoflow/utils/BMI_base.py: update_time", "topoflow/framework/emeli.py: update_time, update", "topoflow/components/topoflow_driver.py: check_finished"]}
{"id": "C107", "title": "Water totals in double precision", "statement": "The totals of rain and runoff, and the volumes of the cells, are sums of doubles. Whatever the order in which the cells are added, the reported total after k updates is the exact space-time integral of the rates up to a relative error of (1+2^-53)^(h+k+2)-1 (h: depth of the order of additions); it never falls when no rate is negative; and it is exact in every order for volumes that are whole multiples of a power of two. A cell's volume is never negative and is what exact additions would give, or zero, up to (1+2^-53)^10-1 (less than 1.8e-15) of the sizes of the terms, and for every network of cells the water after an update is the water before plus runoff minus the discharges leaving the grid plus the water made up in overdrawn cells, up to that error: a discharge is the same double at both its ends. A total that is large compared to what is added stops growing.", "quantifier": "all numbers of cells and updates, all orders of addition, all networks with at most eight tributaries per cell, all rates, volumes and discharges", "why_tests_cant": "a test sees one order of addition and one run; rounding errors accumulate with the length of the run", "anchors": ["topoflow/components/met_base.py: update_P_integral", "topoflow/components/channels_base.py: update_R_integral, update_flow_volume, update_Q_out_integral"]}
{"id": "C108", "title": "One table of basins from several data sets", "statement": "collate() lists every usable site ID of the nine inclusion data sets once and in order, flags each data set that has the site, and joins the rows of ten sorted files: for a site each file gives its first row with that ID, as long as no earlier row of the file is blank or has an ID outside the list (one such row silences the rest of the file); an attribute is the first value, in the order of the data sets, that is not '-', 'unknown' or '-9999', and a line of the table has one value below each heading", "quantifier": "all contents of the data sets, all orders, all numbers of rows, all limits on the number of sites", "why_tests_cant": "the join is a walk along ten files at once whose outcome depends on every earlier row; tests on the shipped files never show a file that gets stuck", "anchors": ["topoflow/utils/ngen/collate_basins.py: collate", "topoflow/utils/ngen/collate_basins.py: get_inclusion_dict", "topoflow/utils/ngen/collate_basins.py: update_attributes", "topoflow/utils/ngen/data_utils.py: get_basin_ids"]}
{"id": "C109", "title": "Time interpolation in double precision", "statement": "With float64 arithmetic the value that the framework interpolates between two updates of a provider never turns back between them, is exactly the new value wherever the grid is held constant, and is on the straight line up to 10 half-units in the last place of slope times time: a part in a billion after ten years of hourly values. It is not exactly the provider's new value at the provider's time, and a quantity that is never negative can be interpolated to a negative number", "quantifier": "all pairs of values, all pairs of times and all times between them", "why_tests_cant": "which inputs round the wrong way is an accident of their bits, and the size of the error depends on the length of the run", "anchors": ["topoflow/framework/time_interpolation.py: time_interp_data.update", "topoflow/framework/time_interpolation.py: get_values"]}
{"id": "C110", "title": "The snowpack in double precision", "statement": "In double precision arithmetic the melt rate passed on is between zero and the rate computed, the snow water equivalent is never negative, the water that melts in a step exceeds the snow that was there by at most 3 x 2^-53 of it, and after any number of updates the snowpack is the initial one plus all snowfall minus all melt passed on up to 7 x 2^-53 of the largest snowpack per update. When all of the snow is asked for, what is left is at most 3 x 2^-53 of it; it need not be zero, and for some time steps it never becomes zero.", "quantifier": "every initial snow water equivalent, time step, and history of snowfall and computed melt rates, of any length, in 64-bit arithmetic without underflow", "why_tests_cant": "rounding differs at each of the unbounded number of steps; a test sees a few histories", "anchors": ["topoflow/components/snow_base.py:snow_component.update", "topoflow/components/snow_base.py:snow_component.enforce_max_meltrate", "topoflow/components/snow_base.py:snow_component.update_swe", "topoflow/components/glacier_base.py:glacier_component.enforce_max_ice_meltrate", "topoflow/components/glacier_base.py:glacier_component.update_iwe"]}
{"id": "C111", "title": "The water of the channel network in double precision", "statement": "In double precision arithmetic, over any number of updates, the water in the channels, on the hillslopes and gone over the edges grows by exactly the reported total of runoff plus the water made up in cells that send more than they have, up to a bound that grows only with the roundings of one update, (1 + 2^-53)^(h+10) - 1 of all volumes held and moved, where h is the depth of the order in which numpy sums. No volume is negative, cells that do not flow hold no water after an update, and a hillslope gives at most what it has.", "quantifier": "every D8 flow grid, cell areas, time step, initial volumes, history of runoff and discharge grids of any length, with or without attenuation, and every order of summation, in 64-bit arithmetic without overflow", "why_tests_cant": "rounding errors differ in every cell and step; tests see a few short runs on small grids", "anchors": ["topoflow/components/channels_base.py:channels_component.update_flow_volume", "topoflow/components/channels_base.py:channels_component.update_R_integral", "topoflow/components/channels_base.py:channels_component.update_edge_values", "topoflow/components/channels_base.py:channels_component.update_velocity_on_edges"]}
{"id": "C112", "title": "Expanded names of stations", "statement": "Expanding the name of a station keeps all its digits in order, leaves no small letters, removes commas, semicolons, @ signs and all periods except decimal points, replaces the spelling of a state at its end by the postal code, replaces an abbreviation only where it stands as a word of its own, writes FT as FEET after a number and as FORT otherwise, and the code of the state can be found again in the long name.", "quantifier": "every name and every choice of the options of the expansion", "why_tests_cant": "names are free text of any length; a table of examples cannot show that none of the about two hundred rules, applied one after another, damages some other word or number", "anchors": ["topoflow/utils/ngen/usgs_utils.py: expand_usgs_site_name", "topoflow/utils/ngen/usgs_utils.py: replace_abbreviations", "topoflow/utils/ngen/usgs_utils.py: replace_state_letters", "topoflow/utils/ngen/usgs_utils.py: replace_periods", "topoflow/utils/ngen/usgs_utils.py: get_usgs_long_name", "topoflow/utils/ngen/data_utils.py: get_state_code"]}
{"id": "C113", "title": "Slopes, curvatures, smoothing and long profiles of a landscape", "statement": "The gradients of a DEM are the differences to the neighbour over the spacing and are missing exactly at the edge; slopes are positive or missing; on a plane the slope is the plane's and divergence and curvatures are 0; second differences are exact on quadratic surfaces; S kc + kp is minus the Laplacian; a mask lists in order exactly the cells that meet its test; smoothing keeps planes and the range of heights away from the edges; the model river profile passes through its first point with its slope, its slope is the derivative, and its curvature obeys the curvature equation; a profile read with clip_hilltop starts at its steepest point.", "quantifier": "every DEM, grid size, spacing, exponent and cell; every number of smoothing passes; every profile", "why_tests_cant": "Tests compare a few DEMs and one river; the claims hold for every surface, exponent and profile length.", "anchors": ["topoflow/utils/hamiltonian.py: hamiltonian.get_d_dx_R, get_d_dx_L, get_d_dy_T, get_d_dy_B, get_qp_slopes, get_qp_divergence, get_curvatures_RT, get_mask, smooth_dem, get_pde_solution", "topoflow/utils/hamiltonian.py: profile.read_profile, smooth_profile, get_peckham_profile, get_whipple_profile, get_slope_profile, get_kappa_p_profile"]}
{"id": "C114", "title": "The climate indices of basins", "statement": "The share of snow is the percentage over 100, between 0 and 1, and 0 where it is missing; the timing index of precipitation is in [-1, 1], falls as the share of snow grows, and where it is not cut is the amplitude for which Woods' formula gives that share of snow; the temperature range is that of the twelve months; the aridity index is PET over precipitation in one unit.", "quantifier": "every table of values, temperature, range and share of snow", "why_tests_cant": "Tests compare a few basins; the claims are about every temperature and every share, the limits included.", "anchors": ["topoflow/utils/ngen/gages2_utils.py: get_month_list, get_gages2_monthly_precip_array, get_gages2_monthly_temp_array, get_snow_precip_fraction, get_precip_timing_index, get_aridity_index", "topoflow/utils/ngen/gages2B_utils.py: get_temperature_range"]}
{"id": "C115", "title": "The water of a channel cell in double precision", "statement": "In double precision the channel never holds more than bankfull, a cell is flooded exactly if it holds more, and channel and floodplain make up the volume up to one rounding (exactly up to twice bankfull).  More water never gives less depth; an empty cell has depth zero.  The depth agrees with the one at which the section holds the volume, up to a few roundings of itself (vertical banks, floodplain) or of itself plus w/(2 tan angle) (sloping banks); depth to volume and back returns the depth up to the same.  The excess rainrate agrees with its terms up to four roundings, is not negative when infiltration is at most the rain, and evaporation alone never takes more than the cell holds.", "quantifier": "all volumes, widths, lengths, bank slopes and rates that are doubles, away from underflow", "why_tests_cant": "rounding differs for every input; a test sees a few of them", "anchors": ["topoflow/components/channels_base.py: update_R, update_channel_volume, update_flood_volume, update_channel_depth, update_flood_depth, initialize_computed_vars"]}
{"id": "C116", "title": "Reading of observed series and rain rates", "statement": "A series read from text has, for every line after the header, the time of its time column and the value of its value column, in order.  Observation times given as dates, date and time, or hhmm become minutes since the first midnight or the given start, in the order of time.  Rain rates made from accumulated rain are the rain up to the next time over the time to it, are never negative for a rising accumulation, and give exactly the rain accumulated when each is held to the next time.  Put on minutes, there is one for every minute from first to last, equal to the rate of the observation at its minute and between neighbouring rates elsewhere; so put, they do not give the rain accumulated.", "quantifier": "all texts of rows, all lists of times, and all increasing times with accumulations", "why_tests_cant": "the totals and orders hold for every file; a test reads one", "anchors": ["topoflow/utils/calibrate.py: read_time_series, convert_obs_time_format, compute_rain_rates_from_accumulations", "topoflow/utils/time_utils.py: convert_times_from_hhmm_to_minutes, convert_times_from_datetime_to_minutes"]}
{"id": "C117", "title": "Time steps of the landscape model", "statement": "The rise of a cell is the least height above it of the cells that flow to it.  In the time step made from it no rising cell gets above a cell that flows to it, and all steps are positive and between the reported minimum and maximum.  In the time step made from sediment, a cell above its parent changes by a fixed fraction of the height between them; the program ends exactly if a step is below 0.01.  The groups of cells of like time step hold every cell exactly once, a cell being in group 1+j if its step is from 4^j to 4^(j+1) times the least; stepping by groups takes no more steps than stepping all cells.", "quantifier": "all grids, flow codes, elevations, sediment fluxes, rates and lists of cells", "why_tests_cant": "the minimum, the partition and the bounds must hold for every landscape; a test sees a few", "anchors": ["topoflow/components/erode_base.py: update_min_dz_up_grid, update_dt_grid_method1, update_dt_grid_method2, update_dt_grid_local1, update_n_grid", "topoflow/components/erode_d8_global.py: update_dt_grid_method0"]}
{"id": "C118", "title": "Tables of stations are joined, compared and sorted without losing a row", "statement": "combine_tsv_files writes every row of the first table once, in order, with the climate indicators of the row of the same station in the second or with dashes; get_site_ids returns the cells of the chosen column, sorted, none lost; get_common_site_ids returns exactly the stations in both lists (or in the first only), each once, sorted; compare_basin_ids prints numbers that add up; sort_tsv_by_site_id keeps the header and every row, makes 7-digit numbers 8 digits long and orders the rows by number; the MOPEX sort exchanges the first two columns and nothing else.", "quantifier": "all tables (any number of rows and columns), all lists of station numbers", "why_tests_cant": "The join reads the two files in step and never backs up: whether it is right depends on the order of all rows of both; a test has a handful of rows", "anchors": ["topoflow/utils/ngen/gages2_utils.py: combine_tsv_files", "topoflow/utils/ngen/classify.py: get_site_ids", "topoflow/utils/ngen/classify.py: get_common_site_ids", "topoflow/utils/ngen/data_utils.py: get_basin_ids", "topoflow/utils/ngen/data_utils.py: compare_basin_ids", "topoflow/utils/ngen/data_utils.py: sort_tsv_by_site_id", "topoflow/utils/ngen/mopex_utils.py: sort_by_site_code"]}
{"id": "C119", "title": "Slopes, divergences and curvatures of the four quarters of a cell are those of the surface", "statement": "For every elevation grid the four quarter-cell slopes are positive or NaN (level), a plane has its own slope, no divergence and no curvature in every quarter, heights above the sea do not matter, heights k times as great give slopes k times and divergences k^gamma times as great, the mirror image of the grid exchanges the quarters, the divergence is given exactly where two neighbours each way exist and the surface is not level, and the divergences of a block add up to what passes its sides.", "quantifier": "all grid sizes, cell sizes, elevations (with gaps) and exponents gamma", "why_tests_cant": "Tests compare a few grids; that no quarter is favoured and that the edge handling by np.roll is right must hold for every grid", "anchors": ["topoflow/utils/hamiltonian.py: get_d_dx_R", "topoflow/utils/hamiltonian.py: get_d_dx_L", "topoflow/utils/hamiltonian.py: get_d_dy_T", "topoflow/utils/hamiltonian.py: get_d_dy_B", "topoflow/utils/hamiltonian.py: get_qp_slopes", "topoflow/utils/hamiltonian.py: get_qp_divergence", "topoflow/utils/hamiltonian.py: get_curvatures_RT", "topoflow/utils/hamiltonian.py: get_pde_solution"]}
{"id": "C120", "title": "The rain of a run is that of its file", "statement": "When the rain rate comes from a file, each time step of a run uses the line or grid of its turn, turned into metres per second and multiplied by the factor of the CFG file, and zero after the last; the volume of rain reported is that of the records used, and the greatest rate reported is the greatest used. A rate given in the CFG file lasts for the first time step.", "quantifier": "all files of lines or grids, all lengths of run, all step lengths, factors and cell counts", "why_tests_cant": "a test uses one file and one length of run; the claim ranges over all files, including empty, short and interrupted ones, and all lengths of run", "anchors": ["topoflow/components/met_base.py: initialize, update, update_P_integral, update_P_max, read_input_files, set_rain_to_zero", "topoflow/utils/model_input.py: read_next"]}
{"id": "C121", "title": "Tables of river forecast sites keep and count every site", "statement": "Culling a table of stations by state keeps exactly the rows of US states, unchanged, and counts them; sites of one or two tables are matched exactly when they are at one place; the comparison of two tables splits their sites without loss; each site gets the hydrograph type of the last list that has it; the counts of basin classes add up to the number of basins.", "quantifier": "all tables, all orders an unstable sort may give, all sites", "why_tests_cant": "a test uses one table; the claims range over all tables, including ties of the sort and sites that share a longitude", "anchors": ["topoflow/utils/ngen/rfc_utils.py: cull_usa_dcp_data_rows, get_equivalent_nws_ids, get_equivalent_nws_ids2, compare_nws_ids, get_hydrograph_type_dict", "topoflow/utils/ngen/subset.py: read_collated_tsv_file"]}
{"id": "C122", "title": "Options that a configuration file leaves out", "statement": "When a component is initialized, every option that its configuration file gives keeps its value and every option of the component's list that the file leaves out has its documented default; nothing else is set. Flood depths are saved only with the flood option on; attenuation and the making of channel files find all the numbers that they need.", "quantifier": "every set of attributes read from a configuration file, for the channels, meteorology, driver and degree-day snow components", "why_tests_cant": "the options are independent, so the combinations of given and missing ones grow exponentially with their number; which default is used depends on other options and on values left by an earlier initialize", "anchors": ["topoflow/components/channels_base.py:set_missing_cfg_options", "topoflow/components/channels_base.py:initialize", "topoflow/components/met_base.py:set_missing_cfg_options", "topoflow/components/topoflow_driver.py:set_missing_cfg_options", "topoflow/components/snow_degree_day.py:set_missing_cfg_options"]}
{"id": "C123", "title": "Cells along the boundary of a basin", "statement": "For a basin boundary that runs clockwise along cell edges, the columns and rows returned are those of the basin's cells beside the boundary, each once, and the outlet is the lowest of them, given with its own longitude and latitude.", "quantifier": "every closed or open list of vertices, every grid origin and spacing, every elevation of the cells", "why_tests_cant": "the cells depend on every turn of the boundary and on the texts of all coordinates; a lost or shifted cell shows only for particular outlines", "anchors": ["topoflow/utils/ngen/hlr_utils.py:get_cols_and_rows", "topoflow/utils/ngen/hlr_utils.py:try_to_get_outlet_info"]}
{"id": "C124", "title": "Making the table of hydrologic landscape basins", "statement": "create_tsv looks at the features of the layer in order and writes one header and exactly one line per feature that has a code, more than one cell and (where outlets are asked for) lies in the DEM with a single lowest boundary cell whose elevation is the one of the shapefile. Every number it prints is the count it names over the features looked at; unique basins are the different VALUEs; the histogram of codes is that of the lines. Elevations are read back from the DEM file as they are stored, and a point is put in the cell it lies in.", "quantifier": "All lists of features, both kinds of shapefile, with and without outlets, all limits nb_max; all grids, files of 16-bit elevations, points and rounding methods.", "why_tests_cant": "The layer has tens of thousands of features and the loop has four ways out of its body; a test sees one layer.", "anchors": ["topoflow/utils/ngen/hlr_utils.py:create_tsv", "topoflow/utils/ngen/hlr_utils.py:get_cols_and_rows2", "topoflow/utils/ngen/hlr_utils.py:get_polygon_zvals", "topoflow/utils/ngen/hlr_utils.py:check_lon_lats"]}
{"id": "C125", "title": "Converting a grid of flow codes", "statement": "Convert_Flow_Grid replaces every flow code of a file by the new code paired with it and any other code by zero, cell by cell and in order, in the byte order and number types asked for; without codes it turns those of ARC/INFO into those of RiverTools.", "quantifier": "All grids of codes, both byte orders of file and machine, all input and output types, all lists of codes.", "why_tests_cant": "The file is handled in blocks whose size and type change from block to block; the outcome depends on the size of the grid, the types and on single bytes.", "anchors": ["topoflow/utils/tf_utils.py:Convert_Flow_Grid", "topoflow/utils/tf_utils.py:Not_Same_Byte_Order"]}
{"id": "C126", "title": "Converting the units of a stack of grids", "statement": "convert_units of an open RTS file makes a new file with as many grids, every number of which is that of the old file times the factor plus the value added; the old file and all others stay as they are, no existing file is overwritten, and the new file can be read on machines of either byte order.", "quantifier": "All stacks of 4-byte numbers, both byte orders of file and machines, all factors and added values, all names of the new file.", "why_tests_cant": "Two files are read and written in turns; a test sees one byte order and one pair of names.", "anchors": ["topoflow/utils/rts_files.py:convert_units"]}
{"id": "C127", "title": "Each line of the table of climate indicators has the values of its own site", "statement": "The table that merges two files of climate indicators has one line for every site that is in both files, in order of the site numbers, and each line has the values that the two files have for that site; the moisture index and the aridity that are derived from each other are inverse conversions.", "quantifier": "all pairs of files with any number of lines, all sites and all cell texts; all moisture indices in (-1, 1] and all positive aridities", "why_tests_cant": "The merge reads each file once and keeps the last values where a site is not found, so that whether a line is right depends on the order of all lines of both files; tests have one pair of files.", "anchors": ["topoflow/utils/ngen/classify.py: save_indicators_to_tsv", "topoflow/utils/ngen/classify.py: get_common_site_ids"]}
{"id": "C128", "title": "Fields of fixed width are read back whole, and byte scaling stays in range", "statement": "Reading fields of fixed width, from a file or from a line of text, gives back the fields that were written one after the other, without losing characters or reading them twice. Scaling an array to bytes takes its smallest value to 0 and its largest to the top, and keeps all values between and in order.", "quantifier": "all texts, all lists of fields and widths, all numbers of arguments; all arrays of numbers, all limits and tops", "why_tests_cant": "The position of each field depends on all widths before it, and the range of the scaling on all values of the array; tests have a few of each.", "anchors": ["topoflow/utils/idl_func.py: readf", "topoflow/utils/idl_func.py: reads", "topoflow/utils/idl_func.py: bytscl"]}
{"id": "C129", "title": "The merged table of forecast center basins has one line per basin, with the right columns", "statement": "The table made from the files of all river forecast centers has one line for every basin of every center, in order, and each has the number, name and bounding box that the file of the center has below the respective headings, in whatever order the columns are.", "quantifier": "all numbers of files and of lines, all headings in any order, all cell texts", "why_tests_cant": "Columns are looked up by heading with several alternatives, and one bad file affects those after it; tests have the files of one download.", "anchors": ["topoflow/utils/ngen/rfc_utils.py: merge_rfc_basin_info"]}
