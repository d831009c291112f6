{
 "claims": [
  {
   "property": "C01",
   "status": "proved",
   "theorems": [
    "C01_heap_is_priority_queue",
    "C01_shipped_insert_refuted"
   ],
   "note": "The algorithm (integer halving) is a priority queue for every legal history; as shipped under Python 3 every finite insertion raises IndexError (refuted theorem)."
  },
  {
   "property": "C02",
   "status": "proved",
   "theorems": [
    "C02_fill_pits_never_lowers_and_terminates",
    "C02_nodata_free_never_fails"
   ],
   "note": "All DEMs and grid shapes. fill_pits raises ValueError instead when there are more than 500*(nx+ny) start pixels; that never happens for nodata-free DEMs."
  },
  {
   "property": "C03",
   "status": "partial",
   "theorems": [
    "C03_fill_pits_minimax_over_ID_paths",
    "C03_filled_dem_is_depression_free",
    "C03_fill_pits_minimax_partial",
    "C03_minimax_refuted"
   ],
   "note": "Exact minimax over pixel-ID neighbours for every DEM; depression-freeness with true 8-neighbours for every nodata-free DEM; exact minimax with true 8-neighbours unless one of the two forgotten boundary cells is lower than all its start neighbours, where it is refuted."
  },
  {
   "property": "C04",
   "status": "partial",
   "theorems": [
    "C04_edge_cells_unchanged_partial",
    "C04_edge_cell_unchanged_refuted",
    "C04_nodata_cell_unchanged_refuted"
   ],
   "note": "The code violates this: the boundary cells (ny-2,0) and (ny-2,nx-1) can be raised and nodata cells can be overwritten (both refuted by witnesses). Proved for all other edge cells of nodata-free DEMs."
  },
  {
   "property": "C05",
   "status": "proved",
   "theorems": [
    "C05_resolve_picks_a_tied_direction"
   ],
   "note": "All 255 nonzero tie sets; table built by replaying the source's assignments."
  },
  {
   "property": "C06",
   "status": "proved",
   "theorems": [
    "C06_flow_codes_valid_downhill_steepest"
   ],
   "note": "All DEMs (with NaN/nodata), geometries and options; exact arithmetic."
  },
  {
   "property": "C07",
   "status": "proved",
   "theorems": [
    "C07_flow_grid_acyclic"
   ],
   "note": "Ghost-rank invariant through flat linking plus pigeonhole."
  },
  {
   "property": "C08",
   "status": "proved",
   "theorems": [
    "C08_link_flats_complete"
   ],
   "note": "Termination with fuel = number of cells, completeness at stop."
  },
  {
   "property": "C09",
   "status": "proved",
   "theorems": [
    "C09_parent_IDs"
   ],
   "note": "Including periodic sides; hypothesis discharged by C06."
  },
  {
   "property": "C10",
   "status": "proved",
   "theorems": [
    "C10_area_is_upstream_sum"
   ],
   "note": "Acyclic grids (C07), positive pixel areas, initial A >= 0."
  },
  {
   "property": "C100",
   "status": "partial",
   "theorems": [
    "C100_wettest",
    "C100_dry_end",
    "C100_last_refuted",
    "C100_years_refuted",
    "C100_start_refuted",
    "C100_winter_refuted",
    "C100_gap_refuted"
   ],
   "note": "Proved for records of consecutive months from January over at most twenty years, for all records but the last, whose rain never counts; refuted for the last record, for other starting months, for gaps and for longer files. The reading of the text columns is left out."
  },
  {
   "property": "C101",
   "status": "partial",
   "theorems": [
    "C101_bundle",
    "C101_time_order",
    "C101_order_refuted",
    "C101_swap_refuted",
    "C101_existing",
    "C101_numbers_refuted",
    "C101_info",
    "C101_no_info_refuted",
    "C101_header_refuted",
    "C101_short_refuted"
   ],
   "note": "Proved for grid files of the given size: the contents in the order of names, which is the order of time for indices of fixed width; refuted for indices without leading zeros, headers with the prefix, short files, the byte order and sizes given as numbers."
  },
  {
   "property": "C102",
   "status": "partial",
   "theorems": [
    "C102_round",
    "C102_standard",
    "C102_meaning_refuted",
    "C102_pixel",
    "C102_saved",
    "C102_open",
    "C102_melt_refuted"
   ],
   "note": "Proved: the standard name of a short name maps back to it or to the one it is a variant of; exactly ten standard names are not found again; pixel names; exactly which saved variables have names. Refuted: five saved variables have no standard name, and two get that of another variable."
  },
  {
   "property": "C103",
   "status": "partial",
   "theorems": [
    "C103_bind",
    "C103_values",
    "C103_calls",
    "C103_run_model_refuted",
    "C103_read_file_refuted"
   ],
   "note": "Proved for all signatures and arguments: when a call binds and what each parameter gets; every call in the table but 24 binds. Refuted: run_model of all 17 initializers and the reading of evaporation rates. Missing: calls of methods of other objects, of ngen, and functions with *args."
  },
  {
   "property": "C104",
   "status": "partial",
   "theorems": [
    "C104_complete",
    "C104_no_ice_refuted",
    "C104_glacier_refuted",
    "C104_examples",
    "C104_template_refuted",
    "C104_diversions_refuted",
    "C104_connect",
    "C104_names",
    "C104_units",
    "C104_warning"
   ],
   "note": "The acceptance condition, for every subset with the driver, and the look-ups of every connection are proved from the tables as they stand. The unrestricted claims are refuted: the ice cannot be left out, a glacier excludes snow and ice, the template set is not accepted, the diversions reach no component, and 17 listed variables have no short name and 5 no units. The exchanged values are not modelled here."
  },
  {
   "property": "C105",
   "status": "partial",
   "theorems": [
    "C105_options",
    "C105_new_refuted",
    "C105_fields",
    "C105_period",
    "C105_rain",
    "C105_two_refuted",
    "C105_csv_stack_refuted",
    "C105_case_refuted",
    "C105_outlet",
    "C105_outlet_file",
    "C105_step_back_refuted",
    "C105_csv",
    "C105_csv_start_refuted",
    "C105_csv_end_refuted"
   ],
   "note": "Which options work, that every template field is filled, that the dates span the stop time, the file and step of a single product, the outlet and its file, and the cut of an ordered forcing file are proved. Refuted: a new object works as it is, two products agree, rainfall grids for a CSV source, another case prefix than Test1, STEP_BACKS, and a period whose first or last date has no line. The DEM steps are in other properties."
  },
  {
   "property": "C106",
   "status": "partial",
   "theorems": [
    "C106_exact",
    "C106_units",
    "C106_stop",
    "C106_due",
    "C106_error",
    "C106_early_refuted",
    "C106_late_refuted"
   ],
   "note": "The exactness, comparison, stop and error-bound theorems hold for all steps in their range; the claim that steps such as 0.1 or 2.4 seconds give the same schedule as exact numbers is refuted. Overflow is not modelled."
  },
  {
   "property": "C107",
   "status": "partial",
   "theorems": [
    "C107_integral",
    "C107_rain",
    "C107_uniform",
    "C107_grows",
    "C107_exact",
    "C107_stagnates_refuted",
    "C107_cell",
    "C107_network",
    "C107_small"
   ],
   "note": "Proved for doubles without overflow and products that are zero or at least 2^-1021. That the total always follows what is added is refuted for totals above 2^53 times the addend. Missing: storage of rates as 32-bit floats, attenuation, accumulated error of cell volumes over many updates."
  },
  {
   "property": "C108",
   "status": "partial",
   "theorems": [
    "C108_inclusion",
    "C108_join",
    "C108_complete",
    "C108_first_row",
    "C108_first",
    "C108_units",
    "C108_stuck_refuted",
    "C108_last_row_refuted",
    "C108_blank_refuted",
    "C108_units_refuted",
    "C108_file"
   ],
   "note": "Proved for all contents: the list of sites and its flags, the join for sorted files (and that it loses nothing when every ID is listed), the first set value, the unit of the area, the layout of a line. Refuted: that a file cannot get stuck (an ID only in NOAA_via_API, a short ID, a blank line), that the last of repeated rows is used, that an empty cell is skipped, that elevation and area always carry the unit of the data set they come from. Not modelled: unsorted files, long names, links, state codes, HLR codes, the basins without USGS IDs."
  },
  {
   "property": "C109",
   "status": "proved",
   "theorems": [
    "C109_monotone",
    "C109_constant",
    "C109_close",
    "C109_ten_years",
    "C109_negative_refuted",
    "C109_end_refuted"
   ],
   "note": "For doubles without overflow (and without underflow of the slope, for the size of the error): monotone in time, constant where held, error bound, ten years. Refuted by computed doubles: a non-negative quantity stays non-negative; the value at the provider's time is the provider's value."
  },
  {
   "property": "C11",
   "status": "proved",
   "theorems": [
    "C11_every_cell_receives_its_inflow",
    "C11_flow_volume_conserves",
    "C11_run_conserves"
   ],
   "note": "exact arithmetic; Q holds for any D8 grid with non-periodic edges closed; clipping term is explicit"
  },
  {
   "property": "C110",
   "status": "proved",
   "theorems": [
    "C110_limit",
    "C110_balance",
    "C110_all",
    "C110_never_refuted",
    "C110_residual_refuted",
    "C110_excess_refuted"
   ],
   "note": "Bounds for histories of any length; the residue and the excess are shown on computed doubles. Overflow, NaN and underflow are left out."
  },
  {
   "property": "C111",
   "status": "proved",
   "theorems": [
    "C111_cell",
    "C111_hillslope",
    "C111_run",
    "C111_nonneg",
    "C111_edges",
    "C111_runoff"
   ],
   "note": "For grids of runoff; the total for a uniform runoff is C107_uniform. Discharges are arbitrary except that cells which do not flow have none. Overflow and NaN are left out."
  },
  {
   "property": "C112",
   "status": "partial",
   "theorems": [
    "C112_digits",
    "C112_upper",
    "C112_punctuation",
    "C112_decimals",
    "C112_states",
    "C112_states_done",
    "C112_code",
    "C112_long_name",
    "C112_short_refuted",
    "C112_words",
    "C112_meaning",
    "C112_repeat_refuted",
    "C112_ft",
    "C112_ft_refuted",
    "C112_inside_refuted",
    "C112_salt_lake_refuted",
    "C112_no_effect_refuted",
    "C112_yukon_refuted",
    "C112_border_refuted"
   ],
   "note": "Digits, capitals, punctuation, decimal points, endings, codes and the replacement of separate words are proved for every name. Refuted: abbreviations without a leading blank are found inside words (CHIEF -> CHIEAST FORK, WEST PAUL -> WESAINT PAUL, NORTH EASTON -> NORTHEASTON); the first FT decides for all; S L CITY is compared with eight characters and never replaced; a correction of fix_spellings is a comparison; the rules for D&R CA come after the one for CA; stations on the border of two states get an empty code; a long name of fewer than three characters raises IndexError. Missing: that the whole chain of abbreviations expands every abbreviation of an arbitrary name (false as it stands)."
  },
  {
   "property": "C113",
   "status": "partial",
   "theorems": [
    "C113_smooth_plane",
    "C113_smooth_range",
    "C113_smooth_edge_refuted",
    "C113_radial",
    "C113_spacing_refuted",
    "C113_peckham",
    "C113_peckham_concave",
    "C113_whipple",
    "C113_curvature_eqn",
    "C113_profile",
    "C113_profile_clip",
    "C113_hilltop",
    "C113_uphill_refuted",
    "C113_slope_profile_refuted",
    "C113_smooth_profile_refuted",
    "C113_gradients",
    "C113_shift",
    "C113_plane",
    "C113_second",
    "C113_slope",
    "C113_laplacian",
    "C113_mask",
    "C113_mask_unknown",
    "C113_mask_tests"
   ],
   "note": "Over the reals with NaN as a missing value; histograms and plots not modelled. Refuted: smoothing lowers the edges of a level DEM (C113_smooth_edge_refuted) and multiplies a level profile by more than 7/4 (C113_smooth_profile_refuted), the exact-solution grid records the wrong spacing (C113_spacing_refuted), a rising profile with clip_hilltop ends in an error (C113_uphill_refuted), the last slope and the last two curvatures of a profile are NaN (C113_slope_profile_refuted)."
  },
  {
   "property": "C114",
   "status": "partial",
   "theorems": [
    "C114_snow",
    "C114_percent_refuted",
    "C114_timing_range",
    "C114_timing_woods",
    "C114_timing_monotone",
    "C114_timing_mirror",
    "C114_timing_jump_refuted",
    "C114_monthly",
    "C114_methods",
    "C114_all_year",
    "C114_aridity",
    "C114_timing_error_refuted",
    "C114_months"
   ],
   "note": "Over the reals; float32 rounding and the text of the tables not modelled. Refuted: UNITS='percent' returns the percentage (C114_percent_refuted), the index does not jump at T = 1 (C114_timing_jump_refuted), every basin has an index (C114_timing_error_refuted)."
  },
  {
   "property": "C115",
   "status": "partial",
   "theorems": [
    "C115_split",
    "C115_split_refuted",
    "C115_monotone",
    "C115_rectangle",
    "C115_floodplain",
    "C115_trapezoid",
    "C115_empty",
    "C115_dry_refuted",
    "C115_volume",
    "C115_round_trip",
    "C115_excess",
    "C115_infiltration",
    "C115_evaporation",
    "C115_overdraw_refuted"
   ],
   "note": "Refuted: a cell with sloping banks that holds little enough water has depth exactly zero (the width cancels the square root); with infiltration, rounding ET + IN can take more than the cell holds; far above bankfull the two parts need not make up the volume.  Not modelled: np.float32 grids, overflow, velocities and discharge in double precision."
  },
  {
   "property": "C116",
   "status": "partial",
   "theorems": [
    "C116_rates",
    "C116_depth",
    "C116_rates_nonneg",
    "C116_minutes",
    "C116_per_minute",
    "C116_per_minute_depth_refuted",
    "C116_long_refuted",
    "C116_rows",
    "C116_complete",
    "C116_blank_refuted",
    "C116_header",
    "C116_cells",
    "C116_dates",
    "C116_datetimes",
    "C116_hhmm",
    "C116_times_refuted"
   ],
   "note": "np.float32 of words is a parameter and its rounding is not modelled; files are lists of lines; interp1d is modelled for increasing minutes (its own sorting is not). Refuted: blank lines end reading in an error, hhmm times run backwards past midnight, per-minute rates give the accumulated rain, and times beyond 546 hours."
  },
  {
   "property": "C117",
   "status": "partial",
   "theorems": [
    "C117_rise",
    "C117_no_overshoot",
    "C117_step_range",
    "C117_level_refuted",
    "C117_fraction",
    "C117_fraction_local",
    "C117_group_of_cell",
    "C117_groups",
    "C117_work"
   ],
   "note": "Real numbers; log rounding in update_n_grid and int32 are not modelled; NaN elevations are not. Refuted: a cell level with a cell that flows to it gets the largest step."
  },
  {
   "property": "C118",
   "status": "partial",
   "theorems": [
    "C118_combine",
    "C118_sorted",
    "C118_stray_refuted",
    "C118_no_rows_refuted",
    "C118_common",
    "C118_numbers",
    "C118_site_ids",
    "C118_sort_file",
    "C118_newline_refuted",
    "C118_swap",
    "C118_two_columns_refuted",
    "C118_basin_ids"
   ],
   "note": "Text as ASCII strings, files as lists of lines. Refuted: a station of the second table that is not in the first leaves all rows after it without indicators (C118_stray_refuted), an empty second table is accepted (C118_no_rows_refuted), sorted rows stay on lines of their own when the last line has no newline (C118_newline_refuted), a two-column table is swapped (C118_two_columns_refuted)."
  },
  {
   "property": "C119",
   "status": "partial",
   "theorems": [
    "C119_slope",
    "C119_defined",
    "C119_plane",
    "C119_lift",
    "C119_scale",
    "C119_shared",
    "C119_mirror",
    "C119_flux",
    "C119_cylinder",
    "C119_test_surface",
    "C119_spacing_refuted",
    "C119_quadric"
   ],
   "note": "Over the reals with NaN as a separate value; rounding and the histogram not modelled. Refuted: the cell size of the test surface is the distance of its points (C119_spacing_refuted)."
  },
  {
   "property": "C12",
   "status": "proved",
   "theorems": [
    "C12_volumes_nonnegative",
    "C12_no_water_created_iff",
    "C11_flow_volume_conserves"
   ],
   "note": "overdraft is exactly the water created"
  },
  {
   "property": "C120",
   "status": "partial",
   "theorems": [
    "C120_file",
    "C120_blank_refuted",
    "C120_errors",
    "C120_scalar",
    "C120_factor_refuted",
    "C120_max"
   ],
   "note": "Refuted: after a blank line inside the file the last value is used for ever (C120_blank_refuted); the factor does not act on a rate of the CFG file (C120_factor_refuted). Reals, one cell area; the other variables of the component are left out."
  },
  {
   "property": "C121",
   "status": "partial",
   "theorems": [
    "C121_name",
    "C121_cull",
    "C121_state_count_refuted",
    "C121_same_place",
    "C121_same_place_refuted",
    "C121_same_place_2",
    "C121_same_place_2_refuted",
    "C121_compare",
    "C121_types",
    "C121_tally"
   ],
   "note": "Refuted: the count printed for a state is one less than its rows (C121_state_count_refuted); sites at one place are missed when another site shares their longitude (C121_same_place_refuted, C121_same_place_2_refuted)."
  },
  {
   "property": "C122",
   "status": "partial",
   "theorems": [
    "C122_channels",
    "C122_baseflow",
    "C122_flood",
    "C122_given_refuted",
    "C122_attenuate",
    "C122_attenuate_refuted",
    "C122_create",
    "C122_create_refuted",
    "C122_components",
    "C122_again_refuted"
   ],
   "note": "Full characterization of the missing options of four components, of the flood outputs and of the defaults that attenuation and channel files need. Refuted in parts: flood flags and a bankfull depth that the file gives can be overwritten; a word other than yes/no switches attenuation on without its days; making channel files fails unless the file names a Manning file; a second initialize keeps options of the first file. Left out: values that a file cannot give."
  },
  {
   "property": "C123",
   "status": "partial",
   "theorems": [
    "C123_points",
    "C123_all",
    "C123_text_refuted",
    "C123_slanting",
    "C123_inner",
    "C123_inner_refuted",
    "C123_edge_refuted",
    "C123_outlet",
    "C123_outlet_refuted"
   ],
   "note": "Characterization of the returned cells for every boundary of straight steps; errors for slanting ones; the outlet is the first lowest of them. Refuted in parts: two cells whose coordinates give the same text are merged; steps to the left and upwards give the cell below the basin's one; a cell left of the grid is put in column 0; longitude and latitude of the outlet are those of another vertex. Left out: 32-bit overflow, elevations below zero in the file."
  },
  {
   "property": "C124",
   "status": "partial",
   "theorems": [
    "C124_rows",
    "C124_counts",
    "C124_total",
    "C124_unique",
    "C124_ok",
    "C124_repeated_refuted",
    "C124_limit_refuted",
    "C124_code_refuted",
    "C124_cell",
    "C124_check",
    "C124_trunc_refuted",
    "C124_around",
    "C124_elevation",
    "C124_elevations",
    "C124_edge_refuted",
    "C124_end_refuted",
    "C124_negative_refuted",
    "C124_lines"
   ],
   "note": "Proved for all layers: which features are looked at, which lines are written, every printed count, the histograms; elevations and cells. False of the code: repeated VALUEs are not skipped (C124_repeated_refuted), nb_max is no limit while features are left out (C124_limit_refuted), a code above 20 ends the run (C124_code_refuted), 'trunc' takes points left of the grid (C124_trunc_refuted), cells off the grid read other cells or zero (C124_edge_refuted, C124_end_refuted), NumPy 2 refuses elevations below zero (second half of C124_elevation). Left out: the text of a line and the shapefile itself."
  },
  {
   "property": "C125",
   "status": "partial",
   "theorems": [
    "C125_recode",
    "C125_default",
    "C125_array_refuted",
    "C125_same_name",
    "C125_rest_refuted",
    "C125_width_refuted",
    "C125_255_refuted",
    "C125_negative_refuted",
    "C125_types"
   ],
   "note": "Proved: the file written is right where the two types have equally many bytes or the grid has at most 1024 cells (C125_recode, C125_default). False of the code: the call then fails unless the file size is a multiple of 1024 (C125_rest_refuted; the name size is undefined), larger grids are garbled when the types differ (C125_width_refuted), 255 is an IndexError instead of zero (C125_255_refuted), -1 counts as 254 (C125_negative_refuted), codes given as arrays are refused (C125_array_refuted)."
  },
  {
   "property": "C126",
   "status": "partial",
   "theorems": [
    "C126_converted",
    "C126_info_refuted",
    "C126_type_refuted"
   ],
   "note": "Proved for all stacks of 4-byte numbers (C126_converted). False of the code: the description held by the object becomes that of the new file (C126_info_refuted); stacks of other types fail or are taken for floats (C126_type_refuted). Float32 arithmetic itself is a parameter."
  },
  {
   "property": "C127",
   "status": "partial",
   "theorems": [
    "C127_lines",
    "C127_order_refuted",
    "C127_empty_refuted",
    "C127_short_refuted",
    "C127_aridity"
   ],
   "note": "Proved for files sorted by site number, without repeats and with enough columns. Refuted otherwise: a site out of order silently gets the values of the last line of the file, and all after it too; a file without lines is an UnboundLocalError, a short line an IndexError. The printed statistics and the texts of the converted numbers are not modelled."
  },
  {
   "property": "C128",
   "status": "partial",
   "theorems": [
    "C128_fields",
    "C128_nothing_lost",
    "C128_format",
    "C128_line_refuted",
    "C128_line",
    "C128_scale",
    "C128_range",
    "C128_integer_refuted",
    "C128_integer",
    "C128_clip_refuted",
    "C128_constant_refuted"
   ],
   "note": "Proved for files (readf) and floating point arrays. Refuted for lines (reads): each field loses its last character, so it is right only where the width counts a separator. Refuted for integer arrays: the smallest value goes below 0. Values beyond the given limits are not clipped, and constant arrays give no numbers. Conversion of the field texts to numbers and rounding are not modelled."
  },
  {
   "property": "C129",
   "status": "partial",
   "theorems": [
    "C129_lines",
    "C129_break_refuted",
    "C129_last_refuted"
   ],
   "note": "Proved for files that have the needed headings and enough cells. Refuted otherwise: after a file without attributes all later centers but the last are left out, and a needed column that comes last is not found because its heading has the newline. Commas in names and the texts of the numbers are not modelled."
  },
  {
   "property": "C13",
   "status": "partial",
   "theorems": [
    "C13_channel_flood_split",
    "C13_split_after_update_refuted"
   ],
   "note": "split proved for the volume update; false after update_edge_values on no-flow cells (refuted with witness)"
  },
  {
   "property": "C14",
   "status": "proved",
   "theorems": [
    "C14_depth_inverts_trapezoid",
    "C14_wetted_area_times_length_is_volume"
   ],
   "note": "over the reals"
  },
  {
   "property": "C15",
   "status": "proved",
   "theorems": [
    "C15_hydraulic_radius",
    "C15_manning_velocity",
    "C15_law_of_the_wall_velocity"
   ],
   "note": "over the reals"
  },
  {
   "property": "C16",
   "status": "proved",
   "theorems": [
    "C16_peaks_are_running_maxima"
   ],
   "note": ""
  },
  {
   "property": "C17",
   "status": "proved",
   "theorems": [
    "C17_bad_slopes_repaired"
   ],
   "note": ""
  },
  {
   "property": "C18",
   "status": "partial",
   "theorems": [
    "C18_velocity_check",
    "C18_depth_check_partial",
    "C18_depth_check_refuted"
   ],
   "note": "depth check lets NaN pass (refuted with witness)"
  },
  {
   "property": "C19",
   "status": "partial",
   "theorems": [
    "C19_rain_or_snow",
    "C19_precipitation_volumes_add_up",
    "C19_P_max_is_running_maximum",
    "C19_met_update_raises_only_for_0D_precipitation",
    "C19_time_series_temperature_refuted"
   ],
   "note": "partition, volumes and P_max proved for all histories; update() itself raises for 0D precipitation with a time-series temperature (refuted with witness)"
  },
  {
   "property": "C20",
   "status": "proved",
   "theorems": [
    "C20_melt_never_exceeds_snow",
    "C20_snowpack_mass_balance",
    "C20_snowpack_volume_balance",
    "C20_snow_update_total"
   ],
   "note": "for both melt methods"
  },
  {
   "property": "C21",
   "status": "proved",
   "theorems": [
    "C21_cold_content_energy_balance",
    "C21_melt_energy_is_supplied",
    "C21_scalar_parameters_refuted"
   ],
   "note": "energy beyond what melts all present snow is the explicit lost term; update raises for 0D cold content with grid energy flux"
  },
  {
   "property": "C22",
   "status": "proved",
   "theorems": [
    "C22_degree_day_melt"
   ],
   "note": ""
  },
  {
   "property": "C23",
   "status": "proved",
   "theorems": [
    "C23_glacier_cell",
    "C23_glacier_mass_balance"
   ],
   "note": ""
  },
  {
   "property": "C24",
   "status": "proved",
   "theorems": [
    "C24_infiltration_bounded",
    "C24_cumulative_infiltration",
    "C24_infiltration_volumes",
    "C24_no_shape_error",
    "C24_v0_is_infiltration_refuted"
   ],
   "note": "All histories of the Green-Ampt component over grids and scalars, exact arithmetic. The unadjusted flux integral vol_v0 (not exported) differs from the infiltrated volume where the water table is at the surface."
  },
  {
   "property": "C25",
   "status": "partial",
   "theorems": [
    "C25_no_infiltration_where_saturated_partial",
    "C25_no_infiltration_where_saturated_refuted"
   ],
   "note": "Proved when there is more than one pixel, the supply or Ks is a grid and the water table or surface is a grid. False otherwise: with uniform rain lighter than a uniform Ks the rate becomes 0D and the water-table check is skipped."
  },
  {
   "property": "C26",
   "status": "proved",
   "theorems": [
    "C26_capacity_decreases_to_Ks",
    "C26_same_green_ampt",
    "C26_beven_capacity",
    "C26_histories_with_any_capacity",
    "C26_beven_rate_within_capacity_refuted"
   ],
   "note": "Real-valued model. The Beven component's capacity tends to 0 and its light-rain rule lets the rate exceed it."
  },
  {
   "property": "C27",
   "status": "partial",
   "theorems": [
    "C27_water_content_in_range",
    "C27_values_in_range_unchanged",
    "C27_column_water_balance_partial",
    "C27_reported_infiltration_enters",
    "C27_first_update_refuted",
    "C27_unequal_spacing_refuted",
    "C27_whole_column_refuted"
   ],
   "note": "Range: proved for all histories. Water balance: proved for equal node spacings, above the bottom node, from every state reached by at least one update; refuted for the first update after initialize, for unequal spacings and for the column including its bottom node."
  },
  {
   "property": "C28",
   "status": "proved",
   "theorems": [
    "C28_evaporation_never_negative",
    "C28_volume_is_the_integral",
    "C28_volume_unaffected_by_other_components",
    "C28_no_shape_error"
   ],
   "note": "Exact rational model of evap_base, evap_priestley_taylor and evap_energy_balance; soil_x nonzero."
  },
  {
   "property": "C29",
   "status": "partial",
   "theorems": [
    "C29_falling_table_conserves_water_partial",
    "C29_drained_layers",
    "C29_any_gain_fills_the_layers",
    "C29_rising_table_conserves_water_refuted",
    "C29_lateral_flow_conserves_water"
   ],
   "note": "Falling table and lateral exchange: proved. Rising table: false of the code, any gain fills all layers (np.minimum where np.maximum is meant); the actual behaviour is proved."
  },
  {
   "property": "C30",
   "status": "proved",
   "theorems": [
    "C30_wetted_thicknesses_bounded",
    "C30_initial_thickness_matches_table"
   ],
   "note": "For every cell, layer stack and history; also that no layer holds water above one that is not full."
  },
  {
   "property": "C31",
   "status": "partial",
   "theorems": [
    "C31_components_keep_up",
    "C31_at_most_one_update_per_step",
    "C31_run_starts_unless_hours",
    "C31_framework_step_is_smallest_step_partial",
    "C31_framework_step_is_smallest_step_refuted",
    "C31_keeping_up_needs_exact_status_refuted"
   ],
   "note": "Keeping up, at most one update per iteration and minimality of the update count proved for every schedule with fixed steps. The framework step is the minimum enabled step unless a component is disabled and all steps exceed 1000000 s (refuted there). A status spelled other than 'Enabled' is never updated (refuted)."
  },
  {
   "property": "C32",
   "status": "partial",
   "theorems": [
    "C32_requests_inside_window_partial",
    "C32_requests_near_window",
    "C32_never_after_window_refuted",
    "C32_never_before_window_refuted"
   ],
   "note": "Holds when every enabled step is a whole number of framework steps; for other steps both halves are refuted, with the exact bounds of the overshoot proved."
  },
  {
   "property": "C33",
   "status": "proved",
   "theorems": [
    "C33_check_sound_and_complete",
    "C33_every_input_connected"
   ],
   "note": "Also: after a successful check every input is connected to its one provider and nothing else is connected."
  },
  {
   "property": "C34",
   "status": "partial",
   "theorems": [
    "C34_linear_between_updates_partial",
    "C34_otherwise_latest_value",
    "C34_provider_undisturbed",
    "C34_linear_for_in_place_provider_refuted",
    "C34_linear_cell_by_cell_refuted"
   ],
   "note": "Exact characterisation of when the code interpolates; refuted for arrays written in place and when any cell is unchanged."
  },
  {
   "property": "C35",
   "status": "partial",
   "theorems": [
    "C35_passes_the_time_partial",
    "C35_update_until_reaches_time_refuted",
    "C35_past_time_advances"
   ],
   "note": "The requested time is never met: the clock ends past it by at most one step. Refuted for every input; the bound is proved."
  },
  {
   "property": "C36",
   "status": "partial",
   "theorems": [
    "C36_done_at_step_limit",
    "C36_done_at_stop_time",
    "C36_stops_after_peak",
    "C36_run_ends_at_first_stop",
    "C36_fixed_length_runs_end",
    "C36_every_run_ends_refuted",
    "C36_base_run_stops_at_first",
    "C36_done_is_permanent",
    "C36_end_time_is_where_it_stops_partial",
    "C36_end_time_with_stop_time_refuted"
   ],
   "note": "First-time and termination for the step-limit and stop-time rules proved, driver and base class, inside the coupled run. Runs with the peak-fraction rule need not end (refuted); when they end is characterised exactly."
  },
  {
   "property": "C37",
   "status": "partial",
   "theorems": [
    "C37_set_then_get",
    "C37_get_scalar",
    "C37_set_shares_get_copies",
    "C37_get_at_indices",
    "C37_set_at_indices_does_nothing",
    "C37_set_at_indices_changes_cells_refuted"
   ],
   "note": "Round trip, other variables unchanged and indexed reads proved; indexed writes refuted: they have no effect."
  },
  {
   "property": "C38",
   "status": "partial",
   "theorems": [
    "C38_fields_survive",
    "C38_fraction_dropped",
    "C38_negative_year_refuted",
    "C38_standardize_idempotent_partial",
    "C38_standardize_idempotent_refuted",
    "C38_standardize_any_separator",
    "C38_written_strings_are_standard"
   ],
   "note": "The round trip is proved for all nonnegative fields without upper bounds. Idempotence of standardize_datetime_str holds for strings of at least ten characters and is refuted for shorter ones; negative years are refuted."
  },
  {
   "property": "C39",
   "status": "partial",
   "theorems": [
    "C39_minutes_to_hhmm",
    "C39_hhmm_to_minutes",
    "C39_strings_to_numbers_partial",
    "C39_inverse_after_padding",
    "C39_fraction_dropped",
    "C39_inverse_refuted",
    "C39_unpadded_strings_refuted"
   ],
   "note": "As called the composition raises TypeError (numbers are sliced like strings), so the inverse claim is refuted; it is proved once the caller pads the number to a four-digit string, and in the other direction."
  },
  {
   "property": "C40",
   "status": "proved",
   "theorems": [
    "C40_forth_and_back",
    "C40_forth_and_back_rounded",
    "C40_back_and_forth",
    "C40_next_day_is_one_day_later",
    "C40_months_forth_and_back",
    "C40_month_difference_antisymmetric",
    "C40_month_difference_additive",
    "C40_time_since_additive",
    "C40_years_refuted",
    "C40_no_time_since_in_months",
    "C40_unknown_units",
    "C40_duration_is_time_since"
   ],
   "note": "Exact for whole microseconds, otherwise within half a microsecond (datetime resolution); both directions. Python's datetime and dateutil are modelled from their documentation with a proved calendar. Years (outside the property) are refuted."
  },
  {
   "property": "C41",
   "status": "partial",
   "theorems": [
    "C41_stack_returns_what_was_written",
    "C41_file_independent_of_machine",
    "C41_updates_by_index",
    "C41_last_update_wins",
    "C41_single_grid_file",
    "C41_added_grid_is_appended_refuted",
    "C41_index_on_new_file_refuted",
    "C41_single_number_accepted_refuted",
    "C41_array0_always_refused",
    "C41_existing_files_kept_refuted",
    "C41_lower_case_order_refuted",
    "C41_default_type_reads_refuted",
    "C41_caller_grid_kept_refuted"
   ],
   "note": "Full round trip for any writer and reader byte order, any number of grids and any sequence of updates by index. The refuted theorems name what the code does not give: appending after reopening, indexes on a new file, single numbers with the other byte order, keeping an existing header, lower-case byte orders, the default type on 8-byte files, keeping the caller's grid in write_grid. Not modelled: number type conversion (astype), grids of 2^31 bytes or more."
  },
  {
   "property": "C42",
   "status": "partial",
   "theorems": [
    "C42_header_comes_back",
    "C42_exact_round_trip",
    "C42_second_round_trip",
    "C42_text_kept_refuted",
    "C42_zone_kept_refuted",
    "C42_header_found",
    "C42_edges_enclose_cells",
    "C42_type_names_inverse"
   ],
   "note": "Every writable header comes back: texts exactly or in upper case, numbers to twelve decimals, exactly when they have at most twelve decimals; header lookup by name sound and complete. Not kept by the code: lower-case keywords and the zone -1 (refuted). Not modelled: float32 rounding of zres, gmin, gmax."
  },
  {
   "property": "C43",
   "status": "proved",
   "theorems": [
    "C43_returned_name_is_free",
    "C43_free_name_kept",
    "C43_first_free_version",
    "C43_stem_kept_without_dot_refuted"
   ],
   "note": "check_overwrite always answers with a name not in use, for any file system; for stem.ext it is the first free stem_k.ext. A name without a dot loses its last character to the extension (refuted)."
  },
  {
   "property": "C44",
   "status": "partial",
   "theorems": [
    "C44_one_line_per_update",
    "C44_values_in_order",
    "C44_last_value_held",
    "C44_grids_in_order",
    "C44_blank_lines_skipped_refuted"
   ],
   "note": "Values and grids are consumed in file order, one per update; the last value is held at the end of a time series, and None is returned at the end of a grid sequence. Missing: blank lines are not skipped by the code; they use up an update (refuted)."
  },
  {
   "property": "C45",
   "status": "partial",
   "theorems": [
    "C45_cells_of_the_grid_accepted",
    "C45_accepted_iff_rows_in_grid",
    "C45_accepted_cells_in_grid_refuted",
    "C45_no_outlet_is_an_error",
    "C45_written_outlet_comes_back"
   ],
   "note": "Accepted iff in the grid is proved when all columns are columns of the grid; without that it is false of the code (only the flat index row*nx+col is checked), see the refuted theorem. Numbers without exponents."
  },
  {
   "property": "C46",
   "status": "partial",
   "theorems": [
    "C46_canal_is_a_delay",
    "C46_canal_water_balance",
    "C46_canals_run",
    "C46_sources_follow_their_table",
    "C46_canals_run_with_current_numpy_refuted",
    "C46_zero_travel_time_refuted",
    "C46_yes_turns_canals_on_refuted",
    "C46_sinks_run_refuted"
   ],
   "note": "Proved for numpy versions that accept floats as indices and canals of at least one step; with current numpy every canal raises IndexError, zero travel times delay like the longest canal, the Yes switch never turns canals on, sinks raise NameError (refuted theorems). The channel side (update_diversions) returns at once and is not modelled."
  },
  {
   "property": "C47",
   "status": "partial",
   "theorems": [
    "C47_runoff_limits_ET",
    "C47_scalar_ET_applied_refuted"
   ],
   "note": "holds for grid ET; a scalar ET is ignored (refuted with witness)"
  },
  {
   "property": "C48",
   "status": "partial",
   "theorems": [
    "C48_friction_factor_law_of_wall",
    "C48_friction_factor_manning_partial",
    "C48_friction_factor_manning_refuted"
   ],
   "note": "holds for law of the wall; Manning factor uses depth instead of Rh"
  },
  {
   "property": "C49",
   "status": "partial",
   "theorems": [
    "C49_glacier_cold_content_needs_snow",
    "C49_snow_cold_content_needs_snow_refuted"
   ],
   "note": "proved for the glacier component, false of the snow component (refuted with witness)"
  },
  {
   "property": "C50",
   "status": "partial",
   "theorems": [
    "C50_disabled_groundwater_above_sea_level_partial",
    "C50_disabled_groundwater_refuted"
   ],
   "note": "Proved for cells above elevation 0; refuted at or below elevation 0, where infiltration is set to 0."
  },
  {
   "property": "C51",
   "status": "proved",
   "theorems": [
    "C51_theta_and_psi_are_inverse",
    "C51_head_increases",
    "C51_one_conductivity"
   ],
   "note": "Real-valued model of the transitional Brooks-Corey functions without MIN_VALUE and CM_TO_M."
  },
  {
   "property": "C52",
   "status": "partial",
   "theorems": [
    "C52_energy_balance_uses_available_energy",
    "C52_priestley_taylor_uses_available_energy_partial",
    "C52_priestley_taylor_cold_air_refuted"
   ],
   "note": "Energy balance method: proved. Priestley-Taylor: proved for air temperature >= -36.9 C, refuted below (the code evaporates water with negative net energy)."
  },
  {
   "property": "C53",
   "status": "partial",
   "theorems": [
    "C53_table_at_top_of_wetted_layers_partial",
    "C53_table_at_top_of_wetted_layers_refuted"
   ],
   "note": "Proved for falling tables; refuted after the table has risen above the land surface."
  },
  {
   "property": "C54",
   "status": "partial",
   "theorems": [
    "C54_outflow_is_darcy_flow_partial",
    "C54_outflow_is_darcy_flow_refuted"
   ],
   "note": "Proved while the previous outflow of the cell is not negative; refuted otherwise (negative flows accumulate)."
  },
  {
   "property": "C55",
   "status": "partial",
   "theorems": [
    "C55_seepage_from_rising_table_partial",
    "C55_no_seepage_below_land_surface_refuted"
   ],
   "note": "Sign, volume and rise: proved. 'Above the land surface' is false of the code: initialize lowers its elevation grid to the bottom of the layers."
  },
  {
   "property": "C56",
   "status": "proved",
   "theorems": [
    "C56_replace_extension",
    "C56_parts_make_the_name",
    "C56_add_extension",
    "C56_replace_without_dot_refuted",
    "C56_count_lines"
   ],
   "note": "For all names and files. A name without a dot loses its last character (refuted)."
  },
  {
   "property": "C57",
   "status": "partial",
   "theorems": [
    "C57_series_comes_back",
    "C57_one_value_per_cell",
    "C57_any_value_refuted",
    "C57_blank_lines_skipped_refuted",
    "C57_header_lines_up_refuted"
   ],
   "note": "Round trip proved for numbers below 10^10-1; false for wider numbers (columns run together). float32 rounding of values_at_IDs not modelled."
  },
  {
   "property": "C58",
   "status": "partial",
   "theorems": [
    "C58_same_settings_same_effect",
    "C58_other_attributes_kept",
    "C58_number_stored",
    "C58_integer_stored",
    "C58_yes_no_stored",
    "C58_text_stored",
    "C58_file_name_stored",
    "C58_scalar_stored",
    "C58_type_line_must_be_text",
    "C58_sound_file_is_read",
    "C58_bar_in_help_refuted",
    "C58_type_line_anywhere_refuted",
    "C58_any_file_name_refuted",
    "C58_misspelled_type_refuted"
   ],
   "note": "Meaning of all kinds of settings proved for names with or without subscript; false of the code for help texts with a bar, separated type lines, file names such as on/1, misspelled types (refuted theorems). Layer lists (initialize_layer_vars) are a parameter; nan/inf texts not modelled."
  },
  {
   "property": "C59",
   "status": "partial",
   "theorems": [
    "C59_daylight",
    "C59_day_length_range",
    "C59_polar_day",
    "C59_polar_night",
    "C59_equator",
    "C59_no_sun_no_radiation",
    "C59_far_from_noon",
    "C59_lit_slope",
    "C59_midnight_sun_refuted",
    "C59_steep_slope_refuted"
   ],
   "note": "Exact for level ground and for slopes with a positive longitude denominator within half a day of noon; false at solar midnight in polar day and for slopes that face beyond the pole (refuted with witnesses). Real arithmetic; poles excluded."
  },
  {
   "property": "C60",
   "status": "proved",
   "theorems": [
    "C60_zenith",
    "C60_flux_on_level_ground",
    "C60_flux_on_slope",
    "C60_level_slope",
    "C60_day_course",
    "C60_nonnegative",
    "C60_ground_below_space",
    "C60_net_shortwave_range",
    "C60_net_shortwave_slope",
    "C60_symmetric"
   ],
   "note": "Slope flux formula for slopes that do not face beyond the pole (otherwise C59_steep_slope_refuted). Real arithmetic."
  },
  {
   "property": "C61",
   "status": "partial",
   "theorems": [
    "C61_first_day",
    "C61_next_day",
    "C61_year_range",
    "C61_next_day_refuted",
    "C61_equation_of_time_range",
    "C61_equation_of_time_year",
    "C61_solar_noon",
    "C61_solar_clock",
    "C61_solar_clock_refuted",
    "C61_any_clock_refuted",
    "C61_aspect",
    "C61_slope",
    "C61_latitudes",
    "C61_longitudes",
    "C61_latitudes_in_box",
    "C61_no_year"
   ],
   "note": "Day count false in 1900, 2100, ... (refuted); the solar clock stands still within the hour (refuted); with a clock far from local time the hours since noon are not wrapped (refuted). The perihelion table is a parameter."
  },
  {
   "property": "C62",
   "status": "partial",
   "theorems": [
    "C62_saturation_increases",
    "C62_dew_point_inverse",
    "C62_dew_point_below_air",
    "C62_dew_point_below_air_refuted",
    "C62_dew_point_humidity",
    "C62_frozen_surface",
    "C62_given_surface_series",
    "C62_given_surface_temperature_refuted",
    "C62_sensible_heat",
    "C62_grid_is_cellwise",
    "C62_calm_air_refuted",
    "C62_latent_heat",
    "C62_dry_air_takes_vapour_refuted",
    "C62_emissivity_positive",
    "C62_emissivity_below_one_refuted",
    "C62_net_longwave",
    "C62_longwave_sign",
    "C62_emissivity_vapour",
    "C62_emissivity_canopy"
   ],
   "note": "Proved for all states of the stated domain. False in general and refuted: dew point of saturated air above air temperature, calm air gives NaN, the surface takes the humidity of the air, emissivity above one, given fixed T_surf ignored. Rounding not modelled."
  },
  {
   "property": "C63",
   "status": "partial",
   "theorems": [
    "C63_age_of_snow",
    "C63_albedo_values",
    "C63_snow_darkens",
    "C63_fresh_snow",
    "C63_no_snow_no_brightening_refuted",
    "C63_given_albedo_refuted",
    "C63_given_albedo_series",
    "C63_any_time_step_refuted",
    "C63_net_shortwave_in_a_run"
   ],
   "note": "Proved for all histories. Refuted: albedo can rise without snowfall when air cools, a given fixed albedo is overwritten, time steps over three days fail."
  },
  {
   "property": "C64",
   "status": "proved",
   "theorems": [
    "C64_reported_error",
    "C64_surface_water_only",
    "C64_reported_runoff",
    "C64_terms_absent",
    "C64_snow_melt_refuted",
    "C64_evaporation_refuted",
    "C64_floodplains_refuted",
    "C64_attenuation_refuted"
   ],
   "note": "The report's error is derived term by term for the composed model; the four _refuted theorems show that snow melt of the last step, potential evaporation, floodplains and attenuation each give a non-zero error although no water is lost. Soil storage is whatever the infiltration component reports (arbitrary numbers)."
  },
  {
   "property": "C65",
   "status": "proved",
   "theorems": [
    "C65_degree_of_longitude",
    "C65_degree_of_latitude",
    "C65_sizes_positive",
    "C65_towards_the_pole",
    "C65_fixed_length",
    "C65_kilometres",
    "C65_areas",
    "C65_hemispheres",
    "C65_row_latitude",
    "C65_width_at_middle_refuted",
    "C65_degree_lengths"
   ],
   "note": "Longitude and latitude degrees are proved against the geometry of the meridian ellipse (normal direction and arc length derivative). A row's latitude is that of its southern edge, so that 'width at the middle of the row' is refuted. Real arithmetic; grids of more than 32768 rows (int16 overflow) not modelled."
  },
  {
   "property": "C66",
   "status": "proved",
   "theorems": [
    "C66_flow_length",
    "C66_distance_to_receiver",
    "C66_flow_width",
    "C66_no_flow",
    "C66_slopes",
    "C66_steepest",
    "C66_steepest_by_row_refuted",
    "C66_aspect"
   ],
   "note": "Steepest slope by the pixel's own row sizes is refuted for fixed-angle grids: the directions are chosen with the first row's sizes."
  },
  {
   "property": "C67",
   "status": "partial",
   "theorems": [
    "C67_wider_downstream",
    "C67_given_exponent",
    "C67_given_extremes",
    "C67_given_points",
    "C67_grows_with_area",
    "C67_between_extremes",
    "C67_equal_areas_refuted",
    "C67_enough_inputs",
    "C67_edge_values_refuted"
   ],
   "note": "Proved for all grids and parameters. Refuted cases: cells without area (edges, pits) get 1.0 whatever the range asked for; no grid when all positive areas are equal (the exponent is 0/0)."
  },
  {
   "property": "C68",
   "status": "partial",
   "theorems": [
    "C68_slopes",
    "C68_all_slopes_good_refuted",
    "C68_runs_iff",
    "C68_normal_depth_unique",
    "C68_normal_depth_exists",
    "C68_newton_derivative",
    "C68_initial_depth",
    "C68_settles",
    "C68_baseflow_flux"
   ],
   "note": "Depth within 7/3 of the tolerance above the unique normal depth, Newton's iteration contracts by 7/10 per round and settles within 41 rounds for tolerances of at least 0.4 mm. Refuted case: when every slope of the grid is positive the tool stops with a TypeError, because remove_bad_slopes returns None."
  },
  {
   "property": "C69",
   "status": "partial",
   "theorems": [
    "C69_resampled_value",
    "C69_resampled_at_observation",
    "C69_resampled_between",
    "C69_same_times",
    "C69_same_times_refuted",
    "C69_negative_discharge_refuted",
    "C69_values_tried",
    "C69_best_parameter",
    "C69_no_best_parameter",
    "C69_failed_run",
    "C69_not_silent_refuted",
    "C69_original_lost_refuted",
    "C69_cost_array_refuted",
    "C69_newest_file",
    "C69_newest_file_refuted",
    "C69_cost_formula",
    "C69_cost_is_a_distance",
    "C69_distance_below_one_refuted",
    "C69_shorter_is_cheaper",
    "C69_empty_run_refuted",
    "C69_single_value",
    "C69_spearman_cut",
    "C69_spearman_range",
    "C69_spearman_defined",
    "C69_spearman_zero",
    "C69_spearman_one",
    "C69_spearman_increasing",
    "C69_spearman_decreasing",
    "C69_spearman_comment_refuted",
    "C69_spearman_scale_blind",
    "C69_spearman_symmetric",
    "C69_spearman_formula",
    "C69_spearman_triangle_refuted",
    "C69_spearman_best",
    "C69_spearman_magnitude_refuted"
   ],
   "note": "Cost, resampling, search, restore, version choice, and the Spearman measure. The simulation is an arbitrary partial function of the grid; get_grid_from_TCA is C67. The Nash-Sutcliffe measure is not modelled. Refuted parts are theorems ending in _refuted."
  },
  {
   "property": "C70",
   "status": "partial",
   "theorems": [
    "C70_saving_times",
    "C70_requested_interval",
    "C70_requested_interval_refuted",
    "C70_subsecond_refuted",
    "C70_short_interval_refuted",
    "C70_label_refuted",
    "C70_files",
    "C70_frame_date",
    "C70_lost_frame_refuted",
    "C70_given_index_refuted",
    "C70_series_position",
    "C70_x_coordinates",
    "C70_y_coordinates_refuted",
    "C70_series_names",
    "C70_large_grid_refuted",
    "C70_distinct_outlets",
    "C70_series_values",
    "C70_series_scalar",
    "C70_open_calls",
    "C70_profiles_refuted",
    "C70_cubes_refuted",
    "C70_cube_call_refuted",
    "C70_profiles_saved",
    "C70_profile_readback_refuted",
    "C70_add_profile_refuted"
   ],
   "note": "Saving times, netCDF grid stacks, series, profiles and cubes. The netCDF4 library is taken as documented. Refuted parts are theorems ending in _refuted."
  },
  {
   "property": "C71",
   "status": "proved",
   "theorems": [
    "C71_state",
    "C71_velocity",
    "C71_created",
    "C71_balance",
    "C71_sharp",
    "C71_comparison",
    "C71_steady",
    "C71_rise",
    "C71_surface",
    "C71_level",
    "C71_direction",
    "C71_conservation_refuted",
    "C71_uphill_refuted",
    "C71_parts"
   ],
   "note": "C71_conservation_refuted: without the limit on the time step the clipping of negative volumes creates water (witness; the exact amount is C71_created). C71_uphill_refuted: the diffusive wave takes the absolute value of the surface slope, so water flows to a cell whose surface is higher; C71_direction gives this for all states. Cells that flow to an edge cell see the edge cell's depth before it is emptied, which C71_surface leaves out."
  },
  {
   "property": "C72",
   "status": "partial",
   "theorems": [
    "C72_account",
    "C72_nonneg",
    "C72_run_nonneg",
    "C72_run_ends",
    "C72_downhill",
    "C72_no_ice_enters",
    "C72_closed",
    "C72_glen",
    "C72_front",
    "C72_stays_bare",
    "C72_mass_balance",
    "C72_mirror",
    "C72_transpose",
    "C72_datum",
    "C72_bookkeeping",
    "C72_no_made_ice_refuted",
    "C72_ice_account_refuted",
    "C72_settings_ignored",
    "C72_settings_refuted",
    "C72_variable_dt_refuted",
    "C72_component_refuted",
    "C72_melt_volume_refuted",
    "C72_const_flux"
   ],
   "note": "Everything up to the mass balance, the symmetries and the model run of gc2d is proved. Refuted: ice is made up where thin ice lies below bare rock (C72_no_made_ice_refuted); the ice account adds melt instead of subtracting it (C72_ice_account_refuted, exact error in C72_bookkeeping); boundary conditions, Glen's A, sliding parameters and minimum thickness of the configuration are ignored because they are defaults bound at import (C72_settings_ignored, C72_settings_refuted); the adaptive time step raises on grids larger than 3 x 3 (C72_variable_dt_refuted); every update of the ice component raises TypeError and its clock and melt volume stay zero (C72_component_refuted, C72_melt_volume_refuted)."
  },
  {
   "property": "C73",
   "status": "partial",
   "theorems": [
    "C73_reader_physical",
    "C73_reader_keeps",
    "C73_reader_zero",
    "C73_reader_missing",
    "C73_reader_fails",
    "C73_reader_zero_left_refuted",
    "C73_published",
    "C73_porosity_range",
    "C73_porosity_total",
    "C73_porosity_total_refuted",
    "C73_nodata_kept_refuted",
    "C73_porosity_density",
    "C73_conductivity_positive",
    "C73_conductivity_density",
    "C73_alpha_range",
    "C73_n_range",
    "C73_L_range",
    "C73_brooks_corey",
    "C73_same_retention",
    "C73_capillary_range",
    "C73_capillary_n3",
    "C73_capillary_bound_refuted",
    "C73_sandy_cells",
    "C73_local",
    "C73_layers"
   ],
   "note": "All ranges, regressions, locality and the retention curve are proved. Refuted by the code: missing cells do not stay marked (nodata is forced into range), a grid whose only measurement is zero keeps zeros, porosity of a grid with only too large values raises an error, and n=3 gives infinite capillary length (clipped to 2.3 m)."
  },
  {
   "property": "C74",
   "status": "partial",
   "theorems": [
    "C74_d8_slope",
    "C74_d8_total",
    "C74_first_lower",
    "C74_slope_source",
    "C74_no_slope",
    "C74_new_total",
    "C74_outlet_refuted",
    "C74_long_flat_refuted",
    "C74_corner_refuted",
    "C74_lowest_slope",
    "C74_chain_positive",
    "C74_flats_filled",
    "C74_chains_total",
    "C74_no_flats_refuted",
    "C74_chain_length_refuted",
    "C74_three_slopes_refuted",
    "C74_flat_head_refuted",
    "C74_negative_refuted",
    "C74_smooth_range",
    "C74_smooth_step",
    "C74_smooth_downhill",
    "C74_smooth_confluence_refuted",
    "C74_smooth_nodata_refuted",
    "C74_three_slopes_needed"
   ],
   "note": "All positive parts are proved. The last sentence is refuted by the code: past an outlet the elevation of corner cell 0 is used, long flats and drops into the corner keep slope zero or raise IndexError, a DEM without flats or with fewer than three different slopes gives no grid, rising elevations give negative slopes, and smoothing mixes tributaries and missing values."
  },
  {
   "property": "C75",
   "status": "partial",
   "theorems": [
    "C75_until_time",
    "C75_until_time_reached_refuted",
    "C75_components_keep_up",
    "C75_components_reach_time_refuted",
    "C75_each_call_steps",
    "C75_near_target_refuted",
    "C75_set_value_ignored",
    "C75_set_value_used_refuted",
    "C75_inputs_given",
    "C75_bad_configuration",
    "C75_runs",
    "C75_blank_input_refuted",
    "C75_at_indices",
    "C75_at_indices_refuted"
   ],
   "note": "Proved: what values each component works with, whole steps and keep-up after any calls, position of the clock after update_until, set_value has no effect on any variable, silent acceptance of bad configurations, total runs otherwise. Refuted: update_until never ends at its target, fine targets let the clock run away, component clocks may lie before the target, set_value is not seen by get_value, blank input names, values at cells are the outlet's."
  },
  {
   "property": "C76",
   "status": "partial",
   "theorems": [
    "C76_law_per_second",
    "C76_law",
    "C76_cell_changes",
    "C76_sediment_balance",
    "C76_step_succeeds",
    "C76_no_discharge_exits",
    "C76_step_bounded",
    "C76_one_donor_stays_higher",
    "C76_donors_stay_higher_refuted",
    "C76_cell_zero_refuted",
    "C76_balance_areas_refuted",
    "C76_flat_land_fails",
    "C76_clock",
    "C76_given_step_used_refuted",
    "C76_uplift_total",
    "C76_uplift_total_refuted",
    "C76_n_steps",
    "C76_steady_refuted",
    "C76_tests_look_at_rises",
    "C76_four_sides",
    "C76_other_sides",
    "C76_square_grid_refuted",
    "C76_bottom_overwrites",
    "C76_edge_values"
   ],
   "note": "Proved: cell-wise changes, sediment balance for equal pixel areas, success of every step for a positive law, the bound on each cell's loss, donors stay higher for single donors, clock and uplift totals, n-step runs, FOUR_SIDES perimeter, edge values, the power law. Refuted: balance with differing areas, donors stay higher with two donors, cells draining to cell 0, given time steps, uplift total, steadiness, BOTTOM/RIGHT/CORNER on ordinary grids; dry cells exit; level ground fails. update() itself stops on an unknown argument at this commit; the transport law enters the step as an arbitrary rational function and is treated over R separately."
  },
  {
   "property": "C77",
   "status": "partial",
   "theorems": [
    "C77_bounds",
    "C77_cellsize",
    "C77_disjoint",
    "C77_disjoint_symmetric",
    "C77_south_up_refuted",
    "C77_gpm_values",
    "C77_gpm_shape",
    "C77_gpm_box",
    "C77_gpm_place",
    "C77_gpm_place_refuted",
    "C77_gpm_flipped",
    "C77_gpm_nodata_refuted",
    "C77_order",
    "C77_frame_count",
    "C77_frames_good",
    "C77_bad_file_refuted",
    "C77_units",
    "C77_blank_frame_refuted",
    "C77_blank_frame_size",
    "C77_chirps_frames",
    "C77_chirps_rows",
    "C77_chirps_nonneg",
    "C77_chirps_rate_refuted",
    "C77_chirps_nodata_refuted",
    "C77_regrid_rts_refuted"
   ],
   "note": "Proved: box = union of cells, disjoint iff no common point, one frame per file in name order independent of listing order, frames of overlapping files, unit conversions keep missing values, CHIRPS row order. Refuted: after one file away from the DEM all later frames are blank; blank temperature frames hold -273.15; south-up rasters are judged disjoint; the GPM rotation mirrors one axis relative to the file's georeferencing and drops the nodata mark; CHIRPS rates are 3600 times too large and missing cells become dry; regrid_rts_file always fails after emptying its output. GDAL's warp is a parameter."
  },
  {
   "property": "C78",
   "status": "partial",
   "theorems": [
    "C78_daylight_bounds",
    "C78_daylight_equator",
    "C78_daylight_opposite",
    "C78_daylight_solar",
    "C78_daylight_defined",
    "C78_daylight_polar_refuted",
    "C78_pet_nonneg",
    "C78_pet_warmer",
    "C78_pet_month_warmer",
    "C78_months_partition",
    "C78_days_per_month_refuted",
    "C78_mi_bounds",
    "C78_mi_sign",
    "C78_mi_antisymmetric",
    "C78_mi_wetter",
    "C78_mi_drier",
    "C78_mi_convert",
    "C78_seasonality",
    "C78_snow_bounds",
    "C78_snow_warm",
    "C78_snow_cold",
    "C78_indicators_ranges",
    "C78_indicators_polar_refuted",
    "C78_convert_mean_refuted",
    "C78_swb_boxes",
    "C78_swb_no_overlap",
    "C78_swb_span",
    "C78_swb_span_refuted",
    "C78_swb_ends_refuted",
    "C78_swb_no_b3",
    "C78_swb_extends",
    "C78_swb_names",
    "C78_swb_groups",
    "C78_swb_original_refuted",
    "C78_collect_refuted"
   ],
   "note": "The class is the unique box for basins with some snow; daylight, evaporation, moisture index and indicators in their ranges up to 60 degrees of latitude. Refuted: basins without snow can have no class, as do the ends of the ranges; ORIGINAL gives B3 by default; nan for latitudes from 75 degrees; get_days_per_month is one month late; collected columns have one extra 0; the mean index does not convert to the annual aridity. Latitudes between 60 and 75 degrees are not decided."
  },
  {
   "property": "C79",
   "status": "partial",
   "theorems": [
    "C79_neighbors",
    "C79_neighbors_sorted",
    "C79_kids",
    "C79_pit",
    "C79_locality",
    "C79_history",
    "C79_changed",
    "C79_update_refuted",
    "C79_numpy_refuted",
    "C79_pits_refuted",
    "C79_wrap_refuted",
    "C79_noflow_refuted",
    "C79_flats_refuted",
    "C79_periodic_refuted",
    "C79_linked_flat"
   ],
   "note": "Proved for closed sides, ties broken, flats not linked and a numpy for which a comparison with None does not fail: codes and parents after every history equal the full recomputation, locality, the change flag, neighbours, kids and pits. False of the code, with proofs: update() raises whenever a code changes; two changed cells raise with current numpy; linked flats and periodic sides go stale or raise; noflow_IDs only grows."
  },
  {
   "property": "C80",
   "status": "partial",
   "theorems": [
    "C80_layered_values",
    "C80_layered_shape",
    "C80_depth_sum",
    "C80_depth_in_layer",
    "C80_spacing",
    "C80_storage",
    "C80_storage_single",
    "C80_storage_geographic_refuted",
    "C80_storage_geographic_wrong_refuted",
    "C80_storage_methods_refuted",
    "C80_lower_grid_refuted",
    "C80_front_cell",
    "C80_front_cell_none",
    "C80_front_single_refuted",
    "C80_front_range",
    "C80_front_layers_refuted",
    "C80_Ks_positive",
    "C80_pB_lam_range",
    "C80_time_series_refuted",
    "C80_sequence_refuted",
    "C80_initial"
   ],
   "note": "Proved: levels carry the value of their layer, depths and thickness, volume of soil water for 3D profiles and for single profiles with a cell size that is a number, place of the front in the 3D version, range of the front, cleaning of Ks, pB and lam. Refuted: single profile on a geographic grid (ValueError, or a wrong volume when nx = nz); other infiltration methods raise AttributeError; grid below a scalar top layer raises; sharp front in a single profile is reported at 0; front depth with unequal spacing is no depth of the column; time series raise TypeError; later grids of a sequence are never used."
  },
  {
   "property": "C81",
   "status": "partial",
   "theorems": [
    "C81_runs",
    "C81_month",
    "C81_mean_all",
    "C81_last_month_refuted",
    "C81_extremes",
    "C81_first_grid_refuted",
    "C81_absent",
    "C81_condition",
    "C81_days_file",
    "C81_days",
    "C81_month_end_refuted",
    "C81_last_day_refuted",
    "C81_single_year_refuted",
    "C81_population"
   ],
   "note": "Proved for every stack: extremes, mean and standard deviation of all months but the last, the condition per grid, the exact content of the day counts, affected population. Refuted: the last month is divided by one year too few (infinite or nan when seen once, so it never has low or high days); the first grid is left out of the minimum; a day at the end of a month is counted in the next month and the last day of the file never. A month without grids gets 9999999, -9999999 and nan."
  },
  {
   "property": "C82",
   "status": "partial",
   "theorems": [
    "C82_only_where_unrest",
    "C82_never_outside",
    "C82_counter",
    "C82_ids",
    "C82_step",
    "C82_persist",
    "C82_fresh",
    "C82_runs",
    "C82_no_index_error",
    "C82_no_unrest_refuted",
    "C82_thin_refuted",
    "C82_supply_refuted",
    "C82_fraction_refuted",
    "C82_id_zero_refuted"
   ],
   "note": "proved for every admissible sequence of random numbers; the claims on IDs (0 is an ID, supply), on steps without unrest and on the fraction are refuted"
  },
  {
   "property": "C83",
   "status": "partial",
   "theorems": [
    "C83_clock",
    "C83_not_backwards",
    "C83_earliest",
    "C83_scheduled",
    "C83_heap_size",
    "C83_no_index_error",
    "C83_terminates",
    "C83_continuous",
    "C83_up_to_date",
    "C83_near",
    "C83_within_target",
    "C83_change_since_event",
    "C83_pits_now",
    "C83_next_time",
    "C83_zone_rates",
    "C83_zone_fluxes",
    "C83_parent_zero_refuted",
    "C83_balance_partial",
    "C83_final",
    "C83_final_grid_refuted",
    "C83_balance_refuted",
    "C83_snapshot_refuted",
    "C83_zone_limit_refuted",
    "C83_base_level",
    "C83_start",
    "C83_zone",
    "C83_stuck_cell",
    "C83_active_count",
    "C83_inner",
    "C83_edge_time",
    "C83_directions"
   ],
   "note": "Clock, schedule, continuity, splash zone, next times and rates of the zone are proved for every reachable state. The sediment balance holds only when no flow leaves the zone (C83_balance_partial); it is refuted in general because the receiving cell outside the zone keeps its old inflow. Also refuted: a zone of more than 100 cells stops the run, saved grids show cells at different times, the final grid is not saved, and cells flowing into cell 0 get slope 0. The D8 grids of every step are inputs."
  },
  {
   "property": "C84",
   "status": "proved",
   "theorems": [
    "C84_albers_sphere_area",
    "C84_albers_sphere_origin",
    "C84_albers_sphere_standard",
    "C84_albers_sphere_injective",
    "C84_albers_ellipsoid_area",
    "C84_albers_ellipsoid_origin",
    "C84_albers_ellipsoid_standard",
    "C84_albers_ellipsoid_injective",
    "C84_lambert_defined",
    "C84_lambert_area",
    "C84_lambert_distance",
    "C84_lambert_origin",
    "C84_lambert_injective",
    "C84_lambert_east",
    "C84_lambert_meridian",
    "C84_mercator_sphere",
    "C84_mercator_ellipsoid",
    "C84_mercator_north",
    "C84_mercator_mirror",
    "C84_mercator_origin",
    "C84_mercator_injective",
    "C84_hlr_cell",
    "C84_hlr_inside"
   ],
   "note": "Over the reals: area and shape as statements about partial derivatives at every point; injectivity for every pair of points. The constants of both ellipsoids are those of the code; the codes table file itself is not modelled (an arbitrary grid)."
  },
  {
   "property": "C85",
   "status": "partial",
   "theorems": [
    "C85_distance",
    "C85_symmetric",
    "C85_zero",
    "C85_whole_turns",
    "C85_triangle",
    "C85_closest",
    "C85_unknown",
    "C85_around",
    "C85_box_contains",
    "C85_box_tight",
    "C85_check",
    "C85_rectangle",
    "C85_center",
    "C85_basin_in_dem",
    "C85_dms_partial",
    "C85_dms_refuted",
    "C85_zmin",
    "C85_zmin_exists",
    "C85_zmin_data",
    "C85_zmin_no_data_refuted",
    "C85_around_tie"
   ],
   "note": "Proved except the conversion of degrees, minutes and seconds, which loses the sign of angles between 0 and -1 degree (C85_dms_refuted; C85_dms_partial covers the rest), and basins without data, for which the elevation 32767 is returned (C85_zmin_no_data_refuted)."
  },
  {
   "property": "C86",
   "status": "partial",
   "theorems": [
    "C86_sweep",
    "C86_fuel",
    "C86_reached",
    "C86_profile",
    "C86_downhill",
    "C86_unreached",
    "C86_no_start",
    "C86_nodata_refuted",
    "C86_lengths",
    "C86_lengths_short",
    "C86_slope_law",
    "C86_c2_best",
    "C86_c1_stationary",
    "C86_exact_profile",
    "C86_error_meaning",
    "C86_fit_refuted",
    "C86_guess",
    "C86_prepare"
   ],
   "note": "The sweep, lengths and the two closed forms for c are proved. Refuted: cells without data do not stay so when cell 0 has data (they take its elevation, C86_nodata_refuted), and the error that is minimised is not zero for a profile that follows the law (C86_fit_refuted: lengths and areas are shifted by one point). scipy's minimiser is not modelled; update() itself stops with TypeError (argument SILENT of d8.update) and NameError (where, zeros), the model goes on."
  },
  {
   "property": "C87",
   "status": "partial",
   "theorems": [
    "C87_velocity_refuted",
    "C87_momentum",
    "C87_uniform",
    "C87_rest",
    "C87_not_negative",
    "C87_inflow_drags",
    "C87_recharge_refuted",
    "C87_groundwater",
    "C87_cross_section"
   ],
   "note": "The component as it stands stops with NameError because the name dinv is undefined (C87_velocity_refuted); the balance, equilibrium and rest theorems hold for the code with 1/d for that name. The attenuating groundwater component overwrites the recharge by the rain rate (C87_recharge_refuted); its balance with the rain is proved."
  },
  {
   "property": "C88",
   "status": "partial",
   "theorems": [
    "C88_edges",
    "C88_edges_once",
    "C88_edges_refuted",
    "C88_grid",
    "C88_grid_bad_length",
    "C88_grid_scalar",
    "C88_grid_type",
    "C88_grid_scalar_refuted",
    "C88_run_time",
    "C88_run_time_refuted",
    "C88_run_time_seconds",
    "C88_directories",
    "C88_directories_again",
    "C88_directories_fail",
    "C88_directories_refuted",
    "C88_prepend",
    "C88_prepend_fails",
    "C88_prepend_twice_refuted",
    "C88_initialize",
    "C88_update_number",
    "C88_update_array",
    "C88_update_self",
    "C88_update_none",
    "C88_update_bad_shape",
    "C88_update_argument_refuted"
   ],
   "note": "Edges, grid information, folders and variable updates are proved. Refuted parts: grids of one row or column repeat edge cells, the shape of a scalar is whatever the caller passed, the run time report counts the same seconds several times unless it is a whole number of days, folders such as 'input' are not taken from the configuration folder, prepending twice doubles the folder, and a factor other than 1 scales the caller's array."
  },
  {
   "property": "C89",
   "status": "partial",
   "theorems": [
    "C89_retention",
    "C89_residual",
    "C89_order",
    "C89_conductivity",
    "C89_conductivity_refuted",
    "C89_rain",
    "C89_heavy_rain_refuted",
    "C89_initial",
    "C89_names",
    "C89_names_refuted",
    "C89_same",
    "C89_parameters"
   ],
   "note": "Proved except three parts that are false of the code: theta_max of the class raises NameError for rain at or above K_s, conductivity below the residual content is NaN, and the display names of the soils are not accepted while the two modules disagree on silt loam."
  },
  {
   "property": "C90",
   "status": "partial",
   "theorems": [
    "C90_saturation",
    "C90_units",
    "C90_freezing",
    "C90_unknown",
    "C90_humidity",
    "C90_lapse",
    "C90_lapse_height",
    "C90_lapse_refuted",
    "C90_courant",
    "C90_courant_stable",
    "C90_courant_spec"
   ],
   "note": "Proved except that a temperature series of one value is refused after the output file has been created."
  },
  {
   "property": "C91",
   "status": "partial",
   "theorems": [
    "C91_stretch",
    "C91_constant",
    "C91_histogram",
    "C91_histogram_bin",
    "C91_log",
    "C91_log_refuted",
    "C91_power1",
    "C91_power1_refuted",
    "C91_unknown",
    "C91_nodata",
    "C91_caller_refuted"
   ],
   "note": "Proved for linear, power, power2, power3, tanh and hist_equal; power2 stays below 1, log and power1 have no number for negative values and are not scaled to [0,1], and showing a grid changes the caller's no-data cells."
  },
  {
   "property": "C92",
   "status": "partial",
   "theorems": [
    "C92_sibling",
    "C92_sibling_other_name",
    "C92_sibling_refuted",
    "C92_time_settings",
    "C92_duration",
    "C92_datetimes",
    "C92_derived_ignored",
    "C92_dates_needed",
    "C92_output",
    "C92_default",
    "C92_default_output_refuted",
    "C92_path_settings",
    "C92_path_folders",
    "C92_path_needed",
    "C92_path_missing",
    "C92_start_folders",
    "C92_start_missing",
    "C92_every_file"
   ],
   "note": "Names of the files (exact when the component's extension is only at the end of the file's name; refuted otherwise, and shown what happens for other names), settings of both files, folders, length of the run, missing settings and missing files are proved for every file text. The claim that output files can be opened without a time file is refuted. Reading the grid information in between is modelled elsewhere; names that are not Python names are not modelled."
  },
  {
   "property": "C93",
   "status": "partial",
   "theorems": [
    "C93_bounds",
    "C93_bounds_refuted",
    "C93_header",
    "C93_geographic_refuted",
    "C93_types_refuted",
    "C93_float_back",
    "C93_save_double_refuted",
    "C93_save_long_refuted",
    "C93_save_length_refuted",
    "C93_save_integer_refuted",
    "C93_import_header",
    "C93_import_projected_refuted",
    "C93_import_float",
    "C93_import_big_refuted",
    "C93_import_integer_refuted",
    "C93_import_long_refuted"
   ],
   "note": "Headers and 32-bit float grids are proved for every raster; the refuted theorems show that geographic GeoTIFFs are called projected (a method is tested without being called), that projected DEMs are called geographic, and that other number types do not come back. GDAL itself, rotation, several bands and float rounding are not modelled."
  },
  {
   "property": "C94",
   "status": "partial",
   "theorems": [
    "C94_report",
    "C94_order_refuted",
    "C94_others",
    "C94_small_grid_refuted",
    "C94_disabled",
    "C94_large_refuted",
    "C94_edge_refuted",
    "C94_label_refuted",
    "C94_simulated_time",
    "C94_simulated_time_refuted",
    "C94_volumes"
   ],
   "note": "Proved for every provider order with the channels before the driver and values within 10^6; the refuted theorems give the other cases. Formats of the printed numbers and NaN are not modelled."
  },
  {
   "property": "C95",
   "status": "partial",
   "theorems": [
    "C95_sources",
    "C95_sources_example",
    "C95_sources_example_refuted",
    "C95_sinks_refuted",
    "C95_canals",
    "C95_canals_current_numpy_refuted",
    "C95_no_canals_refuted",
    "C95_canals_example_refuted",
    "C95_count",
    "C95_count_refuted",
    "C95_x",
    "C95_y_refuted",
    "C95_located",
    "C95_located_refuted",
    "C95_count_value"
   ],
   "note": "Sources are read as documented and wrong counts refused (proved); sinks always fail, canals fail with current numpy, the shipped example files are misread, y and the cell lookup are wrong (refuted with exact conditions)."
  },
  {
   "property": "C96",
   "status": "partial",
   "theorems": [
    "C96_read",
    "C96_indented_comment_refuted",
    "C96_set",
    "C96_set_once",
    "C96_start",
    "C96_unknown_refuted",
    "C96_no_driver",
    "C96_twice_refuted",
    "C96_incomplete"
   ],
   "note": "Reading, the set of components and the order of starts proved; repeated names are initialised and finalised twice, unknown names fail halfway, indented comments become components (refuted)."
  },
  {
   "property": "C97",
   "status": "partial",
   "theorems": [
    "C97_read",
    "C97_read_long_refuted",
    "C97_read_byte_refuted",
    "C97_read_size",
    "C97_created_iff",
    "C97_no_noise_refuted",
    "C97_midpoints_refuted",
    "C97_corner_plane_refuted",
    "C97_plane",
    "C97_flat",
    "C97_saved",
    "C97_spelling_refuted",
    "C97_absent"
   ],
   "note": "Proved: files of double, float and 16-bit numbers are read as they are; planes and flat surfaces with Gaussian noise; saved DEMs read back. Refuted: 32-bit integer and byte files, READ_FILE in another spelling replaces the user's file with noise, no noise / fractal noise / corner plane always fail. Not modelled: float32 rounding, the midpoint displacement itself."
  },
  {
   "property": "C98",
   "status": "partial",
   "theorems": [
    "C98_start",
    "C98_start_numbers_refuted",
    "C98_glacier_start",
    "C98_static",
    "C98_static_glacier",
    "C98_sequence",
    "C98_series_refuted",
    "C98_series_wrong_refuted",
    "C98_glacier_varying_refuted"
   ],
   "note": "Proved: the start when one input is a grid, constant densities, sequences of grids. Refuted: with all inputs numbers the snow component cannot start; a density given as a time series is read but its ratio never changes; in the glacier component any varying density ends the run. Not modelled: rounding, input files (the values read are given)."
  },
  {
   "property": "C99",
   "status": "partial",
   "theorems": [
    "C99_cfg",
    "C99_cfg_few_values",
    "C99_cfg_order_refuted",
    "C99_re",
    "C99_re_no_template",
    "C99_re_in_place_refuted",
    "C99_re_hidden_refuted",
    "C99_cfg_no_template"
   ],
   "note": "Proved for text without the opening character outside holes and values without it. Refuted: a value that looks like a hole makes the order matter; filling a ${name} template in place empties it; an unclosed opening hides the next hole. Not modelled: the STRING method, wild cards in file names."
  }
 ]
}