# Formal model of peckhams/topoflow36 in Rocq

## 1. Conventions

* Sources are read as text from `/repo` (never run). Every model definition carries a comment naming the file and
  lines it models, with a remark where it simplifies. The header of each `*_Model.v` says what is left out.
* For each area there are up to four files in `rocq/theories/`: `<Area>_Model.v` (definitions only),
  `<Area>_Spec.v` (the few words needed to state the properties, independent of the model's helpers),
  `<Area>_Proofs.v` (lemmas) and `<Area>_Props.v` (the property theorems, non-vacuity `Example`s and
  `Print Assumptions`).
* Python exceptions are values (`option`, `res`). Loops become structural recursion or explicit fuel; where fuel is
  used the theorem states that the fuel suffices (out-of-fuel is a distinct result).
* Number model. IEEE floats are exact numbers: rationals `Q` where the code only adds, multiplies, divides, compares
  and takes min/max, and the standard library's `R` where it uses sqrt, powers, exp, log or trigonometry.
  **Rounding, overflow and signed zero are not modelled.** NaN and infinities are modelled explicitly where a
  property is about them (`option`, or a small sum type), and excluded otherwise.
* Grids (`ny` x `nx` numpy arrays) are lists in C order (or functions of the flat index), with bounds explicit in
  every statement. numpy's "scalar or grid" values are the type `Field.field`.
* numpy aliasing and in-place updates are modelled where they matter (interpolation buffers C34, shared ET array C47,
  glacier references C23), with an explicit heap.
* If a property is false of the code as written, the theorem is called `..._refuted`, contains a concrete witness,
  and the finding is listed in section 4; what does hold is proved as well. A property of which a part is refuted, or
  of which only part of the code is covered, has status "partial" in MANIFEST.json.

## 2. Plan per property

| id | model | proof idea |
|----|-------|-----------|
| C01 | `heap_base` as a 1-based array + counter; insert parameterised by the two readings of `/` (Python 3 true division as shipped; floor division as intended) | heap-order invariant + permutation by induction over operation lists; shipped insert is refuted |
| C02,C03,C04 | `get_start_pixels` + `fill_pits` over arrays and an abstract min-queue for `heapq` | priority-flood invariant (popped values non-decreasing, minimax path), termination measure = open cells + queue size |
| C05 | resolve table built exactly as `get_resolve_array` does | finite sweep of all 255 entries lifted to a forall |
| C06,C07,C08 | `start_new_d8_codes`, `break_flow_grid_ties`, `link_flats`, final validity filter, NaN-aware elevations | rank argument: (elevation, linking round) strictly decreases along flow |
| C09 | `update_parent_ID_grid`, `w1..w8`, `p1..p8` | index arithmetic |
| C10 | `update_area_grid` | invariant: known areas equal the recursive upstream sum; progress on acyclic grids |
| C11,C12 | `update_flow_volume` with numpy gather/scatter `+=` semantics (last write wins) | injectivity of each direction's parent map makes the scatter an exact sum |
| C13-C15 | volume split, depth inversion, geometry, Manning, law of wall over R | algebra, monotonicity of power/sqrt/ln |
| C16 | `update_peak_values` as a fold | induction over history |
| C17,C18 | slope repair / depth check over floats with NaN and infinities | case analysis |
| C19 | met precip partition and integrals | induction over history |
| C20-C23 | snow and glacier components | conserved-quantity invariants by induction over histories |
| C24-C26 | infil_base + Green-Ampt (Q), Smith-Parlange (R) | invariants; derivative-free monotonicity |
| C27 | Richards theta update / clamp | telescoping sums |
| C28 | ET rates | order lemmas |
| C29,C30 | satzone layer updates | layer-by-layer induction; rising branch refuted |
| C31,C32 | EMELI run loop over abstract components with fixed dt | scheduling invariant |
| C33 | provider dictionaries as association lists | counting lemma |
| C34 | interpolation record with an explicit heap of numpy buffers (aliasing) | algebra; aliasing case refuted |
| C35,C36,C37 | BMI clock, driver stop rules, attribute store | induction; update_until refuted |
| C38-C40 | decimal strings, proleptic Gregorian calendar, date/time arithmetic | printer/parser round trips, day counting |
| C41,C42,C44 | byte-level RTS files, RTI text header, input streams | list / string round trips |
| C43,C45,C46 | file naming, outlet check, canal buffer | direct; induction over histories |
| C47,C50,C52 | runoff `update_R` with the shared ET array, disabled groundwater, evaporation energy | case analysis per cell; refutations by witness |
| C48 | friction factor from velocity over R | algebra |
| C49 | snow cold content over snow-free cells | induction over history; refuted |
| C51 | soil characteristic functions (`soil_base`, transitional Brooks-Corey) over R | algebra of powers, monotonicity |
| C53-C55 | water table, Darcy outflow, seepage | layer induction; case analysis |
| C56,C57 | file-name parts, line counts, text time series with `%` formatting | string round trips |
| C58 | configuration reader: '\|'-separated lines, types | parser over strings |
| C59-C61 | `solar_funcs` over R: declination, sunrise, fluxes, day of year, clock | trigonometric bounds, calendar arithmetic |
| C62,C63 | energy-balance fluxes; snow albedo window | monotonicity of exp/log; induction over the window |
| C64 | coupled run of met, snow, evap, infil, satzone, channels and the final report | sum of per-component balances |
| C65,C66 | ellipsoid pixel sizes; flow lengths, widths, slopes, aspects | trigonometric identities; per-code case analysis |
| C67,C68 | channel parameter grids from area; initial depth by Newton iteration | power laws; uniqueness and convexity of the normal depth equation |
| C69 | calibration: Lp and Spearman costs, linear resampling, grid search with backup/restore | Minkowski and Cauchy-Schwarz inequalities with equality case; ranks as permutations; invariant of the search; file states at each crash point |
| C70 | saving times, netCDF stacks and series, names and coordinates | lcm argument by induction over updates; string round trip |
| C71 | kinematic and diffusive wave steps of a closed channel over R, whole update | mass balance by sums over cells; positivity and rise by induction over steps and limits |
| C72 | `gc2d` ice flow, run loop and the ice component over R grids | flux telescoping, non-negativity by clipping, mirror/transpose/datum symmetries; several settings refuted |
| C73 | `pedotransfer` readers, Wösten regressions and Brooks-Corey parameters over R with inf/NaN values | ranges cell by cell from the clipping; published tables in the Spec; missing data refuted |
| C74 | `new_slopes` D8, first-lower and chain slopes, `smooth_dem` over Q on parent functions | loop invariants per pass over paths of any length; min of chain slopes; end conditions refuted |
| C75 | `multi_bmi` update, update_frac, update_until, set_value, get_value(_at_indices), initialize over an arbitrary value type and component step functions; clocks refine the framework loop of C31 | projection to the loop of emeli.py; two-run simulation (states equal except in inputs) for set_value; witnesses |
| C76 | one Erode update (edge values, D8 grids of D8_Model, slopes, an arbitrary transport law, rates, adaptive time step, DEM) over Q; the run loop with its stop conditions; boundary conditions; the power law over R | inflow lemma of the channel model summed over land cells; minimum of the time-step grid; induction over updates; witnesses on small grids |
| C77 | boxes of rasters, disjointness, GPM rotation, stacks from GPM/GLDAS/CHIRPS files with GDAL's warp as a parameter | interval lemmas over Q; induction over the list of files; uniqueness of the sorted list |
| C78 | seasonal water balance classes over Q with all options; Hamon evaporation and Knoben indicators over R, nan as None | each number is replaced by its place among the bounds (finitely many), the boxes compared there by computation; trigonometric bounds; exp x >= 1+x for the growth with temperature |
| C79 | the component d8_local.py: neighbour lists, kids, codes of the given cells, parents; exceptions as values; numpy's truth value of an array as a flag `legacy` | locality of the code of a cell, then an invariant over the history of changes: grid and parents equal those computed anew |
| C80 | layered variables, depths, stored water, wetting front and input cleaning of infil_base.py and infil_richards_1D.py; profiles 1D or 3D, exceptions as values | induction over the layers; sums over cells and levels; the last decreasing level of a profile |
| C81 | indicators.py for one cell: the loop over the grids with its month and day bookkeeping, over the reals with inf and nan of divisions | the stack is cut into runs of equal month (existence proved); the loop on runs by induction; calendars of months and days for the counts |
| C82 | conflict.py: state, IDs, counter and supply of IDs of all cells; the random numbers are arbitrary inputs that are 0 where their probability is 0 | invariant of every reachable state (unrest, IDs, counter), kept by emergence, resolution and spreading; witnesses for the refuted claims |
| C83 | erode_d8_local.py: heap of events, splash zone, rates, time steps and times of all cells; D8 grids of every step, the discharge and flux laws are arbitrary inputs | invariant of every reachable state (schedule, heap size, times, flux capacitor), a record of what one event does to cells in and outside the zone; witnesses for the refuted claims |
| C84 | projections.py and the grid lookup of hlr_utils.py over the reals, with undefined values as None | derivatives of each projection by the rules of calculus, then algebra (area factor, conformality); monotonicity and bounds of the angle for injectivity |
| C85 | great-circle distance over the reals; boxes, rounding, degrees-minutes-seconds and the lowest cell over rationals and integers | points of the unit sphere as vectors; cosine rule and Cauchy-Schwarz for the triangle inequality; induction over sites and cells |
| C86 | smooth_DEM.py: the upstream sweep over cells (rationals, arbitrary flow grids) and the functions of the slope-area fit (reals) | invariant over the passes: the cells with data are those at most k steps above a start cell; calculus for the two closed forms of c; witnesses for the refuted claims |
| C87 | channels_dynamic_wave.update_velocity over the reals for an arbitrary network, with the undefined name dinv as an option; satzone_attenuate.update_water_volume_change | sums over children; field algebra for the momentum balance; exchange of sums for the groundwater balance |
| C88 | BMI_base grid getters, save_edge_ids, get_run_time_string, set_directories, prepend_directory, initialize_var, update_var, with os.path functions as parameters and arrays in a heap | division with remainder for edge cells; case analysis on strings; heap reasoning for aliasing |
| C89 | soil_base and soil_funcs: table, retention curve, conductivity, initialize | bounds of the table, monotone powers |
| C90 | met_utils; Courant functions of tf_utils | monotone exponentials, field algebra |
| C91 | visualize: stretches and the treatment of cells without data | each stretch as a function of the value; monotone curves; counting for the histogram |
| C92 | BMI_base: path file, time file, start of a component | attributes as a map, files as texts, reusing the settings specification of C58, the folders of C88 and the dates of C40; induction over the settings |
| C93 | import_grid: header and file of an imported raster | rasters as records with cells as bytes, reusing the headers of C42 and the grid files of C41; both byte orders, every size, by the round-trip lemmas of C41 and C42 |
| C94 | emeli.finalize_all, channels_base.finalize, topoflow_driver report | components finalized in the order of the provider list, the report reads the values of that moment; induction over the list, extremes by induction over the cells |
| C95 | diversions_fraction_method readers, cfg_files.read_value and read_list_after_key, initialize_diversion_vars | texts as lines of key, colon and words; the readers follow the lines, induction over the blocks; exact conditions for acceptance and for a cell to be found again; sinks, canals with current numpy, shipped layouts and y coordinates refuted |
| C96 | emeli.read_provider_file, instantiate_comp, run_model start, initialize_comp_set, finalize_all | provider file as text, comp_set as ordered dictionary, calls as a log; induction over lines and list; repeated, unknown and indented names refuted |
| C97 | erode_base.initialize_DEM, create_initial_DEM | files as typed number lists; direct proof by cases on the options and on the file size, cell by cell for planes |
| C98 | snow_base/glacier_base: initialize_computed_vars, initialize_cold_content, update_density_ratio, update_depth | fields that are numbers or grids; number objects that cannot be refilled; induction over the history of values read |
| C99 | cfg_templates.make_new_cfg_file; template_files.replace | str.replace and re.findall as structural functions; templates as token lists; induction over tokens and names |
| C100 | mct_files.find_wettest_month | the loop over the records with its running sums, the place of the greatest sum; invariant over the prefix of records |
| C101 | rtg2rts.rtg2rts | files as byte texts, glob and sort of the names, the copy of the elements; sortedness and uniqueness of sorted permutations |
| C102 | svo_names.get_svo_name, get_short_name; model_output.open_new_*_file | the tables of the source as lists of pairs, lookups with KeyError; checks over the whole tables lifted to all names by induction |
| C103 | all calls in components, utils and framework | Python's binding of arguments, and a table of the calls taken from the text of the source; the binding rule proved for all signatures, the table checked by the kernel |
| C104 | the variable tables of the 22 components of component_repository.xml and connect_comps up to the values | the provider check is reduced to counting providers in a subset; the table facts are decided by computation and lifted to all subsets by a generic lemma |
| C105 | prepare_inputs.py: options, dates, rainfall product, template values, outlet, CSV part | attributes as pairs with AttributeError; the outcome of every option set is computed once and all claims on the configuration files follow; outlet and CSV by induction over lists |
| C106 | update_time, the stop test and the test of the framework on doubles | reals rounded to the nearest double after each operation (Flocq round, FLT -1074 53); exactness by induction on the number of updates, refutations by computing with binary64 |
| C107 | totals and cell volumes on doubles | sums along any tree of additions; error bounds by induction on the tree, the updates and the tributaries; the exchange of discharges by swapping sums |
| C108 | collate_basins.py collate and the functions it reads with | data sets as lists of rows; walk with one stream for each; induction over the sites with the file sorted |
| C109 | time_interp_data.update, get_values | doubles as reals with Flocq's rounding; monotone rounding, relative error of each operation; examples computed with Flocq's binary64 |
| C110 | snow_base.py enforce_max_meltrate, update_swe | error of each rounding bounded by 2^-53, then induction over the updates; the snow that never melts by computing the doubles until they repeat |
| C111 | channels_base.py update_flow_volume, update_R_integral, update_edge_values | the routing of Chan_Model with rounded additions on lists of doubles: each cell is a fold of additions over its at most eight donors; sums of errors over cells, then induction over updates |
| C112 | usgs_utils.py 914-1728, data_utils.py 1106-1285 | the rules as a list of replacements; every rule keeps digits, capitals and decimal points, so does any chain of them; endings by comparison from the right; words by induction |
| C113 | utils/hamiltonian.py gradients, slopes, divergence, curvatures, masks, smoothing, profiles | real model with NaN as None, grids as functions; algebra on planes and quadratics, induction over passes, derivatives from the standard library |
| C114 | ngen/gages2_utils.py climate indices | real model, asin from the standard library; inversion of Woods' formula, monotonicity, symmetry |
| C115 | channels_base.py 1548-1649, 2149-2431 in double precision | Rounding is tracked as a factor (1 + 2^-53)^k, which products, quotients and roots compose; the square root of a rounded square is the number itself; Sterbenz for the split |
| C116 | calibrate.py reading and rain rates | lines and columns as text, times as Z, rates in R; sums telescope, interpolation from C69 |
| C117 | erode_base.py time step grids | grids as functions of the cell; minima by induction over the directions, groups by induction over the loop |
| C118 | gages2_utils.py combine_tsv_files, classify.py get_site_ids/get_common_site_ids, data_utils.py get_basin_ids/compare_basin_ids/sort_tsv_by_site_id, mopex_utils.py sort_by_site_code | lines of text; joins by induction on the rows of the first table, sorts as permutations |
| C119 | hamiltonian.py quarter-cell slopes, divergence, curvatures and test surface | grids as functions with NaN; symmetries and telescoping sums |
| C120 | met_base.py initialize, update, read_input_files, set_rain_to_zero; model_input.py read_next | state machine over the records of the file, induction over the steps of a run |
| C121 | rfc_utils.py cull_usa_dcp_data_rows, get_equivalent_nws_ids(2), compare_nws_ids, get_hydrograph_type_dict; subset.py read_collated_tsv_file | dictionaries as lists, induction over lines; argsort as any sorting permutation |
| C122 | channels_base.py, met_base.py, topoflow_driver.py, snow_degree_day.py: set_missing_cfg_options | attributes as maps from names to values; stage by stage, a name is kept, filled in or overwritten |
| C123 | hlr_utils.get_cols_and_rows, try_to_get_outlet_info | boundary as a list of integer vertices; four passes over its steps, unique texts, truncation |
| C124 | create_tsv, get_cols_and_rows2, get_polygon_zvals, check_lon_lats (hlr_utils.py) | loop over features with all counters as a state; invariant over the features looked at; two's complement arithmetic for the elevations |
| C125 | Convert_Flow_Grid, Not_Same_Byte_Order (tf_utils.py) | files as lists of bytes, the block loop with its changing type and size; induction over the blocks |
| C126 | convert_units (rts_files.py) | on top of Rts_Model: the loop of reads and writes equals reading all and then writing all, so that C41 applies |
| C127 | classify.save_indicators_to_tsv | one pass over two lists of rows; induction over the common sites |
| C128 | idl_func.readf, reads, bytscl | lists of characters and widths, rationals; induction over the fields |
| C129 | rfc_utils.merge_rfc_basin_info | lists of headings and rows; induction over files and rows |

## 3. Trusted base

### 3.1 Kernel and reading

The Coq 8.16.1 kernel (`coqc`, re-checked by `coqchk`); the reading of `/repo` recorded in the comments of the model
files; the meaning of numpy, heapq, datetime, dateutil, scipy.interpolate.interp1d and netCDF4 operations stated there.
No axioms, parameters, functors or plug-ins of our own; no kernel check is switched off.

### 3.2 Library axioms

`Print Assumptions` follows each theorem in the source. Only axioms of Coq's standard library appear:

* a `ClassicalDedekindReals.sig_forall_dec` - a decidable predicate on nat holds everywhere or fails somewhere (Reals)
* b `ClassicalDedekindReals.sig_not_dec` - excluded middle for negations (Reals)
* c `FunctionalExtensionality.functional_extensionality_dep` (Reals)
* d `Classical_Prop.classic` - excluded middle (used by the library for exp, ln, Rpower and inverse trigonometry)

All theorems over Z, Q, nat, lists and strings are closed under the global context.

### 3.3 Print Assumptions per theorem

"closed" means "Closed under the global context"; letters refer to 3.2.

| property | status | assumptions: theorems |
|---|---|---|
| C01 | proved | **closed**: _heap_is_priority_queue, _shipped_insert_refuted |
| C02 | proved | **closed**: _fill_pits_never_lowers_and_terminates, _nodata_free_never_fails |
| C03 | partial | **closed**: _fill_pits_minimax_over_ID_paths, _filled_dem_is_depression_free, _fill_pits_minimax_partial, _minimax_refuted |
| C04 | partial | **closed**: _edge_cells_unchanged_partial, _edge_cell_unchanged_refuted, _nodata_cell_unchanged_refuted |
| C05 | proved | **closed**: _resolve_picks_a_tied_direction |
| C06 | proved | **closed**: _flow_codes_valid_downhill_steepest |
| C07 | proved | **closed**: _flow_grid_acyclic |
| C08 | proved | **closed**: _link_flats_complete |
| C09 | proved | **closed**: _parent_IDs |
| C10 | proved | **closed**: _area_is_upstream_sum |
| C100 | partial | **closed**: _wettest, _dry_end, _last_refuted, _years_refuted, _start_refuted, _winter_refuted, _gap_refuted |
| C101 | partial | **closed**: _bundle, _time_order, _order_refuted, _swap_refuted, _existing, _numbers_refuted, _info, _no_info_refuted, _header_refuted, _short_refuted |
| C102 | partial | **closed**: _round, _standard, _meaning_refuted, _pixel, _saved, _open, _melt_refuted |
| C103 | partial | **closed**: _bind, _values, _calls, _run_model_refuted, _read_file_refuted |
| C104 | partial | **closed**: _complete, _no_ice_refuted, _glacier_refuted, _examples, _template_refuted, _diversions_refuted, _connect, _names, _units, _warning |
| C105 | partial | **closed**: _options, _new_refuted, _fields, _period, _rain, _two_refuted, _csv_stack_refuted, _case_refuted, _outlet, _outlet_file, _step_back_refuted, _csv, _csv_start_refuted, _csv_end_refuted |
| C106 | partial | **a,b,c,d**: _exact, _units, _stop, _due, _error, _early_refuted, _late_refuted |
| C107 | partial | **a,b,c,d**: _integral, _rain, _uniform, _grows, _exact, _stagnates_refuted, _cell, _network; **a,c**: _small |
| C108 | partial | **closed**: _inclusion, _join, _complete, _first_row, _first, _units, _stuck_refuted, _last_row_refuted, _blank_refuted, _units_refuted, _file |
| C109 | proved | **a,b,c,d**: _monotone, _constant, _close, _ten_years, _negative_refuted, _end_refuted |
| C11 | proved | **closed**: _every_cell_receives_its_inflow, _flow_volume_conserves, _run_conserves |
| C110 | proved | **a,b,c,d**: _limit, _balance, _all, _never_refuted, _residual_refuted, _excess_refuted |
| C111 | proved | **a,b,c,d**: _cell, _hillslope, _run, _nonneg, _edges, _runoff |
| C112 | partial | **closed**: _digits, _upper, _punctuation, _decimals, _states, _states_done, _code, _long_name, _short_refuted, _words, _meaning, _repeat_refuted, _ft, _ft_refuted, _inside_refuted, _salt_lake_refuted, _no_effect_refuted, _yukon_refuted, _border_refuted |
| C113 | partial | **a,b,c**: _slope, _laplacian, _mask, _mask_unknown; **a,b,c,d**: _radial, _peckham, _peckham_concave, _whipple, _curvature_eqn, _smooth_profile_refuted, _plane; **a,c**: _smooth_plane, _smooth_range, _smooth_edge_refuted, _spacing_refuted, _profile, _profile_clip, _hilltop, _uphill_refuted, _slope_profile_refuted, _gradients, _shift, _second, _mask_tests |
| C114 | partial | **a**: _months; **a,b,c,d**: _timing_range, _timing_woods, _timing_monotone, _timing_mirror, _timing_jump_refuted, _all_year, _timing_error_refuted; **a,c**: _snow, _percent_refuted, _monthly, _methods, _aridity |
| C115 | partial | **a,b,c,d**: _split, _split_refuted, _monotone, _rectangle, _floodplain, _trapezoid, _empty, _dry_refuted, _volume, _round_trip, _excess, _infiltration, _evaporation, _overdraw_refuted |
| C116 | partial | **closed**: _minutes, _rows, _complete, _blank_refuted, _header, _cells, _dates, _datetimes, _hhmm, _times_refuted; **a,c**: _rates, _depth, _rates_nonneg, _per_minute, _per_minute_depth_refuted, _long_refuted |
| C117 | partial | **closed**: _groups; **a,b,c,d**: _group_of_cell; **a,c**: _rise, _no_overshoot, _step_range, _level_refuted, _fraction, _fraction_local, _work |
| C118 | partial | **closed**: _combine, _sorted, _stray_refuted, _no_rows_refuted, _common, _numbers, _site_ids, _sort_file, _newline_refuted, _swap, _two_columns_refuted, _basin_ids |
| C119 | partial | **a,b,c**: _slope, _cylinder, _quadric; **a,b,c,d**: _defined, _plane, _lift, _scale, _mirror, _flux, _test_surface, _spacing_refuted; **a,c**: _shared |
| C12 | proved | **closed**: _volumes_nonnegative, _no_water_created_iff, C11_flow_volume_conserves |
| C120 | partial | **a,c**: _file, _blank_refuted, _errors, _scalar, _factor_refuted, _max |
| C121 | partial | **closed**: _name, _cull, _state_count_refuted, _same_place, _same_place_refuted, _same_place_2, _same_place_2_refuted, _compare, _types, _tally |
| C122 | partial | **closed**: _channels, _baseflow, _flood, _given_refuted, _attenuate, _attenuate_refuted, _create, _create_refuted, _components, _again_refuted |
| C123 | partial | **closed**: _points, _all, _text_refuted, _slanting, _inner, _inner_refuted, _edge_refuted, _outlet, _outlet_refuted |
| C124 | partial | **closed**: _rows, _counts, _total, _unique, _ok, _repeated_refuted, _limit_refuted, _code_refuted, _cell, _check, _trunc_refuted, _around, _elevation, _elevations, _edge_refuted, _end_refuted, _negative_refuted, _lines |
| C125 | partial | **closed**: _recode, _default, _array_refuted, _same_name, _rest_refuted, _width_refuted, _255_refuted, _negative_refuted, _types |
| C126 | partial | **closed**: _converted, _info_refuted, _type_refuted |
| C127 | partial | **closed**: _lines, _order_refuted, _empty_refuted, _short_refuted, _aridity |
| C128 | partial | **closed**: _fields, _nothing_lost, _format, _line_refuted, _line, _scale, _range, _integer_refuted, _integer, _clip_refuted, _constant_refuted |
| C129 | partial | **closed**: _lines, _break_refuted, _last_refuted |
| C13 | partial | **closed**: _channel_flood_split, _split_after_update_refuted |
| C14 | proved | **a,b,c**: _depth_inverts_trapezoid, _wetted_area_times_length_is_volume |
| C15 | proved | **a,b,c**: _hydraulic_radius; **a,b,c,d**: _manning_velocity, _law_of_the_wall_velocity |
| C16 | proved | **closed**: _peaks_are_running_maxima |
| C17 | proved | **closed**: _bad_slopes_repaired |
| C18 | partial | **closed**: _velocity_check, _depth_check_partial, _depth_check_refuted |
| C19 | partial | **closed**: _rain_or_snow, _precipitation_volumes_add_up, _P_max_is_running_maximum, _met_update_raises_only_for_0D_precipitation, _time_series_temperature_refuted |
| C20 | proved | **closed**: _melt_never_exceeds_snow, _snowpack_mass_balance, _snowpack_volume_balance, _snow_update_total |
| C21 | proved | **closed**: _cold_content_energy_balance, _melt_energy_is_supplied, _scalar_parameters_refuted |
| C22 | proved | **closed**: _degree_day_melt |
| C23 | proved | **closed**: _glacier_cell, _glacier_mass_balance |
| C24 | proved | **closed**: _infiltration_bounded, _cumulative_infiltration, _infiltration_volumes, _no_shape_error, _v0_is_infiltration_refuted |
| C25 | partial | **closed**: _no_infiltration_where_saturated_partial, _no_infiltration_where_saturated_refuted |
| C26 | proved | **a,b,c,d**: _capacity_decreases_to_Ks, _beven_capacity, _beven_rate_within_capacity_refuted; **a,c**: _same_green_ampt, _histories_with_any_capacity |
| C27 | partial | **a,b,c,d**: _water_content_in_range, _column_water_balance_partial, _reported_infiltration_enters, _unequal_spacing_refuted, _whole_column_refuted; **a,c**: _values_in_range_unchanged, _first_update_refuted |
| C28 | proved | **closed**: _evaporation_never_negative, _volume_is_the_integral, _volume_unaffected_by_other_components, _no_shape_error |
| C29 | partial | **closed**: _falling_table_conserves_water_partial, _drained_layers, _any_gain_fills_the_layers, _rising_table_conserves_water_refuted, _lateral_flow_conserves_water |
| C30 | proved | **closed**: _wetted_thicknesses_bounded, _initial_thickness_matches_table |
| C31 | partial | **closed**: _components_keep_up, _at_most_one_update_per_step, _run_starts_unless_hours, _framework_step_is_smallest_step_partial, _framework_step_is_smallest_step_refuted, _keeping_up_needs_exact_status_refuted |
| C32 | partial | **closed**: _requests_inside_window_partial, _requests_near_window, _never_after_window_refuted, _never_before_window_refuted |
| C33 | proved | **closed**: _check_sound_and_complete, _every_input_connected |
| C34 | partial | **closed**: _linear_between_updates_partial, _otherwise_latest_value, _provider_undisturbed, _linear_for_in_place_provider_refuted, _linear_cell_by_cell_refuted |
| C35 | partial | **closed**: _passes_the_time_partial, _update_until_reaches_time_refuted, _past_time_advances |
| C36 | partial | **closed**: _done_at_step_limit, _done_at_stop_time, _stops_after_peak, _run_ends_at_first_stop, _fixed_length_runs_end, _every_run_ends_refuted, _base_run_stops_at_first, _done_is_permanent, _end_time_is_where_it_stops_partial, _end_time_with_stop_time_refuted |
| C37 | partial | **closed**: _set_then_get, _get_scalar, _set_shares_get_copies, _get_at_indices, _set_at_indices_does_nothing, _set_at_indices_changes_cells_refuted |
| C38 | partial | **closed**: _fields_survive, _fraction_dropped, _negative_year_refuted, _standardize_idempotent_partial, _standardize_idempotent_refuted, _standardize_any_separator, _written_strings_are_standard |
| C39 | partial | **closed**: _minutes_to_hhmm, _hhmm_to_minutes, _strings_to_numbers_partial, _inverse_after_padding, _fraction_dropped, _inverse_refuted, _unpadded_strings_refuted |
| C40 | proved | **closed**: _forth_and_back, _forth_and_back_rounded, _back_and_forth, _next_day_is_one_day_later, _months_forth_and_back, _month_difference_antisymmetric, _month_difference_additive, _time_since_additive, _years_refuted, _no_time_since_in_months, _unknown_units, _duration_is_time_since |
| C41 | partial | **closed**: _stack_returns_what_was_written, _file_independent_of_machine, _updates_by_index, _last_update_wins, _single_grid_file, _added_grid_is_appended_refuted, _index_on_new_file_refuted, _single_number_accepted_refuted, _array0_always_refused, _existing_files_kept_refuted, _lower_case_order_refuted, _default_type_reads_refuted, _caller_grid_kept_refuted |
| C42 | partial | **closed**: _header_comes_back, _exact_round_trip, _second_round_trip, _text_kept_refuted, _zone_kept_refuted, _header_found, _edges_enclose_cells, _type_names_inverse |
| C43 | proved | **closed**: _returned_name_is_free, _free_name_kept, _first_free_version, _stem_kept_without_dot_refuted |
| C44 | partial | **closed**: _one_line_per_update, _values_in_order, _last_value_held, _grids_in_order, _blank_lines_skipped_refuted |
| C45 | partial | **closed**: _cells_of_the_grid_accepted, _accepted_iff_rows_in_grid, _accepted_cells_in_grid_refuted, _no_outlet_is_an_error, _written_outlet_comes_back |
| C46 | partial | **closed**: _canal_is_a_delay, _canal_water_balance, _canals_run, _sources_follow_their_table, _canals_run_with_current_numpy_refuted, _zero_travel_time_refuted, _yes_turns_canals_on_refuted, _sinks_run_refuted |
| C47 | partial | **closed**: _runoff_limits_ET, _scalar_ET_applied_refuted |
| C48 | partial | **a,b,c,d**: _friction_factor_law_of_wall, _friction_factor_manning_partial, _friction_factor_manning_refuted |
| C49 | partial | **closed**: _glacier_cold_content_needs_snow, _snow_cold_content_needs_snow_refuted |
| C50 | partial | **closed**: _disabled_groundwater_above_sea_level_partial, _disabled_groundwater_refuted |
| C51 | proved | **a,b,c,d**: _theta_and_psi_are_inverse, _head_increases, _one_conductivity |
| C52 | partial | **closed**: _energy_balance_uses_available_energy, _priestley_taylor_uses_available_energy_partial, _priestley_taylor_cold_air_refuted |
| C53 | partial | **closed**: _table_at_top_of_wetted_layers_partial, _table_at_top_of_wetted_layers_refuted |
| C54 | partial | **closed**: _outflow_is_darcy_flow_partial, _outflow_is_darcy_flow_refuted |
| C55 | partial | **closed**: _seepage_from_rising_table_partial, _no_seepage_below_land_surface_refuted |
| C56 | proved | **closed**: _replace_extension, _parts_make_the_name, _add_extension, _replace_without_dot_refuted, _count_lines |
| C57 | partial | **closed**: _series_comes_back, _one_value_per_cell, _any_value_refuted, _blank_lines_skipped_refuted, _header_lines_up_refuted |
| C58 | partial | **closed**: _same_settings_same_effect, _other_attributes_kept, _number_stored, _integer_stored, _yes_no_stored, _text_stored, _file_name_stored, _scalar_stored, _type_line_must_be_text, _sound_file_is_read, _bar_in_help_refuted, _type_line_anywhere_refuted, _any_file_name_refuted, _misspelled_type_refuted |
| C59 | partial | **a,b,c,d**: _daylight, _day_length_range, _polar_day, _polar_night, _equator, _no_sun_no_radiation, _far_from_noon, _lit_slope, _midnight_sun_refuted, _steep_slope_refuted |
| C60 | proved | **a,b,c**: _flux_on_level_ground; **a,b,c,d**: _zenith, _flux_on_slope, _level_slope, _day_course, _nonnegative, _ground_below_space, _net_shortwave_range, _net_shortwave_slope, _symmetric |
| C61 | partial | **closed**: _first_day, _next_day, _year_range, _next_day_refuted, _no_year; **a,b,c**: _equation_of_time_year, _solar_clock, _aspect; **a,b,c,d**: _equation_of_time_range, _solar_noon, _solar_clock_refuted, _any_clock_refuted, _slope; **a,c**: _latitudes, _longitudes, _latitudes_in_box |
| C62 | partial | **a,b,c,d**: _saturation_increases, _dew_point_inverse, _dew_point_below_air, _dew_point_below_air_refuted, _dew_point_humidity, _sensible_heat, _grid_is_cellwise, _calm_air_refuted, _latent_heat, _dry_air_takes_vapour_refuted, _emissivity_positive, _emissivity_below_one_refuted, _emissivity_vapour, _emissivity_canopy; **a,c**: _frozen_surface, _given_surface_series, _given_surface_temperature_refuted, _net_longwave, _longwave_sign |
| C63 | partial | **a,b,c**: _age_of_snow, _fresh_snow, _given_albedo_series, _any_time_step_refuted; **a,b,c,d**: _albedo_values, _snow_darkens, _no_snow_no_brightening_refuted, _given_albedo_refuted, _net_shortwave_in_a_run |
| C64 | proved | **closed**: _reported_error, _surface_water_only, _reported_runoff, _terms_absent, _snow_melt_refuted, _evaporation_refuted, _floodplains_refuted, _attenuation_refuted |
| C65 | proved | **a,b,c**: _degree_of_longitude; **a,b,c,d**: _degree_of_latitude, _sizes_positive, _towards_the_pole, _fixed_length, _kilometres, _areas, _hemispheres, _width_at_middle_refuted, _degree_lengths; **a,c**: _row_latitude |
| C66 | proved | **closed**: _flow_length, _distance_to_receiver, _flow_width, _no_flow, _slopes, _steepest, _steepest_by_row_refuted; **a,b,c**: _aspect |
| C67 | partial | **a,b,c,d**: _wider_downstream, _given_exponent, _given_extremes, _given_points, _grows_with_area, _between_extremes, _equal_areas_refuted, _enough_inputs, _edge_values_refuted |
| C68 | partial | **a,b,c,d**: _all_slopes_good_refuted, _runs_iff, _normal_depth_unique, _normal_depth_exists, _newton_derivative, _initial_depth, _settles; **a,c**: _slopes, _baseflow_flux |
| C69 | partial | **closed**: _newest_file, _newest_file_refuted; **a,b,c**: _spearman_cut, _spearman_range, _spearman_defined, _spearman_zero, _spearman_one, _spearman_increasing, _spearman_decreasing, _spearman_comment_refuted, _spearman_scale_blind, _spearman_symmetric, _spearman_formula, _spearman_triangle_refuted, _spearman_best, _spearman_magnitude_refuted; **a,b,c,d**: _same_times_refuted, _best_parameter, _no_best_parameter, _failed_run, _not_silent_refuted, _original_lost_refuted, _cost_array_refuted, _cost_formula, _cost_is_a_distance, _distance_below_one_refuted, _shorter_is_cheaper, _empty_run_refuted; **a,c**: _resampled_value, _resampled_at_observation, _resampled_between, _same_times, _negative_discharge_refuted, _values_tried, _single_value |
| C70 | partial | **closed**: _saving_times, _requested_interval, _requested_interval_refuted, _subsecond_refuted, _short_interval_refuted, _label_refuted, _files, _frame_date, _lost_frame_refuted, _given_index_refuted, _series_position, _x_coordinates, _y_coordinates_refuted, _series_names, _large_grid_refuted, _distinct_outlets, _series_values, _series_scalar, _open_calls, _profiles_refuted, _cubes_refuted, _cube_call_refuted, _profiles_saved, _profile_readback_refuted, _add_profile_refuted |
| C71 | proved | **a,b,c,d**: _state, _velocity, _created, _balance, _sharp, _comparison, _steady, _rise, _surface, _level, _direction, _conservation_refuted, _uphill_refuted, _parts |
| C72 | partial | **a,b,c**: _account, _nonneg, _run_nonneg, _run_ends, _downhill, _no_ice_enters, _closed, _glen, _front, _stays_bare, _mirror, _transpose, _datum, _bookkeeping, _no_made_ice_refuted, _ice_account_refuted, _settings_ignored, _settings_refuted, _variable_dt_refuted, _component_refuted, _melt_volume_refuted, _const_flux; **a,c**: _mass_balance |
| C73 | partial | **a,b,c,d**: _published, _porosity_range, _porosity_total, _porosity_total_refuted, _nodata_kept_refuted, _porosity_density, _conductivity_positive, _conductivity_density, _alpha_range, _n_range, _L_range, _same_retention, _sandy_cells, _local, _layers; **a,c**: _reader_physical, _reader_keeps, _reader_zero, _reader_missing, _reader_fails, _reader_zero_left_refuted, _brooks_corey, _capillary_range, _capillary_n3, _capillary_bound_refuted |
| C74 | partial | **closed**: _d8_slope, _d8_total, _first_lower, _slope_source, _no_slope, _new_total, _outlet_refuted, _long_flat_refuted, _corner_refuted, _lowest_slope, _chain_positive, _flats_filled, _chains_total, _no_flats_refuted, _chain_length_refuted, _three_slopes_refuted, _flat_head_refuted, _negative_refuted, _smooth_range, _smooth_step, _smooth_downhill, _smooth_confluence_refuted, _smooth_nodata_refuted, _three_slopes_needed |
| C75 | partial | **closed**: _until_time, _until_time_reached_refuted, _components_keep_up, _components_reach_time_refuted, _each_call_steps, _near_target_refuted, _set_value_ignored, _set_value_used_refuted, _inputs_given, _bad_configuration, _runs, _blank_input_refuted, _at_indices, _at_indices_refuted |
| C76 | partial | **closed**: _cell_changes, _sediment_balance, _step_succeeds, _no_discharge_exits, _step_bounded, _one_donor_stays_higher, _donors_stay_higher_refuted, _cell_zero_refuted, _balance_areas_refuted, _flat_land_fails, _clock, _given_step_used_refuted, _uplift_total, _uplift_total_refuted, _n_steps, _steady_refuted, _tests_look_at_rises, _four_sides, _other_sides, _square_grid_refuted, _bottom_overwrites, _edge_values; **a,b,c,d**: _law_per_second, _law |
| C77 | partial | **closed**: _bounds, _cellsize, _disjoint, _disjoint_symmetric, _south_up_refuted, _gpm_values, _gpm_shape, _gpm_box, _gpm_place, _gpm_place_refuted, _gpm_flipped, _gpm_nodata_refuted, _order, _frame_count, _frames_good, _bad_file_refuted, _units, _blank_frame_refuted, _blank_frame_size, _chirps_frames, _chirps_rows, _chirps_nonneg, _chirps_rate_refuted, _chirps_nodata_refuted, _regrid_rts_refuted |
| C78 | partial | **closed**: _months_partition, _days_per_month_refuted, _swb_boxes, _swb_no_overlap, _swb_span, _swb_span_refuted, _swb_ends_refuted, _swb_no_b3, _swb_extends, _swb_names, _swb_groups, _swb_original_refuted, _collect_refuted; **a,b,c,d**: _daylight_bounds, _daylight_equator, _daylight_opposite, _daylight_solar, _daylight_defined, _daylight_polar_refuted, _pet_nonneg, _pet_warmer, _pet_month_warmer, _indicators_ranges, _indicators_polar_refuted; **a,c**: _mi_bounds, _mi_sign, _mi_antisymmetric, _mi_wetter, _mi_drier, _mi_convert, _seasonality, _snow_bounds, _snow_warm, _snow_cold, _convert_mean_refuted |
| C79 | partial | **closed**: _neighbors, _neighbors_sorted, _kids, _pit, _locality, _history, _changed, _update_refuted, _numpy_refuted, _pits_refuted, _wrap_refuted, _noflow_refuted, _flats_refuted, _periodic_refuted, _linked_flat |
| C80 | partial | **closed**: _layered_values, _layered_shape, _depth_sum, _depth_in_layer, _spacing, _storage, _storage_single, _storage_geographic_refuted, _storage_geographic_wrong_refuted, _storage_methods_refuted, _lower_grid_refuted, _front_cell, _front_cell_none, _front_single_refuted, _front_range, _front_layers_refuted, _Ks_positive, _pB_lam_range, _time_series_refuted, _sequence_refuted, _initial |
| C81 | partial | **closed**: _runs; **a,b,c**: _month, _last_month_refuted, _extremes, _first_grid_refuted, _absent, _single_year_refuted; **a,c**: _mean_all, _condition, _days_file, _days, _month_end_refuted, _last_day_refuted, _population |
| C82 | partial | **closed**: _only_where_unrest, _never_outside, _counter, _ids, _step, _persist, _fresh, _runs, _no_index_error, _no_unrest_refuted, _thin_refuted, _supply_refuted, _fraction_refuted, _id_zero_refuted |
| C83 | partial | **closed**: _clock, _not_backwards, _earliest, _scheduled, _heap_size, _no_index_error, _terminates, _continuous, _up_to_date, _near, _within_target, _change_since_event, _pits_now, _next_time, _zone_rates, _zone_fluxes, _parent_zero_refuted, _balance_partial, _final, _final_grid_refuted, _balance_refuted, _snapshot_refuted, _zone_limit_refuted, _base_level, _start, _zone, _stuck_cell, _active_count, _inner, _edge_time, _directions |
| C84 | proved | **a,b,c**: _albers_sphere_area, _albers_sphere_origin, _albers_sphere_standard, _albers_sphere_injective, _lambert_defined, _lambert_area, _lambert_distance, _lambert_origin, _lambert_injective, _lambert_east, _lambert_meridian, _hlr_cell, _hlr_inside; **a,b,c,d**: _albers_ellipsoid_area, _albers_ellipsoid_origin, _albers_ellipsoid_standard, _albers_ellipsoid_injective, _mercator_sphere, _mercator_ellipsoid, _mercator_north, _mercator_mirror, _mercator_origin, _mercator_injective |
| C85 | partial | **closed**: _around, _box_contains, _box_tight, _check, _rectangle, _center, _basin_in_dem, _dms_partial, _dms_refuted, _zmin, _zmin_exists, _zmin_data, _zmin_no_data_refuted, _around_tie; **a,b,c,d**: _distance, _symmetric, _zero, _whole_turns, _triangle, _closest, _unknown |
| C86 | partial | **closed**: _sweep, _fuel, _reached, _profile, _downhill, _unreached, _no_start, _nodata_refuted, _lengths, _lengths_short; **a,b,c,d**: _slope_law, _c2_best, _c1_stationary, _exact_profile, _error_meaning, _fit_refuted, _guess; **a,c**: _prepare |
| C87 | partial | **closed**: _velocity_refuted; **a,b,c**: _momentum, _uniform, _rest, _not_negative, _inflow_drags, _cross_section; **a,c**: _recharge_refuted, _groundwater |
| C88 | partial | **closed**: _edges, _edges_once, _edges_refuted, _grid, _grid_bad_length, _grid_scalar, _grid_type, _grid_scalar_refuted, _run_time, _run_time_refuted, _run_time_seconds, _directories, _directories_again, _directories_fail, _directories_refuted, _prepend, _prepend_fails, _prepend_twice_refuted, _initialize, _update_number, _update_array, _update_self, _update_none, _update_bad_shape, _update_argument_refuted |
| C89 | partial | **a,b,c,d**: _retention, _residual, _order, _conductivity, _conductivity_refuted, _rain, _heavy_rain_refuted, _initial, _names, _names_refuted, _same, _parameters |
| C90 | partial | **closed**: _lapse_refuted; **a,b,c,d**: _saturation, _units, _freezing, _unknown, _humidity; **a,c**: _lapse, _lapse_height, _courant, _courant_stable, _courant_spec |
| C91 | partial | **closed**: _unknown; **a,b,c,d**: _stretch, _constant, _histogram, _log, _log_refuted, _power1, _power1_refuted, _nodata, _caller_refuted; **a,c**: _histogram_bin |
| C92 | partial | **closed**: _sibling, _sibling_other_name, _sibling_refuted, _time_settings, _duration, _datetimes, _derived_ignored, _dates_needed, _output, _default, _default_output_refuted, _path_settings, _path_folders, _path_needed, _path_missing, _start_folders, _start_missing, _every_file |
| C93 | partial | **closed**: _bounds, _bounds_refuted, _header, _geographic_refuted, _types_refuted, _float_back, _save_double_refuted, _save_long_refuted, _save_length_refuted, _save_integer_refuted, _import_header, _import_projected_refuted, _import_float, _import_big_refuted, _import_integer_refuted, _import_long_refuted |
| C94 | partial | **closed**: _report, _order_refuted, _others, _small_grid_refuted, _disabled, _large_refuted, _edge_refuted, _label_refuted, _simulated_time, _simulated_time_refuted, _volumes |
| C95 | partial | **closed**: _sources, _sources_example, _sources_example_refuted, _sinks_refuted, _canals, _canals_current_numpy_refuted, _no_canals_refuted, _canals_example_refuted, _count, _count_refuted, _x, _y_refuted, _located, _located_refuted, _count_value |
| C96 | partial | **closed**: _read, _indented_comment_refuted, _set, _set_once, _start, _unknown_refuted, _no_driver, _twice_refuted, _incomplete |
| C97 | partial | **closed**: _read, _read_long_refuted, _read_byte_refuted, _read_size, _created_iff, _no_noise_refuted, _midpoints_refuted, _corner_plane_refuted, _plane, _flat, _saved, _spelling_refuted, _absent |
| C98 | partial | **closed**: _start, _start_numbers_refuted, _glacier_start, _static, _static_glacier, _sequence, _series_refuted, _series_wrong_refuted, _glacier_varying_refuted |
| C99 | partial | **closed**: _cfg, _cfg_few_values, _cfg_order_refuted, _re, _re_no_template, _re_in_place_refuted, _re_hidden_refuted, _cfg_no_template |

### 3.4 Which code is modelled

| code in /repo/topoflow | model file | left out |
|---|---|---|
| utils/heap_base.py | Heap_Model | printing |
| utils/fill_pits.py | Fill_Model | file reading and writing; `heapq` is a priority queue as documented |
| components/d8_base.py, d8_global.py | D8_Model, Geo_Model | file reading |
| utils/pixels.py | Geo_Model | plotting |
| components/channels_base.py, channels_kinematic_wave.py | Chan_Model (Q), ChanR_Model (R), Wave_Model (closed channel, whole update), Evap_Model (runoff), Dyn_Model (dynamic wave) | - |
| components/met_base.py | Snow_Model (precipitation), Energy_Model, Solar_Model, Io_Model (input) | file opening |
| components/solar_funcs.py | Solar_Model | ‑ |
| components/snow_*.py, glacier_*.py | Snow_Model | ‑ |
| components/evap_*.py | Evap_Model | evap_read_file |
| components/infil_*.py | Infil_Model, Richards_Model | layers beyond those stated in the header |
| utils/soil_trans_BC.py, components/soil_*.py | Richards_Model, Soil_Model | printing, float32 |
| utils/met_utils.py; utils/tf_utils.py 502-543 | Met_Model | GDAL, file format, the rest of tf_utils |
| utils/visualize.py 87-207, 376-391 | Stretch_Model | plotting, files; np.histogram as documented |
| utils/BMI_base.py 1468-1666, 1940-1976 | Setup_Model | read_grid_info in between (READ_GRID_INFO=False), names that are not Python names; file objects are texts |
| utils/import_grid.py 65-295, 334-358, 399-508; rtg_files.py 311-373, 478-568 | Import_Model | GDAL (a raster is a record), rotation, several bands, NaN, printing; resampling and clipping |
| framework/emeli.py 846-886; channels_base.py 964-990, 1484-1497, 2986-3036; topoflow_driver.py 549-580, 1036-1057, 1142-1353 | Report_Model | formats and text of the report, NaN, closing of files |
| components/diversions_fraction_method.py readers, utils/cfg_files.py read_*, channels_base.initialize_diversion_vars | Divfile_Model | int32 range, other expressions in eval |
| rfc_utils.py 1412-1614 | Rfcmerge_Model | number texts, printed messages |
| idl_func.py 64-80, 187-269, 274-327 (with a format) | Idl_Model | conversion of texts to numbers, rounding |
| classify.py 360-613 | Climtab_Model | printed statistics, number texts |
| rts_files.py 507-542 | Rtsconv_Model | float32 arithmetic (a function on numbers) |
| tf_utils.py 475-498, 563-720 | Flowcode_Model | incomplete numbers at the end of a file, broadcasting of a single code, closing of files |
| hlr_utils.py 298-664, 1011-1173 | Hlr_Model | polygons, text of the lines, 32-bit overflow |
| get_cols_and_rows 846-1007, try_to_get_outlet_info 780-842 | Bound_Model | 32-bit overflow; signed elevations; snap_polygon_points |
| set_missing_cfg_options of channels (540-629), meteorology (856-918), driver (393-420), degree-day snow (256-265); channels initialize 650-657, 714-755; update_flow_volume 2077-2079 | Options_Model | contents of the grids that are made; channels_base_IDEA |
| rfc_utils.py 442-632, 905-936, 1091-1300; subset.py 25-123 | Rfc_Model | printing, the saved dictionary, the parsing of numbers |
| met_base.py 641-832, 922-934, 1177-1181, 1247-1289, 2396-2417, 2564-2596; model_input.py 132-179; BMI_base.py 2325-2358 | Rainfile_Model | other variables, areas that differ, rounding |
| hamiltonian.py 148-166 and 263-536 | Quarter_Model.v | rounding, files, histograms |
| gages2_utils.py 1659-1793, classify.py 225-343, data_utils.py 849-913 and 1365-1394, mopex_utils.py 61-89 | Join_Model.v | file names, printed text, non-ASCII digits |
| erode_base.py 1052-1194, 1219-1376, 1463-1514, 1531-1649, 1674-1796; erode_d8_global.py 844-986 | Tgroup_Model | rounding of logarithms, int32, printing |
| calibrate.py 294-373, 500-536, 1090-1202; time_utils.py 507-527 | Series_Model | float32 rounding, sorting by interp1d, file I/O |
| channels_base.py 1320-1336, 1625-1649, 2149-2176, 2250-2431, 2670-2671 | Chan64_Model | np.float32 grids, overflow, np.tan (a parameter), velocities |
| ngen/gages2_utils.py 821-873, 1178-1420; gages2B_utils.py 595-605 | Index_Model | float32 rounding, reports and plots |
| utils/hamiltonian.py | Hamil_Model | histograms, plots, RTG files, fit_curvature_eqn and get_narrowest_histogram (both name functions that do not exist) |
| utils/ngen/usgs_utils.py names, data_utils.get_state_code | Usgs_Model | ASCII text only |
| channels_base.py 1657-1670, 1951-2145, 2954-2965 | Net64_Model | overflow, NaN, uniform runoff, diversions, the computation of the discharges |
| snow_base.py 251-259, 503-510, 587-602; glacier_base.py 626-633, 737-739 | Snow64_Model | overflow, NaN, underflow, the snow depth |
| framework/time_interpolation.py 63-133, 670 | Interp64_Model | overflow, NaN |
| utils/ngen/collate_basins.py 105-131, 190-212, 261-474, 478-718, 737-1190; data_utils.py 823-863 | Collate_Model | names, links, state and HLR codes, basins without USGS IDs |
| met_base.py 1247-1269; channels_base.py 1657-1670, 2086-2145 | Vol64_Model | overflow; float32 grids; attenuation |
| BMI_base.py update_time; emeli.py 1048; topoflow_driver.py 701 | Clock_Model | overflow, NaN; variable dt |
| prepare_inputs.py 143-528, 769-957, 1012-1135, 1793, 1829-1880 | Inputs_Model | directories, DEM and D8 steps, basin tables, the import of hydrofab_utils (a syntax error at its line 1553) |
| component tables (_input_var_names, _output_var_names, _var_name_map, _var_units_map), emeli.py 733, 755-771 | Compat_Model | the values exchanged; components that build a table at run time |
| calls between the project's functions | Calls_Model | calls of methods of objects other than self, *args, ngen, tests, old versions |
| utils/svo_names.py, names of saved variables of the components | Svo_Model | the opening of NetCDF files beyond the lookup of the name, comments of units |
| utils/rtg2rts.py rtg2rts | Bundle_Model | wild cards in the prefix, directories, printing, the command line |
| utils/mct_files.py find_wettest_month | Wettest_Model | count_lines, read_column (text), the printed report |
| utils/cfg_templates.py 16-45; utils/template_files.py 42-132 (method RE) | Template_Model | method STRING, glob patterns, printing |
| components/snow_base.py 375-468, 611-627, 674-701; glacier_base.py 399-403, 461-515, 743-759, 834-843 | Density_Model | input files, the water equivalents (Snow_Model) |
| components/erode_base.py 455-462, 490-699; utils/midpoints.py 34-276 (only how it fails) | Z0_Model | float32 conversion, the random generator, printing |
| framework/emeli.py 421-474, 487-553, 846-886, 951-993, 1398-1499 | Provider_Model | repository file, import of modules, values passed |
| components/satzone_*.py | Satzone_Model, Dyn_Model (satzone_attenuate) | - |
| components/diversions_*.py | Div_Model | ‑ |
| components/topoflow_driver.py, framework/emeli.py | Emeli_Model, Couple_Model | plug-in loading, XML repository |
| framework/time_interpolation.py | Interp_Model, Emeli_Model | cubic splines |
| utils/BMI_base.py | Bmi_Model, Cfg_Model, Emeli_Model, Info_Model | time and path information readers |
| utils/file_utils.py, model_input.py | Io_Model | ‑ |
| utils/rti_files.py, rts_files.py, rtg_files.py | Rti_Model, Rts_Model | rti_files_NEWER |
| utils/time_utils.py | Time_Model | plotting helpers; `datetime`/`dateutil` modelled from their documentation |
| utils/text_ts_files.py, outlets.py | Txt_Model, Fmt_Model | basin outlines |
| utils/parameterize.py, init_depth.py | Prep_Model | files |
| utils/calibrate.py | Calib_Model, Spear_Model | plots, text file reading; scipy's `interp1d` and `spearmanr` as documented |
| components/gc2d.py, ice_base.py | Ice_Model | file output, plotting, DEM resampling, avalanches and calving (never called), temperature-dependent flow (switched off) |
| utils/regrid.py | Regrid_Model | GDAL's warp and geotransforms (parameters), clip_geotiff, regrid_geotiff, read_geotiff, printing, RTI files |
| utils/pedotransfer.py | Pedo_Model | GeoTIFF regridding, files, plots |
| utils/new_slopes.py | Slope_Model | get_d8_object, files, printing, the other slope experiments (finding only where stated) |
| utils/model_output.py, ncgs_files.py, ncts_files.py, ncps_files.py, nccs_files.py | Out_Model, Prof_Model | nccs_files beyond the failing open; netCDF4 as documented |
| components/erode_d8_global.py, erode_base.py | Erode_Model, Erode_Law | creation of initial DEMs, file output, update_dt_grid_method0/2, pit filling; the SILENT argument that stops update() (section 4) |
| utils/ngen/swb_utils.py, knoben_utils.py, classify.py (convert_knoben_aridity, collecting of columns) | Clim_Model | reading of GAGES-II tables, plots, the fitted sine curves; float32 storage |
| components/d8_local.py | D8Local_Model | width, length and area grids past the exception that stops them; update_neighborhood_IDs; RT3_TEST |
| components/infil_base.py 385-500, 746-995; infil_richards_1D.py 530-660, 2346-2446, 2486-2590 | Layer_Model | reading of files; masks other than NODATA; the call of update_Zw is commented out in the code, its body is modelled |
| utils/indicators.py | Indic_Model | netCDF reading and writing, create_stat_grid_stacks_old, regridding of the population; nan in the input grids; float32 |
| components/erode_d8_local.py | Des_Model | the D8 component (its grids are inputs of every step), update_mins/maxes, files, base-level lowering options other than a constant rate, the array da, other time step methods |
| utils/conflict.py class conflict | Conf_Model | the random generator (its numbers are inputs), spread_conflicts2, update_S2/S_old, GeoTIFF functions, files; float32 |
| components/smooth_DEM.py | Smooth_Model | scipy's minimiser, files, the D8 component (its grids are inputs); float32 |
| utils/projections.py; utils/ngen/hlr_utils.py 1524-1751 | Proj_Model | reading of the code grid (an arbitrary grid), printing |
| utils/ngen/usgs_utils.py 1876-1937; shape_utils.py 636-710; hlr_utils.py 668-700, 1177-1222, 1756-1804; data_utils.py 1317-1342 | Site_Model | files, printing, nan, float rounding |

Not modelled at all: HIS_*, the rest of utils/ngen,
the rest of visualize, hamiltonian, prepare_inputs, the rest of import_grid, save_load,
`*_LAST`, `*_OLD`, `*_IDEA` copies, GUI and notebooks.

## 4. Findings

Deviations of the code from what its documentation or name promises, met while modelling. Those marked with a property
are proved in a `..._refuted` theorem; the others are reading notes about code next to the model.

**Terrain.** (C01) `heap_base` insert uses true division and cannot be used under Python 3. (C02-C04) fill_pits:
`get_start_pixels` is called without the nodata value; IDs of the left/right edges are off by one; rows are used as flat
IDs for closed basins; neighbours wrap around via flat IDs; NaN is replaced by -9999 in the caller's DEM; ValueError when
more than 500*(nx+ny) IDs. D8: `update_noflow_IDs` in d8_global calls the array `self.edge_IDs()` (TypeError when there
are no noflow cells). (C65, C66) row sizes of fixed-angle grids are taken at the southern edge of the row; D8 uses the
first row's sizes for all rows; `ycoords` is int16 so grids beyond 32768 rows overflow; a diagonal cell's flow width times
length is the squared diagonal.

**Channels.** (C47) `update_R` replaces a scalar ET by 0, and `ET[w]=0` changes the ET component's own array. (C12)
clipping negative volumes creates water; vol_chan is not reset at edges with flooding. (C18) `check_flow_depth` lets NaN
pass. Dynamic wave uses the undefined name `dinv`. `initialize_diversion_vars` mixes up x/y. (C48) Manning friction factor
uses depth instead of hydraulic radius. (C68) `remove_bad_slopes` returns None when no slope (or every slope) is bad and
`compute_initial_depth` then fails; v0 uses the section of the previous round. (C67) `get_grid_from_TCA` gives 1.0 to every
cell without area (Manning's n = 1 on edges); equal areas give exponent 0/0.

**Ice.** (C72) Clipping negative thickness makes ice; the `conserveIce` account has the wrong sign; settings passed to the
run functions are bound at import time and ignored; the adaptive time step fails on array shapes; the component's `update`
always raises because `update_time` is redefined without the time step, so its clock and melt volume stay at zero;
'land_surface__elevation' is mapped to the name `Zb`, which does not exist.

**NextGen wrapper.** (C75) `update_until(t)` always makes one step too many; values given to `set_value` are overwritten
from the providers before any component uses them, so rainfall passed in by NextGen has no effect; `get_value_at_indices`
returns the outlet value for every cell; a configuration with missing providers is accepted and fails at the first
update; a blank input name raises KeyError. `get_input_var_names` is always empty, so a caller cannot find out what may
be set; `get_grid_size`, `get_grid_shape`, `get_grid_spacing` and `get_grid_origin` use the undefined `comp_list`.

**Other components.** `satzone_attenuate` is the groundwater update of C29/C30/C53-C55 with recharge equal to rainfall.
`evap_read_file` reads ET from file (mm/h to m/s) and computes nothing; its RTG_to_RTS uses a bare `import rti_files`.

**Soil and slope tools.** (C73) Missing soil cells are forced into range instead of staying marked; grids of zeros stay
zero; porosity raises ValueError when every value is above 1; n = 3 gives an infinite integral and the clay value of the
capillary length; organic matter may exceed 100 % and 101 is taken for missing; `transform_isric` uses the undefined
`nc_file` when the boxes do not overlap. (C74) Past an outlet the elevation of the corner cell 0 counts as downstream;
flats longer than 4*nx, and drops into the corner, keep slope zero; `get_new_slope_grid2` raises IndexError on flats
longer than twice the grid, UnboundLocalError on a DEM without flats and ValueError with fewer than three different
slopes, gives negative slopes where elevations rise, and leaves a flat head cell next to the last cell before the edge at
zero; `smooth_dem` ignores `ncells`, keeps only the last tributary and averages missing values. The component
smooth_DEM.py cannot run (`where`, `zeros` without `np.`).

**Diversions.** (C46) `nt_canals` is a float index; `np.int` no longer exists; `Q_sinks` is undefined; `Q_sources` and
`Q_canals_out` are never allocated; `use_X == 'Yes'` is never true after the config reader; `update_diversions` returns
immediately; a canal with travel time zero writes index -1.

**Meteorology, snow, glacier.** (C19) `P_rain[:]` raises IndexError for 0-D rain with a temperature time series; NaN
temperature loses the precipitation. (C49, C21) cold content grows on snow-free cells; 0-D Ecc with grid Q_sum is a
TypeError. (C23) rebinding IM and M_total breaks the references other components hold. `update_density_ratio` uses an
undefined attribute. (C62, C63) dew point above the air temperature near saturation; calm air gives NaN; the surface vapour
pressure uses the air's relative humidity; Brutsaert emissivity exceeds 1; given surface temperature or albedo is ignored;
albedo can rise when air cools; a step above 3 days raises IndexError. (C59-C61) `Julian_Day` counts 29 February in 1900
and 2100, ignores minutes and, without a year, counts a non-leap year; the solar-noon offset is not wrapped; polar-day
midnight is zeroed; slopes beyond the pole and in polar day with shifted noon; diffuse radiation is zeroed on self-shaded
slopes; UTM DEMs use Denver's coordinates; a negative slope leaves beta unset.

**Infiltration, groundwater, evaporation.** (C25) the water-table check is skipped when IN has size 1; 0-D h with grid IN
zeroes only the first row. (C50) a disabled satzone with h_table = 0 stops infiltration at elevations <= 0.
`update_total_storage` uses attributes set only by Richards. (C24) vol_v0 counts the unadjusted rate; Beven capacity tends
to 0. (C27) initial p = v = 0 are inconsistent; unequal dz do not conserve water; the bottom node copies its neighbour. (C29,
C53-C55) the rising branch uses np.minimum and fills whole columns; initialize lowers `self.elev` in place; Q_gw reset with
np.minimum keeps negatives; h_table is 0 at noflow cells. (C52) Priestley-Taylor below -36.9 C evaporates with negative net
energy. `evap_read_file` passes an unknown keyword.

**Framework and BMI.** (C31, C32) a disabled component counts as 1e6 s in the framework's dt; a component whose status is
spelled 'enabled' is never updated in the loop; non-multiple steps extrapolate. (C34) arrays updated in place are never
interpolated; 'hours' gives a NameError. (C35) `update_until` always overshoots. (C37) `set_value_at_indices` has no effect.
(C36) `get_end_time` returns stop_time even with stop_code 0; Q_peak_fraction never stops with zero discharge. (C64) the
final report omits the hillslope and groundwater stores; vol_ET counts the potential ET of dry cells.

**Files, text, configuration, time.** (C56) a name without a dot loses its last character. (C44) a blank line uses up an
update. (C42) `get_rti_file_name` compares the method `.lower` with a string; `make_info` uses the undefined `RTI_File`; UTM
zone "-1" becomes "unknown"; lower-case keywords are upper-cased. (C41) `add_grid()` after `open_file(UPDATE)` overwrites the
first grid; an index on a new file is an AttributeError; a numpy scalar with byte swap is a ValueError; default float32 is
wrong on DOUBLE files; rtg `write_grid` swaps the caller's grid. (C45) a column >= nx is accepted when the flat index is in
range. (C57) wide numbers run together; header width 15 against 20. (C58) '|' in help text is ignored silently; file names
yes/no/on/off/1/0 become booleans; unknown types only print; the prefix test is `startswith`. (C38-C40) a negative year
cannot be read back; standardize is not idempotent on short strings; hhmm loses leading zeros; 'years' uses 365 days one way
and the calendar the other; 'months' has no way back; unknown units are an UnboundLocalError.

**Calibration and output.** (C69) the comment on the Spearman cost has its two ends swapped, the cost is no metric and does not see magnitudes; with SILENT=False the search ends in a NameError (`cal`); `best_index` is unbound when
all costs are at least 1e6; the cost ignores the tail of the longer series, so an empty run costs 0; observations more
frequent than the simulated values are compared at other times; observations are extrapolated, possibly to negative
discharge; the backup is overwritten by a rerun after a crash; the highest version, not the newest file, is read. (C70) an
interval that is no multiple of the step is at least doubled; frames labelled t hold the state after the step from t;
coordinate vectors span edge to edge (half a cell off) and Y runs against the rows; a frame whose date overflows is dropped
silently from the netCDF file only; sub-second intervals stop the run.
(C70) asking for soil profiles stops the run at initialization (`OVERWRITE_OK` is no parameter of ncps_files); soil cubes
are never saved (the same, caught; then swapped arguments, then a method that does not exist); `get_profile` looks up `z`
where the file has `Z`; nccs_files uses the undefined `z_bottom`.

**Regridding.** (C77) BAD_FILE is never reset: after one file whose box misses the DEM, all later frames are blank; blank air
temperature frames hold -273.15; a raster stored south-up is judged disjoint; turning GPM files mirrors the second axis with
respect to the georeferencing read and drops the nodata mark; CHIRPS rates are converted twice (mm/h times 3600) and missing
cells become dry cells; regrid_rts_file empties its output and raises TypeError.

**Climate classes and indicators.** (C78) The seasonal water balance boxes do not span the space as claimed: a basin with no
snow has no class for delta_p <= -0.4 (or <= -0.1 when phi > 0.9), nor have delta_p = -1, phi = 0 and phi > 5.8. ORIGINAL=True
still yields B3 unless USE_B3=False is also given. get_total_PET_for_day is nan where the sun does not set or rise (solar_funcs clips),
so three of the four indicators are nan from 75 degrees on. get_days_per_month(m) returns the next month's days and fails for 12. The column
arrays of classify.py keep one trailing 0. convert_knoben_aridity is exact for one month only, not for the mean of the months it is applied to.

**Erode.** (C76) update() stops at once: `d8.update` has no SILENT parameter (the model drops it). BOTTOM needs ny >= 2 nx and
overwrites nx rows, RIGHT needs one row or column, CORNER always raises; no rain exits (time step 0); a parent with two donors
can end above one of them; cells flowing into cell 0 are not limited; differing pixel areas create or lose sediment; level
ground gives dt = 1e20 and fails; steadiness and stability look at rises only; vol_U is in mm and lags one step; a time step
given to update() moves only the clock. `float32`/`sqrt` are undefined in create_initial_DEM; `sys` is not imported in
erode_d8_global. `ice_base` fails at line 752 (TypeError).

**Local flow routing.** (C79) Every update() of d8_local that changes a code raises: `np = pIDs.size` makes `np` a local
variable of update_area_grid (UnboundLocalError), and float indices in the width and length grids raise IndexError before it. With a
current numpy two or more changed cells are a ValueError (`self.IDs == None`). Neighbours do not wrap on periodic sides, and a
cell that flows over one is a TypeError. With LINK_FLATS, a DEM with a pit and no flat keeps the code -300 (IndexError), and a flat keeps its old
directions away from the changed cells. noflow_IDs only grows. update_neighborhood_IDs filters rows and columns separately, so
their lengths differ at the sides; a 1 x 1 grid lists cells that do not exist as kids.


**Soil layers.** (C80) initialize() of Green-Ampt, Smith-Parlange and Beven calls update_total_storage, which reads `self.dz`
and `self.q` that these methods do not have. With one profile for all cells and a geographic DEM the product of the profile with
the grid of cell areas raises ValueError, and gives a wrong volume when nx = nz. The choice between a 1D and a 3D profile looks
only at the first layer, so a grid in a lower layer raises. Time series for Ks, pB and lam raise TypeError. The layered arrays are
built once, so later grids of a sequence are never used. The call of update_Zw is commented out, so the saved depth stays 0; the
routine itself reports 0 for a sharp front in a single profile and uses `j * dz[j]` for unequal spacings.

**Indicators.** (C81) `n_years` is not increased for the final month, so its mean and standard deviation are too large by
k/(k-1), and infinite or nan when the month occurs once; with such statistics the month never has low or high days. The
first grid is left out of the minimum only. Day counts are written before the last day of the month has been added: it goes
to the next month, and the last day of the file is lost. Months without grids are written with 9999999 and -9999999.
`last_grid` starts as zeros, so any positive first grid counts as an increase.

**Conflict model.** (C82) The IDs include 0, the value that means "no conflict"; when fewer IDs are left than conflicts emerge
the step stops, or all of them share the last ID; a field without unrest stops at the first step; the reported fraction divides
by (nx-1)(ny-1) although only (nx-2)(ny-2) cells can be in conflict, so it never reaches 1. Read but not stated as theorems: with
a cfg_file argument `initialize` sets none of the attributes it needs; C1, C2, p_geom and time_lag are never used.

**Event-driven erosion.** (C83) erode_d8_local calls d8.update with an argument SILENT that it does not take (TypeError, as in C76); the model takes the D8 grids as inputs. A splash zone of more than 100 cells stops the run with sys.exit, so a flat terrain under uplift with more than 100 cells stops at its first event. A cell outside the zone that receives sediment from a cell of the zone keeps its old rate, so sediment is lost or made (C83_balance_refuted). Grids saved during a run hold every cell at the time of its own last update (C83_snapshot_refuted); finalize() brings all cells to the clock, but then calls write_output_files(0), which saves nothing when earlier grids have been saved (C83_final_grid_refuted). A cell whose parent is cell 0 is taken for a cell without parent (C83_parent_zero_refuted). With base level at the CORNER, np.concatenate of integers raises; with a grid of cell areas `Qs[rows,cols]/da` has unequal shapes.

**Sites and basins.** (C85) Angles written with degrees "-0" lose their sign in convert_dms_to_dec_deg (and in get_usgs_missing_lat_lon). A basin whose cells are all nodata gets the outlet elevation 32767 and the first cell as outlet. Seen while reading, not modelled: try_to_get_outlet_info of hlr_utils indexes the longitudes and latitudes of the polygon's vertices with an index into the sorted unique cells, so the outlet coordinates belong to another vertex; get_cols_and_rows tells cells apart by their digits written one after the other without a separator, so cells such as (500, 5000) and (5005, 000) can be confused when the digits agree; get_polygon_zvals reads elevations as unsigned into int16; get_closest_hlr_outlet uses the undefined names usgs.usgs_site_info and distance_on_sphere.

**DEM smoother.** (C86) update() cannot run: d8.update gets an argument SILENT that it does not take, and `where` and `zeros` are not imported. Cells without data have parent 0 and are start cells; if cell 0 has data they take its elevation. The fitted function shifts lengths and areas by one point against the sweep, so an exact profile has a nonzero error, and the starting guess ends below the top of the profile. An argument `weights` is compared with None (ValueError for arrays) and ignored by the error function; zero areas are changed to 1 in the profile itself. diffs[-2] makes profiles of fewer than three points fail.

**Dynamic wave and attenuating groundwater.** (C87) update_velocity of the dynamic wave uses the name dinv, which is defined nowhere, so every update raises NameError. satzone_attenuate overwrites the recharge it gets from the infiltration component by the rain rate, so rain is counted as infiltration and as recharge; a scalar rain rate makes dV a scalar and the indexed additions fail. evap_read_file.RTG_to_RTS imports rti_files without its package (ModuleNotFoundError) and merges files in the alphabetical order of their names, so `_10` comes before `_2`.


**What every component reports.** (C88) get_run_time_string uses the true division of Python 3: days, hours and minutes are fractions of overlapping totals, so the report adds up to the elapsed time only for whole days, and every run of a second or more starts with a number of days. get_grid_shape, get_grid_spacing and get_grid_origin return a scalar's argument unchanged. An input folder that is relative but does not start with '.' depends on the current folder, not on the configuration file. update_var with a factor multiplies the caller's array in place. save_edge_ids lists cells twice on grids of one row or column, so mass balance sums over edges would count them twice.


**Soils, humidity and pictures.** (C89) soil_base.theta_max uses the undefined name theta_s for rain at or above K_s; theta_min, theta_wilting and theta_field read their own result before it is set when REPORT is on; the display names of soil_type_list are not accepted by initialize, except the three of one word; soil_base knows 'silt_loam', soil_funcs 'silty_loam'. (C90) lapse_air_temperature fails on a series of one value after it has created the output file. (C91) show_grid_as_image writes the least value into the caller's no-data cells; histogram_equalize looks 255 colours up in 256 bins, so a value may get the share of the bin below its own; `ncs.astype('uint8')` has no effect. midpoints.make_fractal_surface halves its step with `/`, so the indices are floats and every call with one level or more raises IndexError.

**Starting a component.** (C92) The path and time files are looked for under the name of the configuration file with every occurrence of the extension removed: an extension that is also part of a folder's name leads to another folder, and a configuration file with another ending leads to `name.cfg_path_info.cfg`. Without a path file the folders stay unset and the start stops in set_directories unless the component's own file names them. Without a time file time_info has no start_datetime and end_datetime, so every NetCDF output file fails to open with AttributeError. The duration in the time file is always overwritten.

**Imported rasters.** (C93) make_rti_for_gdal_grid tests `not(srs.IsProjected)` without calling the method, so every GeoTIFF is written down as projected with cells in METERS, also one in degrees; prepare_inputs makes its headers this way. import_dem_as_rtg does the opposite: every DEM is written down in DEGREES with cells of 3600 times the cell size. save_geotiff_as_rtg writes 32-bit floats under a header with the raster's own type: 64-bit rasters cannot be read back, 16-bit and byte rasters give other numbers, 32-bit integers are read as the bits of floats. import_dem_as_rtg writes the raster's own bytes under a header that says FLOAT and LSB: byte and 16-bit DEMs cannot be read back, and on a big-endian machine the bytes of every cell come back in reverse. Unsigned types have no header (KeyError).

**Final report.** (C94) update_mins_and_maxes runs only in the channels' finalize, so the report of a driver that stands before the channels in the provider file gives 10^6 and -10^6 and the initial channel volume; it looks at inner cells only, although outlets often lie on the edge, and fails with ValueError on grids with fewer than three rows or columns, so that no report is written. The mass balance calls missing water a gain and water from nowhere a loss. With the stop method Until_model_time the simulated time is the time that was asked for, not the one that was reached. The units of u_peak and d_peak in the report are given as m^3/s.

**Diversion files.** (C95) The shipped plane_sources.txt and plane_canals.txt give a column and a row where the readers expect one cell number: the column becomes the cell, the row the number of steps and the number of steps the discharge (160 m3/s for three steps instead of 0.05 for 160), and for canals the exit's column and row become the fraction and the travel time; nothing is reported. A list of one value is repeated; any other list must have as many values as its count. read_sink_data calls the undefined name size, so every sink file fails; read_canal_data needs np.int, which current numpy lacks, and a file with no canals fails in max(). A missing source file leaves n_sources unset. The published y of a diversion is (ID / nx) * dy with a true division, right in the first column only. initialize_diversion_vars divides coordinates by the number of columns and rows instead of by the cell size, so a diversion is found in its cell only if the cells are about nx metres wide and ny high; its call is commented out, and update_diversions returns at once.

**Provider file.** (C96) Only a number sign in the first column starts a comment: an indented comment line names a component. A component that is named twice has one instance, which is initialised twice and finalised twice. A name the repository does not know is reported and passed over when the components are created, but stays in the list, so the run fails with KeyError after it has initialised the components before it. Without any known name comp_set does not exist (AttributeError).

**The initial DEM.** (C97) READ_FILE in lower case does not read the elevation file but overwrites it with noise; without noise no DEM can be created (undefined float32), nor with fractal noise or a corner plane; 32-bit integer files are read as floats.

**Snow density.** (C98) With all inputs scalars the snow component fails at start (a number as out= argument); a density given as a time series is ignored after the first value; the glacier component fails at the first update with any varying density.

**Templates.** (C99) template_files.replace with the same file as template and target empties it; values that look like holes are filled again when listed later.

**Wettest month.** (C100) The rain of the last record never counts; a file that starts in month m0 is reported m0 - 1 months early, one that crosses a year end gets a wrong month, and a missing month shifts the others; more than twenty years are an IndexError, since max_years is not used.

**Bundling grids.** (C101) byteswap() is called and its result dropped, so SWAP_BYTES has no effect; index 10 is put before index 2; numbers for nx and ny are refused by eval; a missing header ends in an AttributeError since None is compared with 'none'; a header that has the prefix of the grids is copied as a grid.

**Standard names.** (C102) 'mr' of the snow, 'zi' of the ice, 'code' and 'area' of the D8 grids and 'S' of the erosion model have no standard name, so saving any of them stops the run with a KeyError; the elevations of the erosion model are saved under the name of the wind's reference height.

**Calls.** (C103) run_model of BMI_base passes cfg_prefix, which no initialize takes, so no component runs by itself with run_model; evap_read_file passes factor to read_next, which calls it units_factor; ice_base calls update_time(dt) on a method without parameters; erode_d8_local passes var_name to rtg_files.write_grid in 14 places; parameterize, pedotransfer and visualize pass unknown keywords.

**The ice cannot be left out.** (C104) The driver takes the melt of the ice, so a set without tf_ice_gc2d or the glacier is refused; the provider file in cfg_templates/Test1 names both and is refused too. The channels' inputs for sources, sinks and canals are commented out, so the diversions component is connected to nothing. 17 listed variables have no short name: asking for one raises KeyError.

**A new object cannot prepare inputs.** (C105) NGEN_CSV is read but never set, and without it or a product there are no dates: AttributeError. GPM is a NameError. STEP_BACKS is an IndexError. Only the case prefix Test1 has templates.

**A run of one minute can take a step too many.** (C106) With a step of 2.4 s, 25 steps add up to less than 60 s in doubles, so Until_model_time 1 minute runs 26 steps; a component with dt 0.3 s is updated one framework step of 0.1 s early.

**A large total stops growing.** (C107) From 2^53 m3 on, an addition of 1 m3 per update is lost, however many updates there are; otherwise totals and the water balance of the network hold to (1+2^-53)^k.

**Collating basins.** (C108) One row whose ID is not listed (or a blank line) silences the rest of its file while the flags still say Y; of repeated rows the first is used though the comment says the last; an empty cell counts as a value; an elevation in feet can be labelled m and an area in km2 labelled mi2.

**Interpolation in doubles.** (C109) a*t + b with b = v2 - a*t2 does not give v2 at t2, and gives -1.7e-16 at t1 = 1 for a quantity going from 0 to 1 at t2 = 6; the error grows with the model time.

**Snow that never melts.** (C110) The largest melt rate is h_swe/dt, and the snow that melts is that times dt, which in doubles need not be h_swe. Of 0.11 m in a step of an hour some is left; of 0.1 m in a step of 300 s more melts than was there. In steps of 49 s a snowpack of 1 m for which melt is asked at 1 m/s never disappears. The comment in update_swe that the final np.maximum should not be necessary is not so.

**The water balance survives rounding.** (C111) Over a run the drift between the water held and the reported runoff is bounded by the roundings of single updates, for every order in which numpy adds; the water made up by cutting negative volumes at zero is the only other source.

**Names of stations.** (C112) Rules without a leading blank fire inside words: CHIEF CREEK becomes CHIEAST FORK CREEK, WEST PAUL becomes WESAINT PAUL. One FT after a number turns every FT into FEET. Four rules never have an effect. The code of a station on the border of two states is empty because replace_state_letters writes AZ/CA where get_state_code looks for az-ca.

**Landscape tools.** (C113) smooth_dem treats the outside as height 0, so a level DEM sinks to 121/256 at its corners in one pass; smooth_profile does not divide by the sum of its weights and multiplies a level profile by about 2.5; get_pde_solution samples at 10/199 and records dx = 10/200; read_profile with clip_hilltop raises IndexError on a profile that rises throughout; get_slope_profile and get_kappa_p_profile end in NaN; fit_curvature_eqn and get_narrowest_histogram name functions that do not exist.

**Climate indices.** (C114) get_snow_precip_fraction(UNITS='percent') raises UnboundLocalError; get_precip_timing_index jumps from -0.999 to +1 at T = 1 for every share of snow above 0, against the comment at 1341, and raises UnboundLocalError where all months are at 1 degree.

**A cell can hold water and be dry.** (C115) With sloping banks the depth is (sqrt(w^2 + 4 t v/ds) - w)/(2t): for every volume with 4 t v/ds at most 2^-55 w^2 it is computed as exactly zero, so the flow is zero and the water stays.

**Rain per minute.** (C116) Rates put on minutes are joined by lines and do not sum to the accumulated rain; minutes are 16-bit, so times beyond 546 hours wrap; times hhmm run backwards past midnight; a blank line ends reading in an error.

**Level cells.** (C117) A cell level with a cell upstream has rise 0; update_dt_grid_method2 takes 0 for a mark of a bad cell and gives it the largest time step.

**Tables of stations are joined in step.** (C118) combine_tsv_files looks only at the current row of the second file: one station there that is not in the first file (or is out of order) leaves every later row with dashes; a second file without rows is an IndexError; sort_tsv_by_site_id glues a last line that has no newline to the row that sorts after it; sort_by_site_code of a two-column table writes the second column twice.

**Test surface with the wrong cell size.** (C119) get_pde_solution places its points with np.linspace, 10/199 apart, but sets dx = 10/200: every gradient on the test surface is 200/199 times too large.

**Rain of a run.** (C120) A blank line inside a rain file marks the rain as over; the values after it are used, but at the end of the file the last of them is kept for ever instead of zero. P_factor does not act on a scalar rate of the CFG file. A missing file is an AttributeError and a grid cut short a ValueError.

**River forecast sites.** (C121) cull_usa_dcp_data_rows starts the count of a state at 0, so each printed count is one too small. Equal places are looked up by longitude only, so a site that shares its longitude with another can be missed; a site with place -999, -999 that sorts first is paired with XXXX.

**Options left out.** (C122) With attenuation set to a word such as Y the days are never set (== True) although the step takes it as on (truth value), and the first step fails; CREATE_CHANNEL_FILES needs an attribute manning_file that the component never sets; a file with SAVE_DF_GRIDS but without FLOOD_OPTION loses the flag, and one with d_bankfull but without its type gets ten metres.

**Cells along a boundary.** (C123) With yoffset = 0 steps to the left and upwards give the cell below the right one; the texts of x and y are joined without a separator; the outlet's longitude and latitude are read from the list of vertices at an index into the sorted list of cells.

**Making the table of hydrologic landscape basins.** (C124) Repeated watershed numbers are reported as skipped but written again; nb_max does not count while features are left out; under NumPy 2 every sea cell (-9999) is an OverflowError, because the bytes are read as unsigned.

**Converting a grid of flow codes.** (C125) Every call whose file size is not a multiple of 1024 ends with a NameError after writing all cells; with different types the second block is read in the output type.

**Converting the units of a stack.** (C126) All files are read as float32, whatever their type; no-data values are converted like all others.

**Sites out of order get the values of the last line.** (C127) The merge of the climate indicators reads on to the end of a file for a site that comes too early in it, and keeps the values of the last line for it and for all later sites without a message.

**Fields read from a line lose their last character.** (C128) reads takes line[pos:pos+n-1], one character less than the width; readf has no such fault. Byte scaling of integers takes the smallest value below 0.

**One empty file leaves out all later centers.** (C129) merge_rfc_basin_info leaves the loop over the centers at the first file that has no attributes, and a needed column that comes last in a file is not found.
