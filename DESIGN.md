# Formal model of SMRF in Rocq (Coq 8.16.1)

This file is assembled by `tools/design.py` from `tools/design_parts/` and from the output of
`Print Assumptions`.

## Layout

Every topic has up to four kinds of files in `rocq/theories/`:

* `XModel.v`   - total, computable Gallina transcription of the code; every
  definition cites file and lines in `/repo`, simplifications are in the comment.
* `XSpec.v`    - (where needed) the small independent vocabulary used to state
  the property; does not mention the model's helpers.
* `XProofs.v`  - lemmas.
* `PropX.v`    - the property theorems only (`Theorem ... Proof. exact lemma. Qed.`),
  next to each an `Example` showing that a concrete non-trivial case meets the
  hypotheses, and `Print Assumptions`.

A claim that turned out false of the code is kept as a theorem
`..._refuted` (a computed counterexample), the property statement in
`properties.jsonl` says what is true instead, and that is what is proved.

`seeded/LOG.jsonl` records the wrong programs the theorems were tried against.

## Numbers

* discrete logic (queues, schedules, storms, output, calendars): `nat`, `Z`.
* rational computations (kriging, LU, trends, clipping, storm masses): `Qc`, canonical
  rationals: Leibniz equality, no axioms. Every finite double is a rational; only
  rounding is abstracted.
* physics using exp/log/sqrt/trig/pow and inverse distance weighting: the standard library reals `R`.
* NaN, where the code tests or propagates it, is an explicit `None`; infinities are explicit
  in the horizon scan and in the interpolation weights (`fl`), where the code divides by zero distances.

Floating-point rounding and overflow are not modelled, except: the 16 bit overflow of the
search line (C31), the single precision tolerance of the dew point solver, which is an arbitrary
rounding function obeying the IEEE error bound (C51), and the rounding of the output times
to double and single precision, which is modelled bit for bit (C09).

## Plan per property

| id | modelled | proof |
|----|----------|-------|
| C01 | `DateQueueThreading` as a finite map with an operation history | refinement to "last put not followed by clean", induction on history |
| C02 | same, with `maxsize`, block flag, swallowed `Full`/`Empty`/`KeyError` | invariant by induction on history |
| C03 | generic DAG of threads (blocking gets, then puts, per date), cleaner, bounded queues; small-step scheduler; SMRF instance | progress by minimality argument on the least-advanced thread; termination by a strictly decreasing measure |
| C04 | same with values; per-thread private state and arbitrary step function | invariant: every item put equals the serial value |
| C05, C06 | same | inductive invariants |
| C07 | output loops of both modes | induction on the list of dates |
| C08 | pipeline instance in which the output thread skips puts | invariant that the cleaner can not pass step 1 |
| C09 | netCDF time axis as a list, first match overwrite, else append; rounding of the times to single precision, and both ways numpy may compare them | induction on history; error bound of the rounding; divisibility for the minutes that are not exact |
| C10, C11 | `tracking_by_station` fold | invariants over the fold, relational spec of storms |
| C12 | `clip_and_correct` in Qc | algebra over sums |
| C13 | `tracking_by_basin` step function | invariants |
| C14, C15 | per pixel step functions in Q / Z with grid-wide guards | induction on history |
| C16-C19 | NASDE models over R, arrays as lists, aliasing with an explicit heap of arrays | real analysis, case analysis |
| C20 | `set_min_max` on option values | case analysis |
| C21, C22 | Z calendars | lia + exhaustive case on months, all years |
| C23 | R | trigonometric identity |
| C24 | `ludcmp`, `lubksb` on rational matrices as written (in-place, pivot vector) | loop invariants P*A = L*U, forward and back substitution |
| C25 | `krige` discard loop on top of the solver | uses C24 |
| C26 | `DK.calculate` cache machine | induction on history |
| C27, C28 | IDW and trends over R with infinities; the trend only through the normal equations | algebra |
| C29 | cellwise | case analysis |
| C30 | `hord` loop with its H table | the classic horizon argument: hull lemma over a stack invariant |
| C31 | Bresenham state machine per octant, with C shorts | loop invariant on the error term |
| C32, C33, C34 | Winstral lookup, interpolation, flat wind | algebra, list induction |
| C35, C36 | catch ratios, drift rescaling over R | real analysis |
| C37-C40 | diffuse split, canopy, albedo, thermal over R | real analysis |
| C41 | argmin | list induction |
| C42 | memory state machine | induction on loads |
| C43 | grouping | list induction |
| C44 | fold over image list | induction |
| C45 | dispatch | case analysis on configuration and trace of calls |
| C46-C49 | framework glue | list reasoning |
| C50 | pipeline whose precipitation thread puts a reference to one mutable array, with looks at any moment | invariant on how far the writer is ahead; schedule witness constructed by driving the DAG |
| C51 | Brent's step of `zerobr` as written, over R, function as oracle | bracket invariant, progress measure |
| C52, C53 | Q | algebra |
| C54 | `get` with `timeout` and the shared default | history induction |
| C55 | topology of the threaded run for every flag combination | computed sources, stall invariant |
| C56, C57 | storm day units, heap of arrays | case analysis |
| C58 | day number of the ephemeris against a Julian day specification | Z arithmetic, all dates |
| C59 | writer with a crash point | prefix induction |
| C60 | attribute table of the serial run | case analysis over every module list and option |
| C61, C62 | `krige` on duplicate stations; kriging at a station | pivot argument on equal rows; uniqueness of the solution |
| C63, C64 | station selection; third-party kriging | list reasoning |
| C65 | `windower` on half degree angles | list induction |
| C66 | branch table of `ppt.distribute` | case analysis |
| C67 | `simulateWind` positional assignment | list reasoning |
| C68, C69 | toporad sum and two-stream solution as written | the differential equations by derivatives, monotonicity by calculus |
| C70, C71 | cloud factor of gridded data, wind components | list induction, arctan2 lemmas |
| C72-C74 | saturation pressure, humidity, wet bulb | derivatives, mean value theorem |
| C75 | thermal stages | real analysis |
| C76 | ephemeris against the almanac series | trigonometry, quadrant case analysis |
| C77 | irradiance and clear sky | algebra, monotonicity |
| C78 | threaded run equals serial run, module by module | `serial_fix` of the pipeline, induction on dates |
| C79 | WindNinja fields: edges, logarithmic law, direction, file names | counting lemmas, sorting lemmas, real algebra |
| C80 | HRRR step loading, serial against threaded | induction on dates, queue contents |
| C81 | dates of a run, time zones as offset functions | case analysis on the offsets, division |
| C82 | CSV tables | membership lemmas for filters, slices and lookups |
| C83 | gridded tables, names, box, loader | injectivity of decimal names, fold over columns |
| C84 | HRU output, files as lists of lines | induction on the calls |
| C85 | the topo file as coordinates and named images | induction on the list of images; sums over the basin |
| C86 | maxus and tbreak as loops writing a file, stopped after any number of directions | induction on the directions; C30 along rows and columns; a terrace as counterexample |
| C87 | backup_input on a map from paths to contents, CSV text as headers, times with offsets and numbers, reading it again | induction on the list of tables and of topo keys; counterexample for all backups |
| C88 | the command's argument, __init__ as effects and outcome, the stages as a list that may fail anywhere | case analysis; induction on the stages and on file names; a zone as counterexample |
| C89 | the table and Akima's interpolation over the rationals, values and integral over the reals | gluing of polynomials, the fundamental theorem; Bernstein coefficients and sums computed in the rationals |
| C90 | words of the header lines, the points, the weights made once per run | splitting inverse to joining, row-major order, barycentric weights; a run on two shifted grids |
| C91 | the table, the set-up, the choice of the method, failures, limits | the grid as a function of the stations that report, invariant under permutation and removal of the others |
| C92 | the directory of netCDF files, opening and creating them, masks, precision, any history of runs | induction over the runs; the records by the lemmas of C09 |
| C93 | bresenham and hord of wind_model | closed form of the cells by induction over the rounds; on a ray the scan takes the decisions of the compiled one |
| C94 | from the time steps to the contents of the files | the calls of the output, position by position, are the records of each file (C92 for one run with distinct dates) |
| C95 | tables with labels, reindexing, the way from the files' tables to the model's | labels found by search or refused if they occur twice; the physics of a cell from C70, C71 and C72 |
| C96 | the tables that constructors make of option names | texts split at underscores; a dictionary built by a loop says for a key what the last matching option says |
| C97 | the command as the list of the states of the disk after each write | names as lists of characters split at the last slash, dot or underscore; each stage adds a file; case distinction over what can be refused |
| C98 | the attributes of the precipitation module as a state, one function per time step, the run as a recursion over the rows | invariant over the steps for the storm's number, flag and total, with the storm tracker's and the clipping's specifications (C10 to C12) |
| C99 | the same for the runs through distribute_for_susong1999, with NaN in precipitation, percent snow and storm total | each step's result from the one before, then induction over the steps for the cells where a storm is held |
| C100 | C99's run with the storm days read from the records of an earlier run | the rest of a run is a run from its state; two runs whose totals are on the same side of the threshold in a cell keep the same days there |

## Trusted base

* Coq 8.16.1's kernel, its standard library and, for theorems over the reals, the four axioms the
  standard library's `Reals` uses: `ClassicalDedekindReals.sig_forall_dec`,
  `ClassicalDedekindReals.sig_not_dec`, `FunctionalExtensionality.functional_extensionality_dep` and
  `Classical_Prop.classic`. No axiom is added, no other library is imported, no kernel check is switched off.
* The transcription of the code into the `*Model.v` files (by reading; each definition cites its lines).
* Python, numpy, pandas and C semantics as stated in the model comments: integer division and modulo,
  NaN comparisons, boolean masks, in-place operators, reference sharing of arrays, exceptions as an
  explicit error value.
* `threading.Condition` gives mutual exclusion, and a waiting thread re-tests its condition; fairness is
  not assumed for safety, and termination is stated for every maximal schedule.
* External functions are parameters of the theorems, with only the hypotheses written in each statement:
  `np.polyfit` (slope first, normal equations where needed), scipy's `griddata`, `Delaunay` and quadrature,
  `pykrige`, `topocalc` (gradient, sky view, horizon, illumination), `netCDF4`/HDF5 (a killed file holds a
  prefix of its writes), `pygrib`, `utm`, `inicheck`.
* Exact arithmetic: theorems speak about the rational or real number the float program approximates.

## What Print Assumptions lists for each theorem

### Closed under the global context (no axioms)

* C01: `C01_get_returns_latest`, `C01_get_of_absent_date`
* C02: `C02_never_above_maxsize`, `C02_put_outcome`, `C02_refused_put_changes_nothing`, `C02_present_exists`, `C02_unfinished_tasks_counts_accepted_puts`
* C03: `C03_no_deadlock`, `C03_fair_runs_finish`, `C03_step_bound`, `C03_smrf_no_deadlock`
* C04: `C04_serial_defined`, `C04_values_are_serial`, `C04_complete_run`, `C04_smrf_schedule_independent`
* C05: `C05_clean_then_no_get`, `C05_no_reader_waits_for_removed`, `C05_smrf_clean_then_no_get`
* C06: `C06_bounded`, `C06_smrf_bounded`
* C07: `C07_serial`, `C07_threaded`, `C07_positions`, `C07_last_step_not_always`, `C07_frequency_zero`, `C07_request`
* C08: `C08_frequency_stalls`
* C09: `C09_records`, `C09_one_record_per_date`, `C09_shown_time`, `C09_one_record_per_date_refuted`, `C09_numpy2_quarters`, `C09_numpy2_other_minutes_appended`
* C10: `C10_station_storms`, `C10_no_other_storms`
* C100: `C100_again`, `C100_other_dates`, `C100_same_days_refuted`, `C100_goes_on_refuted`
* C11: `C11_storm_totals`
* C12: `C12_clip_and_correct`, `C12_mass`, `C12_always_conserved_refuted`
* C13: `C13_basin_storms`, `C13_no_other_storms`
* C14: `C14_pixel`, `C14_counter`
* C15: `C15_pixel`, `C15_C56_small_steps_never_reset`
* C20: `C20_set_min_max`, `C20_idempotent`
* C21: `C21_leap_year`, `C21_numdays`, `C21_yearday_defined`, `C21_yearday_counts`, `C21_yearday_next`, `C21_yearday_ends`, `C21_yearday_range`, `C21_yearday_onto`
* C22: `C22_water_day`, `C22_next_day`, `C22_first_year`
* C24: `C24_solution`, `C24_only_solution`, `C24_failure`, `C24_negative_rhs_refuted`
* C25: `C25_weights`, `C25_nonnegative`, `C25_no_weights`, `C25_exit`, `C25_discards_determined`, `C25_below_sea_level_refuted`
* C26: `C26_history_free`, `C26_value_of_a_call`
* C28: `C28_dk_trend`, `C28_dk_linear`, `C28_dk_residual_bounds`, `C62_detrended_kriging`
* C31: `C31_line`, `C31_straight`, `C31_samples`, `C31_long_lines_refuted`
* C41: `C41_nearest`, `C41_missing_coordinate`, `C41_empty`
* C42: `C42_first_call_missing`, `C42_first_call_complete`, `C42_next_call`, `C42_never_missing`
* C43: `C43_colocation`
* C44: `C44_readImages`
* C45: `C45_skipped`, `C45_otherwise_one_pipeline`
* C46: `C46_restart`
* C47: `C47_station_filter`
* C48: `C48_getStations`
* C49: `C49_variable_dict`, `C49_without_queue`, `C49_never_written`, `C49_distinct`
* C50: `C50_seen`, `C50_capacity_one`, `C50_ahead_reached`, `C50_others_unaffected`, `C50_no_deadlock`, `C50_susong_statements`, `C50_marks_statements`, `C50_serial_content`, `C50_threaded_is_serial_refuted`
* C52: `C52_weights_sum_to_one`, `C52_affine_exact`, `C52_pointwise`, `C52_between`
* C53: `C53_wrf_precip`, `C53_running_total`
* C54: `C54_timeout_is_sticky`
* C55: `C55_solar_correction_off_stalls`
* C56: `C15_C56_small_steps_never_reset`
* C58: `C58_ephemeris_day`, `C58_ephemeris_day_after_2100`, `C58_every_date_refuted`
* C59: `C59_rerun_after_crash`, `C59_numpy2_rerun_after_crash`, `C59_numpy2_rerun_refuted`
* C60: `C60_missing_attribute`, `C60_run_ends`, `C60_flatwind`
* C61: `C61_colocated_stations`
* C62: `C62_cell_at_station`, `C62_detrended_kriging`
* C63: `C63_stations_option_ignored`, `C63_selects_stations_refuted`
* C65: `C65_window`, `C65_misaligned`, `C65_circular_refuted`
* C66: `C66_distributed`, `C66_distributed_refuted`
* C75: `C75_marks_needs_terrain`
* C78: `C78_same_values`, `C78_same_files`, `C78_rescaling_refuted`
* C79: `C79_strips`, `C79_path_injective`, `C79_path_refuted`, `C79_directory`
* C80: `C80_serial`, `C80_threaded`, `C80_same_when_complete`, `C80_filled`, `C80_same_data_refuted`, `C80_threaded_filled_refuted`, `C80_all_kept`, `C80_missing_hour_refuted`
* C81: `C81_dates`, `C81_number_of_steps`, `C81_distinct_wall_times_refuted`, `C81_start_refuted`, `C81_fixed_offset`
* C82: `C82_value`, `C82_columns`, `C82_fails`, `C82_missing_date`, `C82_all_hours_refuted`, `C82_case_refuted`
* C83: `C83_netcdf_cells`, `C83_netcdf_value`, `C83_netcdf_loads`, `C83_cut`, `C83_time_refuted`, `C83_make_grid`, `C83_wrf_times`, `C83_wrf_cloud`, `C83_box`, `C83_box_refuted`, `C83_loader`
* C84: `C84_make`, `C84_unknown_type`, `C84_csv`, `C84_prms`, `C84_mean_unique`, `C84_one_variable`, `C84_run_fails`, `C84_run_netcdf`, `C84_two_variables_refuted`, `C84_frequency_refuted`
* C85: `C85_reads`, `C85_errors`, `C85_images`, `C85_spacing`, `C85_regular`, `C85_center`, `C85_center_unique`, `C85_center_box`, `C85_missing_image_refuted`, `C85_dx_positive_refuted`, `C85_center_inside_refuted`
* C87: `C87_saved`, `C87_saved_from_csv`, `C87_config`, `C87_topo`, `C87_outside`, `C87_incomplete`, `C87_finishes`, `C87_rerun_refuted`, `C87_rerun_csv_fails`, `C87_saved_times_fail`
* C88: `C88_config_file`, `C88_starts`, `C88_written`, `C88_own_config_refuted`, `C88_stages`, `C88_status`, `C88_status_refuted`, `C88_decay`
* C92: `C92_history`, `C92_not_asked`, `C92_continued`, `C92_other_variables`, `C92_mask`, `C92_refused`, `C92_coordinates`, `C92_coordinates_distinct_refuted`, `C92_increasing_refuted`, `C92_time_zone_refuted`, `C92_elsewhere_refuted`, `C92_early_end`
* C93: `C93_line`, `C93_some_path_refuted`, `C93_straight`, `C93_same_line`, `C93_same_line_refuted`
* C94: `C94_serial`, `C94_threaded`, `C94_same_files`, `C94_missing_attribute`, `C94_every_variable_refuted`
* C96: `C96_albedo_table`, `C96_date`, `C96_litter`, `C96_mixed_refuted`, `C96_classes`, `C96_enhancements`
* C97: `C97_options`, `C97_flag_refuted`, `C97_names`, `C97_taken`
* C98: `C98_ends`, `C98_dry_step`, `C98_wet_step`, `C98_days`, `C98_last_storm`, `C98_storm_total`, `C98_storm_id`, `C98_no_rain`, `C98_total_refuted`, `C98_flag_refuted`, `C98_finish_refuted`, `C98_hindsight_refuted`
* C99: `C99_completes`, `C99_dry_step`, `C99_wet_step`, `C99_storm`, `C99_last_storm`, `C99_held`, `C99_rain_on`, `C99_storm_ends_refuted`, `C99_no_hindsight`

### Axioms: `ClassicalDedekindReals.sig_forall_dec`

* C16: `C16_missing_is_rain`
* C39: `C39_night`
* C96: `C96_wind`

### Axioms: `ClassicalDedekindReals.sig_forall_dec`, `FunctionalExtensionality.functional_extensionality_dep`

* C16: `C16_percent_snow`, `C16_bounds_and_monotone`
* C17: `C17_one_row_per_temperature`, `C17_monotone`, `C17_susong_pixel`, `C17_negative_precipitation_refuted`
* C28: `C28_grid_exact`, `C28_grid_linear`, `C28_grid_discarded`, `C28_grid_mask`, `C28_local_exact`, `C28_local_linear`
* C32: `C32_bin`, `C32_found`
* C33: `C33_bounds`, `C33_shelter_monotone`, `C33_shelter_monotone_refuted`
* C34: `C34_own_maxus`, `C34_peaks`, `C34_no_earlier_peak`, `C34_completes`, `C34_not_in_library`, `C34_unlisted_unaffected_refuted`, `C34_reduction`, `C34_round_trip`
* C36: `C36_level_ground_refuted`
* C37: `C37_clouded`, `C37_bounds`, `C37_missing`, `C37_diffuse_share_refuted`
* C38: `C38_illumination_kept_refuted`
* C51: `C51_step`
* C64: `C64_krige_trend_unconstrained`
* C69: `C69_backscatter`, `C69_isotropic`, `C69_coefficients`, `C69_hybrid`, `C69_forward`
* C70: `C70_cloud_factor`, `C70_bounds`, `C70_every_step_refuted`
* C75: `C75_clouds`, `C75_garen_clear_refuted`, `C75_missing`
* C79: `C79_fill`, `C79_fill_only`, `C79_linear_exact`, `C79_data_kept_refuted`, `C79_nonnegative_refuted`
* C86: `C86_window_of_unfinished`
* C89: `C89_interpolation`, `C89_slopes`, `C89_nan`, `C89_adds`, `C89_bands`, `C89_constant_refuted`, `C89_negative_refuted`, `C89_wavelengths`
* C90: `C90_header`, `C90_header_errors`
* C91: `C91_initialize`, `C91_named_stations`
* C96: `C96_station_name_refuted`
* C97: `C97_means`, `C97_no_means`

### Axioms: `ClassicalDedekindReals.sig_forall_dec`, `ClassicalDedekindReals.sig_not_dec`, `FunctionalExtensionality.functional_extensionality_dep`

* C18: `C18_compaction`
* C23: `C23_only_one`
* C30: `C30_ends`, `C30_steepest_on_a_ray`, `C30_instrument_height_refuted`, `C30_bent_line_refuted`
* C31: `C31_search_vector`
* C36: `C36_redistributed`, `C36_bounds`, `C36_no_redistribution`, `C36_missing_temperature_refuted`, `C36_configured_refuted`, `C36_vegetation_refuted`
* C38: `C38_below_canopy`
* C68: `C68_net`, `C68_night`, `C68_limits`, `C68_absorbed_refuted`
* C69: `C69_infinite`, `C69_no_value_error`, `C69_no_sun`, `C69_own_depth`, `C69_infinite_refuted`
* C71: `C71_speed`
* C75: `C75_kimball_refuted`
* C76: `C76_perihelion_refuted`
* C93: `C93_ends`, `C93_horizon`, `C93_instrument_height_refuted`

### Axioms: `ClassicalDedekindReals.sig_forall_dec`, `ClassicalDedekindReals.sig_not_dec`, `Classical_Prop.classic`, `FunctionalExtensionality.functional_extensionality_dep`

* C18: `C18_piecewise_density`, `C18_density_shape`, `C18_density_bounded_refuted`, `C18_marks_density`
* C19: `C19_aliased_outputs`
* C23: `C23_sunpath`, `C23_latitude_refuted`, `C23_sunang`
* C27: `C27_inverse_distance`, `C27_bounds`, `C27_missing_stations`, `C27_no_reading`, `C27_cell_at_station`, `C27_exact_at_stations_refuted`, `C27_power_zero`, `C27_power_negative`
* C28: `C28_idw_linear`, `C28_idw_discarded`, `C28_idw_residual_bounds`
* C29: `C29_dew_below_air`, `C29_missing_air`, `C29_ends`
* C30: `C30_maxus_defined`, `C30_maxus_cardinal`
* C32: `C32_azimuth`, `C32_azimuth_recovered`, `C32_uneven_refuted`, `C32_missing_direction`
* C33: `C33_simulated_wind`, `C33_succeeds`, `C33_wrong_count`
* C35: `C35_adjusted`, `C35_succeeds`, `C35_unknown_gauge`, `C35_ratio_exists`, `C35_positive`, `C35_bounds`, `C35_capped`, `C35_not_reduced_refuted`
* C38: `C38_bounds`, `C38_taller`
* C39: `C39_clean`, `C39_bounds`, `C39_ageing`, `C39_grain_refused`, `C39_dirt_checked_refuted`, `C39_nonnegative_refuted`, `C39_date`, `C39_date_grows`, `C39_date_zero_refuted`, `C39_hardy`, `C39_hardy_grows`, `C39_default_needed`
* C40: `C40_marks`, `C40_moister`, `C40_saturated`, `C40_sky_view`, `C40_impossible`, `C40_missing`, `C40_versions_agree`, `C40_other_methods`
* C51: `C51_zero_finder`, `C51_dew_point`, `C51_exact`, `C51_not_positive_refuted`, `C51_missing_refuted`, `C51_round_trip`
* C57: `C57_marks_clamps_its_argument`, `C57_phase_and_density_keeps_arguments`
* C67: `C67_measured`, `C67_any_order_refuted`
* C68: `C68_clear_sky`, `C68_clear_sky_night`
* C69: `C69_optical_depth`, `C69_bounds`, `C69_higher`, `C69_two_stream`, `C69_zero_depth`, `C69_zero_depth_refuted`
* C71: `C71_reported`, `C71_direction_refuted`
* C72: `C72_formula`, `C72_impossible`, `C72_increasing`, `C72_values`
* C73: `C73_humidity`, `C73_percent_refuted`, `C73_satvp`
* C74: `C74_iteration`, `C74_residual`, `C74_between`, `C74_answers`, `C74_freezing_gap_refuted`, `C74_loose_refuted`, `C74_missing`, `C74_impossible`
* C75: `C75_stages`, `C75_bounded`, `C75_terrain_refuted`
* C76: `C76_kepler`, `C76_position`, `C76_day_ahead_refuted`, `C76_amplitude_refuted`, `C76_no_date`
* C77: `C77_irradiance`, `C77_two_wavelengths`, `C77_clear_sky`
* C79: `C79_speed`, `C79_rougher_is_slower`, `C79_direction`, `C79_uniform_direction`, `C79_speed_defined_refuted`
* C86: `C86_maxus_file`, `C86_tbreak_file`, `C86_refused`, `C86_range`, `C86_cardinal`, `C86_longer_sees_more_refuted`
* C88: `C88_decay_refuted`
* C89: `C89_integral`, `C89_positive`, `C89_wavelengths_refuted`, `C89_day`
* C90: `C90_linear`, `C90_nodata_refuted`, `C90_same_grid`, `C90_own_grid_refuted`
* C91: `C91_own_readings`, `C91_failures`, `C91_limits`, `C91_idw`, `C91_dk_grid`, `C91_grid_trend`, `C91_local_trend`, `C91_kriging`, `C91_station_order`, `C91_missing_ignored`, `C91_missing_grid_refuted`, `C91_old_names_refuted`
* C95: `C95_accepted`, `C95_unreadable`, `C95_tables`, `C95_vapor`, `C95_wind`, `C95_cloud`, `C95_place_refuted`
* C97: `C97_slopes`, `C97_breaks`, `C97_same_root`, `C97_refused`, `C97_plain_name`, `C97_late`, `C97_killed`, `C97_killed_breaks`, `C97_pair_refuted`, `C97_topo_refuted`

## What is modelled and what is not

| source (under `/repo/smrf`) | model | not modelled |
|---|---|---|
| `utils/queue.py` | `QueueModel`, `PipelineModel`, `OutputModel` | log messages, wall clock except "has the timeout expired" |
| `framework/model_framework.py`, `scripts/run_smrf` | `PipelineModel`, `SmrfTopo`, `WireModel`, `OutputModel`, `DataModel` (station filter), `StartModel` | log and greeting, `inicheck`'s own checks |
| `distribute/*.py` | `DistModel` (`image_data`), the loops in `PipelineModel`/`SmrfTopo`; each computation in the topic's model | log messages |
| `distribute/precipitation.py` | `DataModel`, `PptModel`, `StormsModel`, `StormRaceModel`, `MarksModel`, `SusongModel` | reading the storm days file (a parameter) |
| `distribute/wind/*.py` | `WinsModel`, `PptModel`, `NinjaModel`, `AscModel`, `OptModel` | parsing of numbers in the WindNinja files, the triangulation (given) |
| `distribute/vapor_pressure.py`, `envphys/vapor_pressure.py`, `envphys/core/{dewpt,iwbt}.c` | `SatModel`, `DewModel` | - |
| `envphys/core/topotherm.c`, `envphys/thermal/*` | `SatModel`, `ThermalModel` | - |
| `envphys/solar/*`, `distribute/solar.py`, `distribute/cloud_factor.py` | `SolarModel`, `SunModel`, `SpectrumModel` | rounding in scipy's interpolation and integration |
| `envphys/sunang.py` | `CalModel`, `SunModel` | printing |
| `envphys/albedo.py`, `distribute/albedo.py` | `AlbedoModel`, `OptModel` | - |
| `envphys/{snow,storms,precip}.py`, `envphys/nasde_model/*` | `NasdeModel`, `StormsModel`, `PptModel` | - |
| `spatial/*` | `KrigeModel`, `DkModel`, `SpatModel` | scipy's and pykrige's interpolation (parameters) |
| `data/*` | `DataModel`, `StepModel`, `LoadModel`, `GridWindModel`, `HrrrModel`, `SolarModel` (cloud factor) | parsing of files, map projections (parameters) |
| `output/output_netcdf.py` | `OutputModel`, `RunsModel`, `FilesModel` | constant attributes, those that say when a file was written, the projection |
| `output/output_hru.py` | `HruModel` | formatting of numbers |
| `data/load_topo.py` | `TopoModel` | the UTM conversion is a parameter |
| `utils/wind/*`, `scripts/gen_maxus` | `BresModel`, `HordModel`, `WindowModel`, `TbreakModel`, `PyWindModel`, `GenModel` | multiprocessing pool (calls are independent), `find_maxus` |
| `utils/utils.py`, `utils/io.py` | `CalModel`, `DataModel`, `BackupModel`, `StartModel`, `AscModel` | headers of the documentation |

## What the proofs found in the code

Each of these is a theorem (`..._refuted` or a characterisation); the property in brackets says which.

* Queues: a timeout given to one `get` becomes the queue's default (C54). An output frequency above 1 stalls
  every threaded run (C08). With a solar correction off, threads wait for queues nobody fills (C55). The
  storm days array is shared by reference: a threaded reader can see later or half-updated contents unless
  `queue_max_values` is 1 (C50).
* Output: the serial run dies on several output variables that the threaded run accepts (C60); with
  numpy 2 a time that is not a quarter of an hour is appended again instead of being overwritten, and about
  30 years after the file's reference date one minute overwrites another (C09).
* Storms and precipitation: clipping with a station subset gives NaN and loses mass (C12); Susong storm days
  mix days and hours (C56); measured precipitation is skipped for station runs without undercatch correction
  and another density model (C66); Winstral rescaling always raises KeyError (C36); undercatch in calm air
  reduces precipitation (C35).
* Snow models: they change the caller's temperature array (C57); the piecewise density is unbounded for warm
  air; Marks2017's arrays alias (C16-C19).
* Interpolation: `lubksb` skips negative partial sums (C24); duplicate stations end the process (C61); the
  slope constraint and the station list are ignored in places (C63, C64); zero distances are not replaced (C27).
* Wind: the horizon scan is not maximal for a raised instrument (C30); long lines overflow shorts (C31);
  the window drops direction 0 and gives NaN for some widths (C65); station values are assigned by position (C67);
  gridded wind direction is a mathematical angle, not a compass bearing (C71).
* Radiation: net solar counts diffuse light twice (C68); the two-stream code fails for zero optical depth on
  wide grids (C69); the canopy correction changes its argument (C38); the thermal terrain correction uses
  degrees Celsius to the fourth power (C75); the cloud factor is NaN for runs that start at night (C70); the
  ephemeris' day count is off after 2100 and latitudes to 360 degrees are accepted (C23, C58, C76).
* Humidity: NaN vapour pressure gives a dew point near -273 C and a non-positive one never returns (C51); the
  unit of relative humidity is decided by the first cell (C73); tolerances of 1 or more return the air
  temperature as wet bulb (C74); saturation pressure jumps at freezing (C72).
* Threads: the serial run rescales precipitation by the distributed wind speed, the threaded run by the flat
  wind (C78).
* WindNinja: columns missing in the first row are overwritten in every row, filled speeds may be negative, gaps
  in the speed stay when the resolutions agree, and the hour repeated when clocks are set back reads one file
  twice (C79).
* HRRR step by step: the threaded run's first hour is not filled and its cloud memory starts an hour later than
  the serial run's, so the cloud factors differ at dusk and at night; all hours stay in memory (C80).
* Input: netCDF times are cut to whole units, so a record for half past is used at the full hour (C83); the test for
  two-dimensional coordinates looks at the longitude only (C83); WRF runs outside UTC fail (C83); the box around the
  domain uses two corners only (C83); a CSV file with the hour that is shown twice cannot be read (C82).
* HRU output: dates of rows advance with every call, so two variables or a frequency above 1 give wrong dates; a run
  with it fails at its first date because the framework needs an attribute only the netCDF output has (C84).
* Topo file: a missing image is silently the image before it in the list, so vegetation height is taken for
  transmissivity; the column spacing keeps its sign; the centre may lie outside of the basin (C85).
* Wet bulb: because saturation pressure jumps at freezing, a dew point and an air temperature just on both sides of
  freezing give a wet bulb below the dew point (C74).
* Topographic breaks: with the default instrument height a longer search can miss a slope a shorter one finds, so breaks
  can be positive; an unfinished file of slopes is windowed without complaint (C86).
* Backup of the input, on by default: no run can be made from it, because the saved stations have lost the name of their
  index and the saved times have offsets; a run without all six variables stops at the backup (C87).
* The command ends with status 0 when the configuration has errors or the argument is refused; the run's copy of the
  configuration is written over a config.ini in the output directory, also if that is the user's own; the dates of the albedo
  decay are taken in the local mean time of the zone, 45 minutes late in Boise in winter (C88).
* The table of the solar spectrum does not sum to 1: all wavelengths together have 1332 W/m2, not the solar constant of 1368;
  its interpolation is negative beyond 100 micrometers; wavelengths in the wrong order are accepted as a band, with negative
  irradiance (C89).
* WindNinja: the no data value of a file is taken for a wind speed, and files after the first are read on the grid of the
  first one, whatever their headers say (C90).
* One missing value among the points of gridded data ends a run that removes an elevation trend, while the other methods
  leave the point out; tables with the old coordinate names X and Y fail at the first step with local trends,
  and so does the grid method nearest (C91).
* An output file keeps what it says about its first run. A later run into the same directory in another time zone or for
  another area of the same size is written without a complaint at the wrong moments or under the wrong coordinates (C92).
* A write that fails leaves a record with a time and no data; a mask turns cells outside into 0 but leaves NaN (C92).
* `bresenham` of `wind_model` decides about going backwards before it exchanges the coordinates of a steep line: it returns
  no cell for a steep line whose coordinates change in opposite directions, nor for one straight down (C93).
* With threads, the file of a variable without a queue (the soil temperature, the last storm day) is made but stays without
  records; without threads it has them all (C94).
* The vapour pressure of HRRR data combines temperature and humidity by position, all other tables are matched by time and pixel:
  humidities with pixels in another order, or for one time only, give the vapour pressure of another pixel or time without any
  message (C95).
* The options `hardy2000_litter_veg_41` etc. also match the search for the options of the date method, so in a configuration with
  both the decay of the date method for these classes is the litter rate (0.006 instead of 0.36 with the default values).  The
  recipes remove the options of the other method, so a run from a file is not affected (C96).
* A weather station called like an option of the section [wind], in any case of letters, gets the value of that option as its
  enhancement (C96).
* `gen_maxus --make_tbreak False` makes the breaks: argparse's `type=bool` is true of every word but the empty one (C97).
* `gen_maxus -O maxus.nc` is refused ("Directory to out_maxus argument maxus.nc does not exist!"), because the directory of a
  plain name is the empty string; a missing directory for the breaks, or an uneven local distance, is found only after the
  slopes are done (C97).
* Only the shape of a file of upwind slopes is compared with the topo of a run: slopes made from other terrain are taken (C97).
* With marks2017, a threaded run over a period without any precipitation ends at its first step: storm_id is never set, and
  the queue for it is fed after every step (AttributeError); the same run without threads finishes (C98).
* With marks2017, a storm that starts cold and during which every station misses one wet step ends the run, although some
  station reports at every step: all its station totals are NaN and `_distribute` refuses them (C98).
* With marks2017, a storm that starts with all cells at 2 C or warmer never gets its total: the output goes on showing that of
  the storm before, also when it turns to snow later (C98).
* mwgamma tests `g == 1` (the asymmetry) before the formula that holds for a single-scattering albedo of 1: with an asymmetry
  of exactly 1 the albedo is ignored and the atmosphere absorbs nothing (C69).
* time_since_storm resets the days of every cell whose recorded storm precipitation is above the threshold, also where it does
  not snow now; the record is only cleared once the days reach the limit, which the reset prevents. A cell with one snowfall
  followed by rain stays at 0 days (new snow for the albedo) as long as it snows anywhere else in the grid (C99).
* storm_days_restart looks for the start date itself in the file, so a run that starts one step after the earlier one ended does
  not find it and starts with 0 days everywhere (one warning); and since storm totals are not restored, a run started again
  inside the earlier one has other days where a storm was going on (C100).
* With marks2017 the stations' precipitation is scaled so that what falls outside storms of the loaded record is not lost, so the
  precipitation written for a date depends on the end date of the run: one more step can change all earlier ones (C98). The
  runs of C99 do not look ahead.
