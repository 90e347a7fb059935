{
 "claims": [
  {
   "property": "C01",
   "status": "proved",
   "theorems": [
    "C01_get_returns_latest",
    "C01_get_of_absent_date"
   ],
   "note": "PropQueue.v. Wall-clock time enters as a boolean per attempt."
  },
  {
   "property": "C02",
   "status": "proved",
   "theorems": [
    "C02_never_above_maxsize",
    "C02_put_outcome",
    "C02_refused_put_changes_nothing",
    "C02_present_exists",
    "C02_unfinished_tasks_counts_accepted_puts"
   ],
   "note": "PropQueue.v"
  },
  {
   "property": "C03",
   "status": "proved",
   "theorems": [
    "C03_no_deadlock",
    "C03_fair_runs_finish",
    "C03_step_bound",
    "C03_smrf_no_deadlock"
   ],
   "note": "Any well-formed thread graph, and the SMRF graph for every configuration in good; module computations arbitrary."
  },
  {
   "property": "C04",
   "status": "proved",
   "theorems": [
    "C04_serial_defined",
    "C04_values_are_serial",
    "C04_complete_run",
    "C04_smrf_schedule_independent"
   ],
   "note": "Values immutable once put (see C50 for the exception)."
  },
  {
   "property": "C05",
   "status": "proved",
   "theorems": [
    "C05_clean_then_no_get",
    "C05_no_reader_waits_for_removed",
    "C05_smrf_clean_then_no_get"
   ],
   "note": ""
  },
  {
   "property": "C06",
   "status": "proved",
   "theorems": [
    "C06_bounded",
    "C06_smrf_bounded"
   ],
   "note": ""
  },
  {
   "property": "C07",
   "status": "proved",
   "theorems": [
    "C07_serial",
    "C07_threaded",
    "C07_positions",
    "C07_last_step_not_always",
    "C07_frequency_zero",
    "C07_request"
   ],
   "note": "Also covers requests for a single variable."
  },
  {
   "property": "C08",
   "status": "proved",
   "theorems": [
    "C08_frequency_stalls"
   ],
   "note": ""
  },
  {
   "property": "C09",
   "status": "proved",
   "theorems": [
    "C09_records",
    "C09_one_record_per_date",
    "C09_shown_time",
    "C09_one_record_per_date_refuted",
    "C09_numpy2_quarters",
    "C09_numpy2_other_minutes_appended"
   ],
   "note": "Rounding to single and double precision is modelled exactly (round to nearest even, exponent limits left out). The comparison of a single precision array with one number depends on numpy's version: both are modelled."
  },
  {
   "property": "C10",
   "status": "proved",
   "theorems": [
    "C10_station_storms",
    "C10_no_other_storms"
   ],
   "note": "Time stamps are row positions (sorted index without duplicates)."
  },
  {
   "property": "C100",
   "status": "proved",
   "theorems": [
    "C100_again",
    "C100_other_dates",
    "C100_same_days_refuted",
    "C100_goes_on_refuted"
   ],
   "note": "Rounding in the file (32 bit) is left out; every step is written and no mask is applied to the output."
  },
  {
   "property": "C11",
   "status": "proved",
   "theorems": [
    "C11_storm_totals"
   ],
   "note": "A missing value in a wet row makes the total missing."
  },
  {
   "property": "C12",
   "status": "proved",
   "theorems": [
    "C12_clip_and_correct",
    "C12_mass",
    "C12_always_conserved_refuted"
   ],
   "note": "The unconditional conservation claim is refuted with a witness."
  },
  {
   "property": "C13",
   "status": "proved",
   "theorems": [
    "C13_basin_storms",
    "C13_no_other_storms"
   ],
   "note": ""
  },
  {
   "property": "C14",
   "status": "proved",
   "theorems": [
    "C14_pixel",
    "C14_counter"
   ],
   "note": ""
  },
  {
   "property": "C15",
   "status": "proved",
   "theorems": [
    "C15_pixel",
    "C15_C56_small_steps_never_reset"
   ],
   "note": "NaN is not modelled in time_since_storm."
  },
  {
   "property": "C16",
   "status": "proved",
   "theorems": [
    "C16_percent_snow",
    "C16_bounds_and_monotone",
    "C16_missing_is_rain"
   ],
   "note": "Reals: axioms of the standard library (sig_forall_dec, sig_not_dec, functional_extensionality_dep, classic)."
  },
  {
   "property": "C17",
   "status": "proved",
   "theorems": [
    "C17_one_row_per_temperature",
    "C17_monotone",
    "C17_susong_pixel",
    "C17_negative_precipitation_refuted"
   ],
   "note": "Reals: axioms of the standard library (sig_forall_dec, sig_not_dec, functional_extensionality_dep, classic)."
  },
  {
   "property": "C18",
   "status": "proved",
   "theorems": [
    "C18_piecewise_density",
    "C18_density_shape",
    "C18_density_bounded_refuted",
    "C18_marks_density",
    "C18_compaction"
   ],
   "note": "Reals: axioms of the standard library (sig_forall_dec, sig_not_dec, functional_extensionality_dep, classic)."
  },
  {
   "property": "C19",
   "status": "proved",
   "theorems": [
    "C19_aliased_outputs"
   ],
   "note": "Reals: axioms of the standard library (sig_forall_dec, sig_not_dec, functional_extensionality_dep, classic)."
  },
  {
   "property": "C20",
   "status": "proved",
   "theorems": [
    "C20_set_min_max",
    "C20_idempotent"
   ],
   "note": "Exact rationals. Also says what happens when min > max: every number becomes max."
  },
  {
   "property": "C21",
   "status": "proved",
   "theorems": [
    "C21_leap_year",
    "C21_numdays",
    "C21_yearday_defined",
    "C21_yearday_counts",
    "C21_yearday_next",
    "C21_yearday_ends",
    "C21_yearday_range",
    "C21_yearday_onto"
   ],
   "note": "Against an independent calendar (successor relation on dates)."
  },
  {
   "property": "C22",
   "status": "proved",
   "theorems": [
    "C22_water_day",
    "C22_next_day",
    "C22_first_year"
   ],
   "note": "Dates before 0001-10-01 are rejected, as in the code."
  },
  {
   "property": "C23",
   "status": "proved",
   "theorems": [
    "C23_sunpath",
    "C23_only_one",
    "C23_latitude_refuted",
    "C23_sunang"
   ],
   "note": "Over the reals; the two number formats are parameters."
  },
  {
   "property": "C24",
   "status": "proved",
   "theorems": [
    "C24_solution",
    "C24_only_solution",
    "C24_failure",
    "C24_negative_rhs_refuted"
   ],
   "note": "Exact rational arithmetic."
  },
  {
   "property": "C25",
   "status": "proved",
   "theorems": [
    "C25_weights",
    "C25_nonnegative",
    "C25_no_weights",
    "C25_exit",
    "C25_discards_determined",
    "C25_below_sea_level_refuted"
   ],
   "note": "Exact rational arithmetic."
  },
  {
   "property": "C26",
   "status": "proved",
   "theorems": [
    "C26_history_free",
    "C26_value_of_a_call"
   ],
   "note": "Distances are parameters; np.polyfit is a parameter."
  },
  {
   "property": "C27",
   "status": "proved",
   "theorems": [
    "C27_inverse_distance",
    "C27_bounds",
    "C27_missing_stations",
    "C27_no_reading",
    "C27_cell_at_station",
    "C27_exact_at_stations_refuted",
    "C27_power_zero",
    "C27_power_negative"
   ],
   "note": "Real arithmetic with infinities and NaN; rounding and overflow not modelled. Powers that are not positive, which the configuration accepts, are covered as well."
  },
  {
   "property": "C28",
   "status": "proved",
   "theorems": [
    "C28_idw_linear",
    "C28_idw_discarded",
    "C28_idw_residual_bounds",
    "C28_grid_exact",
    "C28_grid_linear",
    "C28_grid_discarded",
    "C28_grid_mask",
    "C28_local_exact",
    "C28_local_linear",
    "C28_dk_trend",
    "C28_dk_linear",
    "C28_dk_residual_bounds",
    "C62_detrended_kriging"
   ],
   "note": "np.polyfit and the scipy interpolators are parameters with the stated hypotheses. Exactness at stations holds for kriging and gridded data; IDW itself is not exact at stations (C27)."
  },
  {
   "property": "C29",
   "status": "proved",
   "theorems": [
    "C29_dew_below_air",
    "C29_missing_air",
    "C29_ends"
   ],
   "note": "Cell by cell over the reals, single precision as a rounding function."
  },
  {
   "property": "C30",
   "status": "proved",
   "theorems": [
    "C30_ends",
    "C30_steepest_on_a_ray",
    "C30_instrument_height_refuted",
    "C30_bent_line_refuted",
    "C30_maxus_defined",
    "C30_maxus_cardinal"
   ],
   "note": "Real arithmetic; maximality is proved for height 0 on a ray and refuted otherwise."
  },
  {
   "property": "C31",
   "status": "proved",
   "theorems": [
    "C31_line",
    "C31_straight",
    "C31_samples",
    "C31_search_vector",
    "C31_long_lines_refuted"
   ],
   "note": "16 bit arithmetic modelled; the line theorem needs coordinate differences up to 16383 in total."
  },
  {
   "property": "C32",
   "status": "proved",
   "theorems": [
    "C32_azimuth",
    "C32_azimuth_recovered",
    "C32_bin",
    "C32_found",
    "C32_uneven_refuted",
    "C32_missing_direction"
   ],
   "note": "Real arithmetic."
  },
  {
   "property": "C33",
   "status": "proved",
   "theorems": [
    "C33_simulated_wind",
    "C33_succeeds",
    "C33_wrong_count",
    "C33_bounds",
    "C33_shelter_monotone",
    "C33_shelter_monotone_refuted"
   ],
   "note": "Real arithmetic; NaN explicit."
  },
  {
   "property": "C34",
   "status": "proved",
   "theorems": [
    "C34_own_maxus",
    "C34_peaks",
    "C34_no_earlier_peak",
    "C34_completes",
    "C34_not_in_library",
    "C34_unlisted_unaffected_refuted",
    "C34_reduction",
    "C34_round_trip"
   ],
   "note": ""
  },
  {
   "property": "C35",
   "status": "proved",
   "theorems": [
    "C35_adjusted",
    "C35_succeeds",
    "C35_unknown_gauge",
    "C35_ratio_exists",
    "C35_positive",
    "C35_bounds",
    "C35_capped",
    "C35_not_reduced_refuted"
   ],
   "note": "Real arithmetic with Rpower and exp; the thresholds are sufficient, not exact."
  },
  {
   "property": "C36",
   "status": "proved",
   "theorems": [
    "C36_redistributed",
    "C36_bounds",
    "C36_no_redistribution",
    "C36_missing_temperature_refuted",
    "C36_level_ground_refuted",
    "C36_configured_refuted",
    "C36_vegetation_refuted"
   ],
   "note": "Vegetation factors are taken to be non-zero."
  },
  {
   "property": "C37",
   "status": "proved",
   "theorems": [
    "C37_clouded",
    "C37_bounds",
    "C37_missing",
    "C37_diffuse_share_refuted"
   ],
   "note": "Real arithmetic, NaN explicit."
  },
  {
   "property": "C38",
   "status": "proved",
   "theorems": [
    "C38_below_canopy",
    "C38_bounds",
    "C38_taller",
    "C38_illumination_kept_refuted"
   ],
   "note": "Real arithmetic."
  },
  {
   "property": "C39",
   "status": "proved",
   "theorems": [
    "C39_clean",
    "C39_bounds",
    "C39_ageing",
    "C39_grain_refused",
    "C39_dirt_checked_refuted",
    "C39_nonnegative_refuted",
    "C39_date",
    "C39_date_grows",
    "C39_date_zero_refuted",
    "C39_hardy",
    "C39_hardy_grows",
    "C39_default_needed",
    "C39_night"
   ],
   "note": "Cell by cell over the reals; configuration dictionaries as lists of pairs."
  },
  {
   "property": "C40",
   "status": "proved",
   "theorems": [
    "C40_marks",
    "C40_moister",
    "C40_saturated",
    "C40_sky_view",
    "C40_impossible",
    "C40_missing",
    "C40_versions_agree",
    "C40_other_methods"
   ],
   "note": "One cell over the reals."
  },
  {
   "property": "C41",
   "status": "proved",
   "theorems": [
    "C41_nearest",
    "C41_missing_coordinate",
    "C41_empty"
   ],
   "note": "A missing coordinate gives pixel 0."
  },
  {
   "property": "C42",
   "status": "proved",
   "theorems": [
    "C42_first_call_missing",
    "C42_first_call_complete",
    "C42_next_call",
    "C42_never_missing"
   ],
   "note": "pandas interpolate/ffill modelled by their documented behaviour."
  },
  {
   "property": "C43",
   "status": "proved",
   "theorems": [
    "C43_colocation"
   ],
   "note": ""
  },
  {
   "property": "C44",
   "status": "proved",
   "theorems": [
    "C44_readImages"
   ],
   "note": ""
  },
  {
   "property": "C45",
   "status": "proved",
   "theorems": [
    "C45_skipped",
    "C45_otherwise_one_pipeline"
   ],
   "note": "The density pipelines and the wind redistribution are parameters."
  },
  {
   "property": "C46",
   "status": "proved",
   "theorems": [
    "C46_restart"
   ],
   "note": "Assumes numpy-style negative indexing of the netCDF variable."
  },
  {
   "property": "C47",
   "status": "proved",
   "theorems": [
    "C47_station_filter"
   ],
   "note": ""
  },
  {
   "property": "C48",
   "status": "proved",
   "theorems": [
    "C48_getStations"
   ],
   "note": ""
  },
  {
   "property": "C49",
   "status": "proved",
   "theorems": [
    "C49_variable_dict",
    "C49_without_queue",
    "C49_never_written",
    "C49_distinct"
   ],
   "note": ""
  },
  {
   "property": "C50",
   "status": "proved",
   "theorems": [
    "C50_seen",
    "C50_capacity_one",
    "C50_ahead_reached",
    "C50_others_unaffected",
    "C50_no_deadlock",
    "C50_susong_statements",
    "C50_marks_statements",
    "C50_serial_content",
    "C50_threaded_is_serial_refuted"
   ],
   "note": "A whole-array statement is atomic; races on storm_total are not modelled."
  },
  {
   "property": "C51",
   "status": "proved",
   "theorems": [
    "C51_zero_finder",
    "C51_step",
    "C51_dew_point",
    "C51_exact",
    "C51_not_positive_refuted",
    "C51_missing_refuted",
    "C51_round_trip"
   ],
   "note": "Reals for doubles; rounding to single precision is a function with the usual relative error."
  },
  {
   "property": "C52",
   "status": "proved",
   "theorems": [
    "C52_weights_sum_to_one",
    "C52_affine_exact",
    "C52_pointwise",
    "C52_between"
   ],
   "note": "Qhull's simplices and transforms are inputs."
  },
  {
   "property": "C53",
   "status": "proved",
   "theorems": [
    "C53_wrf_precip",
    "C53_running_total"
   ],
   "note": ""
  },
  {
   "property": "C54",
   "status": "proved",
   "theorems": [
    "C54_timeout_is_sticky"
   ],
   "note": "PropQueue.v"
  },
  {
   "property": "C55",
   "status": "proved",
   "theorems": [
    "C55_solar_correction_off_stalls"
   ],
   "note": ""
  },
  {
   "property": "C56",
   "status": "proved",
   "theorems": [
    "C15_C56_small_steps_never_reset"
   ],
   "note": ""
  },
  {
   "property": "C57",
   "status": "proved",
   "theorems": [
    "C57_marks_clamps_its_argument",
    "C57_phase_and_density_keeps_arguments"
   ],
   "note": "Reals: axioms of the standard library (sig_forall_dec, sig_not_dec, functional_extensionality_dep, classic)."
  },
  {
   "property": "C58",
   "status": "proved",
   "theorems": [
    "C58_ephemeris_day",
    "C58_ephemeris_day_after_2100",
    "C58_every_date_refuted"
   ],
   "note": ""
  },
  {
   "property": "C59",
   "status": "proved",
   "theorems": [
    "C59_rerun_after_crash",
    "C59_numpy2_rerun_after_crash",
    "C59_numpy2_rerun_refuted"
   ],
   "note": "Any precision of the time variable; the numpy 2 comparison separately."
  },
  {
   "property": "C60",
   "status": "proved",
   "theorems": [
    "C60_missing_attribute",
    "C60_run_ends",
    "C60_flatwind"
   ],
   "note": ""
  },
  {
   "property": "C61",
   "status": "proved",
   "theorems": [
    "C61_colocated_stations"
   ],
   "note": ""
  },
  {
   "property": "C62",
   "status": "proved",
   "theorems": [
    "C62_cell_at_station",
    "C62_detrended_kriging"
   ],
   "note": ""
  },
  {
   "property": "C63",
   "status": "proved",
   "theorems": [
    "C63_stations_option_ignored",
    "C63_selects_stations_refuted"
   ],
   "note": "The property as intended is refuted; what the code does is proved."
  },
  {
   "property": "C64",
   "status": "proved",
   "theorems": [
    "C64_krige_trend_unconstrained"
   ],
   "note": "The property as intended is false; what the code does is proved. pykrige is a parameter."
  },
  {
   "property": "C65",
   "status": "proved",
   "theorems": [
    "C65_window",
    "C65_misaligned",
    "C65_circular_refuted"
   ],
   "note": ""
  },
  {
   "property": "C66",
   "status": "proved",
   "theorems": [
    "C66_distributed",
    "C66_distributed_refuted"
   ],
   "note": "The two distribution models and the adjustment are parameters here; they are modelled in C35 and in the storm and density modules."
  },
  {
   "property": "C67",
   "status": "proved",
   "theorems": [
    "C67_measured",
    "C67_any_order_refuted"
   ],
   "note": ""
  },
  {
   "property": "C68",
   "status": "proved",
   "theorems": [
    "C68_net",
    "C68_night",
    "C68_limits",
    "C68_clear_sky",
    "C68_clear_sky_night",
    "C68_absorbed_refuted"
   ],
   "note": "The horizon angle and the illumination come from topocalc and are parameters; the irradiance of a band (scipy integration) is a parameter."
  },
  {
   "property": "C69",
   "status": "proved",
   "theorems": [
    "C69_optical_depth",
    "C69_bounds",
    "C69_higher",
    "C69_two_stream",
    "C69_zero_depth",
    "C69_backscatter",
    "C69_isotropic",
    "C69_coefficients",
    "C69_hybrid",
    "C69_forward",
    "C69_infinite",
    "C69_no_value_error",
    "C69_no_sun",
    "C69_own_depth",
    "C69_infinite_refuted",
    "C69_zero_depth_refuted"
   ],
   "note": "Conservative scattering (omega = 1, where the code adds a machine epsilon) is outside C69_two_stream and C69_infinite."
  },
  {
   "property": "C70",
   "status": "proved",
   "theorems": [
    "C70_cloud_factor",
    "C70_bounds",
    "C70_every_step_refuted"
   ],
   "note": "The clear-sky radiation is a parameter; pandas interpolate/ffill are modelled."
  },
  {
   "property": "C71",
   "status": "proved",
   "theorems": [
    "C71_speed",
    "C71_reported",
    "C71_direction_refuted"
   ],
   "note": ""
  },
  {
   "property": "C72",
   "status": "proved",
   "theorems": [
    "C72_formula",
    "C72_impossible",
    "C72_increasing",
    "C72_values"
   ],
   "note": ""
  },
  {
   "property": "C73",
   "status": "proved",
   "theorems": [
    "C73_humidity",
    "C73_percent_refuted",
    "C73_satvp"
   ],
   "note": ""
  },
  {
   "property": "C74",
   "status": "proved",
   "theorems": [
    "C74_iteration",
    "C74_residual",
    "C74_between",
    "C74_answers",
    "C74_freezing_gap_refuted",
    "C74_loose_refuted",
    "C74_missing",
    "C74_impossible"
   ],
   "note": "Reals stand for floats. Hotter air and higher places than the stated ranges are covered by C74_iteration and C74_residual only."
  },
  {
   "property": "C75",
   "status": "proved",
   "theorems": [
    "C75_stages",
    "C75_bounded",
    "C75_clouds",
    "C75_garen_clear_refuted",
    "C75_kimball_refuted",
    "C75_terrain_refuted",
    "C75_marks_needs_terrain",
    "C75_missing"
   ],
   "note": "One cell over the reals; the buffer error is modelled from the Cython declaration."
  },
  {
   "property": "C76",
   "status": "proved",
   "theorems": [
    "C76_kepler",
    "C76_perihelion_refuted",
    "C76_position",
    "C76_day_ahead_refuted",
    "C76_amplitude_refuted",
    "C76_no_date"
   ],
   "note": "Over the reals; poles of the tangent and the exact equinoxes are left out."
  },
  {
   "property": "C77",
   "status": "proved",
   "theorems": [
    "C77_irradiance",
    "C77_two_wavelengths",
    "C77_clear_sky"
   ],
   "note": "The integral of the spectrum (scipy) is a parameter."
  },
  {
   "property": "C78",
   "status": "proved",
   "theorems": [
    "C78_same_values",
    "C78_same_files",
    "C78_rescaling_refuted"
   ],
   "note": "Values are immutable in the model: array sharing between modules is C50. Hypotheses: the configuration's queues exist (good), dates distinct, and same_speed when precipitation is rescaled; C78_rescaling_refuted gives modules for which the two runs differ."
  },
  {
   "property": "C79",
   "status": "proved",
   "theorems": [
    "C79_fill",
    "C79_fill_only",
    "C79_strips",
    "C79_linear_exact",
    "C79_data_kept_refuted",
    "C79_nonnegative_refuted",
    "C79_speed",
    "C79_rougher_is_slower",
    "C79_direction",
    "C79_uniform_direction",
    "C79_speed_defined_refuted",
    "C79_path_injective",
    "C79_path_refuted",
    "C79_directory"
   ],
   "note": "scipy's interp1d is modelled (sorting, searchsorted, linear extrapolation); vertices and weights of the triangulation are given, as in C52; file contents are given."
  },
  {
   "property": "C80",
   "status": "proved",
   "theorems": [
    "C80_serial",
    "C80_threaded",
    "C80_same_when_complete",
    "C80_filled",
    "C80_same_data_refuted",
    "C80_threaded_filled_refuted",
    "C80_all_kept",
    "C80_missing_hour_refuted"
   ],
   "note": "What weather_forecast_retrieval returns for a window is a parameter; an empty reply ends the loading."
  },
  {
   "property": "C81",
   "status": "proved",
   "theorems": [
    "C81_dates",
    "C81_number_of_steps",
    "C81_distinct_wall_times_refuted",
    "C81_start_refuted",
    "C81_fixed_offset"
   ],
   "note": "Instants and wall times in minutes; pandas' tz_localize (raise on ambiguous and nonexistent times) and date_range are modelled from their documentation."
  },
  {
   "property": "C82",
   "status": "proved",
   "theorems": [
    "C82_value",
    "C82_columns",
    "C82_fails",
    "C82_missing_date",
    "C82_all_hours_refuted",
    "C82_case_refuted"
   ],
   "note": "Parsing of the file is not modelled; str.upper for ASCII."
  },
  {
   "property": "C83",
   "status": "proved",
   "theorems": [
    "C83_netcdf_cells",
    "C83_netcdf_value",
    "C83_netcdf_loads",
    "C83_cut",
    "C83_time_refuted",
    "C83_make_grid",
    "C83_wrf_times",
    "C83_wrf_cloud",
    "C83_box",
    "C83_box_refuted",
    "C83_loader"
   ],
   "note": "File contents and map projections are given; WRF precipitation is C53, its wind C71."
  },
  {
   "property": "C84",
   "status": "proved",
   "theorems": [
    "C84_make",
    "C84_unknown_type",
    "C84_csv",
    "C84_prms",
    "C84_mean_unique",
    "C84_one_variable",
    "C84_run_fails",
    "C84_run_netcdf",
    "C84_two_variables_refuted",
    "C84_frequency_refuted"
   ],
   "note": "pandas' enlargement of a table by .loc and to_csv are modelled from their documentation; formatting of numbers is not modelled; HRU numbers are integers; values are exact rationals."
  },
  {
   "property": "C85",
   "status": "proved",
   "theorems": [
    "C85_reads",
    "C85_errors",
    "C85_images",
    "C85_spacing",
    "C85_regular",
    "C85_center",
    "C85_center_unique",
    "C85_center_box",
    "C85_missing_image_refuted",
    "C85_dx_positive_refuted",
    "C85_center_inside_refuted"
   ],
   "note": "The conversion from UTM to latitude and longitude and the conversion of a missing vegetation type to an integer are parameters; values are exact rationals. The gradient (slope, aspect) and the sky view factor of the domain come from the external package topocalc and are not modelled."
  },
  {
   "property": "C86",
   "status": "proved",
   "theorems": [
    "C86_maxus_file",
    "C86_tbreak_file",
    "C86_refused",
    "C86_range",
    "C86_cardinal",
    "C86_longer_sees_more_refuted",
    "C86_window_of_unfinished"
   ],
   "note": "Rounding to the 32 bit numbers of the file is not modelled; the increment is a whole number of degrees, as the file's direction variable needs."
  },
  {
   "property": "C87",
   "status": "proved",
   "theorems": [
    "C87_saved",
    "C87_saved_from_csv",
    "C87_config",
    "C87_topo",
    "C87_outside",
    "C87_incomplete",
    "C87_finishes",
    "C87_rerun_refuted",
    "C87_rerun_csv_fails",
    "C87_saved_times_fail"
   ],
   "note": "Numbers are taken to be read as they were written; inicheck's writing and reading of the configuration is taken to keep its values. The topography's files must not have the names of the backup's own files."
  },
  {
   "property": "C88",
   "status": "proved",
   "theorems": [
    "C88_config_file",
    "C88_starts",
    "C88_written",
    "C88_own_config_refuted",
    "C88_stages",
    "C88_status",
    "C88_status_refuted",
    "C88_decay",
    "C88_decay_refuted"
   ],
   "note": "inicheck's reading and checking of the configuration is a parameter. A pytz zone put into a datetime by replace() stands for the first offset of the zone's history (pytz's documented behaviour); inicheck's dates are datetimes. The status assumes that no stage calls sys.exit in the main thread; the only other calls, in queue.py, are made in worker threads, where they end the thread."
  },
  {
   "property": "C89",
   "status": "proved",
   "theorems": [
    "C89_interpolation",
    "C89_slopes",
    "C89_integral",
    "C89_nan",
    "C89_adds",
    "C89_positive",
    "C89_bands",
    "C89_constant_refuted",
    "C89_negative_refuted",
    "C89_wavelengths",
    "C89_wavelengths_refuted",
    "C89_day"
   ],
   "note": "scipy's interpolation is modelled by the formulas of its source (1.4 to 1.6), quad by the exact integral; rounding and the tolerance of quad are not modelled. C89_day excludes the days on which the mean anomaly at noon is exactly 0 (see C23)."
  },
  {
   "property": "C90",
   "status": "proved",
   "theorems": [
    "C90_header",
    "C90_header_errors",
    "C90_linear",
    "C90_nodata_refuted",
    "C90_same_grid",
    "C90_own_grid_refuted"
   ],
   "note": "int() and float() of a word, the numbers np.loadtxt reads after the header and qhull's triangulation are parameters; white space is that of ASCII."
  },
  {
   "property": "C91",
   "status": "proved",
   "theorems": [
    "C91_initialize",
    "C91_own_readings",
    "C91_failures",
    "C91_limits",
    "C91_idw",
    "C91_dk_grid",
    "C91_grid_trend",
    "C91_local_trend",
    "C91_kriging",
    "C91_station_order",
    "C91_missing_ignored",
    "C91_missing_grid_refuted",
    "C91_old_names_refuted",
    "C91_named_stations"
   ],
   "note": "np.polyfit, scipy's interpolators, pykrige, the choice of the local neighbours and the detrended kriging (modelled for C25, C26 and C62) are parameters. A row of readings has one entry per station."
  },
  {
   "property": "C92",
   "status": "proved",
   "theorems": [
    "C92_history",
    "C92_not_asked",
    "C92_continued",
    "C92_other_variables",
    "C92_mask",
    "C92_refused",
    "C92_coordinates",
    "C92_coordinates_distinct_refuted",
    "C92_increasing_refuted",
    "C92_time_zone_refuted",
    "C92_elsewhere_refuted",
    "C92_early_end"
   ],
   "note": "How netCDF4 fits data of another shape into a record is a parameter; data of the right shape are assumed to be written as they are. Attributes that are constants or say when the file was written are left out. The comparison of times is that of numpy before version 2 except in C92_continued and C92_other_variables (see C09)."
  },
  {
   "property": "C93",
   "status": "proved",
   "theorems": [
    "C93_line",
    "C93_some_path_refuted",
    "C93_straight",
    "C93_same_line",
    "C93_same_line_refuted",
    "C93_ends",
    "C93_horizon",
    "C93_instrument_height_refuted"
   ],
   "note": "For whole number coordinates. find_maxus, which calls bresenham with floating point numbers that range refuses, is not modelled."
  },
  {
   "property": "C94",
   "status": "proved",
   "theorems": [
    "C94_serial",
    "C94_threaded",
    "C94_same_files",
    "C94_missing_attribute",
    "C94_every_variable_refuted"
   ],
   "note": "Puts the models of C07, C09 and C92 together: the frequency of the output, the writer and the files. The values of the attributes and the queues are arbitrary."
  },
  {
   "property": "C95",
   "status": "proved",
   "theorems": [
    "C95_accepted",
    "C95_unreadable",
    "C95_tables",
    "C95_vapor",
    "C95_wind",
    "C95_cloud",
    "C95_place_refuted"
   ],
   "note": "pd.to_numeric, the time zone and the modelled radiation are arbitrary functions. Components of the wind with different labels are refused in the model; versions of pandas differ there."
  },
  {
   "property": "C96",
   "status": "proved",
   "theorems": [
    "C96_albedo_table",
    "C96_date",
    "C96_litter",
    "C96_mixed_refuted",
    "C96_wind",
    "C96_classes",
    "C96_enhancements",
    "C96_station_name_refuted"
   ],
   "note": "The recipes of the framework remove the options of the other method from a configuration file; a configuration made otherwise can have both."
  },
  {
   "property": "C97",
   "status": "proved",
   "theorems": [
    "C97_options",
    "C97_flag_refuted",
    "C97_names",
    "C97_slopes",
    "C97_breaks",
    "C97_same_root",
    "C97_means",
    "C97_no_means",
    "C97_refused",
    "C97_plain_name",
    "C97_late",
    "C97_killed",
    "C97_killed_breaks",
    "C97_pair_refuted",
    "C97_taken",
    "C97_topo_refuted"
   ],
   "note": "For increments between 1 and 359 degrees. Names are compared as strings: two spellings of one path are two files."
  },
  {
   "property": "C98",
   "status": "proved",
   "theorems": [
    "C98_ends",
    "C98_dry_step",
    "C98_wet_step",
    "C98_days",
    "C98_last_storm",
    "C98_storm_total",
    "C98_storm_id",
    "C98_no_rain",
    "C98_total_refuted",
    "C98_flag_refuted",
    "C98_finish_refuted",
    "C98_hindsight_refuted"
   ],
   "note": "Interpolation, phase, gauge correction and wind redistribution are arbitrary functions here; C25-C28, C17-C18, C35 and C36 describe them."
  },
  {
   "property": "C99",
   "status": "proved",
   "theorems": [
    "C99_completes",
    "C99_dry_step",
    "C99_wet_step",
    "C99_storm",
    "C99_last_storm",
    "C99_held",
    "C99_rain_on",
    "C99_storm_ends_refuted",
    "C99_no_hindsight"
   ],
   "note": "Interpolation, phase, gauge correction and wind redistribution are arbitrary functions here. Storm days are taken as numbers (a restart file with NaN is outside)."
  }
 ]
}