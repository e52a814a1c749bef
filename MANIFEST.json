{
 "claims": [
  {
   "property": "C01",
   "status": "proved",
   "theorems": [
    "C01_chunks_tile_grid",
    "C01_slices_inside_grid",
    "C01_one_worker_per_cell"
   ],
   "note": ""
  },
  {
   "property": "C02",
   "status": "proved",
   "theorems": [
    "C02_run_files",
    "C02_no_lost_update"
   ],
   "note": ""
  },
  {
   "property": "C03",
   "status": "proved",
   "theorems": [
    "C03_cell_isolation"
   ],
   "note": ""
  },
  {
   "property": "C04",
   "status": "proved",
   "theorems": [
    "C04_run_crash",
    "C04_crash_leaves_unwritten_or_correct",
    "C04_rerun_repairs",
    "C04_other_files_untouched"
   ],
   "note": ""
  },
  {
   "property": "C05",
   "status": "proved",
   "theorems": [
    "C05_no_deadlock",
    "C05_schedules_bounded",
    "C05_can_finish"
   ],
   "note": ""
  },
  {
   "property": "C06",
   "status": "proved",
   "theorems": [
    "C06_chunking_transparent",
    "C06_success_independent_of_chunking"
   ],
   "note": ""
  },
  {
   "property": "C07",
   "status": "proved",
   "theorems": [
    "C07_missing_dimension_write_fails",
    "C07_missing_dimension_nothing_written",
    "C07_unknown_dimension_fails"
   ],
   "note": ""
  },
  {
   "property": "C08",
   "status": "proved",
   "theorems": [
    "C08_storage_chunks_legal"
   ],
   "note": ""
  },
  {
   "property": "C09",
   "status": "proved",
   "theorems": [
    "C09_output_axis_exact"
   ],
   "note": ""
  },
  {
   "property": "C10",
   "status": "partial",
   "theorems": [
    "C10_files_cover_axis",
    "C10_one_file_per_stamp",
    "C10_files_by_name_partial",
    "C10_hourly_refuted"
   ],
   "note": "The code violates the full statement: hourly files of one day share a name, and each header replaces the one before (C10_hourly_refuted). Proved for whole-day bins of which none is skipped and for a single file; as a statement about groups, for all monotone bins."
  },
  {
   "property": "C11",
   "status": "proved",
   "theorems": [
    "C11_file_names_distinct",
    "C11_name_determines_dates",
    "C11_name_shows_dates"
   ],
   "note": ""
  },
  {
   "property": "C12",
   "status": "proved",
   "theorems": [
    "C12_records_match_stamps"
   ],
   "note": ""
  },
  {
   "property": "C13",
   "status": "partial",
   "theorems": [
    "C13_positive_steps_validated_partial",
    "C13_illegal_steps_refused",
    "C13_refuted"
   ],
   "note": "The code violates the full statement: negative divisors of 1440 are accepted (C13_refuted). Proved for positive steps; illegal positive steps are refused."
  },
  {
   "property": "C14",
   "status": "partial",
   "theorems": [
    "C14_outputs_available",
    "C14_outputs_convertible_partial",
    "C14_other_outputs_refused",
    "C14_refuted"
   ],
   "note": "The code violates the full statement: t_day is accepted at the daily step and has no unit conversion (C14_refuted). Every other accepted variable is available and convertible; all others are refused by name."
  },
  {
   "property": "C15",
   "status": "partial",
   "theorems": [
    "C15_accepted_options_exist",
    "C15_capitalization_refuted"
   ],
   "note": "The code violates the capitalization part (C15_capitalization_refuted). Every accepted option selects a formula."
  },
  {
   "property": "C16",
   "status": "proved",
   "theorems": [
    "C16_uniform_conserves",
    "C16_uniform_nonnegative"
   ],
   "note": ""
  },
  {
   "property": "C17",
   "status": "proved",
   "theorems": [
    "C17_triangle_conserves"
   ],
   "note": ""
  },
  {
   "property": "C18",
   "status": "proved",
   "theorems": [
    "C18_triangle_shape",
    "C18_steps_sum_minutes"
   ],
   "note": ""
  },
  {
   "property": "C19",
   "status": "proved",
   "theorems": [
    "C19_missing_iff_uncovered",
    "C19_short_event_lost"
   ],
   "note": ""
  },
  {
   "property": "C20",
   "status": "proved",
   "theorems": [
    "C20_mix"
   ],
   "note": ""
  },
  {
   "property": "C21",
   "status": "proved",
   "theorems": [
    "C21_utc_shift"
   ],
   "note": ""
  },
  {
   "property": "C22",
   "status": "proved",
   "theorems": [
    "C22_constant_through_day",
    "C22_utc_shift"
   ],
   "note": ""
  },
  {
   "property": "C23",
   "status": "proved",
   "theorems": [
    "C23_daily_energy"
   ],
   "note": ""
  },
  {
   "property": "C24",
   "status": "proved",
   "theorems": [
    "C24_utc_shift",
    "C24_energy_of_full_cycle"
   ],
   "note": ""
  },
  {
   "property": "C25",
   "status": "partial",
   "theorems": [
    "C25_shift_amounts",
    "C25_temperature_times_partial",
    "C25_theta_s_refuted",
    "C25_full_turn_partial",
    "C25_normalised_longitude",
    "C25_date_line_refuted"
   ],
   "note": "The code violates the full statement in two places: with theta_s configured the temperature times move by a different amount (C25_theta_s_refuted), and longitudes 180 and -180 differ by a day (C25_date_line_refuted). All other parts are proved."
  },
  {
   "property": "C26",
   "status": "proved",
   "theorems": [
    "C26_times_alternate",
    "C26_interpolation_accepts"
   ],
   "note": ""
  },
  {
   "property": "C27",
   "status": "proved",
   "theorems": [
    "C27_between_extremes",
    "C27_record_range"
   ],
   "note": ""
  },
  {
   "property": "C28",
   "status": "proved",
   "theorems": [
    "C28_through_extremes"
   ],
   "note": ""
  },
  {
   "property": "C29",
   "status": "partial",
   "theorems": [
    "C29_saturation_partial",
    "C29_every_step_refuted"
   ],
   "note": "The code violates the full statement at the ends of the record (C29_every_step_refuted). Proved between the first and the last daily minimum; the other steps copy one of those values."
  },
  {
   "property": "C30",
   "status": "proved",
   "theorems": [
    "C30_at_most_100",
    "C30_percentage"
   ],
   "note": ""
  },
  {
   "property": "C31",
   "status": "proved",
   "theorems": [
    "C31_mass_fraction"
   ],
   "note": ""
  },
  {
   "property": "C32",
   "status": "proved",
   "theorems": [
    "C32_pressure"
   ],
   "note": ""
  },
  {
   "property": "C33",
   "status": "partial",
   "theorems": [
    "C33_positive",
    "C33_clouds_partial",
    "C33_default_bounds",
    "C33_clouds_refuted"
   ],
   "note": "The code violates 'clouds never reduce it' for the Deardorff option when clear-sky longwave exceeds black-body emission (C33_clouds_refuted); C33_clouds_partial gives the exact condition. Positivity and the bounds for the default options are proved."
  },
  {
   "property": "C34",
   "status": "proved",
   "theorems": [
    "C34_supplied_longwave"
   ],
   "note": ""
  },
  {
   "property": "C35",
   "status": "proved",
   "theorems": [
    "C35_keeps_values",
    "C35_keeps_length",
    "C35_complete",
    "C35_nearest_earlier",
    "C35_leading_gap",
    "C35_all_missing"
   ],
   "note": ""
  },
  {
   "property": "C36",
   "status": "proved",
   "theorems": [
    "C36_daylight_temperature"
   ],
   "note": ""
  },
  {
   "property": "C37",
   "status": "proved",
   "theorems": [
    "C37_transmittance",
    "C37_climate"
   ],
   "note": ""
  },
  {
   "property": "C38",
   "status": "partial",
   "theorems": [
    "C38_deardorff_fraction",
    "C38_default_partial",
    "C38_default_refuted",
    "C38_decreasing"
   ],
   "note": "The code violates the full statement for options other than Deardorff when transmittance is below 0.35 (C38_default_refuted); C38_default_partial gives the exact condition."
  },
  {
   "property": "C39",
   "status": "proved",
   "theorems": [
    "C39_shortwave"
   ],
   "note": ""
  },
  {
   "property": "C40",
   "status": "proved",
   "theorems": [
    "C40_pet"
   ],
   "note": ""
  },
  {
   "property": "C41",
   "status": "proved",
   "theorems": [
    "C41_consistent"
   ],
   "note": ""
  },
  {
   "property": "C42",
   "status": "proved",
   "theorems": [
    "C42_terminates",
    "C42_negative",
    "C42_any_sun"
   ],
   "note": ""
  },
  {
   "property": "C43",
   "status": "proved",
   "theorems": [
    "C43_svp_increasing"
   ],
   "note": ""
  },
  {
   "property": "C44",
   "status": "partial",
   "theorems": [
    "C44_slope_partial",
    "C44_slope_refuted"
   ],
   "note": "The code violates the full statement below freezing (C44_slope_refuted). Proved above freezing."
  },
  {
   "property": "C45",
   "status": "proved",
   "theorems": [
    "C45_keeps_supplied",
    "C45_shortwave_required",
    "C45_runs"
   ],
   "note": ""
  },
  {
   "property": "C46",
   "status": "partial",
   "theorems": [
    "C46_sub_daily_partial",
    "C46_daily_value",
    "C46_daily_refuted",
    "C46_midnight_refuted"
   ],
   "note": "The code violates the daily-step part (C46_daily_refuted; C46_daily_value gives the value) and the midnight-sun part (C46_midnight_refuted with a cell at the pole; the exact deficit is stated). With utc_offset see C106."
  },
  {
   "property": "C47",
   "status": "partial",
   "theorems": [
    "C47_agree_partial",
    "C47_midnight_refuted"
   ],
   "note": "The code violates it under the midnight sun (C47_midnight_refuted with a cell at the pole; the exact deficit is stated). Proved on all other days. With utc_offset see C106."
  },
  {
   "property": "C48",
   "status": "proved",
   "theorems": [
    "C48_trailing_windows",
    "C48_none_missing"
   ],
   "note": ""
  },
  {
   "property": "C49",
   "status": "proved",
   "theorems": [
    "C49_split_runs_agree"
   ],
   "note": ""
  },
  {
   "property": "C50",
   "status": "proved",
   "theorems": [
    "C50_inverted_rejected",
    "C50_others_loaded"
   ],
   "note": ""
  },
  {
   "property": "C51",
   "status": "partial",
   "theorems": [
    "C51_standard_window_partial",
    "C51_noleap_refuted",
    "C51_noleap_start_refuted"
   ],
   "note": "The code violates the full statement in the noleap calendar (C51_noleap_refuted, C51_noleap_start_refuted). Proved for the standard calendar."
  },
  {
   "property": "C52",
   "status": "partial",
   "theorems": [
    "C52_monthly_values_partial",
    "C52_calendar_table_refuted"
   ],
   "note": "The code violates the full statement: December keeps the precipitation amount, and the table is indexed by labels (C52_calendar_table_refuted). January to November proved."
  },
  {
   "property": "C53",
   "status": "partial",
   "theorems": [
    "C53_decoding",
    "C53_readable_partial",
    "C53_five_variables_refuted",
    "C53_three_variables_refuted"
   ],
   "note": "The code violates 'any number of variables': three or five variables fail (C53_three_variables_refuted, C53_five_variables_refuted). Decoding is proved for all files that are read."
  },
  {
   "property": "C54",
   "status": "proved",
   "theorems": [
    "C54_truncated_rejected",
    "C54_rejected_file_missing",
    "C54_write_read"
   ],
   "note": ""
  },
  {
   "property": "C55",
   "status": "proved",
   "theorems": [
    "C55_order_irrelevant",
    "C55_other_files_ignored",
    "C55_own_file",
    "C55_name"
   ],
   "note": ""
  },
  {
   "property": "C56",
   "status": "proved",
   "theorems": [
    "C56_mapping",
    "C56_missing_variable",
    "C56_mapping_in_memory"
   ],
   "note": ""
  },
  {
   "property": "C57",
   "status": "partial",
   "theorems": [
    "C57_first_line_decides_partial",
    "C57_blank_line_refuted"
   ],
   "note": "The code violates the blank-line part (C57_blank_line_refuted). The rest is an exact characterisation."
  },
  {
   "property": "C58",
   "status": "proved",
   "theorems": [
    "C58_booleans"
   ],
   "note": ""
  },
  {
   "property": "C59",
   "status": "partial",
   "theorems": [
    "C59_own_day_partial",
    "C59_last_second_refuted"
   ],
   "note": "The code violates the statement in the last second of a day (C59_last_second_refuted). Proved for all earlier times."
  },
  {
   "property": "C60",
   "status": "proved",
   "theorems": [
    "C60_constants"
   ],
   "note": ""
  },
  {
   "property": "C61",
   "status": "partial",
   "theorems": [
    "C61_given_parameters_partial",
    "C61_default_outputs",
    "C61_inherited_parameters_refuted",
    "C61_shared_parameters_refuted"
   ],
   "note": "The code violates both parts (C61_inherited_parameters_refuted, C61_shared_parameters_refuted). What does hold of every object is proved."
  },
  {
   "property": "C62",
   "status": "partial",
   "theorems": [
    "C62_units_match_partial",
    "C62_requested_units",
    "C62_fallback_partial",
    "C62_stale_units_refuted"
   ],
   "note": "The code violates the statement after an unknown unit was requested earlier (C62_stale_units_refuted). The two partial theorems give the cases in which it holds."
  },
  {
   "property": "C63",
   "status": "partial",
   "theorems": [
    "C63_conversions_partial",
    "C63_air_pressure_hPa_refuted",
    "C63_vapor_pressure_refuted"
   ],
   "note": "The code violates it for air pressure in hPa and for the unit in which vapor pressure is computed (C63_air_pressure_hPa_refuted, C63_vapor_pressure_refuted). All other conversions proved."
  },
  {
   "property": "C64",
   "status": "proved",
   "theorems": [
    "C64_depth"
   ],
   "note": ""
  },
  {
   "property": "C65",
   "status": "partial",
   "theorems": [
    "C65_even_axis_partial",
    "C65_uneven_axis_refuted",
    "C65_frequencies"
   ],
   "note": "The code violates the statement when the span is not a multiple of the step (C65_uneven_axis_refuted). Proved otherwise."
  },
  {
   "property": "C66",
   "status": "proved",
   "theorems": [
    "C66_daylength_and_potential",
    "C66_daylength_formula"
   ],
   "note": ""
  },
  {
   "property": "C67",
   "status": "partial",
   "theorems": [
    "C67_midnight_sun_refuted",
    "C67_distribution_partial"
   ],
   "note": "The code violates it under the midnight sun (C67_midnight_sun_refuted); C67_distribution_partial states exactly when the fractions sum to 1."
  },
  {
   "property": "C68",
   "status": "proved",
   "theorems": [
    "C68_transmittance",
    "C68_air_mass_lookup"
   ],
   "note": ""
  },
  {
   "property": "C69",
   "status": "proved",
   "theorems": [
    "C69_last_day",
    "C69_in_range",
    "C69_days_of_year"
   ],
   "note": ""
  },
  {
   "property": "C70",
   "status": "partial",
   "theorems": [
    "C70_own_names_partial",
    "C70_fresh_process_partial",
    "C70_rename_leaks_refuted"
   ],
   "note": "The code violates it (C70_rename_leaks_refuted). Proved for renamed variables and for the first configuration of a process."
  },
  {
   "property": "C71",
   "status": "proved",
   "theorems": [
    "C71_state_update"
   ],
   "note": ""
  },
  {
   "property": "C72",
   "status": "partial",
   "theorems": [
    "C72_fails_exactly",
    "C72_total_refuted"
   ],
   "note": "The full statement is false (C72_total_refuted); C72_fails_exactly characterises the failures."
  },
  {
   "property": "C73",
   "status": "proved",
   "theorems": [
    "C73_never_fails",
    "C73_shape"
   ],
   "note": ""
  },
  {
   "property": "C74",
   "status": "partial",
   "theorems": [
    "C74_defined_partial",
    "C74_one_day",
    "C74_defined_refuted"
   ],
   "note": "The code violates it for one-day records (C74_defined_refuted; C74_one_day gives the exact condition). Proved for two or more days."
  },
  {
   "property": "C75",
   "status": "proved",
   "theorems": [
    "C75_passthrough_total"
   ],
   "note": ""
  },
  {
   "property": "C76",
   "status": "partial",
   "theorems": [
    "C76_complete_partial",
    "C76_gap",
    "C76_gap_refuted"
   ],
   "note": "The code violates it when another day has a gap (C76_gap_refuted; C76_gap gives what happens). Proved for records without gaps."
  },
  {
   "property": "C77",
   "status": "proved",
   "theorems": [
    "C77_total",
    "C77_negative"
   ],
   "note": ""
  },
  {
   "property": "C78",
   "status": "partial",
   "theorems": [
    "C78_accepted",
    "C78_every_day_partial",
    "C78_no_such_date",
    "C78_gap_refuted"
   ],
   "note": "The code violates the 'every day' part when the forcing has gaps (C78_gap_refuted). Acceptance is characterised exactly; without gaps every day is present."
  },
  {
   "property": "C79",
   "status": "partial",
   "theorems": [
    "C79_forcing_refuted",
    "C79_meaning_partial",
    "C79_whole_partial"
   ],
   "note": "The code violates it: the word is passed to a label lookup and the run fails (C79_forcing_refuted)."
  },
  {
   "property": "C80",
   "status": "partial",
   "theorems": [
    "C80_complete_partial",
    "C80_month_refuted"
   ],
   "note": "The code violates it when start or stop names a month (C80_month_refuted). Proved when they name days."
  },
  {
   "property": "C81",
   "status": "partial",
   "theorems": [
    "C81_reports",
    "C81_zero_step_refuted"
   ],
   "note": "The code violates it for a zero time step, which raises ZeroDivisionError (C81_zero_step_refuted). Exact for all others."
  },
  {
   "property": "C82",
   "status": "proved",
   "theorems": [
    "C82_temperature"
   ],
   "note": ""
  },
  {
   "property": "C83",
   "status": "proved",
   "theorems": [
    "C83_uniform",
    "C83_triangle",
    "C83_total"
   ],
   "note": ""
  },
  {
   "property": "C84",
   "status": "proved",
   "theorems": [
    "C84_wind"
   ],
   "note": ""
  },
  {
   "property": "C85",
   "status": "proved",
   "theorems": [
    "C85_worker_cells"
   ],
   "note": ""
  },
  {
   "property": "C86",
   "status": "proved",
   "theorems": [
    "C86_files_hold_values"
   ],
   "note": ""
  },
  {
   "property": "C87",
   "status": "proved",
   "theorems": [
    "C87_workers_succeed_iff",
    "C87_run_completes"
   ],
   "note": ""
  },
  {
   "property": "C88",
   "status": "proved",
   "theorems": [
    "C88_worker_finishes"
   ],
   "note": ""
  },
  {
   "property": "C89",
   "status": "proved",
   "theorems": [
    "C89_times_encoded",
    "C89_times_ordered",
    "C89_times_refused"
   ],
   "note": ""
  },
  {
   "property": "C90",
   "status": "proved",
   "theorems": [
    "C90_file_structure",
    "C90_written_iff"
   ],
   "note": ""
  },
  {
   "property": "C91",
   "status": "proved",
   "theorems": [
    "C91_options_recorded"
   ],
   "note": ""
  },
  {
   "property": "C92",
   "status": "partial",
   "theorems": [
    "C92_time_label_partial",
    "C92_time_label_refuted"
   ],
   "note": "The code violates it after a constructor that fails part way (C92_time_label_refuted): its options stay in force while the label is that of the object before. Proved for the last constructor having succeeded."
  },
  {
   "property": "C93",
   "status": "proved",
   "theorems": [
    "C93_more_vapor"
   ],
   "note": ""
  },
  {
   "property": "C94",
   "status": "partial",
   "theorems": [
    "C94_below_black_body_partial",
    "C94_exactly",
    "C94_below_black_body_refuted"
   ],
   "note": "The code violates it in hot and humid air (C94_below_black_body_refuted: TVA at 35 C and 5.5 kPa). Proved for all options between 0 and 50 C up to 1.5 kPa; and for each option the exact condition on temperature and vapor pressure under which it holds (C94_exactly)."
  },
  {
   "property": "C95",
   "status": "proved",
   "theorems": [
    "C95_yaml_settings",
    "C95_ini_settings",
    "C95_yaml_forcing",
    "C95_ini_forcing",
    "C95_yaml_pairs"
   ],
   "note": ""
  },
  {
   "property": "C96",
   "status": "partial",
   "theorems": [
    "C96_yaml_tables",
    "C96_ini_tables",
    "C96_yaml_plain",
    "C96_ini_plain",
    "C96_yaml_outputs",
    "C96_yaml_forms",
    "C96_shared_variable_refuted"
   ],
   "note": "The code violates it when two variables of a table name the same variable of the file (C96_shared_variable_refuted): only the last remains. Proved with exactly that reading, for tables of texts."
  },
  {
   "property": "C97",
   "status": "partial",
   "theorems": [
    "C97_yaml_accepted",
    "C97_ini_accepted",
    "C97_no_outputs_refuted",
    "C97_empty_directory_refuted"
   ],
   "note": "The exact condition is proved for both formats (YAML: sections that are mappings, with texts for tables and paths). The code violates the defaults: an INI file without outputs writes nothing (C97_no_outputs_refuted), and an empty forcing directory is accepted without forcing (C97_empty_directory_refuted)."
  },
  {
   "property": "C98",
   "status": "partial",
   "theorems": [
    "C98_formats_agree_partial",
    "C98_binary_refuted"
   ],
   "note": "The code violates it for binary forcing (C98_binary_refuted): YAML tables are turned round and variables with the same scale and type collapse. Proved for other formats, except out_vars, prec_type, utc_offset and period_ending, which the two readers treat differently by design."
  },
  {
   "property": "C99",
   "status": "proved",
   "theorems": [
    "C99_own_inputs",
    "C99_determined",
    "C99_covered",
    "C99_missing",
    "C99_state_dimension"
   ],
   "note": ""
  },
  {
   "property": "C100",
   "status": "proved",
   "theorems": [
    "C100_files_to_files",
    "C100_computed"
   ],
   "note": ""
  },
  {
   "property": "C101",
   "status": "partial",
   "theorems": [
    "C101_same_labels_partial",
    "C101_order_refuted",
    "C101_split_refused"
   ],
   "note": "The code violates it: the coordinates of the dataset are overwritten with those of the domain, so rows in another order go to the wrong cells (C101_order_refuted), and a worker with only part of the domain stops (C101_split_refused). Proved when the labels are those of the domain, in its order, and the domain is not split."
  },
  {
   "property": "C102",
   "status": "partial",
   "theorems": [
    "C102_text_columns",
    "C102_text_missing",
    "C102_extra_columns_refuted",
    "C102_single_file_refuted"
   ],
   "note": "Proved for files with as many columns as variables. The code violates it for wider files: every variable is displaced by the surplus (C102_extra_columns_refuted), and for the path of a single file, whose characters are taken for file names (C102_single_file_refuted)."
  },
  {
   "property": "C103",
   "status": "partial",
   "theorems": [
    "C103_binary_partial",
    "C103_unknown_type",
    "C103_yaml_refuted",
    "C103_half_word_refuted"
   ],
   "note": "Proved for INI files and four variables, or fewer in files of exactly the record length. The code violates it for YAML files, where no binary file is ever read (C103_yaml_refuted), and for files that end in the middle of a word, which stop the run (C103_half_word_refuted)."
  },
  {
   "property": "C104",
   "status": "partial",
   "theorems": [
    "C104_step_values",
    "C104_longwave",
    "C104_cell_longwave",
    "C104_cloud_gap_refuted"
   ],
   "note": "Humidity and pressure are proved for every method and every run below daily steps; longwave where clouds are known on every day and longwave is not supplied. The code violates it where cloud cover is missing: clouds and longwave are filled separately (C104_cloud_gap_refuted)."
  },
  {
   "property": "C105",
   "status": "proved",
   "theorems": [
    "C105_no_gaps",
    "C105_runs",
    "C105_frame"
   ],
   "note": "Records of one day are excluded: they have no vapor pressure (C74). With utc_offset the longitude must not be exactly 180 and tmax_daylength_fraction at least 2/3 (see C82). solar_geom is assumed not to raise, which it does when some day has between 0 and 30 s of daylight."
  },
  {
   "property": "C106",
   "status": "partial",
   "theorems": [
    "C106_passthrough",
    "C106_mtclim",
    "C106_ends_refuted",
    "C106_new_year_refuted"
   ],
   "note": "The code violates the full statement: record and table are rolled as rings, so the last day takes radiation from the first of the record (C106_ends_refuted) and after 31 December of a common year the row of day 366 is used (C106_new_year_refuted). Proved with the rings named, for daily values that are numbers and longitudes other than the date line."
  },
  {
   "property": "C107",
   "status": "proved",
   "theorems": [
    "C107_mtclim",
    "C107_passthrough"
   ],
   "note": ""
  },
  {
   "property": "C108",
   "status": "proved",
   "theorems": [
    "C108_tables"
   ],
   "note": ""
  },
  {
   "property": "C109",
   "status": "proved",
   "theorems": [
    "C109_refused",
    "C109_kind",
    "C109_days"
   ],
   "note": ""
  },
  {
   "property": "C110",
   "status": "proved",
   "theorems": [
    "C110_daily",
    "C110_sub_daily"
   ],
   "note": ""
  },
  {
   "property": "C111",
   "status": "proved",
   "theorems": [
    "C111_calendar_files"
   ],
   "note": ""
  },
  {
   "property": "C112",
   "status": "partial",
   "theorems": [
    "C112_by_position_partial",
    "C112_taken",
    "C112_real_labels",
    "C112_refuted",
    "C112_file_labels_refuted"
   ],
   "note": "The code violates the full statement when only one side has coordinates (C112_refuted, C112_file_labels_refuted). Proved when neither has; C112_taken gives the position that is read in every case."
  },
  {
   "property": "C113",
   "status": "proved",
   "theorems": [
    "C113_records_match_header",
    "C113_what_remains",
    "C113_numbers",
    "C113_no_deadlock",
    "C113_completes",
    "C113_limited",
    "C113_content"
   ],
   "note": ""
  },
  {
   "property": "C114",
   "status": "partial",
   "theorems": [
    "C114_no_surplus_partial",
    "C114_refuted"
   ],
   "note": "Exact condition proved (no group of the name is longer than the last one); the full statement is refuted by files of five hours (C114_refuted)."
  },
  {
   "property": "C115",
   "status": "proved",
   "theorems": [
    "C115_vapor_values",
    "C115_supplied"
   ],
   "note": ""
  },
  {
   "property": "C116",
   "status": "partial",
   "theorems": [
    "C116_standard",
    "C116_noleap",
    "C116_proleptic",
    "C116_proleptic_refuted",
    "C116_days360_partial",
    "C116_missing_refuted",
    "C116_output_axis",
    "C116_noleap_axis",
    "C116_ending_refuted"
   ],
   "note": "The code violates the full statement: proleptic_gregorian is misspelt in date_range and its steps are stretched when the step does not divide the span (C116_proleptic_refuted); a 360_day range past the end of a February fails (C116_days360_partial gives both directions); ranges that start or end on a date the calendar lacks fail (C116_missing_refuted), as does the period-ending axis of a noleap run ending on 28 February of a leap year (C116_ending_refuted). Proved for all other ranges. julian and 366-day calendars are not modelled."
  },
  {
   "property": "C117",
   "status": "partial",
   "theorems": [
    "C117_standard",
    "C117_noleap_partial",
    "C117_total_partial",
    "C117_refuted",
    "C117_window_refuted",
    "C117_window",
    "C117_days360_refuted"
   ],
   "note": "The code violates the full statement: a noleap run that starts in the 90 days after a 29 February (C117_window_refuted, C117_window) and every 360_day run (C117_days360_refuted) is a ValueError, because the 90 days of the state are counted in the standard calendar and dated in the other. Proved for the standard calendars and for all other noleap runs over all dates of the calendar."
  },
  {
   "property": "C118",
   "status": "partial",
   "theorems": [
    "C118_dates",
    "C118_memory_partial",
    "C118_named_partial",
    "C118_noted",
    "C118_refuted",
    "C118_default_refuted",
    "C118_days360_refuted"
   ],
   "note": "The code violates the full statement: read_netcdf replaces the time coordinate and thereby drops its encoding, so that the calendar of a file is never used (C118_refuted) and a 365 day file spanning a 29 February is refused under the default calendar (C118_default_refuted); a 360 day file with a date the standard calendar lacks is always refused (C118_days360_refuted). Proved: the dates that are read, datasets in memory, and files whose calendar the configuration names."
  },
  {
   "property": "C119",
   "status": "partial",
   "theorems": [
    "C119_own_file",
    "C119_only_file",
    "C119_readers",
    "C119_reads",
    "C119_files",
    "C119_finishes_partial",
    "C119_missing_file",
    "C119_missing_temperature",
    "C119_missing_file_refuted"
   ],
   "note": "The code violates the last sentence: the series of an active cell without readable file are missing, and a missing temperature stops every sub-daily run of the slice, with all its other cells (C119_missing_file_refuted, C119_missing_file). Everything else is proved; the run is shown to finish when the files of all active cells are acceptable."
  },
  {
   "property": "C120",
   "status": "partial",
   "theorems": [
    "C120_content",
    "C120_same_files",
    "C120_unwritten_or_correct",
    "C120_other_files",
    "C120_bounded",
    "C120_no_deadlock_partial",
    "C120_can_finish_partial",
    "C120_lock_kept",
    "C120_finishes_refuted"
   ],
   "note": "Content, order and step bound are proved for both kinds of lock service. That the run finishes holds when the locks of the dead are freed (C120_no_deadlock_partial, C120_can_finish_partial); when they are not, a worker that dies with the lock of a file in hand keeps the run from ever finishing (C120_lock_kept, C120_finishes_refuted). Which of the two applies depends on the installed version of distributed, which is not part of the repository."
  },
  {
   "property": "C121",
   "status": "partial",
   "theorems": [
    "C121_columns",
    "C121_passes_partial",
    "C121_order",
    "C121_refuted"
   ],
   "note": "The code violates the part about number and content: the iteration ends when the change averaged over the record is small, so a day followed by enough calm days keeps the dewpoint of its first pass at any tolerance below 0.7 K (C121_refuted). Proved: transmittance, cloud cover and daytime temperature are independent (C121_columns), the order of the days does not matter (C121_order), and the other days decide only the number of passes over a day (C121_passes_partial)."
  },
  {
   "property": "C122",
   "status": "partial",
   "theorems": [
    "C122_steps_partial",
    "C122_cell_partial",
    "C122_wraps",
    "C122_refuted"
   ],
   "note": "The code violates it when the UTC shift is on: np.roll carries the end of the record to its beginning, so that west of Greenwich the first steps hold the last day (C122_wraps, C122_refuted). Proved without the shift for the disaggregation of any daily frame with a vapor pressure on the first two days (C122_steps_partial) and for whole passthrough cells that supply it (C122_cell_partial). mtclim cells are left to C121: their daily estimates do depend on later days."
  },
  {
   "property": "C123",
   "status": "partial",
   "theorems": [
    "C123_total",
    "C123_others",
    "C123_constants_partial",
    "C123_cut_off",
    "C123_constants_refuted",
    "C123_monthly_partial",
    "C123_monthly_refuted"
   ],
   "note": "Proved when the variable that serves as template (the first of the forcing for constants, prec for the monthly tables) is stored in floats, or the number is whole. False otherwise: the fraction is cut off at every time and cell (C123_cut_off, C123_constants_refuted, C123_monthly_refuted). December is left out of the monthly statement (C52)."
  },
  {
   "property": "C124",
   "status": "partial",
   "theorems": [
    "C124_worker",
    "C124_parent",
    "C124_outcome",
    "C124_slice_run_refuted",
    "C124_released_partial",
    "C124_failed_refuted",
    "C124_names_partial",
    "C124_names_refuted"
   ],
   "note": "Clients, outcome and the worker's part are proved for all schedulers. Nothing is left behind only when the run completes and the scheduler is dask's own or 'distributed' (C124_released_partial, an equivalence): a client of an existing scheduler has no cluster, so the clean-up stops with a dropped AttributeError before it closes the client, and a run that fails never gets to the clean-up (C124_failed_refuted). A worker hands an address or file on to dask as the name of a scheduler (C124_names_refuted). run() of an object made for a slice fails in the progress bar when verbose (C124_slice_run_refuted); MetSim itself does not do this."
  },
  {
   "property": "C125",
   "status": "partial",
   "theorems": [
    "C125_steps_partial",
    "C125_cell_partial",
    "C125_wraps",
    "C125_refuted"
   ],
   "note": "The counterpart of C122. The code violates it when the UTC shift is on: np.roll carries the beginning of the record to its end, so that east of Greenwich the last steps hold the first day (C125_wraps, C125_refuted). Proved without the shift for the disaggregation of any daily frame with a vapor pressure on days m and m + 1 (C125_steps_partial) and for whole passthrough cells that supply it (C125_cell_partial). The daily columns that MetSim derives from the past, dtr averages and seasonal precipitation, are part of the record here."
  }
 ]
}