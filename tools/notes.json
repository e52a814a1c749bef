{
 "C13": "The code violates the full statement: negative divisors of 1440 are accepted (C13_refuted). Proved for positive steps; illegal positive steps are refused.",
 "C14": "The code violates the full statement: t_day is accepted at the daily step and has no unit conversion (C14_refuted). Every other accepted variable is available and convertible; all others are refused by name.",
 "C15": "The code violates the capitalization part (C15_capitalization_refuted). Every accepted option selects a formula.",
 "C25": "The code violates the full statement in two places: with theta_s configured the temperature times move by a different amount (C25_theta_s_refuted), and longitudes 180 and -180 differ by a day (C25_date_line_refuted). All other parts are proved.",
 "C29": "The code violates the full statement at the ends of the record (C29_every_step_refuted). Proved between the first and the last daily minimum; the other steps copy one of those values.",
 "C33": "The code violates 'clouds never reduce it' for the Deardorff option when clear-sky longwave exceeds black-body emission (C33_clouds_refuted); C33_clouds_partial gives the exact condition. Positivity and the bounds for the default options are proved.",
 "C38": "The code violates the full statement for options other than Deardorff when transmittance is below 0.35 (C38_default_refuted); C38_default_partial gives the exact condition.",
 "C44": "The code violates the full statement below freezing (C44_slope_refuted). Proved above freezing.",
 "C46": "The code violates the daily-step part (C46_daily_refuted; C46_daily_value gives the value) and the midnight-sun part (C46_midnight_refuted with a cell at the pole; the exact deficit is stated). With utc_offset see C106.",
 "C47": "The code violates it under the midnight sun (C47_midnight_refuted with a cell at the pole; the exact deficit is stated). Proved on all other days. With utc_offset see C106.",
 "C51": "The code violates the full statement in the noleap calendar (C51_noleap_refuted, C51_noleap_start_refuted). Proved for the standard calendar.",
 "C52": "The code violates the full statement: December keeps the precipitation amount, and the table is indexed by labels (C52_calendar_table_refuted). January to November proved.",
 "C53": "The code violates 'any number of variables': three or five variables fail (C53_three_variables_refuted, C53_five_variables_refuted). Decoding is proved for all files that are read.",
 "C57": "The code violates the blank-line part (C57_blank_line_refuted). The rest is an exact characterisation.",
 "C59": "The code violates the statement in the last second of a day (C59_last_second_refuted). Proved for all earlier times.",
 "C61": "The code violates both parts (C61_inherited_parameters_refuted, C61_shared_parameters_refuted). What does hold of every object is proved.",
 "C62": "The code violates the statement after an unknown unit was requested earlier (C62_stale_units_refuted). The two partial theorems give the cases in which it holds.",
 "C63": "The code violates it for air pressure in hPa and for the unit in which vapor pressure is computed (C63_air_pressure_hPa_refuted, C63_vapor_pressure_refuted). All other conversions proved.",
 "C65": "The code violates the statement when the span is not a multiple of the step (C65_uneven_axis_refuted). Proved otherwise.",
 "C67": "The code violates it under the midnight sun (C67_midnight_sun_refuted); C67_distribution_partial states exactly when the fractions sum to 1.",
 "C70": "The code violates it (C70_rename_leaks_refuted). Proved for renamed variables and for the first configuration of a process.",
 "C72": "The full statement is false (C72_total_refuted); C72_fails_exactly characterises the failures.",
 "C74": "The code violates it for one-day records (C74_defined_refuted; C74_one_day gives the exact condition). Proved for two or more days.",
 "C76": "The code violates it when another day has a gap (C76_gap_refuted; C76_gap gives what happens). Proved for records without gaps.",
 "C78": "The code violates the 'every day' part when the forcing has gaps (C78_gap_refuted). Acceptance is characterised exactly; without gaps every day is present.",
 "C79": "The code violates it: the word is passed to a label lookup and the run fails (C79_forcing_refuted).",
 "C80": "The code violates it when start or stop names a month (C80_month_refuted). Proved when they name days.",
 "C81": "The code violates it for a zero time step, which raises ZeroDivisionError (C81_zero_step_refuted). Exact for all others.",
 "C92": "The code violates it after a constructor that fails part way (C92_time_label_refuted): its options stay in force while the label is that of the object before. Proved for the last constructor having succeeded.",
 "C94": "The code violates it in hot and humid air (C94_below_black_body_refuted: TVA at 35 C and 5.5 kPa). Proved for all options between 0 and 50 C up to 1.5 kPa; and for each option the exact condition on temperature and vapor pressure under which it holds (C94_exactly).",
 "C96": "The code violates it when two variables of a table name the same variable of the file (C96_shared_variable_refuted): only the last remains. Proved with exactly that reading, for tables of texts.",
 "C97": "The exact condition is proved for both formats (YAML: sections that are mappings, with texts for tables and paths). The code violates the defaults: an INI file without outputs writes nothing (C97_no_outputs_refuted), and an empty forcing directory is accepted without forcing (C97_empty_directory_refuted).",
 "C98": "The code violates it for binary forcing (C98_binary_refuted): YAML tables are turned round and variables with the same scale and type collapse. Proved for other formats, except out_vars, prec_type, utc_offset and period_ending, which the two readers treat differently by design.",
 "C101": "The code violates it: the coordinates of the dataset are overwritten with those of the domain, so rows in another order go to the wrong cells (C101_order_refuted), and a worker with only part of the domain stops (C101_split_refused). Proved when the labels are those of the domain, in its order, and the domain is not split.",
 "C102": "Proved for files with as many columns as variables. The code violates it for wider files: every variable is displaced by the surplus (C102_extra_columns_refuted), and for the path of a single file, whose characters are taken for file names (C102_single_file_refuted).",
 "C103": "Proved for INI files and four variables, or fewer in files of exactly the record length. The code violates it for YAML files, where no binary file is ever read (C103_yaml_refuted), and for files that end in the middle of a word, which stop the run (C103_half_word_refuted).",
 "C104": "Humidity and pressure are proved for every method and every run below daily steps; longwave where clouds are known on every day and longwave is not supplied. The code violates it where cloud cover is missing: clouds and longwave are filled separately (C104_cloud_gap_refuted).",
 "C105": "Records of one day are excluded: they have no vapor pressure (C74). With utc_offset the longitude must not be exactly 180 and tmax_daylength_fraction at least 2/3 (see C82). solar_geom is assumed not to raise, which it does when some day has between 0 and 30 s of daylight.",
 "C106": "The code violates the full statement: record and table are rolled as rings, so the last day takes radiation from the first of the record (C106_ends_refuted) and after 31 December of a common year the row of day 366 is used (C106_new_year_refuted). Proved with the rings named, for daily values that are numbers and longitudes other than the date line.",
 "C10": "The code violates the full statement: hourly files of one day share a name, and each header replaces the one before (C10_hourly_refuted). Proved for whole-day bins of which none is skipped and for a single file; as a statement about groups, for all monotone bins.",
 "C112": "The code violates the full statement when only one side has coordinates (C112_refuted, C112_file_labels_refuted). Proved when neither has; C112_taken gives the position that is read in every case.",
 "C114": "Exact condition proved (no group of the name is longer than the last one); the full statement is refuted by files of five hours (C114_refuted).",
 "C116": "The code violates the full statement: proleptic_gregorian is misspelt in date_range and its steps are stretched when the step does not divide the span (C116_proleptic_refuted); a 360_day range past the end of a February fails (C116_days360_partial gives both directions); ranges that start or end on a date the calendar lacks fail (C116_missing_refuted), as does the period-ending axis of a noleap run ending on 28 February of a leap year (C116_ending_refuted). Proved for all other ranges. julian and 366-day calendars are not modelled.",
 "C117": "The code violates the full statement: a noleap run that starts in the 90 days after a 29 February (C117_window_refuted, C117_window) and every 360_day run (C117_days360_refuted) is a ValueError, because the 90 days of the state are counted in the standard calendar and dated in the other. Proved for the standard calendars and for all other noleap runs over all dates of the calendar.",
 "C118": "The code violates the full statement: read_netcdf replaces the time coordinate and thereby drops its encoding, so that the calendar of a file is never used (C118_refuted) and a 365 day file spanning a 29 February is refused under the default calendar (C118_default_refuted); a 360 day file with a date the standard calendar lacks is always refused (C118_days360_refuted). Proved: the dates that are read, datasets in memory, and files whose calendar the configuration names.",
 "C119": "The code violates the last sentence: the series of an active cell without readable file are missing, and a missing temperature stops every sub-daily run of the slice, with all its other cells (C119_missing_file_refuted, C119_missing_file). Everything else is proved; the run is shown to finish when the files of all active cells are acceptable.",
 "C120": "Content, order and step bound are proved for both kinds of lock service. That the run finishes holds when the locks of the dead are freed (C120_no_deadlock_partial, C120_can_finish_partial); when they are not, a worker that dies with the lock of a file in hand keeps the run from ever finishing (C120_lock_kept, C120_finishes_refuted). Which of the two applies depends on the installed version of distributed, which is not part of the repository.",
 "C121": "The code violates the part about number and content: the iteration ends when the change averaged over the record is small, so a day followed by enough calm days keeps the dewpoint of its first pass at any tolerance below 0.7 K (C121_refuted). Proved: transmittance, cloud cover and daytime temperature are independent (C121_columns), the order of the days does not matter (C121_order), and the other days decide only the number of passes over a day (C121_passes_partial).",
 "C122": "The code violates it when the UTC shift is on: np.roll carries the end of the record to its beginning, so that west of Greenwich the first steps hold the last day (C122_wraps, C122_refuted). Proved without the shift for the disaggregation of any daily frame with a vapor pressure on the first two days (C122_steps_partial) and for whole passthrough cells that supply it (C122_cell_partial). mtclim cells are left to C121: their daily estimates do depend on later days.",
 "C123": "Proved when the variable that serves as template (the first of the forcing for constants, prec for the monthly tables) is stored in floats, or the number is whole. False otherwise: the fraction is cut off at every time and cell (C123_cut_off, C123_constants_refuted, C123_monthly_refuted). December is left out of the monthly statement (C52).",
 "C124": "Clients, outcome and the worker's part are proved for all schedulers. Nothing is left behind only when the run completes and the scheduler is dask's own or 'distributed' (C124_released_partial, an equivalence): a client of an existing scheduler has no cluster, so the clean-up stops with a dropped AttributeError before it closes the client, and a run that fails never gets to the clean-up (C124_failed_refuted). A worker hands an address or file on to dask as the name of a scheduler (C124_names_refuted). run() of an object made for a slice fails in the progress bar when verbose (C124_slice_run_refuted); MetSim itself does not do this.",
 "C125": "The counterpart of C122. The code violates it when the UTC shift is on: np.roll carries the beginning of the record to its end, so that east of Greenwich the last steps hold the first day (C125_wraps, C125_refuted). Proved without the shift for the disaggregation of any daily frame with a vapor pressure on days m and m + 1 (C125_steps_partial) and for whole passthrough cells that supply it (C125_cell_partial). The daily columns that MetSim derives from the past, dtr averages and seasonal precipitation, are part of the record here."
}