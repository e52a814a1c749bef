# Formal model of UW-Hydro/MetSim in Rocq (Coq 8.16.1)

## 1. Shape of the development

`rocq/theories/` (logical name `Verif`):

* `Model/*.v`   - executable/shallow Gallina transcription of `/repo/metsim`, function by
  function, exceptions as values (`res`), no proofs.  Each definition cites file and lines.
* `Spec/*.v`    - small, model-independent vocabulary used by the property statements
  (sum of a day, "is a tiling", "is missing", ...).
* `Proofs/*.v`  - lemmas and proofs.
* `Properties/*.v` - only the property theorems: statement, `exact lemma`, `Print Assumptions`,
  and beside each an `Example ..._nonvacuous` showing a concrete case meeting the hypotheses.

Numbers: Python integers are `Z`/`nat`; `float64`/`float32` values are exact real numbers
(`R`).  NaN is modelled (`fl := option R`, `None` = NaN) wherever the code's own logic can create
or test it (masks, gap filling, 0/0 in the triangle method, out-of-range interpolation, missing
input, output initialisation).  Rounding, overflow and infinities are not modelled.
Strings are Coq `string` (ASCII).  Dictionaries are association lists; the two places where the
code relies on aliasing of module-level dictionaries (`MetSim.params`, `attrs`,
`available_outputs`) are modelled with an explicit store.  Concurrency is a small-step machine of
workers with per-file locks and whole-file read-modify-write.

## 2. Per-property plan

Key: (L) list/integer reasoning, no axioms; (R) real analysis over stdlib `Reals`;
(S) invariant over a small-step machine; (X) the unchanged code violates the full statement: a
`..._refuted` theorem gives the witness and the strongest true version is proved beside it.

| id | what is modelled | how it is proved |
|----|------------------|------------------|
| C01 | `chunk_domain`, Python slice clamping | (L) per-dimension tiling by induction on the number of chunks, lifted to products |
| C02 | `write_chunk`: acquire/open/write each var/close/release per file; `wrap_run_slice` workers | (S) invariant: disk = fold of finished critical sections; owner buffer = disk + its partial writes |
| C03 | `run_slice` loop threading the mutated params dict through cells | (L) induction over the cell list |
| C04 | same machine as C02, `setup_netcdf_output` mode "w" | (S) invariant at every reachable state |
| C05 | same machine | (S) progress + decreasing measure |
| C06 | C01+C02+C03 composed, local/global index mapping | corollary |
| C07 | `domain_slice[d]` lookup in `write_chunk`, `dims[dim]` in `chunk_domain` | (L) |
| C08 | chunk size loop in `setup_netcdf_output` | (L) |
| C09 | `_get_output_times`, `setup_output`, `date_range` | (L) closed form of the axis |
| C10 | `groupby(Grouper)` for any monotone bin function | (L) |
| C11 | `get_nc_output_suffix`, civil calendar, decimal formatting | (L) injectivity of formatting and calendar; (X) for sub-daily bins |
| C12 | `sel(time=slice(first,last))` | (L) |
| C13 | `_validate_setup` | (L) exact iff; (X) negative divisors are accepted |
| C14 | `_validate_setup`, converter table, produced columns | (L) finite tables; (X) `t_day` |
| C15 | option validation, formula lookup | (L) accepted => defined; (X) capitalization |
| C16-C21 | `prec` minute-level, roll, reshape/sum | (R) list sums; C19 exact iff |
| C22 | `wind`, `tskc` | (R) |
| C23,C24 | `shortwave` with bincount | (R) |
| C25 | `math.remainder`, `int()` truncation | (R) |
| C26 | `solar_geom` + `set_min_max_hour` + knot check of PCHIP | (R) structure of the lit interval |
| C27,C28 | `temp` + PCHIP (external contract: documented SciPy algorithm) | (R) Fritsch-Carlson monotonicity |
| C29 | `vapor_pressure`, fill | (R) interior proved; (X) at record ends |
| C30-C34 | physics of disaggregation | (R) |
| C35 | `fillna(ffill).fillna(bfill)` | (L) |
| C36-C40 | `mtclim` formulas, `calc_pet` | (R); C38 (X) for lw_cloud default |
| C41,C42 | `mtclim.run` loop with fuel | exit condition; monotone bounded sequence argument per day; divergence for negative tol |
| C43,C44 | `svp`, `svp_slope` | (R); C44 (X) below 0 C |
| C45,C46,C47 | `passthrough.run`, `wrap_run_cell` | (L)/(R); C46 (X) at 1440 minutes; C46, C47 (X) under the midnight sun |
| C48,C49,C50,C71 | `_aggregate_state`, `_unpack_state` | (L) windows |
| C51 | `_validate_force_times`, calendars | (L); (X) for noleap |
| C52 | `convert_monthly_param` | (X), exact description of what is delivered |
| C53,C54 | `read_binary` on bytes | (L); (X) for variable counts other than 4 |
| C55 | `process_vic` | (L) permutation invariance |
| C56 | `_invert_dict`, `read_netcdf` select/rename | (L) |
| C57,C58 | `check_config_type`, INI booleans on strings | (L); C57 (X) for blank first line |
| C59 | time normalisation, round-half-even | (L); (X) at 23:59:59 on odd days |
| C60 | `met_data` constant variables | (L) |
| C61,C62,C70 | store model of module-level dictionaries | (X) + positive parts |
| C63,C64 | `units.converters` | (R); C63 (X) hPa air pressure and sub-daily vapor pressure |
| C65 | `datetime.date_range`, `decode_freq` | (L)/(R); (X) for spans that are no multiple |
| C66-C69 | `solar_geom` over reals | (R); C67 (X) in polar day |
| C72 | `solar_geom` raises nothing | (R) bounds on the air-mass index and table positions |
| C73,C74 | `disaggregate`: names, lengths, defined values | (L)/(R); C74 (X) at record ends |
| C75 | `wrap_run_cell` raises nothing on acceptable forcing | composition of totality lemmas |
| C76,C77 | dewpoint iteration of a day | (R) monotone map, termination |
| C78-C80 | `met_data` period, `_validate_force_times`, `_aggregate_state` | (L); (X) for texts that name a period |
| C81 | `_validate_setup` messages | (L) exact list |
| C82-C84 | `wrap_run_cell` output columns | composition of the kernels' theorems with the gap filling |
| C85,C88 | `load_inputs`, `run_slice` of a worker | (L) |
| C89-C92 | `setup_netcdf_output`: time axis, variables, attributes | (L); C92 (X) after a failed constructor |
| C93,C94 | `longwave` options as functions of vapour pressure | (R) monotone curves; C94 (X) |
| C95-C98 | `read_yaml_config`, `read_ini_config`: settings, tables, acceptance | (L) on parsed files; C96-C98 (X) |
| C99-C101 | `domain`, `met_data`, `state` of a worker: selection by coordinates, `read_data` | (L) composed with C85-C88; C101 (X) |
| C104,C105 | `wrap_run_cell` and `disaggregate` per step; series without gaps | (R) composition of the kernels with the dewpoint bounds of C42; C104 (X) |
| C106 | `shortwave` with `utc_offset`: means of UTC days | (R) sums over rolled lists; (X) at the ends of record and year |
| C107 | `mtclim.run`, `passthrough.run`, `calc_pet`, `atm_pres`, `svp`: values of a day | (R) equality of each kernel with a formula written with literal numbers |
| C108 | `solar_geom`: entries of the tables | (R) the loop as a sum over sampled hour angles; last write to a slot |
| C109 | dates from which `disaggregate` and `wrap_run_cell` build their index | days spanned against rows; columns never fit a longer index |
| C111 | `Grouper` with calendar frequencies, headers by file name | (L) months and years grow by at most one a day |
| C110 | `mtclim.shortwave`, `solar_geom` | (R) sign of each factor; polar night as the only zero |
| C86,C87 | worker results through `write_chunk` to the files | composition of C03, C01, C02, C12 |

Everything runtime-only (HDF5 library internals, dask scheduling policy, float rounding, file
system failures) is outside the model and named in the trusted base.

## 3. Trusted base

### 3.1 Kernel and axioms

The Coq 8.16.1 kernel (with its conversion, including `vm_compute`).  No axiom is added by this
development.  The axioms that `Print Assumptions` lists come from the standard library's
`Reals` (`ClassicalDedekindReals.sig_forall_dec`, `ClassicalDedekindReals.sig_not_dec`,
`FunctionalExtensionality.functional_extensionality_dep`) and `Logic.Classical_Prop.classic`.
Section 5 lists them theorem by theorem (generated by `tools/assumptions.py`).

### 3.2 What is modelled

| source | model | remarks |
|--------|-------|---------|
| `constants.py` | `Constants.v` | decimal literals are exact rationals |
| `physics.py` (all functions) | `Physics.v` | one array element at a time where the code is elementwise; the loops of `solar_geom` as folds, list access out of range = `IndexError` |
| `methods/mtclim.py`, `methods/passthrough.py` | `Mtclim.v` | the `while` loop has fuel; `None` = not finished; termination is a theorem (C42, C76, C77), not an assumption |
| `disaggregate.py` (all functions) | `Disagg.v`, `Interp.v` | |
| `units.py`, unit tables of `metsim.py` | `Units.v` | |
| `datetime.py` | `Datetime.v`, `Calendar.v`, `DateRange.v` | `DateRange.v` is `date_range` as a whole for standard, gregorian, proleptic_gregorian, noleap/365_day and 360_day, with the way back by `CFTimeIndex.to_datetimeindex`; linspace is exact (128 bit floats there). julian, 366_day and all_leap calendars and names cftime rejects are not modelled |
| `io.py` 38-161 | `Config.v`, `Globals.v`, `Settings.v` | file types, booleans, output entries, settings from a parsed file |
| `io.py` 213-369 | `Reader.v`, `Period.v` | `process_vic`, `read_netcdf`, `read_data`, `read_binary`: selection, renaming, time normalisation, bytes to values |
| `io.py` 213-261, 324-337 | `Vic.v` | text and binary forcing with the names of its variables, from the settings; lines of a text file are given as numbers; a binary variable called `day_of_year` is left out |
| `metsim.py` 75-241 | `Globals.v`, `Units.v` | module-level dictionaries as an explicit store |
| `metsim.py` 243-317 | `Period.v`, `State.v`, `Worker.v` | |
| `metsim.py` 286-298, 312-317, 477-487; `io.py` 279-282, 303-321 | `Align.v` | forcing, state and domain as datasets over labelled axes; a variable has all dimensions of its dataset; datasets with dimensions the domain lacks are left out |
| `metsim.py` 293-310; `io.py` 213-249 | `VicWorker.v` | the forcing of a slice from a directory of files; the domain has exactly the dimensions lat and lon; the two dates of the run give `n_days` |
| `io.py` 279-290 | `Unlabelled.v` | dimensions with or without coordinates; labels are integers or reals |
| `metsim.py` 278-284, 301-307 | `Kinds.v` | the same with storage types; `xr.full_like` and `copy` keep the storage type, assignment to whole numbers truncates (numpy); whole numbers have no bounds, what NaN becomes is a parameter |
| `metsim.py` 319-343, 438-454 | `Output.v`, `Machine.v`, `Run.v` | small-step machine |
| `metsim.py` 63-64, 173-222, 330-352 | `Scheduler.v` | scheduler, client, progress bar, clean-up; the set-up and the slices through their outcome; clients come up |
| `metsim.py` 338-343 | `Restart.v` | the machine with workers that die and are run again; the death takes the buffer and the process lock, what was flushed stays; a slice is run again in a process with the same number, and never twice at the same time |
| `metsim.py` 333-336, 363-366, 443-454 | `Shared.v` | the machine with files looked up by name; points are (cell, record), the time dimension is unlimited |
| `metsim.py` 354-361, 456-493 | `Worker.v`, `Cell.v` | |
| `metsim.py` 594-598, 776-790, `disaggregate.py` 69-73 | `CalendarRun.v` | the worker with the dates and time axes of `date_range` in params['calendar']; an error of the time axis is raised before the cells rather than in the first computed cell. `Worker.v` is the standard calendar |
| `io.py` 291-298, `metsim.py` 257-258 | `FileCalendar.v` | the time coordinate with its encoding; assigning a new coordinate leaves no encoding (xarray). Calendars as in `DateRange.v` |
| `metsim.py` 367-375, 495-618 | `Output.v`, `State.v` | |
| `metsim.py` 118-122, 183, 269-276, 363-436 | `Header.v` | header of an output file; `str` and `json.dumps` are parameters; calendars: standard, 365 and 360 days |
| `metsim.py` 620-690 | `Validate.v`, `Output.v` | |
| `metsim.py` 693-824 | `Cell.v`, `Run.v`, `Output.v` | dates with gaps through the number of days they span; dates in disorder or twice are left out |

### 3.3 What is not modelled

* Floating point rounding, overflow and infinities; `float32` output.  Numbers are exact reals and NaN.
* Compression of the netCDF files; the julian and 366-day calendars in the time encoding of a
  header; the `dask` scheduler, except that it may interleave the workers in any way, and in
  `Scheduler.v` that a client made from an address or a file has no cluster to close.
* `cli/ms.py` and `configparser`, `yaml` and `os`: configuration texts are parsed by the libraries;
  only what MetSim does to the parsed values is modelled.
* `read_domain`, `read_state`, `process_nc` (calls of the
  readers with fixed arguments).
* `DummyLock` (a lock that never blocks; the scheduler that uses it runs one thread).

### 3.4 External contracts

Libraries are represented by the behaviour their documentation and source describe:

* NumPy/pandas/xarray: `Np.v` (`repeat`, `roll`, `reshape`, `bincount`, `linspace`, fills),
  `State.v` (`rolling`, `sel`, `drop`, alignment on assignment), `Output.v` (`groupby(Grouper)` as
  an arbitrary monotone bin function; the frequencies of days, weeks, months, years and hours as
  their calendar periods), `Calendar.v` (civil dates, `date_range`).
* SciPy: `Interp.v` transcribes `PchipInterpolator` (Fritsch-Carlson slopes, one-sided ends) and
  `interp1d(bounds_error=False)`.
* xarray: `sel` with labels looks every label up (`KeyError` if absent, `InvalidIndexError` if the
  labels are not unique); assigning a coordinate that exists replaces its labels (`ValueError` if the
  sizes differ); `isel` takes positions (`Align.v`); `sel` along a dimension without index uses the
  labels as positions: `TypeError` for labels that are not integers, negative ones count from the end,
  `IndexError` outside (`Unlabelled.v`).
* `pandas.read_csv` with `names` and without header: lines narrower than `names` are filled with NaN
  on the right; when the first line is wider, the surplus columns on the left become the index; an
  empty file is a `ValueError` (`Vic.v`).
* pandas' parser of date texts is a parameter of the definitions in `Period.v`; the theorems hold
  for every such parser.
* netCDF4: assigning `m` records to `[:]` along the unlimited dimension writes records `0..m-1` and leaves
  later ones (`Shared.v`).
* netCDF/HDF5: a file is a map from points to optional values; an open file has a private buffer
  that may reach the disk at any time, point by point, and does so completely when it is closed.
* netCDF4: creating a dimension or variable whose name is in use is a `RuntimeError`; an attribute
  that is neither a text nor a number is a `TypeError`.  cftime's `date2num` counts the days of the
  calendar and refuses dates it lacks.  The calendar of a header is the one cftime finds under the
  name that is written to the file.
* Locks: `combine_locks` acquires its parts in a fixed order per file; a lock has at most one holder.
* numpy and xarray (C123 only): assigning a float to an array of whole numbers truncates it toward zero; `full_like` and `copy` keep the storage type.
* dask (C124 only): `Client()` starts a cluster, a client made from an address or a file has `cluster = None`; `ProgressBar` objects cannot be called; the names of schedulers are those in `Spec/SchedulerSpec.v`.
* Restarts (C120 only): dask runs the task of a lost worker again from its beginning. Whether the lock service frees the file locks of a dead holder is a parameter (`freed`) of the model; both cases are covered by theorems.

## 4. Testing the theorems

`seeded/LOG.jsonl` records the edits tried on scratch copies of the model, the theorems that failed
and those that were tightened because they did not.

## 5. Assumptions of each theorem

<!-- generated: python3 tools/assumptions.py -->

* no axioms (127 theorems): C99_determined, C117_window, C116_standard, C116_noleap, C116_proleptic, C116_proleptic_refuted, C116_days360_partial, C116_missing_refuted, C116_output_axis, C116_noleap_axis, C116_ending_refuted, C118_dates, C118_memory_partial, C118_noted, C118_refuted, C109_days, C65_even_axis_partial, C65_uneven_axis_refuted, C65_frequencies, C70_own_names_partial, C70_fresh_process_partial, C70_rename_leaks_refuted, C01_chunks_tile_grid, C01_slices_inside_grid, C01_one_worker_per_cell, C07_missing_dimension_write_fails, C07_missing_dimension_nothing_written, C07_unknown_dimension_fails, C08_storage_chunks_legal, C89_times_encoded, C89_times_ordered, C89_times_refused, C90_file_structure, C90_written_iff, C91_options_recorded, C92_time_label_partial, C92_time_label_refuted, C55_name, C56_mapping, C56_missing_variable, C56_mapping_in_memory, C57_first_line_decides_partial, C57_blank_line_refuted, C58_booleans, C59_own_day_partial, C59_last_second_refuted, C60_constants, C09_output_axis_exact, C10_files_cover_axis, C10_one_file_per_stamp, C10_files_by_name_partial, C10_hourly_refuted, C11_file_names_distinct, C11_name_determines_dates, C11_name_shows_dates, C12_records_match_stamps, C111_calendar_files, C78_accepted, C78_every_day_partial, C78_no_such_date, C78_gap_refuted, C79_forcing_refuted, C79_meaning_partial, C79_whole_partial, C35_keeps_values, C35_keeps_length, C35_complete, C35_nearest_earlier, C35_leading_gap, C35_all_missing, C120_content, C120_same_files, C120_unwritten_or_correct, C120_other_files, C120_bounded, C120_no_deadlock_partial, C120_can_finish_partial, C120_lock_kept, C120_finishes_refuted, C124_worker, C124_parent, C124_outcome, C124_slice_run_refuted, C124_released_partial, C124_failed_refuted, C124_names_partial, C124_names_refuted, C95_yaml_settings, C95_ini_settings, C95_yaml_forcing, C95_ini_forcing, C96_yaml_tables, C96_ini_tables, C96_yaml_plain, C96_ini_plain, C96_yaml_forms, C95_yaml_pairs, C96_shared_variable_refuted, C97_empty_directory_refuted, C98_formats_agree_partial, C98_binary_refuted, C13_positive_steps_validated_partial, C13_illegal_steps_refused, C13_refuted, C14_other_outputs_refused, C15_capitalization_refuted, C81_reports, C81_zero_step_refuted, C113_numbers, C113_no_deadlock, C113_completes, C113_limited, C113_content, C69_days_of_year, C51_standard_window_partial, C51_noleap_refuted, C51_noleap_start_refuted, C52_monthly_values_partial, C52_calendar_table_refuted, C71_state_update, C02_no_lost_update, C04_crash_leaves_unwritten_or_correct, C04_rerun_repairs, C04_other_files_untouched, C05_no_deadlock, C05_schedules_bounded, C05_can_finish.
* `ClassicalDedekindReals.sig_forall_dec` (3 theorems): C101_same_labels_partial, C101_split_refused, C119_only_file.
* `ClassicalDedekindReals.sig_forall_dec`, `FunctionalExtensionality.functional_extensionality_dep` (86 theorems): C99_own_inputs, C99_covered, C99_state_dimension, C101_order_refuted, C122_wraps, C61_given_parameters_partial, C61_default_outputs, C61_inherited_parameters_refuted, C61_shared_parameters_refuted, C62_units_match_partial, C62_requested_units, C62_fallback_partial, C62_stale_units_refuted, C63_conversions_partial, C63_air_pressure_hPa_refuted, C64_depth, C53_decoding, C53_readable_partial, C53_five_variables_refuted, C53_three_variables_refuted, C54_truncated_rejected, C54_rejected_file_missing, C54_write_read, C55_order_irrelevant, C55_other_files_ignored, C55_own_file, C123_total, C123_others, C123_constants_partial, C123_cut_off, C123_constants_refuted, C123_monthly_partial, C123_monthly_refuted, C125_wraps, C80_complete_partial, C80_month_refuted, C31_mass_fraction, C36_daylight_temperature, C39_shortwave, C112_by_position_partial, C112_taken, C112_real_labels, C112_refuted, C112_file_labels_refuted, C16_uniform_conserves, C16_uniform_nonnegative, C17_triangle_conserves, C18_triangle_shape, C18_steps_sum_minutes, C19_short_event_lost, C20_mix, C21_utc_shift, C22_constant_through_day, C22_utc_shift, C96_yaml_outputs, C97_yaml_accepted, C97_ini_accepted, C97_no_outputs_refuted, C14_outputs_convertible_partial, C14_refuted, C23_daily_energy, C24_utc_shift, C24_energy_of_full_cycle, C25_shift_amounts, C25_temperature_times_partial, C25_theta_s_refuted, C25_normalised_longitude, C25_date_line_refuted, C48_trailing_windows, C48_none_missing, C49_split_runs_agree, C50_others_loaded, C28_through_extremes, C106_ends_refuted, C106_new_year_refuted, C102_text_columns, C102_text_missing, C102_extra_columns_refuted, C102_single_file_refuted, C103_binary_partial, C103_unknown_type, C103_yaml_refuted, C103_half_word_refuted, C119_own_file, C119_readers, C119_reads.
* `ClassicalDedekindReals.sig_forall_dec`, `ClassicalDedekindReals.sig_not_dec`, `FunctionalExtensionality.functional_extensionality_dep` (7 theorems): C30_at_most_100, C30_percentage, C38_deardorff_fraction, C38_default_partial, C38_decreasing, C44_slope_partial, C44_slope_refuted.
* `ClassicalDedekindReals.sig_forall_dec`, `Classical_Prop.classic`, `FunctionalExtensionality.functional_extensionality_dep` (1 theorems): C19_missing_iff_uncovered.
* `ClassicalDedekindReals.sig_forall_dec`, `ClassicalDedekindReals.sig_not_dec`, `Classical_Prop.classic`, `FunctionalExtensionality.functional_extensionality_dep` (124 theorems): C99_missing, C100_files_to_files, C100_computed, C117_standard, C117_noleap_partial, C117_total_partial, C117_refuted, C117_window_refuted, C117_days360_refuted, C82_temperature, C83_uniform, C83_triangle, C83_total, C84_wind, C46_sub_daily_partial, C46_daily_value, C46_daily_refuted, C46_midnight_refuted, C47_agree_partial, C47_midnight_refuted, C110_daily, C110_sub_daily, C75_passthrough_total, C121_columns, C121_passes_partial, C121_order, C121_refuted, C41_consistent, C42_terminates, C42_negative, C42_any_sun, C76_complete_partial, C76_gap, C76_gap_refuted, C77_total, C77_negative, C122_steps_partial, C122_cell_partial, C122_refuted, C118_named_partial, C118_default_refuted, C118_days360_refuted, C107_mtclim, C107_passthrough, C108_tables, C109_refused, C109_kind, C45_keeps_supplied, C45_shortwave_required, C45_runs, C63_vapor_pressure_refuted, C125_steps_partial, C125_cell_partial, C125_refuted, C93_more_vapor, C94_below_black_body_partial, C94_exactly, C94_below_black_body_refuted, C32_pressure, C33_positive, C33_clouds_partial, C33_default_bounds, C33_clouds_refuted, C34_supplied_longwave, C37_transmittance, C37_climate, C38_default_refuted, C40_pet, C43_svp_increasing, C03_cell_isolation, C02_run_files, C04_run_crash, C06_chunking_transparent, C06_success_independent_of_chunking, C86_files_hold_values, C87_workers_succeed_iff, C87_run_completes, C14_outputs_available, C15_accepted_options_exist, C113_records_match_header, C113_what_remains, C114_no_surplus_partial, C114_refuted, C25_full_turn_partial, C66_daylength_and_potential, C66_daylength_formula, C67_midnight_sun_refuted, C67_distribution_partial, C68_transmittance, C68_air_mass_lookup, C69_last_day, C69_in_range, C72_fails_exactly, C72_total_refuted, C50_inverted_rejected, C104_step_values, C104_longwave, C104_cell_longwave, C104_cloud_gap_refuted, C105_no_gaps, C105_runs, C105_frame, C26_times_alternate, C26_interpolation_accepts, C27_between_extremes, C27_record_range, C106_passthrough, C106_mtclim, C29_saturation_partial, C29_every_step_refuted, C73_never_fails, C73_shape, C74_defined_partial, C74_one_day, C74_defined_refuted, C115_vapor_values, C115_supplied, C119_files, C119_finishes_partial, C119_missing_file, C119_missing_temperature, C119_missing_file_refuted, C85_worker_cells, C88_worker_finishes.
