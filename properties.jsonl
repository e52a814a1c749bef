{"id": "C01", "title": "Chunks tile the grid exactly", "statement": "When `chunks` names a positive size for every dimension of the mask, every grid cell is inside exactly one of the slices produced for the run and no slice reaches outside the grid once clamped the way Python/xarray/netCDF clamp slices.", "quantifier": "all numbers of dimensions, all positive dimension sizes, all positive chunk sizes (smaller than, equal to, larger than, dividing or not dividing the dimension)", "why_tests_cant": "the last slice of each dimension is patched to dim+1, so the interesting cases are the boundaries of every size/chunk pair; tests use one grid", "anchors": ["metsim/metsim.py::chunk_domain", "metsim/metsim.py::MetSim.slices"]}
{"id": "C02", "title": "Worker order does not change the output files", "statement": "For every interleaving of the chunk workers' lock/open/write/close/release steps in which all workers finish, each output file holds, for every variable and every cell, the series computed by the worker owning that cell: no update is lost.", "quantifier": "all numbers of workers, files and variables, all interleavings of their steps, all values", "why_tests_cant": "a lost update only shows for particular interleavings; a test run exercises one schedule", "anchors": ["metsim/metsim.py::MetSim.run", "metsim/metsim.py::MetSim.write_chunk", "metsim/metsim.py::wrap_run_slice"]}
{"id": "C03", "title": "A cell's result depends only on that cell and masked cells stay missing", "statement": "After a slice is run, each cell whose mask value is > 0 holds the series obtained by running that cell alone with the user's parameters (whatever cells were processed before it), and each other cell (0, negative or NaN mask) is missing everywhere.", "quantifier": "all masks, all grids, all per-cell data, all parameter dictionaries left over by previously processed cells", "why_tests_cant": "the parameter dictionary is shared and mutated (lat, lon, elev) while looping over cells; only a proof covers all processing orders and histories", "anchors": ["metsim/metsim.py::MetSim.run_slice", "metsim/metsim.py::wrap_run_cell"]}
{"id": "C04", "title": "Crash at any point leaves only unwritten or correct cells; a rerun repairs", "statement": "At every intermediate point of every schedule, each (file, variable, cell) on disk is either still unwritten or already the final correct series; and a subsequent complete run produces the same files as a run on a clean directory.", "quantifier": "all schedules, all crash points, all previous contents of the output directory", "why_tests_cant": "requires quantifying over all prefixes of all schedules", "anchors": ["metsim/metsim.py::MetSim.run", "metsim/metsim.py::MetSim.write_chunk", "metsim/metsim.py::MetSim.setup_netcdf_output"]}
{"id": "C05", "title": "Writers cannot deadlock", "statement": "In every reachable state of the writing phase in which some worker is unfinished, some worker can take a step; and every maximal schedule is finite.", "quantifier": "all reachable states of all numbers of workers and files", "why_tests_cant": "deadlock is a property of all reachable states", "anchors": ["metsim/metsim.py::MetSim.write_chunk", "metsim/metsim.py::MetSim.run"]}
{"id": "C06", "title": "Chunking is transparent", "statement": "For every chunking that names all mask dimensions, the output files of a chunked run equal those of the run without chunks.", "quantifier": "all grids, chunk sizes, schedules and per-cell results", "why_tests_cant": "needs the chunk partition, local/global index mapping and schedule arguments together", "anchors": ["metsim/metsim.py::chunk_domain", "metsim/metsim.py::MetSim.run_slice", "metsim/metsim.py::MetSim.write_chunk", "metsim/metsim.py::MetSim.slices"]}
{"id": "C07", "title": "Chunks naming only some dimensions fail instead of writing wrong cells", "statement": "If `chunks` omits a dimension of the mask, writing fails with KeyError and no cell is ever written; if it names a dimension the mask does not have, slicing fails with KeyError.", "quantifier": "all chunk dictionaries and all mask dimension lists", "why_tests_cant": "tests always give both dimensions", "anchors": ["metsim/metsim.py::MetSim.write_chunk", "metsim/metsim.py::chunk_domain"]}
{"id": "C08", "title": "NetCDF storage chunk sizes are legal", "statement": "For every mask shape and positive chunk configuration, the storage chunk size requested for each dimension is at least 1 and at most the dimension size, and equals the configured size whenever that fits.", "quantifier": "all dimension sizes and chunk sizes", "why_tests_cant": "boundary arithmetic on all pairs", "anchors": ["metsim/metsim.py::MetSim.setup_netcdf_output"]}
{"id": "C09", "title": "Output time axis is exact", "statement": "For an accepted time step ts and n consecutive days the output time axis has exactly n*1440/ts stamps; stamp k is start + k*ts minutes (start + (k+1)*ts when period_ending is set), so each day contributes 1440/ts stamps and the axis is strictly increasing.", "quantifier": "all start days, all numbers of days, all accepted time steps, both period_ending settings", "why_tests_cant": "the axis is built with offset and delta corrections whose off-by-one errors depend on n, ts and period_ending", "anchors": ["metsim/metsim.py::MetSim._get_output_times", "metsim/metsim.py::MetSim.setup_output", "metsim/metsim.py::wrap_run_cell", "metsim/disaggregate.py::disaggregate"]}
{"id": "C10", "title": "out_freq splits the record into files without loss or duplication", "statement": "The time stamps of the output files, concatenated in order, are exactly the full output time axis; each stamp is in exactly one file.", "quantifier": "all time axes and all (monotone) binning frequencies", "why_tests_cant": "frequency strings and record lengths are unbounded", "anchors": ["metsim/metsim.py::MetSim._get_output_times"]}
{"id": "C11", "title": "Different output periods get different file names", "statement": "When every out_freq bin is made of whole days, two different groups never share a file name, and a file name shows the first and last date of its group as YYYYMMDD (for years up to 9999).", "quantifier": "all records, all day-aligned frequencies, all dates in years 0..9999, both period_ending settings", "why_tests_cant": "collisions depend on formatting and calendar arithmetic over all dates", "anchors": ["metsim/metsim.py::MetSim.get_nc_output_suffix", "metsim/metsim.py::MetSim._get_output_filename", "metsim/metsim.py::MetSim._get_output_times"]}
{"id": "C12", "title": "Each file record is the value computed for its time stamp", "statement": "For every group of time stamps, the k-th record written to that group's file for a variable and cell is the value in the full-run output at the group's k-th time stamp.", "quantifier": "all groupings, all outputs", "why_tests_cant": "label slicing by first and last stamp must select exactly the group for all records", "anchors": ["metsim/metsim.py::MetSim.write_chunk", "metsim/metsim.py::MetSim.setup_netcdf_output"]}
{"id": "C13", "title": "Time steps are validated", "statement": "Setup is accepted only for a time step that is a positive divisor of 1440 that is at most 360, or 1440 itself.", "quantifier": "all integers given as time_step", "why_tests_cant": "the acceptance test uses modulo and two comparisons; negative and boundary values are not sampled", "anchors": ["metsim/metsim.py::MetSim._validate_setup"]}
{"id": "C14", "title": "Accepted output variables can be produced", "statement": "If setup accepts an output variable at a time step, the run has a column of that name for that time step (given that optional inputs such as wind are supplied) and a unit conversion for it; otherwise setup fails and names it.", "quantifier": "all sets of requested output variables and all accepted time steps", "why_tests_cant": "the accept lists, the produced columns and the converter table are three independent lists", "anchors": ["metsim/metsim.py::MetSim._validate_setup", "metsim/metsim.py::MetSim._update_unit_attrs", "metsim/disaggregate.py::disaggregate", "metsim/units.py::converters"]}
{"id": "C15", "title": "Longwave options are validated and capitalization does not matter", "statement": "Each lw_type and lw_cloud value accepted by setup selects a formula (the run cannot fail with an unknown option), and acceptance does not depend on capitalization as documented.", "quantifier": "all strings given for lw_type and lw_cloud", "why_tests_cant": "the option space is all strings", "anchors": ["metsim/metsim.py::MetSim._validate_setup", "metsim/disaggregate.py::longwave", "metsim/methods/mtclim.py::tskc", "docs/configuration.rst"]}
{"id": "C16", "title": "Uniform precipitation conserves each day's total", "statement": "With prec_type uniform and no UTC shift, for every day the sub-daily amounts are all equal, non-negative when the daily amount is, and sum to the daily amount.", "quantifier": "all daily series of all lengths and all accepted time steps", "why_tests_cant": "conservation must hold for every value, length and step", "anchors": ["metsim/disaggregate.py::prec"]}
{"id": "C17", "title": "Triangular precipitation conserves each day's total", "statement": "With prec_type triangle and no UTC shift, for every day whose triangle covers at least one weighted minute, the sub-daily amounts are non-negative (for a non-negative daily amount) and sum to the daily amount.", "quantifier": "all daily amounts, all peak times and durations per day, all accepted time steps, all record lengths", "why_tests_cant": "peak and duration are real numbers; the discretised triangle has many boundary cases", "anchors": ["metsim/disaggregate.py::prec"]}
{"id": "C18", "title": "Triangular precipitation has the documented shape", "statement": "With prec_type triangle, a minute receives precipitation only if it lies within half the duration of the peak time; intensity is non-decreasing up to the peak and non-increasing after it.", "quantifier": "all peak times, durations and daily amounts", "why_tests_cant": "shape is a statement about every minute of every real-valued peak/duration", "anchors": ["metsim/disaggregate.py::prec"]}
{"id": "C19", "title": "A triangle that covers no weighted minute loses the day's precipitation", "statement": "Exact characterisation of when the triangular method produces missing values for a day: exactly when no minute lies in [peak, peak+dur/2] and at most one minute lies in [peak-dur/2, peak]; on all other days it conserves mass. So conservation for every peak/duration is false (short events between two minutes, or a peak after minute 1439).", "quantifier": "all peak times and durations", "why_tests_cant": "an iff over real parameters", "anchors": ["metsim/disaggregate.py::prec"]}
{"id": "C20", "title": "Mixed precipitation uses uniform on freezing days and triangle otherwise", "statement": "With prec_type mix every day with t_min < 0 is distributed exactly as prec_type uniform would and every other day exactly as triangle would.", "quantifier": "all temperature and precipitation series", "why_tests_cant": "per-day branching over arbitrary series", "anchors": ["metsim/disaggregate.py::prec"]}
{"id": "C21", "title": "UTC shift of precipitation moves water in time but keeps the total", "statement": "With utc_offset the total precipitation over the record is unchanged, and the amount in each output step is the local-time amount at UTC time plus the cell's offset (wrapping around the record ends).", "quantifier": "all longitudes in [-180,180], all series, all accepted time steps, all prec_type values", "why_tests_cant": "roll direction, wrap-around and rounding of the offset depend on the real longitude", "anchors": ["metsim/disaggregate.py::prec"]}
{"id": "C22", "title": "Wind and cloud cover are constant through the day", "statement": "Without UTC shift each sub-daily wind / cloud value equals that day's daily value; with UTC shift each value is the mean of the daily values at the corresponding local minutes, stays within the range of the daily values, and the record mean is preserved.", "quantifier": "all daily series, all longitudes, all accepted time steps", "why_tests_cant": "all lengths and offsets", "anchors": ["metsim/disaggregate.py::wind", "metsim/disaggregate.py::tskc"]}
{"id": "C23", "title": "Sub-daily shortwave reproduces the daily energy", "statement": "Without UTC shift, sub-daily shortwave is non-negative and its mean over day d equals daily shortwave times daylength / 86400 times the sum of that day-of-year's radiation fractions (hence the daily energy exactly whenever the fractions sum to 1).", "quantifier": "all daily series, all daylengths, all radiation-fraction tables, all accepted time steps", "why_tests_cant": "energy conservation over arbitrary series and tables", "anchors": ["metsim/disaggregate.py::shortwave"]}
{"id": "C24", "title": "UTC shift of shortwave is a time shift", "statement": "With utc_offset, each 30-second contribution of day d to an output step is the product of the radiation fraction and of the daily rate found utc_offset steps later in the (circular) year and record; the result is non-negative, and the energy is unchanged when the record is one full 366-day table cycle.", "quantifier": "all longitudes, all series, all tables", "why_tests_cant": "two different circular buffers are rolled by the same amount", "anchors": ["metsim/disaggregate.py::shortwave"]}
{"id": "C25", "title": "All variables are shifted to UTC by the same amount and in the same direction", "statement": "The longitude is first normalised to [-180,180] (adding 360 degrees does not change the result); the shifts applied to precipitation, wind, cloud and to the times of minimum and maximum temperature are the same number of minutes, and the radiation shift differs from it by less than one minute; east longitudes move local events to earlier UTC times for all of them.", "quantifier": "all real longitudes", "why_tests_cant": "truncation toward zero and sign conventions must agree for every real longitude", "anchors": ["metsim/disaggregate.py::disaggregate", "metsim/disaggregate.py::set_min_max_hour", "metsim/disaggregate.py::prec", "metsim/disaggregate.py::wind", "metsim/disaggregate.py::tskc", "metsim/disaggregate.py::shortwave"]}
{"id": "C26", "title": "Times of minimum and maximum temperature are always usable", "statement": "For every location with |lat| <= 90 and every day of year (polar day and polar night included) the time of daily minimum precedes the time of daily maximum, which precedes the next day's minimum, so temperature interpolation never rejects its knots (0 < tmax_daylength_fraction <= 1).", "quantifier": "all latitudes in [-90,90], elevations, sequences of days of year, accepted time steps, longitudes", "why_tests_cant": "polar transitions happen at particular real latitudes/days; strict monotonicity must hold for all", "anchors": ["metsim/disaggregate.py::set_min_max_hour", "metsim/disaggregate.py::temp", "metsim/physics.py::solar_geom"]}
{"id": "C27", "title": "Sub-daily temperature stays within the neighbouring daily extremes", "statement": "Without UTC shift every sub-daily temperature lies between the two daily extremes (minimum/maximum of the same or adjacent days) that surround it in time, so it never leaves [min t_min, max t_max] of the record extended by the state day.", "quantifier": "all temperature series, all record lengths, all time steps and extreme times", "why_tests_cant": "overshoot of cubic interpolation depends on the data", "anchors": ["metsim/disaggregate.py::temp"]}
{"id": "C28", "title": "Sub-daily temperature passes through the daily extremes", "statement": "At the time of each day's minimum (maximum) the interpolated temperature equals the day's t_min (t_max) exactly.", "quantifier": "all series with strictly increasing knot times", "why_tests_cant": "all lengths and values", "anchors": ["metsim/disaggregate.py::temp"]}
{"id": "C29", "title": "Vapor pressure does not exceed saturation", "statement": "At every output step vapor pressure is at most the saturation vapor pressure at that step's temperature (documented correction).", "quantifier": "all inputs, all steps including those before the first and after the last sunrise of the record", "why_tests_cant": "the correction is applied before gap filling; end-of-record steps are filled afterwards", "anchors": ["metsim/disaggregate.py::vapor_pressure", "metsim/disaggregate.py::disaggregate", "docs/data.rst"]}
{"id": "C30", "title": "Relative humidity is a percentage", "statement": "Relative humidity is at most 100 always, non-negative for non-negative vapor pressure, and equals 100*vp/saturation when that is at most 100.", "quantifier": "all vapor pressures and temperatures", "why_tests_cant": "range over all reals", "anchors": ["metsim/disaggregate.py::relative_humidity"]}
{"id": "C31", "title": "Specific humidity is a mass fraction", "statement": "For 0 <= vapor pressure < air pressure specific humidity is in [0,1), zero only for dry air, and strictly increases with vapor pressure.", "quantifier": "all pressures", "why_tests_cant": "all reals", "anchors": ["metsim/disaggregate.py::specific_humidity"]}
{"id": "C32", "title": "Air pressure is physical", "statement": "For non-negative elevation and a positive mean column temperature air pressure is positive, at most standard pressure, equals it at elevation 0, and decreases with elevation.", "quantifier": "all temperatures, elevations and lapse rates in the stated domain", "why_tests_cant": "all reals", "anchors": ["metsim/disaggregate.py::pressure", "metsim/physics.py::atm_pres"]}
{"id": "C33", "title": "Longwave is positive and bounded", "statement": "For physical inputs every emissivity option gives positive longwave; clouds never reduce it; with the default (Prata, Deardorff) options it lies between clear-sky and black-body emission.", "quantifier": "all temperatures, vapor pressures, cloud fractions in [0,1], all 7x3 option pairs", "why_tests_cant": "transcendental formulas over all reals and all options", "anchors": ["metsim/disaggregate.py::longwave"]}
{"id": "C34", "title": "Supplied daily longwave is honoured", "statement": "When daily longwave is supplied, the mean of each day's sub-daily longwave equals that day's supplied value and the diurnal shape is unchanged up to a per-day factor.", "quantifier": "all series, time steps and options", "why_tests_cant": "all values and lengths", "anchors": ["metsim/disaggregate.py::longwave"]}
{"id": "C35", "title": "Gap filling only fills gaps", "statement": "The final forward/backward fill never changes a present value, leaves no missing value if at least one value is present, and gives each gap the nearest earlier value (or the first value).", "quantifier": "all columns with any pattern of missing values", "why_tests_cant": "all missing patterns", "anchors": ["metsim/disaggregate.py::disaggregate"]}
{"id": "C36", "title": "Daylight temperature lies between the daily extremes", "statement": "For t_min <= t_max and 0 <= tday_coef <= 1 the daylight-average temperature is between the daily mean and t_max.", "quantifier": "all temperatures and coefficients", "why_tests_cant": "all reals", "anchors": ["metsim/methods/mtclim.py::t_day"]}
{"id": "C37", "title": "Cloudy-sky transmittance is a fraction and rain lowers it", "statement": "For non-negative temperature ranges and 0 <= rain_scalar <= 1, the transmittance is in [0,1) - at least 0.1 on dry days and 0.1*rain_scalar on wet ones - increases with the daily range, and a day above the precipitation threshold gets exactly rain_scalar times its dry value.", "quantifier": "all ranges, precipitation amounts, thresholds, scalars", "why_tests_cant": "all reals", "anchors": ["metsim/methods/mtclim.py::tfmax"]}
{"id": "C38", "title": "Cloud cover is a fraction", "statement": "Daily cloud cover is in [0,1] for every accepted lw_cloud option.", "quantifier": "all transmittances reachable from daily inputs, both options", "why_tests_cant": "range of a nonlinear formula over all inputs", "anchors": ["metsim/methods/mtclim.py::tskc", "metsim/methods/mtclim.py::tfmax"]}
{"id": "C39", "title": "Daily shortwave is physical", "statement": "Daily shortwave is non-negative, at most potential radiation times transmittance bounds, and does not increase with humidity.", "quantifier": "all inputs in the physical domain", "why_tests_cant": "all reals", "anchors": ["metsim/methods/mtclim.py::shortwave"]}
{"id": "C40", "title": "Potential evapotranspiration is non-negative", "statement": "For non-negative radiation and daylength and physical temperatures PET is non-negative, and positive exactly when radiation and daylength are positive.", "quantifier": "all inputs in the physical domain", "why_tests_cant": "depends on monotonicity of saturation vapor pressure across its branch at 0C", "anchors": ["metsim/physics.py::calc_pet", "metsim/methods/mtclim.py::pet"]}
{"id": "C41", "title": "Dewpoint iteration returns a self-consistent result", "statement": "Whenever the daily estimation returns, the last change of the dewpoint series is within tdew_tol in root mean square, and the reported vapor pressure, shortwave and PET are the ones computed from the reported dewpoint.", "quantifier": "all inputs, all tolerances, any number of iterations", "why_tests_cant": "number of iterations is unbounded", "anchors": ["metsim/methods/mtclim.py::run"]}
{"id": "C42", "title": "Dewpoint iteration terminates", "statement": "For every positive tolerance the dewpoint iteration terminates on physical inputs; with a negative tolerance it never does.", "quantifier": "all inputs of all lengths, all tolerances", "why_tests_cant": "termination is a statement about an unbounded loop", "anchors": ["metsim/methods/mtclim.py::run"]}
{"id": "C43", "title": "Saturation vapor pressure is positive and strictly increasing", "statement": "Above -237.3 C saturation vapor pressure is positive and strictly increasing in temperature, across the freezing branch.", "quantifier": "all temperatures", "why_tests_cant": "two formulas glued at 0 C", "anchors": ["metsim/physics.py::svp"]}
{"id": "C44", "title": "Saturation vapor pressure slope is its derivative", "statement": "The slope function is the derivative of saturation vapor pressure at every temperature.", "quantifier": "all temperatures above -237.3 C", "why_tests_cant": "a derivative is a limit", "anchors": ["metsim/physics.py::svp_slope"]}
{"id": "C45", "title": "Passthrough keeps the variables the user supplied", "statement": "With method passthrough every daily variable already present in the input is left unchanged by the daily stage, missing ones are added, and absence of shortwave is rejected.", "quantifier": "all subsets of supplied variables and all values", "why_tests_cant": "exponentially many subsets", "anchors": ["metsim/methods/passthrough.py::run"]}
{"id": "C46", "title": "Passthrough shortwave is reproduced", "statement": "With method passthrough and default sw_averaging the daily mean of output shortwave equals the supplied shortwave, at sub-daily and daily time steps.", "quantifier": "all inputs, all accepted time steps including 1440", "why_tests_cant": "two code paths must agree for all values", "anchors": ["metsim/disaggregate.py::disaggregate", "metsim/metsim.py::wrap_run_cell"]}
{"id": "C47", "title": "Daily and sub-daily runs agree on shortwave", "statement": "With method mtclim the mean over each day of the sub-daily shortwave equals the daily-run shortwave for the same inputs (radiation fractions summing to 1).", "quantifier": "all inputs and accepted time steps", "why_tests_cant": "relates two different runs", "anchors": ["metsim/metsim.py::wrap_run_cell", "metsim/disaggregate.py::shortwave"]}
{"id": "C48", "title": "Seasonal predictors use exactly the trailing window", "statement": "For every simulated day, seasonal precipitation is 365.25 times the mean of the 90 days ending that day (state days used before the start), smoothed temperature range is the mean of the 30 days ending that day, and none is missing.", "quantifier": "all records of all lengths, all 90-day states", "why_tests_cant": "window alignment must be right for each day", "anchors": ["metsim/metsim.py::MetSim._aggregate_state"]}
{"id": "C49", "title": "Splitting a run does not change the seasonal predictors", "statement": "Running days [0,m) and then days [m,n) with a state file holding the 90 days before m yields the same seasonal precipitation and smoothed temperature range as one run over [0,n).", "quantifier": "all split points m, all records", "why_tests_cant": "relates runs with different histories", "anchors": ["metsim/metsim.py::MetSim._aggregate_state", "metsim/metsim.py::MetSim._unpack_state"]}
{"id": "C50", "title": "Inverted temperatures are rejected", "statement": "If any cell and day has t_max < t_min the run fails with an error before any output value is computed; otherwise that check passes.", "quantifier": "all forcing arrays", "why_tests_cant": "any single entry of an arbitrarily large array", "anchors": ["metsim/metsim.py::MetSim._aggregate_state"]}
{"id": "C51", "title": "State window is the 90 days before the start", "statement": "For every start date the state window has exactly 90 daily dates, ending the day before the start.", "quantifier": "all start dates, all supported calendars", "why_tests_cant": "window arithmetic is done in the standard calendar but dates are generated in the forcing calendar; only some start dates expose it", "anchors": ["metsim/metsim.py::MetSim._validate_force_times", "metsim/metsim.py::MetSim._aggregate_state", "metsim/datetime.py::date_range"]}
{"id": "C52", "title": "Monthly precipitation parameters follow the calendar month", "statement": "With prec_type triangle or mix every day uses the dur and t_pk of its own calendar month.", "quantifier": "all dates and all monthly tables", "why_tests_cant": "months are 1..12 and the loop ranges over 0..11; tests never check December", "anchors": ["metsim/metsim.py::MetSim.convert_monthly_param"]}
{"id": "C53", "title": "Binary forcing files decode to the right day and variable", "statement": "For a file of interleaved 16-bit values, reading returns for variable v and day d the word d*n_vars+v interpreted with v's signedness and divided by v's scale, for any number of configured variables.", "quantifier": "all byte sequences, all record lengths, all variable lists and scales", "why_tests_cant": "all bytes and all variable counts", "anchors": ["metsim/io.py::read_binary"]}
{"id": "C54", "title": "Truncated binary forcing files are never silently misread", "statement": "If the file has fewer words than needed, reading fails rather than returning a series with shifted or missing values; writing values and reading them back is the identity on representable values.", "quantifier": "all byte sequences and lengths", "why_tests_cant": "all truncation points", "anchors": ["metsim/io.py::read_binary", "metsim/io.py::process_vic"]}
{"id": "C55", "title": "Directory order of forcing files is irrelevant", "statement": "With files for distinct cells, the assembled forcing data do not depend on the order files are listed; files whose name does not parse, or whose cell is outside the domain or masked, do not affect any cell.", "quantifier": "all permutations of all file lists", "why_tests_cant": "os.walk order is unspecified", "anchors": ["metsim/io.py::process_vic"]}
{"id": "C56", "title": "Variable mapping delivers the named input variable", "statement": "After reading with a configuration mapping metsim_name -> file_name (distinct file names), the dataset's variable metsim_name is the file's variable file_name, nothing else is kept, and a missing file variable is an error.", "quantifier": "all mappings and datasets", "why_tests_cant": "all name maps", "anchors": ["metsim/io.py::_invert_dict", "metsim/io.py::read_netcdf", "metsim/io.py::read_yaml_config", "metsim/io.py::read_ini_config"]}
{"id": "C57", "title": "Configuration format is detected from the first non-comment line", "statement": "Detection terminates on every file and answers yaml exactly when the first line that is not a comment is `MetSim:` (up to surrounding blanks and an inline comment), and ini otherwise; leading blank lines do not matter.", "quantifier": "all file contents", "why_tests_cant": "all strings; loop over lines", "anchors": ["metsim/io.py::check_config_type"]}
{"id": "C58", "title": "INI booleans", "statement": "In an INI configuration utc_offset and period_ending are true exactly when the given text is `true` up to case and surrounding blanks, and false when absent; no other key changes type.", "quantifier": "all INI sections", "why_tests_cant": "all strings", "anchors": ["metsim/io.py::read_ini_config"]}
{"id": "C59", "title": "NetCDF time stamps are assigned to their own day", "statement": "Every input time stamp, at any time of the day, is mapped to midnight of the day it falls in.", "quantifier": "all dates and all times of day", "why_tests_cant": "rounding half to even makes the result depend on day parity at one instant", "anchors": ["metsim/io.py::read_netcdf"]}
{"id": "C60", "title": "Constant variables take precedence", "statement": "Every variable listed in constant_vars has that constant value at every time and cell regardless of the forcing data, and other forcing variables are untouched.", "quantifier": "all forcing datasets and all constant maps", "why_tests_cant": "all maps and arrays", "anchors": ["metsim/metsim.py::MetSim.met_data"]}
{"id": "C61", "title": "A new MetSim object starts from the documented defaults", "statement": "For every history of MetSim objects previously created in the process, a new object's parameters are the class defaults overridden by the ones given, and creating it does not change the parameters of existing objects.", "quantifier": "all histories of constructor calls", "why_tests_cant": "depends on unbounded process history; each unit test uses explicit parameters", "anchors": ["metsim/metsim.py::MetSim.__init__", "metsim/metsim.py::MetSim.params"]}
{"id": "C62", "title": "Recorded units describe the recorded numbers", "statement": "For every history of objects, the units attribute written for each output variable is the unit whose conversion was applied to its values.", "quantifier": "all histories of configurations with valid, invalid or absent units", "why_tests_cant": "module-level attribute tables persist between objects", "anchors": ["metsim/metsim.py::MetSim._update_unit_attrs", "metsim/metsim.py::MetSim.setup_netcdf_output"]}
{"id": "C63", "title": "Unit conversions are physically right", "statement": "Every supported target unit of every output variable is the physically correct conversion from the unit in which the value is computed.", "quantifier": "all variables, all supported units, all values, daily and sub-daily", "why_tests_cant": "a table of formulas over all reals", "anchors": ["metsim/units.py::converters", "metsim/disaggregate.py::vapor_pressure", "metsim/metsim.py::MetSim.run_slice"]}
{"id": "C64", "title": "Precipitation depth is independent of the output unit", "statement": "Integrating the output precipitation over the record gives the same depth for each of the three supported units.", "quantifier": "all series, time steps and units", "why_tests_cant": "all values", "anchors": ["metsim/units.py::converters"]}
{"id": "C65", "title": "Non-standard calendars give evenly spaced axes", "statement": "For calendars other than the standard one, date_range from start to end with step freq yields stamps start, start+freq, ... up to end, as it does in the standard calendar; frequency strings built from any positive step decode to that step and unit.", "quantifier": "all spans, steps and calendars", "why_tests_cant": "linspace re-spaces the axis when the span is not a multiple of the step", "anchors": ["metsim/datetime.py::date_range", "metsim/datetime.py::decode_freq", "metsim/datetime.py::units_from_freq"]}
{"id": "C66", "title": "Daylength and potential radiation are in range", "statement": "For every location and day of year daylength is in [0,86400] seconds, zero exactly in polar night, and potential radiation is non-negative.", "quantifier": "all latitudes in [-90,90], elevations, days of year", "why_tests_cant": "arccos clamping at the polar circles", "anchors": ["metsim/physics.py::solar_geom"]}
{"id": "C67", "title": "Radiation fractions form a distribution", "statement": "For every location and every day of year with daylight the 2880 radiation fractions are non-negative and sum to 1; they are all 0 in polar night.", "quantifier": "all latitudes and days of year", "why_tests_cant": "collisions of time slots depend on the hour angle", "anchors": ["metsim/physics.py::solar_geom"]}
{"id": "C68", "title": "Clear-sky transmittance is a fraction and the air-mass lookup never fails", "statement": "For every location and day with daylight the daily transmittance is strictly between 0 and 1, and the optical air-mass table index is always within the table.", "quantifier": "all latitudes, elevations below the scale height, days, hour angles", "why_tests_cant": "table index computed from arccos of a real", "anchors": ["metsim/physics.py::solar_geom"]}
{"id": "C69", "title": "Day 366 behaves like day 365", "statement": "In leap years the solar geometry used for the last day of the year equals that of the day before, and no day of year 1..366 is out of range.", "quantifier": "all locations", "why_tests_cant": "table is filled by a loop that stops one short", "anchors": ["metsim/physics.py::solar_geom", "metsim/metsim.py::wrap_run_cell"]}
{"id": "C70", "title": "Renaming outputs in one configuration does not affect later ones", "statement": "Reading an INI configuration gives the same output variable names whatever configurations were read earlier in the process.", "quantifier": "all histories of configuration files read", "why_tests_cant": "aliasing of a module-level table", "anchors": ["metsim/io.py::read_ini_config", "metsim/metsim.py::available_outputs"]}
{"id": "C71", "title": "State update keeps the last 90 days", "statement": "Updating the state after a run of any length keeps exactly the last 90 days of the old state followed by the run, dated to end on the last simulated day.", "quantifier": "all run lengths, also shorter than 90 days", "why_tests_cant": "all lengths", "anchors": ["metsim/metsim.py::MetSim._unpack_state"]}
{"id": "C72", "title": "Solar geometry is defined for every location", "statement": "The solar geometry computation succeeds for every latitude; the theorems establish that it fails exactly when some day has daylight but at most 30 seconds of it, and that such latitudes exist.", "quantifier": "all latitudes in [-90,90], all elevations and lapse rates", "why_tests_cant": "the failing latitudes are an extremely thin set near the polar circles", "anchors": ["metsim/physics.py::solar_geom"]}
{"id": "C73", "title": "Disaggregation of an acceptable daily frame never fails", "statement": "Given daily columns of one value per day, numeric temperature extremes, valid options and a radiation table with a row for each day, disaggregation completes and returns the documented columns in a fixed order, each with one value per output step.", "quantifier": "all records, options, locations and values, including missing values in the columns that allow them", "why_tests_cant": "success depends on every interpolation, reshape and assignment agreeing on lengths for every record length and step", "anchors": ["metsim/disaggregate.py::disaggregate", "metsim/disaggregate.py::set_min_max_hour"]}
{"id": "C74", "title": "Vapor pressure is defined at every output step", "statement": "When every daily vapor pressure is a number, sub-daily vapor pressure is a number at every output step.", "quantifier": "all records of any number of days, all time steps and locations", "why_tests_cant": "the interpolation is undefined outside the first and last minimum, and whether the filling covers that depends on the record length", "anchors": ["metsim/disaggregate.py::vapor_pressure", "metsim/disaggregate.py::disaggregate"]}
{"id": "C75", "title": "A passthrough cell with acceptable forcing never fails", "statement": "A cell whose forcing has the columns read by the passthrough method, with valid days of year, numeric temperatures and state and a place where the solar geometry exists, is run to the end without an exception, at every accepted time step.", "quantifier": "all forcings of all lengths, all latitudes where the geometry exists, all accepted options", "why_tests_cant": "absence of exceptions over unbounded data", "anchors": ["metsim/metsim.py::wrap_run_cell", "metsim/methods/passthrough.py::run", "metsim/disaggregate.py::disaggregate"]}
{"id": "C76", "title": "The dewpoint of each complete day has converged", "statement": "When the daily method finishes, the dewpoint of every day with complete input is the end of passes starting from the minimum temperature, the last of which changed it by at most sqrt(number of days) times the tolerance, whether or not other days of the record have gaps.", "quantifier": "all records of any length, with gaps anywhere, all tolerances and locations", "why_tests_cant": "the loop condition averages over the record, so one missing value anywhere silently ends the iteration for all days", "anchors": ["metsim/methods/mtclim.py::run", "metsim/methods/mtclim.py::tdew"]}
{"id": "C77", "title": "An mtclim cell with acceptable forcing is run to the end", "statement": "A cell with valid days of year, complete temperatures between -100 and 60 C, ranges and precipitation totals, numeric state and a place where the solar geometry exists is run by mtclim without an exception and in finitely many passes for every positive tolerance; with a negative tolerance it never ends.", "quantifier": "all forcings of all lengths, all latitudes where the geometry exists, all accepted options and tolerances", "why_tests_cant": "termination of a floating loop over unbounded data and absence of exceptions", "anchors": ["metsim/metsim.py::wrap_run_cell", "metsim/methods/mtclim.py::run", "metsim/physics.py::solar_geom", "metsim/disaggregate.py::disaggregate"]}
{"id": "C78", "title": "A run is accepted only if the forcing covers it", "statement": "A run is accepted exactly when its start and stop are days of the forcing, it then processes the forcing days between them, and every day between start and stop is one of them.", "quantifier": "all forcings, all starts and stops, dates or texts", "why_tests_cant": "the check compares the ends of an already sliced record; the holes of real records are arbitrary", "anchors": ["metsim/metsim.py::_validate_force_times", "metsim/io.py::read_netcdf", "metsim/io.py::read_data"]}
{"id": "C79", "title": "The word forcing stands for the ends of the forcing", "statement": "With start or stop equal to 'forcing' the run uses the first or last day of the forcing.", "quantifier": "all forcings, all values of the other bound", "why_tests_cant": "depends on the order in which the value is used as a slice bound and interpreted", "anchors": ["metsim/metsim.py::_validate_force_times", "metsim/io.py::read_netcdf"]}
{"id": "C80", "title": "Every processed day has its seasonal precipitation", "statement": "Whatever form start and stop are given in, each day that is processed has a seasonal precipitation when forcing and state are complete.", "quantifier": "all accepted starts and stops, all complete records of any length", "why_tests_cant": "the same text is interpreted by two different rules, as a period when slicing and as an instant when aggregating", "anchors": ["metsim/metsim.py::_validate_force_times", "metsim/metsim.py::_aggregate_state", "metsim/io.py::read_netcdf"]}
{"id": "C81", "title": "Setup reports exactly the violated requirements", "statement": "A configuration is accepted if it meets every requirement on inputs, output directory, format, time step, outputs, precision and longwave options; otherwise one error lists the message of every violated requirement and no other.", "quantifier": "all configurations", "why_tests_cant": "all combinations of violated requirements and any number of output names", "anchors": ["metsim/metsim.py::_validate_setup"]}
{"id": "C82", "title": "Cell temperatures lie between the surrounding extremes", "statement": "Every sub-daily temperature in the output of a cell lies between the daily minimum and maximum that come just before and just after it, placed at sunrise and at the tmax fraction of the day; before the first day the extremes of the last state day are used.", "quantifier": "all cells, options, records and legal sub-daily steps; utc offsets within half a day", "why_tests_cant": "the statement is about every step of every record and chains geometry, interpolation, state and gap filling", "anchors": ["metsim/metsim.py::wrap_run_cell", "metsim/disaggregate.py::temp", "metsim/disaggregate.py::disaggregate"]}
{"id": "C83", "title": "Cell precipitation keeps the daily amounts", "statement": "In the output of a cell in local time, the steps of a measured day with uniform precipitation, or with a triangular event that covers a minute, add up to the day's amount; a day that is not measured repeats the nearest earlier measured day.  The total of a complete uniform record is kept under utc_offset too.", "quantifier": "all records with any pattern of missing days, all legal sub-daily steps", "why_tests_cant": "missing days can occur anywhere and the gap filling couples days", "anchors": ["metsim/disaggregate.py::prec", "metsim/disaggregate.py::disaggregate", "metsim/metsim.py::wrap_run_cell"]}
{"id": "C84", "title": "Cell wind is constant over the day", "statement": "In the output of a cell in local time the wind of every step of a day is the day's wind, and that of a day without wind is the wind of the nearest earlier day that has one.", "quantifier": "all records with any pattern of missing days, all legal sub-daily steps", "why_tests_cant": "missing days can occur anywhere and the gap filling couples days", "anchors": ["metsim/disaggregate.py::wind", "metsim/disaggregate.py::disaggregate"]}
{"id": "C85", "title": "A worker runs each active cell on its own inputs", "statement": "Each active cell of a slice is run with its own coordinates, forcing, state and monthly parameters and with the diurnal ranges and seasonal values computed from its own record; cells outside the mask stay missing.", "quantifier": "all slices, shapes, masks, records", "why_tests_cant": "cells share one dataset and one parameter dictionary; a mix-up shows only for particular shapes", "anchors": ["metsim/metsim.py::wrap_run_slice", "metsim/metsim.py::run_slice", "metsim/metsim.py::_aggregate_state", "metsim/metsim.py::convert_monthly_param"]}
{"id": "C86", "title": "The finished files hold the converted results of the cells", "statement": "In a finished run whose files have different names each record of each file is, at an active cell, the value that the cell run alone has at the record's time stamp, in the requested units, and is missing outside the mask.", "quantifier": "all grids, chunkings, schedules, output frequencies, legal steps", "why_tests_cant": "quantifies over schedules of concurrent writers and all splits of the time axis", "anchors": ["metsim/metsim.py::run", "metsim/metsim.py::write_chunk", "metsim/metsim.py::run_slice", "metsim/metsim.py::setup_netcdf_output"]}
{"id": "C87", "title": "A run succeeds exactly when its active cells do", "statement": "The workers of a run finish without an exception if and only if each active cell of the grid can be run on its own, and then the run can be completed over any old directory.", "quantifier": "all grids, chunkings, masks and old directories", "why_tests_cant": "quantifies over chunkings and all earlier directory contents", "anchors": ["metsim/metsim.py::run", "metsim/metsim.py::wrap_run_slice", "metsim/metsim.py::run_slice"]}
{"id": "C88", "title": "A worker with acceptable inputs finishes", "statement": "If the setup is accepted, every cell of the slice can be loaded (90 days of state, no inverted day, monthly tables where needed), every active cell has complete temperatures, no day with more than 0 and at most 30 s of daylight and the inputs of its method (passthrough: shortwave; mtclim: precipitation and state without gaps, temperatures between -100 and 60 C, a positive tolerance), and the requested variables are supplied and in convertible units, then the worker finishes without an exception, at every accepted time step.", "quantifier": "all slices, records, masks and valid options", "why_tests_cant": "the inputs range over all records and options", "anchors": ["metsim/metsim.py::wrap_run_slice", "metsim/metsim.py::load_inputs", "metsim/metsim.py::run_slice", "metsim/metsim.py::_aggregate_state"]}
{"id": "C89", "title": "The time axis denotes the stamps of the records", "statement": "In every output file the time variable has one number per record; under the calendar and the unit the file names it denotes exactly the date and minute of that record, later stamps get larger numbers, every time stamp pandas can hold fits the 32-bit type, and only dates the calendar lacks are refused.", "quantifier": "all time stamps, both signs of the offset from 2000, standard, 365-day and 360-day calendars", "why_tests_cant": "a test covers a few years of one calendar", "anchors": ["metsim/metsim.py::setup_netcdf_output"]}
{"id": "C90", "title": "A header is complete or not written", "statement": "A header is written exactly when all names differ, the time attributes exist, the calendar has all dates and every recorded option and attribute can be held by netCDF; then the file has the dimensions of the mask and unlimited time, and each output, the time and each coordinate under its own name with its own type, dimensions, chunks, values and attributes.", "quantifier": "all domains, outputs, options and process histories", "why_tests_cant": "combinations of names, options and earlier objects are unbounded", "anchors": ["metsim/metsim.py::setup_netcdf_output"]}
{"id": "C91", "title": "Global attributes record the options in force", "statement": "Whatever objects and headers were made before in the process, also those that failed part way, the global attributes of a file show the options in force when it was made (all but the listed internal ones) and otherwise equal those of a fresh process.", "quantifier": "all histories of constructors and headers", "why_tests_cant": "the attributes live in a module-level dictionary that all earlier runs changed", "anchors": ["metsim/metsim.py::setup_netcdf_output", "metsim/metsim.py::__init__"]}
{"id": "C92", "title": "The time axis is labelled UTC exactly when utc_offset is in force", "statement": "In every output file the standard and long name of the time axis say UTC if the option utc_offset in force is true and local time otherwise.", "quantifier": "all histories of constructors and headers", "why_tests_cant": "needs histories in which a constructor fails part way", "anchors": ["metsim/metsim.py::_validate_force_times", "metsim/metsim.py::setup_netcdf_output"]}
{"id": "C93", "title": "More water vapour gives more longwave", "statement": "With each of the seven clear-sky options and each cloud option, a step with a higher vapour pressure and the same temperature and cloud has more longwave; only under a full Deardorff cloud is it equal.", "quantifier": "all temperatures above absolute zero, vapour pressures, cloud fractions and options", "why_tests_cant": "a real-valued inequality over three inputs and fourteen option pairs", "anchors": ["metsim/disaggregate.py::longwave"]}
{"id": "C94", "title": "A clear sky radiates less than a black body", "statement": "With each longwave option the radiation of a clear sky is less than that of a black body at air temperature.", "quantifier": "all temperatures and vapour pressures", "why_tests_cant": "a real-valued inequality; the options exceed it in different corners", "anchors": ["metsim/disaggregate.py::longwave"]}
{"id": "C95", "title": "Settings of a configuration file are used as given", "statement": "Every setting of the MetSim section reaches the simulation unchanged, except that the command line decides scheduler, workers and verbosity, out_dir is made absolute, a forcing directory stands for its files, the calendar defaults to standard and an empty list counts as not given; an INI file's two booleans are true exactly for the text true, and its prec_type defaults to uniform.", "quantifier": "all configuration files, command lines and directory contents", "why_tests_cant": "unbounded sets of settings and values; tests read one or two files", "anchors": ["metsim/io.py::read_yaml_config", "metsim/io.py::read_ini_config"]}
{"id": "C96", "title": "Variable tables of a configuration file keep their meaning", "statement": "The forcing, domain and state tables are indexed by the names in the files without losing an entry, chunks and constants are kept, and every output variable has units: its own, or the default of the variable.", "quantifier": "all tables, histories of the process and command lines", "why_tests_cant": "unbounded tables, including ones naming a variable twice", "anchors": ["metsim/io.py::_invert_dict", "metsim/io.py::read_yaml_config", "metsim/io.py::read_ini_config"]}
{"id": "C97", "title": "Configuration files with everything that is needed are accepted", "statement": "A configuration file is accepted exactly when it has every section and setting that is looked up and asks for outputs that exist; one without outputs gets the default outputs, and one that is accepted has forcing.", "quantifier": "all configuration files", "why_tests_cant": "an exact condition over all combinations of missing parts", "anchors": ["metsim/io.py::read_yaml_config", "metsim/io.py::read_ini_config", "metsim/metsim.py::MetSim.__init__"]}
{"id": "C98", "title": "YAML and INI files with the same content mean the same", "statement": "A YAML and an INI file with the same sections, settings and tables give the same settings.", "quantifier": "all contents and command lines", "why_tests_cant": "a relation between two readers over all files", "anchors": ["metsim/io.py::read_yaml_config", "metsim/io.py::read_ini_config"]}
{"id": "C99", "title": "Every cell is run on its own inputs", "statement": "Whatever the order, extent and dimension order of the forcing and state files, the worker of a slice uses for each of its cells the mask, place and monthly values of that domain cell and exactly what the files hold at its coordinates; a coordinate that a file lacks stops the run.", "quantifier": "all domains, slices and files with distinct labels", "why_tests_cant": "a relation over all arrangements of three files and all slices", "anchors": ["metsim/io.py::read_netcdf", "metsim/metsim.py::MetSim.met_data", "metsim/metsim.py::MetSim.state", "metsim/metsim.py::MetSim.run_slice"]}
{"id": "C100", "title": "Output files hold the runs of the input files", "statement": "For every chunking, schedule and output frequency that gives the files different names, each record of each active cell in the output files is the converted value, at that time, of the run of the cell on what the input files hold at its coordinates, and every other record is missing; acceptable inputs can be computed by all workers.", "quantifier": "all input files, settings, chunkings and interleavings", "why_tests_cant": "quantifies over files, decompositions and schedules together", "anchors": ["metsim/metsim.py::MetSim.run", "metsim/metsim.py::MetSim.run_slice", "metsim/metsim.py::MetSim.write_chunk", "metsim/io.py::read_netcdf"]}
{"id": "C101", "title": "Forcing passed in memory belongs to the cells at its coordinates", "statement": "A dataset passed as forcing gives each cell what it holds at the coordinates of that cell.", "quantifier": "all datasets and domains", "why_tests_cant": "tests pass data whose labels are already those of the domain", "anchors": ["metsim/io.py::read_data", "metsim/metsim.py::MetSim.met_data"]}
{"id": "C102", "title": "Columns of text forcing are the variables of the table", "statement": "With text forcing and a table naming every variable as itself, read from an INI or a YAML file, a cell gets under the i-th name of the table the i-th column of its own file on the days of the period; a cell without a file that covers the period is missing on every day.", "quantifier": "all configurations, tables, directories, domains and files", "why_tests_cant": "tests read one directory with four columns in one order", "anchors": ["metsim/io.py::process_vic", "metsim/io.py::read_ascii", "metsim/io.py::read_ini_config", "metsim/io.py::read_yaml_config"]}
{"id": "C103", "title": "Binary forcing follows its table", "statement": "With binary forcing and a table of scales and types, a cell gets under each name of the table the scaled words of that variable in its own file; a file that cannot be decoded leaves its cell missing.", "quantifier": "all configurations, tables, directories, domains and files", "why_tests_cant": "tests use one INI file and intact files", "anchors": ["metsim/io.py::process_vic", "metsim/io.py::read_binary", "metsim/io.py::read_ini_config", "metsim/io.py::read_yaml_config"]}
{"id": "C104", "title": "Humidity, pressure and longwave of a step follow from its temperature, vapor pressure and clouds", "statement": "At every step at which temperature, vapor pressure and cloud cover are written, relative and specific humidity, air pressure and longwave are the values the physics gives for them.", "quantifier": "all cells, options, steps and runs", "why_tests_cant": "tests compare ranges of whole series", "anchors": ["metsim/disaggregate.py::disaggregate", "metsim/disaggregate.py::relative_humidity", "metsim/disaggregate.py::pressure", "metsim/disaggregate.py::specific_humidity", "metsim/disaggregate.py::longwave"]}
{"id": "C105", "title": "Complete forcing gives complete output", "statement": "A cell below 6000 m with at least two days of forcing without gaps and with temperatures found on Earth, run with mtclim and steps of at most six hours, has a number in every column at every step.", "quantifier": "all such cells, forcings and options", "why_tests_cant": "a gap needs one combination of day, place and option; the final fill hides most of them", "anchors": ["metsim/metsim.py::wrap_run_cell", "metsim/disaggregate.py::disaggregate", "metsim/methods/mtclim.py::run"]}
{"id": "C106", "title": "Means of UTC days are made of the two local days they overlap", "statement": "With utc_offset and steps below a day, the mean shortwave of a UTC day is the share of its local day that falls on it plus the share of the neighbouring local day (the next one east, the previous one west of Greenwich) that does, each share taken from the radiation curve of its own day.", "quantifier": "all cells, longitudes, forcings, steps and days of a record", "why_tests_cant": "tests compare few days at few longitudes and never across the end of a record or of a year", "anchors": ["metsim/disaggregate.py::shortwave", "metsim/metsim.py::wrap_run_cell"]}
{"id": "C107", "title": "Daily estimates follow the published formulas", "statement": "On every day of a finished run, daylight temperature, clearness, cloud cover, vapor pressure, shortwave, potential evaporation and dewpoint are the values of the published formulas, with their published coefficients, for that day's inputs.", "quantifier": "all daily tables, parameters, days and runs of mtclim and passthrough", "why_tests_cant": "tests check ranges and a few reference values; a changed digit of a coefficient stays within both", "anchors": ["metsim/methods/mtclim.py::run", "metsim/methods/passthrough.py::run", "metsim/physics.py::calc_pet", "metsim/physics.py::atm_pres", "metsim/physics.py::svp", "metsim/constants.py"]}
{"id": "C108", "title": "Solar tables follow the published geometry", "statement": "For every place and day of the year the solar tables hold the daylight seconds, the mean potential radiation, the transmittance and the share of each 30 s of the day that the published geometry gives, with its published coefficients.", "quantifier": "all latitudes, heights, lapse rates and days of the year", "why_tests_cant": "tests check the shape of the tables and a few values", "anchors": ["metsim/physics.py::solar_geom", "metsim/constants.py"]}
{"id": "C109", "title": "Forcing with missing dates is refused", "statement": "When a date between the first and the last date of the forcing is missing, no worker with an active cell produces output; a cell that would otherwise be computed stops with a ValueError, for daily and sub-daily output alike.", "quantifier": "all increasing lists of dates with a gap, all forcing and settings with a positive time step", "why_tests_cant": "all test data are contiguous; the refusal happens only as a side effect of assigning a column of another length", "anchors": ["metsim/disaggregate.py::disaggregate", "metsim/metsim.py::wrap_run_cell"]}
{"id": "C110", "title": "Estimated radiation vanishes exactly in polar night", "statement": "With the mtclim method, measured temperature and rain and a positive rain scalar, every day has a non-negative radiation, which is 0 exactly on the days on which the sun does not rise, for daily output and for the mean of a day of sub-daily output.", "quantifier": "all latitudes, heights, days of the year, forcing and legal time steps", "why_tests_cant": "test cells are at mid latitudes, where the sun rises every day", "anchors": ["metsim/methods/mtclim.py::shortwave", "metsim/physics.py::solar_geom", "metsim/metsim.py::wrap_run_cell"]}
{"id": "C111", "title": "Files of days, weeks, months and years", "statement": "With out_freq D, W, M, MS, A, AS, Y or YS the output files have different names, hold the whole output axis between them, and two time stamps stand in the same file exactly if they belong to the same date, week, month or year.", "quantifier": "all first dates and record lengths in years 0..9999, legal time steps, both period_ending settings", "why_tests_cant": "tests use one short record; month and year boundaries and leap years are unbounded", "anchors": ["metsim/metsim.py::MetSim._get_output_times", "metsim/metsim.py::MetSim._get_output_filename", "metsim/metsim.py::MetSim.run"]}
{"id": "C112", "title": "Dimensions without coordinates are matched by position", "statement": "Along a dimension for which the domain or the forcing has no coordinates, every cell gets the forcing at its own position. True when neither has coordinates. Otherwise integer labels of the domain are used as positions of the forcing (negative ones from the end), real labels stop the run, and positions of the domain are looked up among the labels of the forcing.", "quantifier": "all domains, forcing files, slices and cells", "why_tests_cant": "tests use files with coordinates on every dimension", "anchors": ["metsim/io.py::read_netcdf", "metsim/metsim.py::MetSim.met_data", "metsim/metsim.py::MetSim.domain"]}
{"id": "C113", "title": "The records of a file belong to the time axis in its header", "statement": "For every output frequency, also when several groups of time stamps get the same file name (sub-daily frequencies), in every finished schedule of the workers record k of a file holds for every active cell the value of the k-th stamp of the file's time axis, and NaN for masked cells. The workers never wait for each other for ever.", "quantifier": "all grids, chunkings, time steps, output frequencies, and interleavings of the workers", "why_tests_cant": "a test sees one schedule and one output frequency; files with shared names are not tested", "anchors": ["metsim/metsim.py::MetSim.run", "metsim/metsim.py::MetSim.write_chunk", "metsim/metsim.py::MetSim._get_output_filename"]}
{"id": "C114", "title": "A file has no records beyond the time axis in its header", "statement": "The variables of an output file have exactly as many records as its time axis has stamps. True if and only if no group of the file's name is longer than the last one; false for example with files of five hours, whose last group of the run is shorter than the one before.", "quantifier": "all grids, chunkings, time steps, output frequencies, and interleavings of the workers", "why_tests_cant": "needs an output frequency that does not divide the run, and files that share a name", "anchors": ["metsim/metsim.py::MetSim.setup_netcdf_output", "metsim/metsim.py::MetSim.write_chunk"]}
{"id": "C115", "title": "Sub-daily vapor pressure interpolates the daily values and is capped by saturation", "statement": "With a vapor pressure (Pa) on every day, a step between the times of minimum temperature of two neighbouring days has the value in kPa of the straight line through the two daily values, or the saturation vapor pressure at its own temperature if that is less. Earlier steps repeat the first step from the first minimum on, later steps the last step until the last minimum; if no step lies between them nothing is defined.", "quantifier": "all forcings, places, time steps below a day, UTC settings and options", "why_tests_cant": "tests compare a few output columns with stored numbers for one site; the position of the minima, the cap, and the fill at both ends depend on season, latitude and time step", "anchors": ["metsim/disaggregate.py::vapor_pressure", "metsim/disaggregate.py::set_min_max_hour", "metsim/disaggregate.py::disaggregate"]}
{"id": "C116", "title": "A run in any calendar has the time stamps of that calendar", "statement": "date_range from start to end with a frequency gives, in every calendar, the stamps start, start + step, ... up to end of the standard calendar whose dates the calendar has: all of them for standard, gregorian and proleptic_gregorian, those that are not on 29 February for noleap and 365_day, those that are not on a 31st for 360_day. The axis of the output files has a whole day of stamps for every such day of the forcing, with period-ending stamps too.", "quantifier": "all starts, ends, frequencies and calendar names", "why_tests_cant": "tests run in the standard calendar over a few dates; other calendars take another branch that converts to numbers, re-spaces them and converts back, and fails only for ranges that touch the end of a February or a 31st", "anchors": ["metsim/datetime.py::date_range", "metsim/datetime.py::decode_freq", "metsim/metsim.py::MetSim._get_output_times"]}
{"id": "C117", "title": "A run works in the calendar of its forcing", "statement": "A worker whose calendar is standard, gregorian or proleptic_gregorian computes what the model of the standard calendar computes. With noleap or 365_day, a run over all dates of that calendar finishes and computes every active cell from its own inputs, with a day of steps for every date of the forcing and 90 and 30 day means that count dates; with 360_day the same holds without the 31sts.", "quantifier": "all calendar names, dates, cells, masks, settings and requested variables", "why_tests_cant": "tests run in the standard calendar; whether a run in another calendar survives depends on whether the 90 days before its start contain a date that the calendar lacks", "anchors": ["metsim/metsim.py::MetSim._aggregate_state", "metsim/metsim.py::run_slice", "metsim/metsim.py::wrap_run_cell", "metsim/disaggregate.py::disaggregate", "metsim/datetime.py::date_range"]}
{"id": "C118", "title": "The calendar of the forcing is the calendar of the run", "statement": "A run takes its calendar from the time coordinate of its forcing and falls back to the configuration only if the forcing names none. A forcing file of daily data in 365 day years is read as the same dates of the standard calendar, in order, and a run over any part of it is computed in 365 day years.", "quantifier": "all calendars, files of consecutive days, times of the day, starts, stops, cells and settings", "why_tests_cant": "tests use forcing in the standard calendar; whether the calendar survives reading shows only for files of another calendar whose run spans a date that calendar lacks", "anchors": ["metsim/io.py::read_netcdf", "metsim/io.py::read_data", "metsim/metsim.py::MetSim._validate_force_times"]}
{"id": "C119", "title": "Every cell is run on the file named after it", "statement": "With a directory of text or binary forcing files, and however the domain is split, the worker of a slice runs each active cell on the file whose name ends in the coordinates of the cell, with the elevation, monthly values and state of that place; every output file holds, at every time, the converted value of that run and NaN outside the mask. An active cell without a readable file does not affect the output of the others.", "quantifier": "all directories, file names and contents, domains over lat and lon in either order, masks, chunkings, settings and schedules", "why_tests_cant": "the tests use a directory in which every cell of a small domain has its file and compare a few values; a file read for the wrong cell of another slice, or a missing file, does not occur", "anchors": ["metsim/metsim.py::MetSim.met_data", "metsim/metsim.py::MetSim._run_slice", "metsim/io.py::process_vic", "metsim/io.py::read_ascii", "metsim/io.py::read_binary"]}
{"id": "C120", "title": "A worker that dies is run again without harm", "statement": "When worker processes die at any point of a run, any number of times, and their slices are run again from the beginning, every output point is at all times either unwritten or final, and the run finishes with the same files as one in which nobody died. Files outside the run are left alone, and every restart costs at most the steps of one worker.", "quantifier": "all systems of workers with disjoint cells, all schedules, all points of death including those in the middle of a write, any number of restarts, with lock services that free the locks of the dead and with those that do not", "why_tests_cant": "the tests run to the end with all workers alive; the moment of death relative to the locks and buffers cannot be enumerated", "anchors": ["metsim/metsim.py::MetSim.run", "metsim/metsim.py::wrap_run_slice", "metsim/metsim.py::MetSim.write_chunk"]}
{"id": "C121", "title": "The estimate of a day does not depend on the other days of the record", "statement": "A day with the same forcing, solar geometry and seasonal predictors gets the same dewpoint, vapor pressure, radiation, evaporation, transmittance and cloud cover from mtclim in every record in which it occurs, whatever the number, order and content of the other days.", "quantifier": "all records of any length containing the day at any place, all parameters and tolerances", "why_tests_cant": "tests run one record; a dependence on the other days through the averaged stopping rule shows only by comparing records of different lengths", "anchors": ["metsim/methods/mtclim.py::run", "metsim/methods/mtclim.py::tdew"]}
{"id": "C122", "title": "Later forcing does not change earlier output", "statement": "Two records of a cell that agree on their first m days, in forcing, dates and initial state, are disaggregated to the same values at every step of all but the last of these days, whatever the forcing of the later days and however many there are. A column may differ only when it has no measurement on the common days and is filled back from a later one.", "quantifier": "all pairs of records of any lengths with a common beginning of at least two days, all legal time steps, latitudes, precipitation shapes, longwave options and supplied columns", "why_tests_cant": "tests run each record once; influence of a later day on an earlier step shows only by comparing pairs of records", "anchors": ["metsim/disaggregate.py::disaggregate", "metsim/disaggregate.py::temp", "metsim/disaggregate.py::vapor_pressure", "metsim/disaggregate.py::wind", "metsim/methods/passthrough.py::run"]}
{"id": "C123", "title": "Constants and monthly tables do not lose their fraction to the storage type of the forcing", "statement": "A variable listed in constant_vars holds exactly the configured number, and the storm duration and peak time hold exactly the number of the domain's monthly table, whatever the storage type (whole numbers or floats) of the forcing variables; the other variables keep their values and storage type.", "quantifier": "all forcing datasets with any mixture of storage types, all constant maps, all monthly tables", "why_tests_cant": "test forcing is always stored in floats; the storage type of the first variable decides for all constants", "anchors": ["metsim/metsim.py::MetSim.met_data", "metsim/metsim.py::MetSim.convert_monthly_param"]}
{"id": "C124", "title": "A run takes what the scheduler needs and gives it back", "statement": "Only the parent of a run starts or joins a dask cluster, and only for schedulers that are not dask's own; a worker of a slice never does. The progress bar never changes the outcome of a run. After run() nothing keeps running and no connection is held, whether the run completes or fails. A worker hands dask a scheduler that dask knows.", "quantifier": "all scheduler texts, verbosities, numbers of workers, outcomes of the set-up and of the slices", "why_tests_cant": "tests use one or two schedulers and do not look at clients after a run; failing runs with a cluster are not tested", "anchors": ["metsim/metsim.py::MetSim.__init__", "metsim/metsim.py::MetSim.run", "metsim/metsim.py::wrap_run_slice"]}
{"id": "C125", "title": "Earlier forcing does not change later output", "statement": "Two records of a cell of the same length that agree from day m on, in forcing and dates, are disaggregated to the same values at every step from day m + 1 on, whatever the forcing of the earlier days and whatever the state before the record. A column with a gap at the beginning of day m + 1 may differ, in one value, up to the end of the gap.", "quantifier": "all pairs of records with a common end of at least two days, all initial states, all legal time steps, latitudes, precipitation shapes, longwave options and supplied columns", "why_tests_cant": "tests run each record once; influence of an earlier day on a later step shows only by comparing pairs of records", "anchors": ["metsim/disaggregate.py::disaggregate", "metsim/disaggregate.py::temp", "metsim/disaggregate.py::vapor_pressure", "metsim/disaggregate.py::wind", "metsim/methods/passthrough.py::run"]}
