{
 "C05": "REFUTED as stated: calculate_fz uses np.gradient, which is one-sided at the first and last longitude, so the vertical flux depends on where the seam is (C05_vertical_flux_depends_on_seam_refuted). Proved: equivariance away from the seam, of the stability correction, and of the tracking step given the vertical flux.",
 "C15": "REFUTED: the results of fillna(0) are discarded, a calm cell becomes 0/0 = NaN and poisons tracked storage (in IEEE binary64 too). Proved: what holds if one component is non-zero.",
 "C16": "REFUTED: limiting is done at cell centres, staggering afterwards averages with a moist neighbour; a dry cell can lose more than it contains. Proved: the bound under the extra hypothesis that the neighbours hold no more moisture.",
 "C19": "REFUTED: evaporation and precipitation (per unit area) are divided by the cell area in the closure. Proved: the statement without surface fluxes.",
 "C26": "REFUTED: timestep is a plain int, 0 (or negative) is accepted and the loop never advances (C26_zero_timestep_runs_forever_refuted). Proved: termination for every positive timestep.",
 "C31": "Storage is exact: over the reals (file storage is the identity). The single-precision rounding of the restart file is the subject of C81.",
 "C59": "REFUTED: the closure adds the gained percentage instead of subtracting it; C59_closure_above_100_refuted gives a run whose log reports more than 100%. Proved: on every grid with cell area proportional to cos(latitude), the reported closure is exactly 100% + 2 x gained%, hence 100% iff nothing was gained.",
 "C33": "REFUTED: add_time_bounds always uses the full output frequency; C33_time_bnds_refuted gives a run whose last file covers 1 s but is labelled with 2 s. Proved: when timestep | output frequency and the run begins and ends at output times, the bounds are exactly the accumulation period (C28_*_file_content identifies that period).",
 "C32": "REFUTED as stated: output names have minute resolution, so sub-minute output times overwrite each other (C32_overwrites_refuted). Proved: names collide iff same minute; distinct for timestep >= 60 s; directions never collide.",
 "C65": "REFUTED: a start that is not a multiple of the input frequency (since 1970) makes every load at every time fail, because the tracker floors to multiples of the frequency. The aligned case is C35.",
 "C23": "REFUTED: the latitudinal extent of a cell is computed from the longitude spacing; the area is right iff the spacings are equal (general theorem for every interior cell). Proved for equal spacings.",
 "C40": "REFUTED: boxes across the antimeridian use strict inequalities (edge columns dropped), and west = east keeps everything but that meridian. Proved when no column lies on an edge, or west < east.",
 "C67": "REFUTED: if exactly one column of the rolled domain lies before the antimeridian the derived spacing is 360 - d; in all other cases it is d (the theorem gives both).",
 "C47": "REFUTED: the sign convention is such that dew (negative evaporation) is subtracted from precipitation instead of added (C47_..._refuted). Proved: non-negativity, and the net flux wherever hfls >= 0.",
 "C52": "REFUTED: no string shorthand works for model levels: the configuration only accepts 'All', get_edges compares with 'all'; both end in an exception. Proved: the full explicit list 1..137 works.",
 "C49": "REFUTED for integer level coordinates (ARCO-ERA5 and older ERA5 files): np.insert/assignment into an integer coordinate truncates the surface pressure and the boundary to whole Pa (error < 1 Pa each, C49_integer_levels_error_partial). Proved exactly for floating-point coordinates.",
 "C43": "REFUTED: dates are exported with %Y%m%dT%H:%M, so seconds are dropped (C43_seconds_are_lost_refuted). Proved: the export cuts to the minute, hence round trips exactly whole-minute dates; ISO strings round trip.",
 "C45": "REFUTED: the dot of '10.' is not escaped in the regular expression, so text that is not a DOI is accepted (C45_dot_is_a_wildcard_refuted). Proved: every DOI after text without '10' is parsed into its two parts; whatever is returned occurs in the text; text without '10' is rejected.",
 "C70": "REFUTED: a region across the antimeridian (e.g. 170E-190E) is cut in two and its two ends become neighbours, 360-(n-1)dx apart (C70_region_across_antimeridian_refuted). Proved for regions on one side.",
 "C71": "REFUTED: the advection assumes latitudes in decreasing order (a comment says so) but nothing sorts or checks; storing the data south-to-north is the same as reversing the meridional wind (general theorem).",
 "C61": "REFUTED: the figure leaves out the last output period of the run in both directions, fails for a run of a single period, and fails (FileNotFoundError) when the start of the run is not an output time. Proved: exactly which files an aligned run's figure shows, for every number of periods.",
 "C62": "REFUTED: because of `not a and b` precedence a value above the range is never reported. Proved: exactly when check_range warns; no false alarms.",
 "C72": "REFUTED: the factor is always 3600 s, so the figure is wrong by 3600 s / freq for every other input frequency (C72_figure_scale, C72_other_frequencies_refuted). Proved for hourly data. The sum is reached only with dates that pandas accepts: see C113.",
 "C73": "REFUTED: an unevenly spaced coordinate raises NameError and a missing one KeyError instead of a warning. Proved: exact conditions for the sign and order warnings, and that the checks are silent exactly if all requirements hold (with the weak range requirement of C62).",
 "C74": "REFUTED: a run started from the copy in the output folder always fails (shutil.SameFileError). Proved: the copy is made, nothing else changes, and any copy kept elsewhere repeats the run.",
 "C80": "REFUTED for the three-hourly variables: time steps are averaged in pairs after concatenating the files in listing order (glob does not sort); if a file ends within a six-hour period another listing silently gives another flux, and a file that does not begin at 01:30 may come first and raise (both refuted theorems). Proved: six-hourly variables always; three-hourly if every file holds whole six-hour periods from 01:30.",
 "C81": "The tracked storages are float32 arrays in memory (numpy 2 promotion rules: Python scalars do not widen, in-place updates keep the type), so writing and reading them back loses nothing. C81_..._any_arithmetic is the statement for an arbitrary arithmetic whose rounding settles. C81_files_in_single_precision discharges the hypothesis on the input; C81_world, C81_case and C81_files_case show a run meeting all hypotheses.",
 "C82": "Values of results are assumed not to overflow (all_finite of the result). Example C82_rounding_creates_mass shows that the sum of the tendencies is not exactly zero.",
 "C83": "The balance is about one step; results are assumed not to overflow (fwd_numbers/bwd_numbers of the result), cells are at least 1 m2 large. C83_forward_case and C83_backward_case show a step that meets all hypotheses.",
 "C84": "Exact (real-number) balance is C29; this is the version with the program's single- and double-precision roundings and float32 files. Results are assumed not to overflow; C85 removes that assumption for healthy data. C85_case and C85_backward_case show runs meeting all hypotheses (with ex_world_shape and ex_healthy).",
 "C85": "Hypotheses: healthy64 (ranges of the data) and, for a restarted run, a previous file with storages between 0 and 2^20, which the theorem shows every file of a run to have. ex_world_shape, ex_healthy, C85_case and C85_backward_case show a non-trivial world, run and completion. The requirement that some flux does not vanish is needed: 0/0 in the stabilisation gives NaN otherwise.",
 "C86": "The area that shapely computes is modelled as the double integral of the even-odd interior over the box (Polygon.v), with integrability, additivity and bounds proved for every polygon; rectangle_area and triangle_area check the definition. GEOS's algorithm and rounding are not modelled. C87_case meets the hypotheses.",
 "C87": "REFUTED: on a global axis -180, -180+d, ... the cells end at 180-d/2, so that the part of a polygon between 180-d/2 and 180 is lost, without an error if the rest or a cell is near (C87_polygon_at_the_antimeridian_refuted, C87_lost_polygon). Proved for all polygons that the cells cover (C87_total_area_partial, C87_case).",
 "C88": "REFUTED: regionmask leaves out regions without a grid point and the mask is then chosen by position, so that on a regional grid a number stands for a different region (C88_region_off_the_grid_refuted); with srex, giorgi and prudence the number 0 gives the last region (C88_number_zero_refuted). Proved when all regions with smaller numbers are on the grid.",
 "C89": "REFUTED: the masks are averaged, so that a cell in one of k chosen regions gets the weight 1/k (C89_weight_of_one_of_several_refuted), and no regions give NaN everywhere (C89_no_regions_refuted). The value actually written is characterised by C89_several_regions_partial.",
 "C90": "Real arithmetic; levels with floating-point or integer coordinates; with the latter the boundary must be a few pascals from the ground (boundary_in_air; in general C49 is refuted). C90_case (pressure levels, one below the ground, domain cropped) and C90_model_levels_case meet the hypotheses.",
 "C91": "comes_from relates a cell of the run's domain to the raw cell with the same latitude and meridian (unique: comes_from_unique). C90_case meets the hypotheses.",
 "C92": "C90_case meets the hypotheses and has an output file.",
 "C93": "Real arithmetic; floating-point level coordinate. C90_case and C93_case meet the hypotheses (pressure levels), C90_model_levels_case those on model-level data.",
 "C94": "Times must be whole seconds from 1900-01-01, which those of preprocessing are. static_ok: the other variables (coordinates, bounds) have no time dimension. C94_case meets the hypotheses.",
 "C95": "REFUTED: variables are written one after the other; after a crash between time and a field the file has the new time with nothing (nan) in that field (C95_incomplete_record_refuted; C95_case). Proved: the old records survive every such crash; a rerun repairs the file (C54).",
 "C96": "REFUTED: the first time of a day is written with mode \"w\"; if the second run starts on a day that the first has begun, it overwrites that day's file, and tracking then fails with KeyError at the lost times (C96_split_within_a_day_refuted). Proved: equal if the division is between two days. C96_case meets the hypotheses of both.",
 "C97": "REFUTED for hostile servers: a listed file name with slashes (../x) overwrites files outside the target directory (C97_hostile_file_name_refuted). Proved: an existing target is refused and nothing changes; with listed names without slash nothing existing changes, whatever happens.",
 "C98": "REFUTED: download does not check the status (error pages are stored as files), stores compressed answers undecoded (r.raw), and files with the same name overwrite each other (C98_what_is_stored_refuted, C98_error_page_refuted). Proved: complete if names are distinct and plain and the answers are uncompressed and without error.",
 "C99": "REFUTED: the directory is created before the first request, so every later attempt is refused with FileExistsError (C99_retry_refused_refuted). Proved: a rejected DOI leaves nothing; removing the directory brings back the state before.",
 "C100": "Real arithmetic. The data are those get_input_data returns (input_data); sound: moist air, a layer boundary in the air, fluxes not negative. Proved by showing that such data could have come from ERA5 (inverting the dew point formula), so that C90 and C91 apply. C100_case meets the hypotheses, with integer and floating-point levels.",
 "C101": "Real arithmetic. The store is modelled by its fields for the times it has; same_fields says what it means that an ERA5 download holds the same data. C101_case meets the hypotheses.",
 "C102": "Real arithmetic. All variables on one grid (xarray would align others); three-hour flux files have an even number of intervals of whole days (otherwise C80, refuted); evaporation on average not negative (dew: C47, refuted). C102_tracked_data for a floating-point level coordinate. Latitudes must descend, as everywhere (C71, refuted). C102_case meets the hypotheses.",
 "C103": "No level exactly at the surface pressure (there a tie in sorting would have to be broken by order). C103_case: two layouts with the same content.",
 "C104": "Format specifications other than zero padding are not modelled (error). All variables on one grid (xarray would align others to the grid of q, filling with NaN). A file is its one variable with coordinates and values per time. C105_case meets the hypotheses of C104_files_are_loaded, C104_names_case those of the name theorems.",
 "C105": "Real arithmetic. By C104 the loaded data are those the files hold; then C90. C91 and C92 follow in the same way from C105_files_are_their_data. C105_case: files with more levels in another order, new spellings, with and without total column water.",
 "C106": "REFUTED for crashes while a file is written: the part that was written counts as existing, so runs with skip_exist never repair it and report nothing (C106_interrupted_refuted, for every script). Proved: names and requests; the claim if nothing is left of unsuccessful downloads (C106_interrupted_partial); repair without skip_exist; the chain to preprocessing. cdsapi is modelled by its possible outcomes (success, exception, death, with any part of the file left).",
 "C107": "REFUTED for dates with seconds (C107_seconds_refuted), for characters beyond the basic plane in texts (json writes two surrogates, PyYAML does not join them: C107_other_planes_refuted) and for infinite or nan numbers (written as null: C107_infinite_refuted). Proved for all other accepted configurations, from any working directory (C107_reads_back_partial, C107_accepted_are_valid); json.dumps and the flow-style part of PyYAML are modelled character by character (C107_yaml_reads_json). Python's float repr and pydantic's URL normal form are parameters of the theorems with their contracts as hypotheses (met by C107_case).",
 "C108": "REFUTED: ~ is not expanded (the examples of the documentation make a folder named ~ in the working directory) and the documented shorthand \"all\" is rejected (\"All\" is accepted). Proved: relative and absolute paths, level lists.",
 "C109": "REFUTED for rejected configurations: once the dates are readable, the folders are made whatever else is wrong, dates in the wrong order included. Proved for accepted configurations, and that unreadable dates leave nothing. Parents of new folders are not modelled.",
 "C110": "Coordinates are compared as real numbers. Alignment is modelled for latitude, longitude and level; dimensions without coordinates and other dimensions are not modelled. Repeated labels in the grid of q are an error in the model whenever labels have to be looked up (xarray accepts some such cases).",
 "C111": "REFUTED: both layers of a step write to the same file; if both warn, the first warning names a file with the field of the second (C111_overwritten_refuted). Proved: the last warning of every step is kept, at most the upper layer's is lost, different steps have different files, nothing else is touched. The content is the field; netCDF encoding is not modelled.",
 "C112": "REFUTED in both directions: gregorian, 365_day and 366_day always give a warning, proleptic_gregorian does for data of 1678-2261 (C112_false_alarm_refuted); only one file of one variable is looked at (C112_other_files_refuted). Proved: for that file silence is safe (the standard and the proleptic Gregorian calendar agree on every date datetime64 can hold), mismatches are reported, the main names give no false alarm. xarray's choice of datetime64 is modelled as: standard or proleptic Gregorian, and all times fit into 64 bits of nanoseconds.",
 "C113": "REFUTED: the input figure hands the configuration's cftime dates to pd.date_range, which makes pandas timestamps of its ends and raises TypeError; so `visualize input` and `visualize both` fail for every accepted configuration (C113_input_never_refuted, C113_both_never_refuted), the latter even where `visualize output` works. Proved: `visualize output` saves its figure after every aligned run over at least two output periods (what it shows: C61), and with pandas timestamps the input figure would be made (C113_timestamps_would_do). pandas' refusal of cftime objects is part of the model, from pandas' documented behaviour. C113_case meets all hypotheses.",
 "C114": "REFUTED: of two commands with the same output folder in the same second of the local clock only the second's log is left (C114_same_second_refuted); in a process that runs several commands all messages go to the first command's file, the other files stay empty (C114_one_process_refuted, basicConfig works once per process). Proved: a command in its own process has its complete log, nothing else is touched, and after any history of such commands with distinct seconds or folders all logs are there. A file emptied while the same process still writes to it is not modelled. C114_case meets all hypotheses.",
 "C115": "REFUTED: initialize builds the output dataset without the attributes of the input, so get_main_attrs never sees a source or history: every file of every run has source UNKNOWN and a history that begins with itself (C115_source_lost_refuted, C115_history_lost_refuted). Proved: the other attributes of every file, and that get_main_attrs would keep an origin it is given (C115_would_be_kept). A run is any sequence of assignments to variables and writes; that xr.Dataset({...}) has no attributes is part of the model. C115_case meets the hypotheses.",
 "C116": "REFUTED: bounds are not cut off at the poles, so a global axis with latitudes of 90 degrees (ERA5's: C116_era5) has cells that end half a spacing beyond them, whereas the cell areas of get_grid_info are cut off. Proved: exactly which cells are affected (C116_exactly), none on axes that stay half a cell away."
}