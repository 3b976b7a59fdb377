# A Rocq/Coq model of WAM2layers

Target: `/repo` (WAM2layers, Python).  Everything below is about the source at the
pinned commit; nothing of it is executed.  Coq 8.16.1, standard library, and
Coquelicot for the Riemann integral in `Sphere.v` and `Integral.v`; no axioms but the
standard library's (plus `lra`, `lia`, `field`, `nra`, all of which produce kernel-checked terms).

## 1. What is modelled, and how

Model files hold the definitions (each with the file and lines in `/repo` it models);
property files hold specifications and theorems.  All are in `rocq/theories`.

| Coq file | models / proves |
|---|---|
| `Num` | the number type.  A record `NumOps` of operations; every numerical function of the model is written once, for an arbitrary `NumOps`. Instances: exact reals `Rnum`; extended reals `XRnum` (reals plus `inf`, `-inf`, `nan` with the IEEE rules for special values); IEEE binary64 `F64` (standard library `SpecFloat`, executable), with rounding to binary32 (`nstore`) where the program works on float32 arrays |
| `Arr` | numpy 2-d arrays with shapes, broadcasting, padding, slicing, `where`, `gradient`; a shape mismatch is an error value |
| `Core`, `Track` | `tracking/core.py`; `forwardtrack`/`backtrack` (one step) |
| `Cells`, `Sums`, `SpecTransport`, `StepR` | spec of transport per face; sums; what one step computes per cell |
| `HAdv`, `AdvProps`, `StepProps`, `StepBounds`, `Stabilize`, `Fz`, `StepEq`, `StepExample`, `Finite` | C01-C21, C24, C75 |
| `Progress` | `utils/profiling.py:ProgressTracker` |
| `Run` | `run_experiment` of both directions, `initialize`, `initialize_time`, the output loop, `write_output` |
| `Ieee`, `Single`, `RoundMass`, `RoundStep`, `RoundBalance`, `RoundFlux`, `RoundRun`, `RoundFinite` | binary64 and binary32 as rounded real arithmetic (Flocq); C82–C85 |
| `RunSched`, `RunBody`, `RunGen`, `RunProps`, `RunInv`, `Restart`, `RestartF`, `Closure`, `LogLines`, `ExampleRun`, `RunEq`, `Warnings`, `Period` | C13, C25-C31, C33, C59, C60, C76, C77, C81 |
| `Calendar`, `Names` | dates in all cftime calendars, file names and labels: C32, C64 |
| `Load`, `Cache` | `load_data`, `load_slice` with its LRU cache, `read_or_retry`: C34-C37 |
| `Prep`, `PrepTrack`, `Pieces` | which times are preprocessed, day files, parallel schedules, crashes: C35, C53, C54, C65, C96 |
| `Append` | `preprocessing/xarray_append.py` on netCDF files with named dimensions and encoded times; the files of `Prep` as netCDF files: C94, C95 |
| `Download` | `download.py`, `cli.py:download` on a file system with directories, servers that may fail at any point: C97-C99 |
| `Sphere`, `Region` | `get_grid_info`; `initialize_tagging_region`, `select_subdomain`, `mask_around_point/track`: C22, C23, C38-C41, C66, C67 |
| `EraPrep`, `EraTrack`, `EraPhys` | `preprocessing/shared.py:preprocess` for a whole grid, the chain from raw ERA5 data to tracking output: C90-C93 |
| `Polygon`, `Shapes`, `RegionMask` | `utils/shapefile_mask.py`; `mask_with_regionmask`, `mask_with_shapefile`: C86-C89 |
| `Surface`, `Humidity`, `Era5Table`, `ModelLevels` | surface fluxes, humidity, model level thicknesses: C46, C47, C51, C52, C78 |
| `Interp`, `Levels`, `LayersR`, `Extend`, `Thickness`, `Integral`, `ColumnProps`, `ProfileExample`, `CmipLevels` | interpolation and vertical integration: C48-C50, C68, C69, C79 |
| `Lon`, `LatOrder`, `Cmip`, `CmipFiles`, `Validate` | C55-C58, C70, C71, C80 |
| `Sources`, `CmipTrack` | `arco.py:get_input_data`, `cmip.py:get_input_data`, `shared.py:preprocess` from any source, the chains from ARCO-ERA5 and CMIP data to tracking output: C100-C103 |
| `EraFiles` | `era5.py:open_da` with its cache, `load_data`, `get_input_data` on named files, `str.format` as far as file name templates use it: C104, C105 |
| `EraDownload` | `scripts/download_era5_pl.py`, `scripts/download_era5_ml.py`: names, requests, runs with failures and crashes: C106 |
| `JsonText` | json.dumps and PyYAML's flow style, character by character (used by `config.py` l.506-521, l.594-609): C107 |
| `ConfigFile` | `config.py`: all settings, from_yaml, validators, paths, to_string; folders made: C107, C108, C109 |
| `DebugFiles` | the debug files of `profiling.py` `track_stability_correction` (l.162-180), written by every stability warning: C111 |
| `CalendarCheck` | `utils/calendar.py` `validate_calendar_type`, `get_calendar_type`, `has_cftime` with the decoding they rely on: C112 |
| `VisualInput` | `analysis/visualization.py` `_plot_input`, `_plot_output`, the three figures, with the kinds of date objects they are given: C113 |
| `LogFile` | `cli.py` `setup_logging` with Python's `logging` as far as it is used (handlers, levels, `basicConfig`): C114 |
| `Provenance` | `tracking/io.py` `get_main_attrs`, the global attributes in `write_output` and both `initialize`: C115 |
| `PoleBounds` | bounds at the poles with `Lon`'s `add_bounds`: C116 |
| `Align` | `era5.py`: how variables on different grids are put together, with `check_nans`: C110 |
| `DateText`, `Config`, `Strings` | dates as text, validators of `config.py`, `fix_deprecated_frequency`, `parse_doi`: C42-C45 |
| `Visual`, `Checks`, `Cli` | visualisation, input checks, command line: C61-C63, C72-C74 |

Conventions

* **Numbers.**  The Python code computes in binary64/binary32.  Balance and bound
  theorems are about exact real arithmetic (`Rnum`), i.e. the statement is about the
  algorithm, not about rounding.  `XRnum` adds NaN/inf so that "no NaN" and "0/0"
  statements are meaningful; a refinement theorem connects the two (C21).  Statements
  that hold in floating point as well (clamping, C10) are proved for an
  arbitrary `NumOps` satisfying three order laws and instantiated with binary64.
* **Errors.**  A Python exception is the value `Err e` of the type `res`.
* **Arrays** are a shape and a function from indices; equality of results is stated
  pointwise inside the shape.
* **xarray alignment.**  All fields of one run live on one grid, so label alignment is
  the identity and arithmetic is positional.
* **Time** is a number of microseconds since an epoch of the calendar in use.
* **I/O** is explicit state: files are association lists, loaders are functions that may
  return an error.
* A definition is modelled from the text of one Python function and cites it.

Refuted properties: several properties a user relies on are *false* of the code.
They stay in `properties.jsonl` with their intended wording; the theorem is then a
`..._refuted` theorem (existence of a concrete input violating the property on the model
of the code as it is) and, next to it, the strongest true version (`..._partial`).
MANIFEST marks them `partial` with a note starting with `REFUTED`.

## 2. Plan per property

| id | model | proof |
|---|---|---|
| C01 | `horizontal_advection` over reals | telescoping sums over both axes; shape lemma from the array algebra |
| C02 | same | pointwise formula of the array program = donor-cell specification written per face |
| C03 | same | summation by parts of the per-face form |
| C04 | same + `stagger_x/y`, `get_boundary` | per-cell formula with cyclic neighbours commutes with a shift |
| C05 | `divergence`, `calculate_fz` | refuted by a concrete field; partial: holds when the two seam columns are linear continuations (interior columns) |
| C06 | `vertical_advection`, `vertical_dispersion` | case analysis on the sign |
| C07 | transport part of the step | linearity of each term, given equal upwind directions |
| C08/C09 | `forwardtrack`/`backtrack` | cell-wise identity + C01 + C06, summed with area weights |
| C10 | both steps, generic numbers and binary64 | properties of `minimum`/`maximum` |
| C11 | correction chain | case analysis, `lra` |
| C12 | attribution increments | `nra` |
| C13 | step and run | induction over the run |
| C14-C16 | `stabilize_fluxes` over XR and R | algebra; C15, C16 refuted by witnesses |
| C17-C20 | `calculate_fz`, `divergence` | `field`, case analysis; C19 refuted by witness |
| C21 | XR refinement of the whole step | simulation relation between XR and R arrays |
| C22/C23 | `get_grid_info` over reals with `sin`, `cos` | trigonometric identities, telescoping; C23 refuted |
| C25-C33 | run loops | induction over steps with an invariant; C26, C32, C33 refuted in general + conditional versions |
| C34-C37 | `load_data`, cache, retry | arithmetic of floor/ceil; cache state machine refinement with a heap; induction over attempts |
| C38-C41 | masks and subdomains | case analysis; list lemmas about rolls of sorted axes; C40 refuted |
| C42-C45 | config, strings | case analysis, induction on strings |
| C46/C47 | surface fluxes | `lra`; C47 refuted |
| C48-C52 | levels | sums over masked lists; interpolation lemmas; telescoping; C52 refuted |
| C53/C54 | preprocessing runs as a transition system over a file system | schedule independence by commuting per-day writes; crash prefix + re-run |
| C55-C58 | longitudes, bounds, resampling, validation | arithmetic and list lemmas |
| C59 | ProgressTracker composed with the run | C29 + algebra; refuted when gains are non-zero |
| C60 | warning state machine | invariants over histories, geometric bound |
| C61-C63 | visualisation, checks, CLI | list lemmas; C61, C62 refuted |
| C64 | calendars as day counts, `strftime` | bijection day number <-> date for all six calendars by induction over years and months; injectivity of the padded decimal text |
| C65 | preprocessing composed with loading | refuted: the tracker floors to multiples of the frequency since 1970 |
| C66 | nearest time slice of a mask | minimisation over lists |
| C67, C70 | rolled domains, sorted longitudes | arithmetic on cyclic columns; both refuted in one case each, proved otherwise |
| C68, C69 | pressure-level columns | the discrete sums are the integrals (`RInt`) of the piecewise linear profile; bounds |
| C71 | orientation of latitude | a step on flipped data equals a step with reversed meridional wind: refuted |
| C72, C73 | input figure, checks | exact conditions; refuted for other frequencies, NameError/KeyError |
| C74 | CLI with file system and configuration copy | refuted (`SameFileError`), proved for copies kept elsewhere |
| C75, C76 | one step, whole runs | equation of a step per cell written from the theory chapter; induction over the run |
| C77 | progress report composed with the run | invariant: the tracker holds the sums over the files written so far |
| C78 | `calculate_humidity` | algebra, monotonicity of `exp` |
| C79 | `common_levels`, `extend_pressurelevels` | uniqueness of sorted permutations |
| C80 | `open_var`, `resample_3hr_var` | pairs commute with concatenation of even files; permutation invariance of a lookup; refuted otherwise by two listings |
| C81 | `fwd_run`, `bwd_run` for any `NumOps` whose rounding settles; F64 with binary32 `nstore` | every tracked storage is a minimum/maximum of rounded values and of the input, so a fixed point of the rounding; trajectory simulation up to equality of cells; files: all fields, from a flushed output |
| C82 | `horizontal_advection` in F64 | each operation is a rounding of the real one (Flocq's `Bplus_correct` etc. transferred to `SpecFloat`); the product at a face is the same number for both cells, so that only the additions within cells leave an error; telescoping |
| C83 | `forwardtrack`, `backtrack` in F64 with single-precision intermediates | error calculus `near` (value, size, units of rounding) through the layer updates; the corrections lose at most 80 units of the content; finiteness of the results propagates back to every intermediate value; C82's telescoping for the tendencies; backward: the two shares of the tagged precipitation add up to it up to rounding |
| C84 | `run_experiment` in F64 with float32 files | C83 for every step, with the fluxes of the step bounded by the moisture (stabilisation in F64); accumulators telescope between files; each file differs from memory by one rounding to single precision |
| C85 | `run_experiment` in F64 | power-of-two bounds for every intermediate value; invariant: storages in [0, 2^20], accumulators grow by a bounded amount per step; so no overflow in 2^20 steps, and files are in the range of single precision |
| C86 | `create_mask` and all helpers of `shapefile_mask.py`; polygons as lists of rings, areas as double integrals of the even-odd interior | sections of a polygon have a length that is continuous between vertices, so integrable, additive and bounded; parity of crossings of a closed ring; sorting, slicing, stacking, reshaping and nearest-neighbour interpolation give back each cell's own box |
| C87 | same | the cells of a uniform axis tile an interval, areas are additive; refuted at the antimeridian by a polygon in the last half cell |
| C88, C89 | `mask_with_regionmask`, `mask_with_shapefile`; regions are predicates on points; regionmask's dropping of empty regions, Python indexing, `nanmean` | case analysis, induction over the list of regions; refuted by regional grids, number 0, two regions, no regions |
| C90 | `preprocess` for all cells of all times on top of the column models, day files, loading, cropping, grid, runs | composition: C49, C69, C51, C46 give healthy columns; C55, C39 the axes; C53, C35 the files; C29, C30 the runs |
| C91 | same | the permutation of C55, the cells of C39, linear interpolation of C34; a raw cell is determined by latitude and meridian |
| C92 | same | C30 bounds the tracers by the storages, C48 makes these add up to the column water |
| C93 | same | C91 at input times with C48, C49, C51, C68, C78, C46; the specification (`profile_of`, `layers_are`, `level_water`) speaks of raw data only |
| C94 | `Append.v`: netCDF files as variables with named dimensions, an unlimited dimension and time units | spec of one append for any dimension position; refinement of `Prep.v`'s abstract files (`folder_holds`), then C53 |
| C95 | same, crash = a prefix of the variables is written | refuted for every such prefix that has the time but not all fields; old records survive |
| C96 | `Pieces.v` on `Prep.v` | the times of one run are those of the two together; C53 for each run |
| C97 | `Download.v`: places, directories, `Path /`, open, mkdir; servers as functions | invariant: only plain files in the new directory are added, at every stop |
| C98 | same | induction over the list of files; refuted by answers with error status, compression or equal names |
| C99 | same | after any attempt the directory exists, so C97 refuses the next |
| C100 | `Sources`: `input_data` is what get_input_data returns | sound data are encoded as ERA5 data (dew point = inverse of Tetens' formula), then C90 and C91 |
| C101 | `arco_input` | selecting levels by label; C46; equality of results cell by cell |
| C102 | `CmipTrack`: `cmip_input` on files of nine variables | C80 and C57 for loading, then C100; C68 for the integrals. `field_at`, `on_level`, `mean_pr`, `mean_evap`, `humidity_profile` are the specification |
| C103 | same | both profiles have the same rows, so C79 |
| C104 | `EraFiles`: files by name, coordinates under their old and new names | `hold` says what files hold; renaming and selecting keep it; names by computation on digits; invariant of the cache |
| C105 | same, with `EraPrep`, `EraTrack` | the loaded data agree with the data held on the grid, so C90 |
| C106 | `EraDownload`: a run takes the outcome of every request from a list | `asks_for` is the specification of a request; invariant `sound` over histories; refuted by a crash that leaves a part of a file |
| C107 | `JsonText`: printer and recursive-descent reader with fuel; `ConfigFile`: one reading function per type of entry | reader after printer by induction over nested values (`printable`), then entry by entry; `valid` is the invariant of accepted configurations; refuted with general statements |
| C108 | `ConfigFile`: `path_of`, `absolute`, `read_levels` | splitting and joining of paths by induction; refuted for `~` and `all` |
| C109 | `ConfigFile.folders_made`: which validators have run when an entry is rejected | inversion of `validate`; refuted for every configuration with readable dates |
| C110 | `Align`: `indexer` looks coordinates up label by label, missing values are options | inversion of loading and alignment, one lemma per kind of variable; `surface_from`, `columns_from` say where values come from |
| C111 | `DebugFiles`: every warning with the file it names and the field it writes, in the order of the calls | the warnings of a run are those of the corrections of its steps (as C60); names are injective to the second; `honest` says which fields are found afterwards; a storm in both layers refutes the full property |
| C112 | `CalendarCheck`: the calendar attribute and times of a file, decoding to datetime64 or cftime, the comparison of names | the standard and the proleptic Gregorian year search coincide from 1583 on; case analysis over the calendars; counterexamples |
| C113 | `VisualInput`: date objects (pandas timestamp or cftime), pandas' and xarray's date ranges, what each figure reads and saves | evaluation of the error monad; `visualize output` from C61; counterexamples for the other two |
| C114 | `LogFile`: log files, terminal, handlers and level of the root logger; commands, processes, histories | invariant of the configured logger by induction over messages, commands and processes; names from C111; counterexamples |
| C115 | `Provenance`: datasets with global attributes, initialisation, assignments and writes | induction over the actions of a run; counterexample with ERA5's attributes |
| C116 | `PoleBounds` over `Lon` | from C56's bounds of uniform axes; real arithmetic with absolute values |

None of the properties had to be given up as not expressible.

## 3. Trusted base

* Coq's kernel (and `coqchk`).
* The axioms printed by `Print Assumptions`, listed for each theorem in section 5.  All
  are axioms of the standard library: `ClassicalDedekindReals.sig_forall_dec`,
  `ClassicalDedekindReals.sig_not_dec`,
  `FunctionalExtensionality.functional_extensionality_dep`, `Classical_Prop.classic`
  (the construction of the real numbers, and `sin`, `cos`, limits, integrals).
  The primitive operations of binary64 are not used: `F64` is `SpecFloat`, defined in Coq.
* The reading of the Python source, and of the behaviour of numpy, xarray, pandas, cftime,
  pydantic, click and the file system, that is recorded in the comments of each definition.

## 4. What is not modelled

Rounding and storage
* Rounding, except in the theorems that name binary64 or float (C04, C10, C15, ..., C81–C85): the
  other balance and bound theorems are about real arithmetic.  Where rounding is modelled, every
  operation on float64 arrays is a binary64 one, and every operation on float32 arrays (and Python
  scalars) is a binary64 operation followed by a rounding to binary32.  (`Single.v`, `single_add` ... `single_div`:
  on binary32 operands this is the correctly rounded binary32 operation.)  The types follow numpy 2's promotion rules (NEP 50).
* `float32` files: a stored field reads back unchanged in real arithmetic (C31, C34); in F64 output files are
  rounded to single precision (C81, C84, C85).
* Over the reals `x / 0 = 0` where the code gets NaN or infinity; theorems whose claim is
  sensitive to this are stated for `XRnum` (C15, C21, C60, C58) or exclude zero divisors.

Files, processes, time
* Files are written atomically, except that a crash leaves a torn last file (C54); nobody
  else changes files during a run (C36); the network (ARCO) is not modelled.
* `subclass_cftime`'s detour through a floating-point ordinal is the identity on dates.
* netCDF encoding, compression, attributes, chunks and dask laziness.
* Label selection on a time index that is not monotonic is an exact match; a selection
  with several matches is an error in the model.
* Python warnings and log messages are events; their text is only modelled where a property
  speaks about it (C60, C62, C73, C77).

Text and configuration
* Strings are ASCII; `strptime` is modelled for the formats used, without locale or white space.
* Type coercion by pydantic: only the entries that YAML makes of configuration files
  (`ConfigFile`) are modelled, not objects handed to `Config(...)` by other code.

Not modelled at all
* the profiler (`utils/profiling.py:Profiler`), the figures themselves
  (colour maps, projections, outlines),
  threddsclient's crawling (C97-C99 take its list of urls), reading of shapefiles and GEOS's computation of areas (C86 takes
  areas as integrals), which points regionmask counts to a region, xarray's alignment of differing coordinates outside the assembly of ERA5 data (`Align`).

Arbitrary choices left open (theorems hold for all of them): the order of equal values in
`np.argsort`, the order of Python sets and of directory listings, the interleaving of
parallel workers, what a crash interrupts.

## 5. Assumptions of each theorem (generated by tools/assumptions.py)

**No axioms** (closed under the global context): `C01_stagger_seam`, `C04_boundary_mask`, `C04_roll_equivariance`, `C04_roll_equivariance_binary64`, `C05_backward_step_roll_given_vertical_flux`, `C05_stability_correction_roll`, `C05_step_roll_given_vertical_flux`, `C05_vertical_flux_away_from_seam_partial`, `C104_cache_is_transparent`, `C104_file_names`, `C104_names_differ`, `C106_download_again`, `C106_interrupted_partial`, `C106_interrupted_refuted`, `C106_names`, `C106_only_these`, `C107_yaml_reads_json`, `C108_home_refuted`, `C108_paths_partial`, `C109_rejected_leaves_folders_refuted`, `C10_backward_bounds_any_arithmetic`, `C10_forward_bounds_any_arithmetic`, `C111_backward_partial`, `C111_file_is_the_second`, `C111_forward_partial`, `C112_false_alarm_refuted`, `C112_mismatch_is_reported`, `C112_no_false_alarm_partial`, `C112_nothing_to_check`, `C112_other_files_refuted`, `C112_silence_is_safe`, `C114_case`, `C114_history_partial`, `C114_names`, `C114_one_process_refuted`, `C114_own_log_partial`, `C114_same_second_refuted`, `C115_attributes_partial`, `C115_case`, `C115_history_lost_refuted`, `C115_one_per_file`, `C115_source_lost_refuted`, `C115_would_be_kept`, `C15_calm_cell_binary64_refuted`, `C25_backward_interval`, `C25_backward_run_ends`, `C25_backward_uses_only`, `C25_forward_interval`, `C25_forward_run_ends`, `C25_forward_uses_only`, `C26_positive_timestep_partial`, `C26_zero_timestep_runs_forever_refuted`, `C32_backward_partial`, `C32_collision_is_same_minute`, `C32_directions_differ`, `C32_forward_partial`, `C34_exact_at_input_times`, `C35_run_finds_its_input`, `C36_cache_is_transparent`, `C36_cached_load_data`, `C37_bounded_retry`, `C42_reads_dates`, `C43_export_cuts_to_the_minute`, `C43_iso_round_trip`, `C43_round_trip_partial`, `C43_seconds_are_lost_refuted`, `C44_frequencies`, `C44_idempotent`, `C44_others_unchanged`, `C45_4tu_id`, `C45_dot_is_a_wildcard_refuted`, `C45_parses_dois`, `C45_rejects`, `C45_rejects_exactly`, `C45_result_is_in_the_text_partial`, `C53_day_files_complete_any_schedule`, `C53_input_times`, `C53_input_times_rounded`, `C53_parallel_equals_sequential`, `C54_rerun_after_crash`, `C63_names_are_those_of_C32`, `C63_other_directions_rejected`, `C63_track_runs_the_configured_direction`, `C64_calendar_days_follow_each_other`, `C64_input_file_is_the_day`, `C64_label_is_the_second`, `C64_output_file_is_the_minute`, `C66_nearest_mask`, `C74_configuration_is_copied`, `C74_copy_cannot_be_used_refuted`, `C74_moved_copy_repeats_the_run_partial`, `C77_one_line_per_file`, `C80_six_hourly`, `C80_six_hourly_value`, `C81_backward_restart_any_arithmetic`, `C81_forward_restart_any_arithmetic`, `C94_append`, `C94_append_keeps_records`, `C94_netcdf_files`, `C94_new_file`, `C94_preprocessing_refined`, `C95_incomplete_record_refuted`, `C95_old_records_survive_partial`, `C96_split_between_days_partial`, `C96_split_within_a_day_refuted`, `C97_existing_files_untouched_partial`, `C97_existing_target_refused`, `C97_hostile_file_name_refuted`, `C98_all_files_arrive_partial`, `C98_error_page_refuted`, `C98_what_is_stored_refuted`, `C99_rejected_doi_leaves_nothing_partial`, `C99_remove_and_retry_partial`, `C99_retry_refused_refuted`.

**classic, functional_extensionality_dep, sig_forall_dec**: `C73_silence`.

**classic, functional_extensionality_dep, sig_forall_dec, sig_not_dec**: `C100_every_place_has_its_own_data`, `C100_preprocessing_succeeds`, `C100_runs_complete_and_balance`, `C102_preprocessing_succeeds`, `C102_runs_complete_and_balance`, `C102_tracked_data`, `C10_backward_bounds_binary64`, `C10_forward_bounds_binary64`, `C68_storages_are_integrals`, `C78_monotone`, `C81_backward_restart`, `C81_files_in_single_precision`, `C81_forward_restart`, `C82_cell_accuracy_binary64`, `C82_conservation_binary64`, `C82_staggered_conservation_binary64`, `C83_backward_mass_balance_float`, `C83_forward_mass_balance_float`, `C84_backward_run_mass_balance_float`, `C84_forward_run_mass_balance_float`, `C85_backward_run_balance`, `C85_backward_run_finite`, `C85_forward_run_balance`, `C85_forward_run_finite`, `C93_pressure_levels`.

**functional_extensionality_dep, sig_forall_dec**: `C01_closed_conservation`, `C01_periodic_conservation`, `C01_staggered_conservation`, `C02_donor_cell`, `C03_adjoint`, `C03_reciprocity`, `C05_vertical_flux_depends_on_seam_refuted`, `C06_column_independent_of_vertical_flux`, `C06_column_independent_of_vertical_flux_backward`, `C06_vertical_advection`, `C06_vertical_dispersion`, `C07_backward_superposition`, `C07_superposition`, `C08_forward_mass_balance`, `C09_backward_mass_balance`, `C102_data_or_error`, `C102_input_data`, `C102_plausible_is_sound`, `C103_only_content_matters`, `C104_files_are_loaded`, `C104_no_silent_gaps`, `C106_download_then_preprocess`, `C107_accepted_are_valid`, `C107_infinite_refuted`, `C107_other_planes_refuted`, `C107_reads_back_partial`, `C107_reads_back_to_the_minute`, `C107_same_text_same_configuration`, `C107_seconds_refuted`, `C108_all_levels_refuted`, `C108_levels`, `C109_bad_dates_make_nothing`, `C109_folders_exist_partial`, `C10_backward_bounds`, `C10_forward_bounds`, `C110_covering_grids_accepted`, `C110_equal_grids`, `C110_missing_places_rejected`, `C110_own_places`, `C111_overwritten_refuted`, `C113_both_never_refuted`, `C113_case`, `C113_input_never_refuted`, `C113_output_backward_partial`, `C113_output_forward_partial`, `C116_away_from_poles_partial`, `C116_era5`, `C116_exactly`, `C116_poles_refuted`, `C11_corrections_local`, `C12_backward_attribution`, `C12_forward_attribution`, `C13_backward_untagged_run`, `C13_backward_untagged_step`, `C13_forward_untagged_run`, `C13_forward_untagged_step`, `C14_stability_correction`, `C15_calm_cell_becomes_nan_refuted`, `C15_calm_cell_poisons_storage_refuted`, `C15_one_component_partial`, `C16_negative_storage_booked_as_gain_refuted`, `C16_outflow_bounded_partial`, `C16_outflow_exceeds_content_refuted`, `C17_proportional_closure`, `C18_vertical_flux_limited`, `C19_no_surface_flux_partial`, `C19_surface_fluxes_refuted`, `C20_consistent_transport`, `C21_backward_step_finite`, `C21_forward_step_finite`, `C24_stagger_x`, `C24_stagger_y`, `C27_backward_tagging_window`, `C27_forward_tagging_window`, `C28_backward_file_content`, `C28_backward_nothing_lost`, `C28_forward_file_content`, `C28_forward_nothing_lost`, `C29_backward_run_mass_balance`, `C29_forward_run_mass_balance`, `C30_backward_files`, `C30_forward_files`, `C31_backward_restart`, `C31_forward_restart`, `C32_overwrites_refuted`, `C33_backward_aligned_partial`, `C33_forward_aligned_partial`, `C33_time_bnds_refuted`, `C34_bounded_and_monotone`, `C34_fluxes_bounded_and_monotone`, `C34_healthy_files_healthy_run`, `C34_linear_between`, `C35_preprocessed_run_completes`, `C38_mask_is_the_box`, `C39_subdomain_is_the_box`, `C40_edge_columns_dropped_refuted`, `C40_meridian_box_refuted`, `C40_same_cells_as_tagging_partial`, `C41_square_is_a_box`, `C41_square_mask`, `C41_track_masks`, `C42_accepted_configurations`, `C42_boxes`, `C46_arco_equals_era5`, `C46_era5_surface_fluxes`, `C47_dew_is_subtracted_refuted`, `C47_upward_heat_flux_partial`, `C48_layers_partition`, `C48_model_levels`, `C48_pressure_level_layers`, `C48_pressure_levels`, `C49_extended_levels`, `C49_extension_succeeds`, `C49_integer_levels_error_partial`, `C49_integer_levels_refuted`, `C49_thicknesses_partial`, `C50_bounded`, `C50_interpolate_guards`, `C50_interpolate_value`, `C50_no_division_by_zero`, `C51_thickness_of_a_level`, `C51_thicknesses_add_up`, `C51_thicknesses_positive`, `C52_full_list_partial`, `C52_no_shorthand_works_refuted`, `C55_global_axis`, `C55_shift_longitude`, `C55_strictly_ascending`, `C56_bounds_are_centred`, `C56_one_jump`, `C56_uniform_axis`, `C57_accepts`, `C57_loaded_flux`, `C57_means`, `C58_accepts_exactly_complete_data`, `C59_backward_closure_partial`, `C59_closure_above_100_refuted`, `C59_forward_closure_partial`, `C60_backward_run`, `C60_backward_run_history`, `C60_forward_run`, `C60_forward_run_history`, `C60_history`, `C60_reported_factor`, `C60_reported_percentage`, `C60_warns_about_larger_corrections`, `C60_warns_about_stronger_corrections`, `C61_backward_figure_partial`, `C61_forward_figure_partial`, `C61_last_period_missing_refuted`, `C61_unaligned_start_refuted`, `C62_check_range_partial`, `C62_no_false_alarm`, `C62_values_above_are_not_reported_refuted`, `C65_unaligned_start_refuted`, `C67_spacing_of_a_rolled_domain_refuted`, `C69_model_levels`, `C69_positive_storages`, `C69_pressure_levels`, `C70_region_across_antimeridian_refuted`, `C70_region_stays_contiguous_partial`, `C71_increasing_latitudes_reverse_the_wind_refuted`, `C72_figure_scale`, `C72_hourly_partial`, `C72_other_frequencies_refuted`, `C73_missing_coordinate_raises_refuted`, `C73_order`, `C73_signs`, `C73_spacing`, `C73_uneven_coordinate_raises_refuted`, `C75_backward_step`, `C75_forward_step`, `C76_backward_run`, `C76_forward_run`, `C77_backward_log_lines`, `C77_forward_log_lines`, `C79_cmip_columns`, `C79_common_levels`, `C79_level_order_is_irrelevant`, `C80_order_matters_refuted`, `C80_order_raises_refuted`, `C80_three_hourly_partial`, `C80_three_hourly_value_partial`, `C88_number_zero_refuted`, `C88_one_named_region_partial`, `C88_one_shapefile_region_partial`, `C88_region_off_the_grid_refuted`, `C88_wrong_arguments`, `C89_no_regions_refuted`, `C89_several_regions_partial`, `C89_weight_of_one_of_several_refuted`.

**functional_extensionality_dep, sig_forall_dec, sig_not_dec**: `C101_arco_equals_era5`, `C101_arco_requirements`, `C101_same_files`, `C105_files_are_their_data`, `C105_runs_complete_and_balance`, `C110_preprocessed_as_held`, `C22_area_is_exact`, `C22_areas_positive`, `C22_cells_tile_the_band`, `C22_face_lengths`, `C22_faces_match_areas`, `C22_global_grid_is_the_sphere`, `C22_proportional_to_cosine`, `C23_area_uses_longitude_spacing_refuted`, `C23_square_cells_partial`, `C78_is_specific_humidity`, `C86_mask_is_the_covered_fraction`, `C86_polygon_off_the_grid`, `C87_polygon_at_the_antimeridian_refuted`, `C87_total_area_partial`, `C90_no_silent_errors`, `C90_preprocessing_succeeds`, `C90_runs_complete_and_balance`, `C91_every_place_has_its_own_data`, `C92_tracked_water_within_column_water`, `C93_model_levels`.

**sig_forall_dec**: `C113_timestamps_would_do`.
