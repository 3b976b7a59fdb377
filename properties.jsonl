{"id": "C01", "title": "Horizontal advection conserves moisture", "statement": "The sum over all grid cells of the tendency returned by horizontal_advection is exactly zero: with closed (zero-padded) lateral boundaries for every s, u, v; with periodic_x=True for every s, v and every u whose first and last interface columns agree, which is what stagger_x produces. No shape error is raised for documented shapes and the result has the shape of s.", "quantifier": "every grid size M>=2, N>=2, every scalar field s, every staggered flux field u, v, both boundary modes", "why_tests_cant": "conservation is an identity over all array sizes and sign patterns of the fluxes; a test fixes one 5x5 example", "anchors": ["src/wam2layers/tracking/core.py:horizontal_advection", "src/wam2layers/utils/grid.py:stagger_x", "src/wam2layers/utils/grid.py:stagger_y"]}
{"id": "C02", "title": "Advection is the donor-cell scheme of the theory chapter", "statement": "For every cell the tendency equals the sum over its faces of (positive part of the incoming flux times the neighbour's concentration) minus (positive part of the outgoing flux times its own concentration), with the orientation latitude-decreasing / longitude-increasing, and outside neighbours absent (or wrapped in x when periodic).", "quantifier": "every grid, every flux sign pattern, every cell including corners and edges", "why_tests_cant": "the sign/orientation must be right at every face of every cell for all sign combinations", "anchors": ["src/wam2layers/tracking/core.py:horizontal_advection", "docs/theory.md"]}
{"id": "C03", "title": "Forward and backward advection are reciprocal", "statement": "Reversing the velocities (what backtracking does) gives the exact adjoint up to the flow convergence: sum r*adv(s,u,v) - sum s*adv(r,-u,-v) = sum r*s*adv(1,u,v) for all r, s; in particular forward and backward tracking are exact adjoints for non-divergent flow.", "quantifier": "all pairs of fields r, s, all fluxes, all grid sizes, both boundary modes", "why_tests_cant": "a bilinear identity over all fields", "anchors": ["src/wam2layers/tracking/core.py:horizontal_advection", "src/wam2layers/tracking/backtrack.py:backtrack"]}
{"id": "C04", "title": "Periodic advection does not depend on where the longitude seam is", "statement": "With periodic boundaries, rolling all inputs cyclically in longitude rolls staggered fluxes, advection tendency and boundary mask accordingly.", "quantifier": "all grid sizes, all fields, all cyclic shifts", "why_tests_cant": "quantifies over all fields and all shifts", "anchors": ["src/wam2layers/utils/grid.py:stagger_x", "src/wam2layers/utils/grid.py:stagger_y", "src/wam2layers/utils/grid.py:get_boundary", "src/wam2layers/tracking/core.py:horizontal_advection"]}
{"id": "C05", "title": "A periodic tracking step does not depend on the seam", "statement": "With periodic_boundary=True the vertical flux (and hence a full step) computed on rolled input equals the rolled result of the original input.", "quantifier": "all global input fields and cyclic shifts", "why_tests_cant": "needs a universally quantified equivariance statement; regression data never rolls the seam", "anchors": ["src/wam2layers/tracking/core.py:calculate_fz", "src/wam2layers/tracking/core.py:divergence"]}
{"id": "C06", "title": "Vertical exchange conserves moisture and takes it from the donor layer", "statement": "What vertical advection plus dispersion add to the lower layer they remove from the upper layer, cell by cell; advection transports the concentration of the layer the flux comes from; dispersion always moves moisture from the layer with higher relative concentration to the other (for kvf>=0).", "quantifier": "all vertical fluxes, concentrations, kvf", "why_tests_cant": "identity over all inputs and signs", "anchors": ["src/wam2layers/tracking/core.py:vertical_advection", "src/wam2layers/tracking/core.py:vertical_dispersion"]}
{"id": "C07", "title": "Superposition of tagged sources", "statement": "Where no relative concentration is capped, the transport step (before the bookkeeping of boundary losses, overshoot and negative values) is linear: tracking the sum of two tagged sources equals the sum of tracking each.", "quantifier": "all pairs of tracked states and tagging masks, all meteorology", "why_tests_cant": "linearity quantifies over all pairs of states", "anchors": ["src/wam2layers/tracking/forwardtrack.py:forwardtrack", "src/wam2layers/tracking/backtrack.py:backtrack", "src/wam2layers/tracking/core.py:horizontal_advection"]}
{"id": "C08", "title": "Mass balance of one forward step", "statement": "Over one call of forwardtrack the area-weighted grid totals satisfy: storage after + losses + tracked precipitation (upper and lower) = storage before + tagged evaporation + gains (all as increments of the output fields).", "quantifier": "all grids, meteorological fields, tagging masks, tracked states, both boundary modes", "why_tests_cant": "must hold for all inputs including those that trigger capping, overshoot and negative storage", "anchors": ["src/wam2layers/tracking/forwardtrack.py:forwardtrack"]}
{"id": "C09", "title": "Mass balance of one backward step", "statement": "Over one call of backtrack: storage after + losses + tracked evaporation = storage before + tagged precipitation + gains (area weighted grid totals of the output field increments).", "quantifier": "all grids, meteorological fields, tagging masks, tracked states, both boundary modes", "why_tests_cant": "must hold for all inputs including those that trigger capping, overshoot and negative storage", "anchors": ["src/wam2layers/tracking/backtrack.py:backtrack"]}
{"id": "C10", "title": "Tracked storage stays between zero and the total storage", "statement": "After every forwardtrack/backtrack call, s_track_upper/lower_restart lies between 0 and the moisture storage of that layer at the time reached (S1 forward, S0 backward) in every cell, and is zero on the domain boundary; gains are never negative. The bounds hold in IEEE floating point as well, not only in exact arithmetic.", "quantifier": "all inputs with non-negative storages (NaN excluded)", "why_tests_cant": "bounds must hold for arbitrary (also extreme) fluxes", "anchors": ["src/wam2layers/tracking/forwardtrack.py:forwardtrack", "src/wam2layers/tracking/backtrack.py:backtrack"]}
{"id": "C11", "title": "Overshoot bookkeeping is local and loses nothing that fits", "statement": "The correction chain after transport keeps (upper+lower) per interior cell up to the booked losses and gains; if both layers are non-negative and their sum fits in the column, nothing is lost or gained; losses and gains are only booked when the column total does not fit or a layer is negative.", "quantifier": "all pre-correction values and storages", "why_tests_cant": "case analysis over all orderings of values", "anchors": ["src/wam2layers/tracking/forwardtrack.py:forwardtrack", "src/wam2layers/tracking/backtrack.py:backtrack"]}
{"id": "C12", "title": "Attribution never exceeds the flux it is attributed to", "statement": "Per step and cell, 0 <= increment of p_track_upper+p_track_lower <= precip*timestep and 0 <= increment of e_track <= evap*timestep.", "quantifier": "all non-negative precip/evap, positive storages, non-negative tracked states", "why_tests_cant": "inequality over all inputs", "anchors": ["src/wam2layers/tracking/forwardtrack.py:forwardtrack", "src/wam2layers/tracking/backtrack.py:backtrack"]}
{"id": "C13", "title": "Nothing is tracked unless something is tagged", "statement": "With an all-zero tagging mask and zero tracked storage a step leaves all output fields zero; a whole run whose tagging window is never hit writes only zero fields.", "quantifier": "all meteorology, all run lengths", "why_tests_cant": "quantifies over all meteorological inputs and histories", "anchors": ["src/wam2layers/tracking/forwardtrack.py:run_experiment", "src/wam2layers/tracking/backtrack.py:run_experiment"]}
{"id": "C14", "title": "Stability correction limits and preserves direction", "statement": "For every cell with a non-zero horizontal flux the corrected flux vector is the original multiplied by one common factor min(1, s*a/(2*dt*(|fx|+|fy|))): direction and sign preserved, never amplified, |fx|+|fy| <= s*a/(2*dt), and unchanged when within the limit.", "quantifier": "all flux fields, storages, areas, timesteps > 0", "why_tests_cant": "per-cell algebraic statement over all reals", "anchors": ["src/wam2layers/tracking/core.py:stabilize_fluxes"]}
{"id": "C15", "title": "A calm cell is harmless", "statement": "A cell in which both horizontal flux components are exactly zero keeps zero flux after the stability correction (the code intends to replace NaN by 0) and does not contaminate tracked storage.", "quantifier": "all fields containing a cell with zero flux", "why_tests_cant": "requires exceptional-value semantics for all fields; ERA5 regression data has no exactly calm cell", "anchors": ["src/wam2layers/tracking/core.py:stabilize_fluxes"]}
{"id": "C16", "title": "The stability correction prevents negative storage", "statement": "After the stability correction the moisture transported out of a cell in one step cannot exceed the moisture in that cell ('water cannot move further than one grid cell per timestep').", "quantifier": "all flux and storage fields", "why_tests_cant": "universal inequality over neighbouring cells with different storages", "anchors": ["src/wam2layers/tracking/core.py:stabilize_fluxes", "src/wam2layers/utils/grid.py:stagger_x"]}
{"id": "C17", "title": "The vertical flux closes the two-layer balance proportionally", "statement": "Before limiting, the vertical flux leaves residuals in both layers whose ratio equals the ratio of the layer storages: err_lower/s_lower = err_upper/s_upper, with the residual total equal to that of the column.", "quantifier": "all fields with positive storage", "why_tests_cant": "algebraic identity for all inputs (explicit TODO in the code)", "anchors": ["src/wam2layers/tracking/core.py:calculate_fz"]}
{"id": "C18", "title": "The vertical flux is limited by what the layers hold", "statement": "The returned vertical flux keeps the sign of the closure flux, never exceeds it, equals it when within the limit, and |fz|*dt*(1+kvf) <= min(mean upper storage, mean lower storage).", "quantifier": "all inputs, kvf >= 0, dt > 0", "why_tests_cant": "universal inequality", "anchors": ["src/wam2layers/tracking/core.py:calculate_fz"]}
{"id": "C19", "title": "Surface fluxes enter the vertical closure per unit area", "statement": "If the change of storage in each layer is exactly explained by evaporation, precipitation and horizontal flux divergence per unit area, the vertical flux is zero.", "quantifier": "all grids, areas, surface fluxes", "why_tests_cant": "a unit error shows up only for non-unit areas with sources and sinks; the doctest has neither", "anchors": ["src/wam2layers/tracking/core.py:calculate_fz"]}
{"id": "C20", "title": "Tracer and total moisture are advected consistently", "statement": "In interior cells the divergence used for the total-moisture budget equals minus the advection tendency of a concentration of one computed from the staggered fluxes: if everything is tagged, tagged moisture is transported as total moisture.", "quantifier": "all flux fields, all interior cells, all grid sizes", "why_tests_cant": "identity between two discretisations for all fields", "anchors": ["src/wam2layers/tracking/core.py:divergence", "src/wam2layers/tracking/core.py:horizontal_advection", "src/wam2layers/utils/grid.py:stagger_x", "src/wam2layers/utils/grid.py:stagger_y"]}
{"id": "C21", "title": "No NaN or infinity is produced from healthy input", "statement": "If all inputs are finite, all layer storages positive, timestep and area positive and no cell has exactly zero horizontal flux, a complete step (stability correction, vertical flux, tracking) yields only finite values, equal to those of exact real arithmetic.", "quantifier": "all finite inputs of that kind", "why_tests_cant": "definedness of every division for every input", "anchors": ["src/wam2layers/tracking/core.py:stabilize_fluxes", "src/wam2layers/tracking/core.py:calculate_fz", "src/wam2layers/tracking/forwardtrack.py:forwardtrack", "src/wam2layers/tracking/backtrack.py:backtrack"]}
{"id": "C22", "title": "Cell areas tile the sphere", "statement": "On a grid with equal spacing in both directions the areas of get_grid_info are positive, proportional to cos(latitude) away from the poles, add up to the exact area of the latitude band covered, and to 4*pi*R^2 for a global grid that includes the poles.", "quantifier": "all latitudes, spacings, grid sizes", "why_tests_cant": "trigonometric identity over the reals and all grid sizes", "anchors": ["src/wam2layers/utils/grid.py:get_grid_info"]}
{"id": "C23", "title": "Cell areas are right for non-square grids", "statement": "The area of a grid cell is that of the latitude-longitude rectangle with the grid's own spacings in latitude and longitude.", "quantifier": "all latitude and longitude spacings", "why_tests_cant": "all tests use square grids", "anchors": ["src/wam2layers/utils/grid.py:get_grid_info"]}
{"id": "C24", "title": "Staggering interpolates to faces and wraps consistently", "statement": "stagger_x/stagger_y return the documented shapes; every face value is the mean of the two adjacent cells; with periodic_x the first and last face of each row are both the mean of the first and last cell.", "quantifier": "all grid sizes >= 2, all fields", "why_tests_cant": "all sizes and positions", "anchors": ["src/wam2layers/utils/grid.py:stagger_x", "src/wam2layers/utils/grid.py:stagger_y"]}
{"id": "C25", "title": "The run visits exactly the configured interval", "statement": "A forward run performs floor((end-start)/timestep) steps with left edges start, start+dt, ...; a backward run performs the same number going back from end; no step reaches outside [start, end]; the run then stops.", "quantifier": "all dates and positive timesteps", "why_tests_cant": "induction over run length", "anchors": ["src/wam2layers/tracking/shared.py:initialize_time", "src/wam2layers/tracking/forwardtrack.py:run_experiment", "src/wam2layers/tracking/backtrack.py:run_experiment"]}
{"id": "C26", "title": "Every accepted configuration leads to a terminating run", "statement": "The tracking loop terminates for every timestep the configuration accepts.", "quantifier": "all integer timesteps, all date ranges", "why_tests_cant": "non-termination cannot be observed by a test", "anchors": ["src/wam2layers/config.py:Config", "src/wam2layers/tracking/forwardtrack.py:run_experiment", "src/wam2layers/tracking/backtrack.py:run_experiment"]}
{"id": "C27", "title": "Only steps inside the tagging window are tagged", "statement": "The total tagged moisture written by a run is the sum of mask*flux*timestep over exactly those steps whose reference time (left edge forward, right edge backward) lies in [tagging_start, tagging_end], both ends included.", "quantifier": "all windows, run lengths, meteorology, masks", "why_tests_cant": "sum over arbitrary histories", "anchors": ["src/wam2layers/tracking/forwardtrack.py:run_experiment", "src/wam2layers/tracking/backtrack.py:run_experiment"]}
{"id": "C28", "title": "No accumulated output is lost or counted twice", "statement": "For every accumulated output field the sum over all written files equals the sum over all steps of that step's increment; the last step is always written; a run without steps writes nothing.", "quantifier": "all run lengths, output frequencies, offsets", "why_tests_cant": "induction over histories with arbitrary flush points", "anchors": ["src/wam2layers/tracking/forwardtrack.py:run_experiment", "src/wam2layers/tracking/backtrack.py:run_experiment", "src/wam2layers/tracking/io.py:write_output"]}
{"id": "C29", "title": "Whole-run mass balance is visible in the output files", "statement": "For every completed run started from zero: area-weighted sum over files of tagged moisture + gains = sum over files of tracked moisture + losses, plus the tracked storage in the last file.", "quantifier": "all runs, all lengths, all input data", "why_tests_cant": "induction over arbitrary histories", "anchors": ["src/wam2layers/tracking/forwardtrack.py:run_experiment", "src/wam2layers/tracking/backtrack.py:run_experiment"]}
{"id": "C30", "title": "Run invariants", "statement": "In every file written by a run from non-negative input, every field is non-negative, tracked storage is at most the total storage at that time and zero on the boundary, and tracked precipitation/evaporation is at most the total precipitation/evaporation accumulated since the previous output.", "quantifier": "all runs, all lengths, all non-negative input data", "why_tests_cant": "invariant over all reachable states", "anchors": ["src/wam2layers/tracking/forwardtrack.py:run_experiment", "src/wam2layers/tracking/backtrack.py:run_experiment"]}
{"id": "C31", "title": "Restart continues the run", "statement": "Splitting a run at an output time T (same timestep grid) and restarting from the file written at T produces the same files after T as the uninterrupted run; splitting at any other step time yields the same tracked storage, and the accumulations of the two runs add up.", "quantifier": "all runs, all split points on the timestep grid", "why_tests_cant": "quantifies over all histories and all crash/split points", "anchors": ["src/wam2layers/tracking/forwardtrack.py:initialize", "src/wam2layers/tracking/backtrack.py:initialize", "src/wam2layers/tracking/io.py:output_path"]}
{"id": "C32", "title": "Output files do not overwrite each other", "statement": "Within one run every write_output call uses a different file name, and files of forward and backward runs never share a name.", "quantifier": "all runs, timesteps and output frequencies", "why_tests_cant": "all pairs of output times", "anchors": ["src/wam2layers/tracking/io.py:output_path", "src/wam2layers/tracking/io.py:write_output"]}
{"id": "C33", "title": "time_bnds describe the accumulation period", "statement": "The time bounds written with each file span exactly the period over which the accumulated fields of that file were accumulated.", "quantifier": "all runs, frequencies, start offsets", "why_tests_cant": "needs relation between all write times of a history", "anchors": ["src/wam2layers/tracking/io.py:add_time_bounds", "src/wam2layers/tracking/forwardtrack.py:run_experiment", "src/wam2layers/tracking/backtrack.py:run_experiment"]}
{"id": "C34", "title": "Input interpolation is exact, bounded and monotone in time", "statement": "load_data returns the stored slice at input times; between input times it returns the linear interpolation of the two adjacent slices with weight in (0,1), hence stays within their range and preserves non-negativity; floor/ceil pick the adjacent multiples of the input frequency.", "quantifier": "all times (also before the epoch), all frequencies, all data", "why_tests_cant": "all integer times and data values", "anchors": ["src/wam2layers/tracking/io.py:load_data", "src/wam2layers/utils/calendar.py:round_cftime"]}
{"id": "C35", "title": "Everything a tracking run reads has been preprocessed", "statement": "If preprocessing covered the tracking interval at the input frequency and started at a multiple of that frequency, every load performed by the run finds its file and time label; the file is the one for the calendar day of the (floored/ceiled) time; hence, for healthy data, the whole chain preprocess-then-track completes.", "quantifier": "all date ranges, frequencies, timesteps", "why_tests_cant": "quantifies over all reads of all runs", "anchors": ["src/wam2layers/tracking/io.py:load_slice", "src/wam2layers/tracking/io.py:input_path", "src/wam2layers/preprocessing/shared.py:get_input_dates", "src/wam2layers/preprocessing/shared.py:preprocess"]}
{"id": "C36", "title": "The slice cache is transparent", "statement": "However many slices have been loaded, evicted and modified in place by callers, load_slice returns exactly what the file contains; the cache never holds more than 6 slices.", "quantifier": "all sequences of loads and in-place modifications of returned data", "why_tests_cant": "all operation sequences", "anchors": ["src/wam2layers/tracking/io.py:_load_slice_with_cache", "src/wam2layers/tracking/io.py:load_slice"]}
{"id": "C37", "title": "Reading retries only transient errors, boundedly", "statement": "read_or_retry returns the first successful result, tries at most 9 times, retries only on IndexError, re-raises the last IndexError and immediately any other exception, and sleeps less than 255 s in total.", "quantifier": "all sequences of outcomes and random delays", "why_tests_cant": "all failure histories", "anchors": ["src/wam2layers/tracking/io.py:read_or_retry"]}
{"id": "C38", "title": "Bounding-box tagging region is the closed box, also across the antimeridian", "statement": "If box edges and grid use one convention for the antimeridian (-180 or 180), the mask is 1 exactly in cells whose latitude lies in [south,north] and whose longitude lies on the eastward arc from west to east (both included), else 0.", "quantifier": "all boxes accepted by the configuration, all coordinates", "why_tests_cant": "all boxes and coordinates", "anchors": ["src/wam2layers/tracking/shared.py:initialize_tagging_region"]}
{"id": "C39", "title": "Subdomain selection keeps exactly the box, in contiguous order", "statement": "select_subdomain keeps exactly the cells in the box, with their data, in cyclic longitude order without gaps, rolled so that a box crossing the antimeridian is contiguous.", "quantifier": "all sorted longitude axes, all boxes, all data", "why_tests_cant": "all axes and boxes", "anchors": ["src/wam2layers/tracking/io.py:select_subdomain"]}
{"id": "C40", "title": "Subdomain edges are inclusive, like the tagging box", "statement": "A grid cell exactly on the west or east edge of the tracking domain is kept, whether or not the box crosses the antimeridian, and tracking_domain and tagging_region given as the same box select the same cells.", "quantifier": "all boxes and axes", "why_tests_cant": "edge cases over all boxes", "anchors": ["src/wam2layers/tracking/io.py:select_subdomain", "src/wam2layers/tracking/shared.py:initialize_tagging_region"]}
{"id": "C41", "title": "Point-radius masks", "statement": "mask_around_point (and the time-dependent variant) marks exactly the cells within radius of the centre in both coordinates, independently per time step.", "quantifier": "all centres, radii, grids", "why_tests_cant": "all coordinates", "anchors": ["src/wam2layers/utils/tagging_region.py:mask_around_point", "src/wam2layers/utils/tagging_region.py:mask_around_track"]}
{"id": "C42", "title": "Configuration accepts exactly well-ordered dates and valid boxes", "statement": "A configuration is accepted iff start<=end for tracking, tagging and preprocessing and boxes are within [-180,180]x[-80,80] with south<north; the calendar defaults to standard and unknown calendars are rejected.", "quantifier": "all dates and boxes", "why_tests_cant": "all combinations", "anchors": ["src/wam2layers/config.py:check_date_order", "src/wam2layers/config.py:validate_region", "src/wam2layers/config.py:convert_dates"]}
{"id": "C43", "title": "Configuration round-trips through export", "statement": "Exporting a configuration and reading it back yields the same dates.", "quantifier": "all valid dates in all calendars", "why_tests_cant": "codec round-trip over all dates", "anchors": ["src/wam2layers/config.py:to_string", "src/wam2layers/utils/calendar.py:cftime_from_iso"]}
{"id": "C44", "title": "Frequency normalisation is safe", "statement": "fix_deprecated_frequency rewrites exactly digits*+deprecated alias to the same count of the new alias, is idempotent, and leaves every other string (e.g. MS, QS, min) unchanged.", "quantifier": "all strings", "why_tests_cant": "all strings", "anchors": ["src/wam2layers/utils/calendar.py:fix_deprecated_frequency"]}
{"id": "C45", "title": "DOI parsing", "statement": "parse_doi returns the prefix 10.NNNN and the suffix for every well-formed DOI with or without resolver, rejects strings without one, and get_4tu_id strips the version.", "quantifier": "all strings", "why_tests_cant": "all strings", "anchors": ["src/wam2layers/download.py:parse_doi", "src/wam2layers/download.py:get_4tu_id"]}
{"id": "C46", "title": "ERA5 surface fluxes are non-negative and preserve the net flux", "statement": "After preprocessing, precip and evap are non-negative and precip-evap equals (max(tp,0)+e)*1000/seconds for ERA5's downward-positive sign convention; ARCO-ERA5 gives the same result.", "quantifier": "all values of tp, e and input frequencies", "why_tests_cant": "all reals", "anchors": ["src/wam2layers/preprocessing/era5.py:preprocess_precip_and_evap", "src/wam2layers/preprocessing/arco.py:get_input_data", "src/wam2layers/preprocessing/utils.py:accumulation_to_flux"]}
{"id": "C47", "title": "CMIP surface fluxes are non-negative and preserve the net flux", "statement": "After preprocessing CMIP data, precip and evap are non-negative and precip-evap equals max(pr,0)-hfls/L.", "quantifier": "all values of pr and hfls", "why_tests_cant": "all reals; regression data only covers ERA5", "anchors": ["src/wam2layers/preprocessing/cmip.py:get_input_data"]}
{"id": "C48", "title": "The two layers partition the column", "statement": "s_upper+s_lower equals the column water of all (unmasked) levels, and equals total column water when it is available; the same for both flux components; every level contributes to exactly one layer.", "quantifier": "all level sets, all data, both level types", "why_tests_cant": "all level counts and values", "anchors": ["src/wam2layers/preprocessing/shared.py:preprocess"]}
{"id": "C49", "title": "Pressure-level columns have exactly the surface pressure", "statement": "After extension to surface, top of atmosphere and layer boundary, levels are sorted, the layer thicknesses above the surface add up to the surface pressure, the upper layer to the boundary pressure and the lower to the difference, for any order of the input levels.", "quantifier": "all sets of pressure levels in any order (also below ground), all surface pressures", "why_tests_cant": "all orderings and values", "anchors": ["src/wam2layers/preprocessing/pressure_levels.py:extend_pressurelevels", "src/wam2layers/preprocessing/pressure_levels.py:interp_dp_midpoints", "src/wam2layers/preprocessing/pressure_levels.py:mask_below_surface_data"]}
{"id": "C50", "title": "Vertical interpolation is exact, bounded and guarded", "statement": "interpolate returns the node value at nodes, lies between the two enclosing node values elsewhere, raises outside the range or for unsorted coordinates, and never divides by zero.", "quantifier": "all monotone coordinate arrays with positive range, all values", "why_tests_cant": "all array lengths and values", "anchors": ["src/wam2layers/preprocessing/utils.py:interpolate"]}
{"id": "C51", "title": "Model-level thicknesses add up to the surface pressure", "statement": "For every selection of ERA5 model levels the pressure thicknesses sum to the surface pressure and are positive for increasing level selections and realistic surface pressure.", "quantifier": "all level subsets, all surface pressures in range", "why_tests_cant": "all subsets of 137 levels", "anchors": ["src/wam2layers/preprocessing/era5.py:get_edges", "src/wam2layers/preprocessing/era5.py:get_dp_modellevels"]}
{"id": "C52", "title": "levels: All works", "statement": "The documented shorthand for using all levels is usable for model-level preprocessing.", "quantifier": "all configurations with the shorthand", "why_tests_cant": "never exercised by tests; a statement about every such configuration", "anchors": ["src/wam2layers/preprocessing/era5.py:get_edges", "src/wam2layers/preprocessing/era5.py:get_dp_modellevels", "src/wam2layers/config.py:Config.levels"]}
{"id": "C53", "title": "Day files are complete and schedule independent", "statement": "Preprocessing writes, for every calendar day in range, one file with exactly the time stamps of that day in order; sequential and parallel preprocessing (any interleaving of the per-day workers) produce the same files.", "quantifier": "all date ranges, frequencies, calendars, all schedules", "why_tests_cant": "all interleavings", "anchors": ["src/wam2layers/preprocessing/shared.py:group_timestamps_by_day", "src/wam2layers/preprocessing/shared.py:parallel_preprocess", "src/wam2layers/preprocessing/shared.py:preprocess", "src/wam2layers/preprocessing/xarray_append.py:append_to_netcdf"]}
{"id": "C54", "title": "Preprocessing recovers from a crash by re-running", "statement": "If preprocessing is interrupted at any point, running it again produces the same files as an uninterrupted run.", "quantifier": "all crash points", "why_tests_cant": "all crash points", "anchors": ["src/wam2layers/preprocessing/shared.py:prep_experiment", "src/wam2layers/preprocessing/shared.py:preprocess"]}
{"id": "C55", "title": "Longitudes end up in ISO range with their data", "statement": "shift_longitude returns longitudes in [-180,180], congruent mod 360 to the input, ascending when shifted, and every data column stays attached to its longitude.", "quantifier": "all longitude axes and data", "why_tests_cant": "all axes", "anchors": ["src/wam2layers/preprocessing/shared.py:shift_longitude"]}
{"id": "C56", "title": "Coordinate bounds are contiguous", "statement": "add_bounds gives each cell bounds centred on its coordinate; on a uniform grid adjacent cells share their bound.", "quantifier": "all uniform axes, ascending or descending", "why_tests_cant": "all axes", "anchors": ["src/wam2layers/preprocessing/utils.py:add_bounds"]}
{"id": "C57", "title": "Three-hourly CMIP fluxes keep their mean", "statement": "resample_3hr_var averages consecutive pairs: totals over the period are preserved, the label is the end of the 6 h interval, and files that do not start at 01:30 or have an odd number of steps are rejected.", "quantifier": "all series", "why_tests_cant": "all series lengths", "anchors": ["src/wam2layers/preprocessing/cmip.py:resample_3hr_var", "src/wam2layers/preprocessing/cmip.py:assert_correct_starttime"]}
{"id": "C58", "title": "Input validation rejects incomplete data", "statement": "validate_input accepts exactly datasets that have all dimensions and required variables with the right dimensions and no NaN values.", "quantifier": "all datasets", "why_tests_cant": "all datasets", "anchors": ["src/wam2layers/preprocessing/input_validation.py:validate_input"]}
{"id": "C59", "title": "The reported tagging closure is 100%", "statement": "The closure percentage logged by the progress tracker equals 100% for a run started from zero (it sums tracked, in-atmosphere, lost, gained, boundary).", "quantifier": "all runs", "why_tests_cant": "all histories", "anchors": ["src/wam2layers/utils/profiling.py:ProgressTracker.print_progress", "src/wam2layers/utils/profiling.py:ProgressTracker.store_intermediate_states"]}
{"id": "C60", "title": "Stability warnings are only repeated when things get worse", "statement": "Successive warnings are caused by a strongest correction factor at least 10% stronger, or a corrected area above 5% and at least 10% larger, than at the previous such warning; area warnings are at most 32 in any run.", "quantifier": "all histories of corrections", "why_tests_cant": "all histories", "anchors": ["src/wam2layers/utils/profiling.py:ProgressTracker.track_stability_correction"]}
{"id": "C61", "title": "Visualisation sums all output of a run", "statement": "The output figure accumulates exactly the files written by the run.", "quantifier": "all runs, frequencies, directions", "why_tests_cant": "relates all files of all runs", "anchors": ["src/wam2layers/analysis/visualization.py:_plot_output"]}
{"id": "C62", "title": "Range checks report out-of-range data", "statement": "check_range warns exactly if some value lies outside the range.", "quantifier": "all data and ranges", "why_tests_cant": "all data", "anchors": ["src/wam2layers/analysis/checks.py:check_range"]}
{"id": "C63", "title": "The track command runs the configured direction", "statement": "wam2layers track runs forward tracking iff tracking_direction is forward and backward iff backward, and output files carry the matching prefix.", "quantifier": "all configurations", "why_tests_cant": "trivial but exhaustive", "anchors": ["src/wam2layers/cli.py:track", "src/wam2layers/tracking/io.py:output_path"]}
{"id": "C64", "title": "File names and labels identify times in every calendar", "statement": "Two times share an input file name exactly if they are in the same day, an output file name exactly if in the same minute (and same direction), a time label exactly if in the same second; and in every supported calendar each day's date is the successor of the previous day's.", "quantifier": "all times with four-digit years, all supported calendars", "why_tests_cant": "all times and calendars", "anchors": ["src/wam2layers/tracking/io.py:input_path", "src/wam2layers/tracking/io.py:output_path", "src/wam2layers/utils/calendar.py"]}
{"id": "C65", "title": "Preprocessed data are usable whatever the preprocessing start", "statement": "Data preprocessed from any start date over an interval can be read by a tracking run within that interval.", "quantifier": "all preprocessing start dates, frequencies and tracking times", "why_tests_cant": "all start dates and times", "anchors": ["src/wam2layers/preprocessing/shared.py:get_input_dates", "src/wam2layers/tracking/io.py:load_data"]}
{"id": "C66", "title": "A time-dependent tagging region uses the nearest mask", "statement": "With a tagging region file that has a time dimension, the mask used for a step is the one whose time is nearest to the reference time, the later one of two equally near ones; some mask is found at every time.", "quantifier": "all increasing mask times, all reference times", "why_tests_cant": "all times", "anchors": ["src/wam2layers/tracking/io.py:load_tagging_region"]}
{"id": "C67", "title": "A tracking domain across the antimeridian has the grid spacing of the data", "statement": "The grid spacing (hence areas and lengths) used for a tracking domain equals the spacing of the data, also when the domain crosses the antimeridian.", "quantifier": "all global grids and boxes", "why_tests_cant": "all grids and boxes", "anchors": ["src/wam2layers/tracking/io.py:select_subdomain", "src/wam2layers/utils/grid.py:get_grid_info"]}
{"id": "C68", "title": "The storages of pressure-level preprocessing are the exact integrals of the humidity profile", "statement": "For a column on pressure levels with a surface value, if specific humidity is linear in pressure between the known points (surface, the given levels, and zero at zero pressure), then the lower and upper storages written by the preprocessing are the integrals of that profile over the two layers divided by gravity; with total column water available, the total is split in the ratio of these integrals.", "quantifier": "all columns (any number, order and values of levels, also below ground), all surface values, all boundary formulas giving a boundary above ground", "why_tests_cant": "all columns and orders; requires an integral of an arbitrary profile", "anchors": ["src/wam2layers/preprocessing/pressure_levels.py:extend_pressurelevels", "src/wam2layers/preprocessing/shared.py:preprocess", "src/wam2layers/preprocessing/pressure_levels.py:interp_dp_midpoints"]}
{"id": "C69", "title": "Preprocessed storages are non-negative and fluxes bounded by the wind times the storage", "statement": "With non-negative humidity (and total column water) and wind components at most U in absolute value, each storage written is non-negative and each horizontal flux is in absolute value at most U times the storage of its layer; with positive humidity and the layer boundary strictly between zero and the surface pressure both storages are positive.", "quantifier": "all columns, winds, bounds U, on model levels and on pressure levels", "why_tests_cant": "all columns of any length and order, all winds", "anchors": ["src/wam2layers/preprocessing/shared.py:preprocess"]}
{"id": "C70", "title": "Neighbouring columns of regional input stay neighbours", "statement": "When preprocessing shifts the longitudes of regional input data to [-180,180) and sorts them, columns that were neighbours in the input are neighbours in the result, with the same spacing between them.", "quantifier": "all regional grids with ascending longitudes in any of the conventions (0..360, -180..180, beyond)", "why_tests_cant": "all grids", "anchors": ["src/wam2layers/preprocessing/shared.py:shift_longitude"]}
{"id": "C71", "title": "A northward flux moves water north whatever the order in which the data store latitudes", "statement": "Storing the same fields with latitudes ascending instead of descending gives the same tracking result (stored in the other order).", "quantifier": "all grids, fields and steps", "why_tests_cant": "all fields; a sign error is invisible on symmetric data", "anchors": ["src/wam2layers/tracking/core.py:horizontal_advection", "src/wam2layers/preprocessing/cmip.py", "src/wam2layers/preprocessing/shared.py"]}
{"id": "C72", "title": "The input figure shows the accumulated amount", "statement": "The figure of the input (`wam2layers visualize input`) shows in every cell of the tagging region the amount of precipitation (backward) or evaporation (forward) accumulated over the tagging period, in mm, for every input frequency.", "quantifier": "all rate fields, regions, numbers of times and input frequencies", "why_tests_cant": "all frequencies and fields; a test with hourly data passes", "anchors": ["src/wam2layers/analysis/visualization.py:_plot_input"]}
{"id": "C73", "title": "Input checks report wrong signs, order, spacing and missing coordinates", "statement": "The checks on input data warn exactly if a value has the wrong sign, a coordinate is in the wrong order, is unevenly spaced or missing, or units are wrong; data that satisfy all requirements give no warning.", "quantifier": "all data sets (values may be nan), coordinates of any length", "why_tests_cant": "all values and lengths", "anchors": ["src/wam2layers/analysis/checks.py:check_input", "src/wam2layers/analysis/checks.py:check_uniform", "src/wam2layers/analysis/checks.py:check_coord", "src/wam2layers/analysis/checks.py:check_positive"]}
{"id": "C74", "title": "The configuration copied next to the output can be used to run again", "statement": "After `wam2layers track config` the output folder contains a copy of the configuration, and running `wam2layers track` with that copy repeats the run.", "quantifier": "all configurations, file systems, input data and directions", "why_tests_cant": "all configurations and file systems", "anchors": ["src/wam2layers/cli.py:track", "src/wam2layers/cli.py:_copy_config_yaml"]}
{"id": "C75", "title": "One step is the explicit two-layer scheme of the theory chapter", "statement": "One forward (backward) step computes in every cell and layer exactly the explicit scheme of the theory chapter: old tracked storage plus timestep times (donor-cell transport of the tagged fraction by the mean fluxes through the faces divided by the cell area, exchange with the other layer, tagged surface flux, minus the tagged share of the surface flux that leaves), followed by the correction chain; the accumulated outputs grow by the corresponding amounts.", "quantifier": "all grids, meteorological fields, masks, tracked states, both boundary modes, both directions", "why_tests_cant": "all fields and cells including corners; a swapped layer or component is invisible on symmetric data", "anchors": ["src/wam2layers/tracking/forwardtrack.py:forwardtrack", "src/wam2layers/tracking/backtrack.py:backtrack", "docs/theory.md"]}
{"id": "C76", "title": "A run is the documented scheme applied to time-centred data", "statement": "In a completed run over healthy input, every step starting at t uses the states at t and t+timestep and the fluxes at t+timestep/2 times the lengths of the cell faces, limited for stability, computes the vertical flux by the closure rule, applies the explicit two-layer scheme and the corrections, tags with the region of its reference time, and hands its tracked storage to the next step; the first step starts from zero or from the restart file, and output files contain the storage of the step ending there. Input at other times has no influence.", "quantifier": "all grids, worlds, configurations with positive timestep, completed forward and backward runs, all steps and cells", "why_tests_cant": "tests compare one run against a stored result; they cannot show that every step of every run uses exactly the right data and formula", "anchors": ["src/wam2layers/tracking/forwardtrack.py:run_experiment", "src/wam2layers/tracking/backtrack.py:run_experiment", "src/wam2layers/tracking/shared.py:initialize_time", "docs/theory.md"]}
{"id": "C77", "title": "The log percentages are shares of the tagged moisture in the files", "statement": "Every progress line printed at an output time t reports: tracked = moisture attributed in the output files up to t, in atmosphere = tracked storage in the file of t, lost = losses away from the domain edge, boundary = losses in the cells at the edge (first and last row; first and last column unless periodic), gained = gains, each weighted with cos(latitude), summed over all files so far and divided by the tagged moisture in those files; the closure is the sum of the five.", "quantifier": "all completed forward and backward runs, worlds, configurations with positive timestep, all log lines once something has been tagged", "why_tests_cant": "the report depends on the whole history of outputs; a test sees a few lines of one run", "anchors": ["src/wam2layers/utils/profiling.py:ProgressTracker.store_intermediate_states", "src/wam2layers/utils/profiling.py:ProgressTracker.print_progress"]}
{"id": "C78", "title": "Surface humidity from dew point and pressure is physical", "statement": "The specific humidity at the surface is the mass fraction of water vapour in air whose vapour pressure is the saturation pressure at the dew point (Tetens), independent of air temperature; it lies in (0, 1], increases with dew point and decreases with pressure.", "quantifier": "all dew points and pressures with saturation pressure not above the air pressure", "why_tests_cant": "an identity and monotonicity over a continuum of inputs", "anchors": ["src/wam2layers/preprocessing/utils.py:calculate_humidity"]}
{"id": "C79", "title": "The order in which pressure levels are listed does not matter", "statement": "Preprocessing of pressure-level data gives the same two layers whatever the order of the levels in the input, and for CMIP whatever the order in which the set of common levels is listed; the CMIP column has exactly the levels present in all three variables, each with its own values.", "quantifier": "all columns with distinct levels none of which is 0 or the surface pressure, all orders of the levels, files and Python sets", "why_tests_cant": "a set has no defined order and it differs between runs; all orders must give the same result", "anchors": ["src/wam2layers/preprocessing/cmip.py:common_levels", "src/wam2layers/preprocessing/cmip.py:get_input_data", "src/wam2layers/preprocessing/pressure_levels.py:extend_pressurelevels"]}
{"id": "C80", "title": "The order in which the file system lists CMIP files does not matter", "statement": "If a CMIP variable is split over several files in time, what is loaded for a time does not depend on the order in which the files that match the template are listed.", "quantifier": "all ways to split a variable over files, all listing orders, all times", "why_tests_cant": "the order of a directory listing is up to the file system; tests see one machine", "anchors": ["src/wam2layers/preprocessing/cmip.py:open_var", "src/wam2layers/preprocessing/cmip.py:resample_3hr_var", "src/wam2layers/utils/calendar.py:template_to_files"]}
{"id": "C81", "title": "A restarted run is bit-for-bit the uninterrupted run", "statement": "In the program's floating-point arithmetic (single and double precision as numpy uses them, output files in single precision): a run continued from the output file of time T goes through the same tracked storages, to the last bit, as the uninterrupted run; and if T is an output time and the accumulated fields at T are finite and not negative, the files of the two runs together are, value by value, those of the uninterrupted run. Input read from single-precision files, interpolated in time or not, meets the condition on the input.", "quantifier": "all input data of one shape whose moisture is in single precision, all configurations, all restart times, both directions; also every other arithmetic in which rounding twice is rounding once", "why_tests_cant": "whether rounding matters depends on the data; equality to the last bit must hold for every step of every run and every restart time", "anchors": ["src/wam2layers/tracking/io.py:write_output", "src/wam2layers/tracking/forwardtrack.py:initialize", "src/wam2layers/tracking/backtrack.py:initialize"]}
{"id": "C82", "title": "Horizontal transport in double precision conserves mass up to rounding", "statement": "Computed in IEEE double precision, horizontal_advection returns in every cell the donor-cell tendency of the exact scheme up to 4*2^-53 times (largest concentration) times (fluxes through the four faces of the cell), and the tendencies of all cells add up to zero up to 5*2^-53 times (largest concentration) times (sum of the absolute fluxes through all faces), plus an underflow term; exact conservation fails already on a 3x3 grid.", "quantifier": "all grid sizes from 2x2, both boundary modes, all double-precision concentrations and fluxes whose tendencies do not overflow", "why_tests_cant": "an error bound has to hold for every combination of rounding errors; tests see single values", "anchors": ["src/wam2layers/tracking/core.py:horizontal_advection", "src/wam2layers/utils/grid.py:stagger_x", "src/wam2layers/utils/grid.py:stagger_y"]}
{"id": "C83", "title": "A tracking step in floating point balances up to rounding", "statement": "With the program's mixture of IEEE single and double precision, one forward (backward) tracking step keeps its books up to rounding: area-weighted over the grid, tracked storage after + increase of losses + increase of tracked precipitation (evaporation) equals tracked storage before + increase of tagged moisture + increase of gains, up to 2^-16 (about 1.5e-5) times everything stored, accumulated or moved in the step, provided the results do not overflow.", "quantifier": "all grids from 2x2, both boundary modes, all floating-point fluxes, vertical fluxes, dispersion factors, masks, time steps and previous outputs; cells of at least 1 m2, positive storages; no overflow in the results", "why_tests_cant": "an error bound has to hold for every combination of rounding errors, every branch of the corrections and every grid size", "anchors": ["src/wam2layers/tracking/forwardtrack.py:forwardtrack", "src/wam2layers/tracking/backtrack.py:backtrack", "src/wam2layers/tracking/core.py:vertical_advection"]}
{"id": "C84", "title": "Whole-run mass balance in floating point", "statement": "For a completed forward (backward) run from scratch in the program's mixture of IEEE single and double precision, the area-weighted totals in the output files balance: tagged + gains = tracked precipitation (evaporation) + losses + tracked storage of the last file, up to 2^-13 times the moisture, tracked and accumulated amounts summed over the steps plus 2^-23 times the contents of the files.", "quantifier": "all grids from 2x2, both boundary modes, all configurations with a time step below 2^24 s, all inputs that are floating-point values with cells of 1 m2 or more and storages between 2^-100 and 2^100, any number of steps and files; results do not overflow", "why_tests_cant": "rounding errors accumulate over arbitrarily many steps, over resets of the accumulators and over the conversion to single precision; a test sees one run", "anchors": ["src/wam2layers/tracking/forwardtrack.py:run_experiment", "src/wam2layers/tracking/backtrack.py:run_experiment", "src/wam2layers/tracking/io.py:write_output"]}
{"id": "C85", "title": "Runs over healthy data never produce NaN or infinity", "statement": "If the input data are healthy (cells between 1 and 2^50 m2 with sides between 1 and 2^30 m, storages between 2^-20 and 2^20, bounded fluxes, at least one horizontal flux of each layer not vanishing, bounded region and dispersion), every output at every step and every file of a run of up to 2^20 steps consists of finite numbers, the tracked storages in the files are between 0 and 2^20 and can be used to restart, and hence the whole-run balance of C84 holds without assumptions on the results.", "quantifier": "all grids from 2x2, both boundary modes, both directions, fresh and restarted runs, all healthy inputs, up to 2^20 steps", "why_tests_cant": "overflow, NaN from 0/0 or inf-inf may be triggered by any combination of inputs at any step of a long run", "anchors": ["src/wam2layers/tracking/forwardtrack.py:run_experiment", "src/wam2layers/tracking/backtrack.py:run_experiment", "src/wam2layers/tracking/core.py:stabilize_fluxes", "src/wam2layers/tracking/core.py:calculate_fz"]}
{"id": "C86", "title": "A shapefile mask is the covered fraction of each cell", "statement": "With a shapefile as tagging region, the mask of every grid cell is the area of the part of the cell that lies inside the first polygon of the file divided by the area of the cell, so a number between 0 and 1; rows and columns may be in any order. If no grid row or column is within one cell of the polygon, the call fails instead of returning an empty mask.", "quantifier": "all polygons (any number of rings and vertices, holes, several parts), all grids with a dominant spacing in each direction, ascending, descending, rolled or with duplicates", "why_tests_cant": "a test uses one polygon on one grid; the claim depends on the shape, on the position relative to cell borders and on the ordering of the axes", "anchors": ["src/wam2layers/utils/shapefile_mask.py:create_mask", "src/wam2layers/utils/shapefile_mask.py:generate_boxes", "src/wam2layers/utils/shapefile_mask.py:infer_resolution", "src/wam2layers/utils/shapefile_mask.py:ensure_monotonic", "src/wam2layers/tracking/io.py:load_tagging_region"]}
{"id": "C87", "title": "A shapefile mask represents the whole polygon", "statement": "For a polygon within the documented limits (-180, -80, 180, 80) on a global grid, the masks of the cells add up, weighted with the cell areas in square degrees, to the area of the polygon: no part is lost and none is counted twice.", "quantifier": "all polygons within the documented limits, all uniform grids with rows and columns in either direction", "why_tests_cant": "an area near the antimeridian or exactly on cell borders is easily missed by examples; additivity has to hold for every shape", "anchors": ["src/wam2layers/utils/shapefile_mask.py:create_mask", "src/wam2layers/config.py:Config.tagging_region"]}
{"id": "C88", "title": "A named region is chosen by its number", "statement": "mask_with_regionmask with a set of regions and the number of one of its regions writes a mask that is one in the cells with their centre inside that region and zero elsewhere, whatever the grid; numbers that do not exist are errors. mask_with_shapefile does the same for the regions of a shapefile.", "quantifier": "all region sets, all region numbers, all grids (global and regional)", "why_tests_cant": "depends on which other regions happen to have a grid point; a test on one grid does not see it", "anchors": ["src/wam2layers/utils/tagging_region.py:mask_with_regionmask", "src/wam2layers/utils/tagging_region.py:mask_with_shapefile"]}
{"id": "C89", "title": "Several regions give the mask of their union", "statement": "With a list of several regions the mask is one in every cell whose centre is inside one of them and zero elsewhere.", "quantifier": "all region sets, all lists of region numbers, all grids, all cells", "why_tests_cant": "every combination of regions, including overlapping, repeated and no regions", "anchors": ["src/wam2layers/utils/tagging_region.py:mask_with_regionmask", "src/wam2layers/utils/tagging_region.py:mask_with_shapefile"]}
{"id": "C90", "title": "From raw ERA5 data to a balanced tracking run", "statement": "If the raw ERA5 data are physically plausible at every input time (moist air, a dew point the pressure allows, the layer boundary in the air; pressure or model levels), preprocessing succeeds, in parallel or not, and the files it writes can be tracked: with or without a tracking domain, forward and backward runs over any interval covered by the files end without an error, their output is non-negative and the tagged water is accounted for.", "quantifier": "all raw data fields, grids, level settings, worker schedules, run intervals, time steps, tracking domains of at least two rows and columns, and tagging boxes", "why_tests_cant": "the whole chain of preprocessing, files, loading, interpolation and tracking for all data", "anchors": ["src/wam2layers/preprocessing/shared.py:preprocess", "src/wam2layers/preprocessing/era5.py:get_input_data", "src/wam2layers/tracking/io.py:load_data", "src/wam2layers/tracking/forwardtrack.py:run_experiment", "src/wam2layers/tracking/backtrack.py:run_experiment"]}
{"id": "C91", "title": "Every place is tracked with its own data", "statement": "What a run uses at a cell of its domain, at any time, is what preprocessing computed from the raw data of the same latitude and meridian, interpolated linearly between the input times around it; every raw cell inside the tracking domain is in the run.", "quantifier": "all grids (also across the Greenwich or the 180th meridian), all domains, all cells, all times of the run", "why_tests_cant": "sorting and shifting of longitudes, cropping, rolling, file names and interpolation interact; a test only sees chosen cells", "anchors": ["src/wam2layers/preprocessing/shared.py:preprocess", "src/wam2layers/preprocessing/shared.py:shift_longitude", "src/wam2layers/tracking/io.py:select_subdomain", "src/wam2layers/tracking/io.py:load_data"]}
{"id": "C92", "title": "Tracked water is bounded by the column water of the input", "statement": "With total column water in the input, the tracked water of both layers together in any output file of a run is never negative and never more than the total column water of the raw data at that place and time (interpolated in time).", "quantifier": "all data, all runs in both directions, all output files, all cells", "why_tests_cant": "for every step of every run, through the correction factors of preprocessing", "anchors": ["src/wam2layers/preprocessing/shared.py:preprocess", "src/wam2layers/tracking/forwardtrack.py:forwardtrack", "src/wam2layers/tracking/backtrack.py:backtrack"]}
{"id": "C93", "title": "Tracked storages and fluxes are those of the raw vertical profiles", "statement": "At every input time of a run and in every cell of its domain, the storages and fluxes of the two layers are those of the vertical profile of the raw ERA5 data at that place: humidity and wind at the levels (hPa converted to Pa), saturation at the dew point at the surface, dry air at the top, mean humidity times thickness over g between neighbouring points, divided at the configured boundary and scaled to the total column water; the storages are the integrals of the profile. On model levels the same with the ECMWF level thicknesses. Precipitation minus evaporation is the accumulated net downward flux of the raw data per second.", "quantifier": "all raw data, level settings, grids, domains, input times and cells", "why_tests_cant": "all profiles and all cells, through sorting, boundary interpolation, masking, correction, longitude shift, files and cropping", "anchors": ["src/wam2layers/preprocessing/era5.py:get_input_data", "src/wam2layers/preprocessing/shared.py:preprocess", "src/wam2layers/preprocessing/pressure_levels.py:extend_pressurelevels", "src/wam2layers/preprocessing/era5.py:get_dp_modellevels", "src/wam2layers/tracking/io.py:load_data"]}
{"id": "C94", "title": "Appending adds one complete record and changes no old one", "statement": "append_to_netcdf puts the new data behind the old, at the same position in every variable along the time dimension, whatever the order of the variables, and changes nothing else; the times are stored with the units of the file and read back exactly. So the netCDF files that preprocessing leaves, with any schedule of parallel workers, hold for every day its times in order, each with all eight fields.", "quantifier": "all files, all data sets, all orders of variables, all schedules", "why_tests_cant": "all files and interleavings, all positions of the time dimension", "anchors": ["src/wam2layers/preprocessing/xarray_append.py:append_to_netcdf", "src/wam2layers/preprocessing/xarray_append.py:_expand_variable", "src/wam2layers/preprocessing/shared.py:preprocess"]}
{"id": "C95", "title": "A day file never shows an incomplete record", "statement": "At any moment, also after a crash in between two writes of append_to_netcdf, the day file shows complete records only.", "quantifier": "all files, all orders of variables, all crash points", "why_tests_cant": "every crash point", "anchors": ["src/wam2layers/preprocessing/xarray_append.py:append_to_netcdf"]}
{"id": "C96", "title": "Preprocessing in pieces gives the same as in one run", "statement": "Preprocessing a period in two runs, the second continuing where the first ended, leaves the same files as one run over the whole period.", "quantifier": "all periods, all points of division, all schedules, all previous contents of the folder", "why_tests_cant": "all ways to divide all periods", "anchors": ["src/wam2layers/preprocessing/shared.py:preprocess", "src/wam2layers/preprocessing/shared.py:get_input_dates", "src/wam2layers/preprocessing/shared.py:group_timestamps_by_day"]}
{"id": "C97", "title": "A download never touches existing files", "statement": "Whatever the servers answer and at whatever point a download stops, files that existed are unchanged and new files appear only in the new target directory; if the target exists, the download is refused and nothing changes.", "quantifier": "all file systems, all server answers, all DOIs and names", "why_tests_cant": "all answers of servers, all failures at all points", "anchors": ["src/wam2layers/download.py:download_from_doi", "src/wam2layers/download.py:create_target_directory", "src/wam2layers/download.py:download"]}
{"id": "C98", "title": "A successful download is complete", "statement": "If a download ends without error, the target directory has every file of the data set under its name with its content.", "quantifier": "all data sets, all server answers", "why_tests_cant": "all answers of servers and all name clashes", "anchors": ["src/wam2layers/download.py:download_from_4tu", "src/wam2layers/download.py:download", "src/wam2layers/download.py:get_4tu_catalog", "src/wam2layers/download.py:get_4tu_files"]}
{"id": "C99", "title": "A failed download can be repeated", "statement": "After a download that failed, the same command can be given again and succeeds if the servers are all right by then.", "quantifier": "all file systems, all failures at all points, all later server answers", "why_tests_cant": "all histories of failing requests", "anchors": ["src/wam2layers/download.py:download_from_4tu", "src/wam2layers/download.py:create_target_directory"]}
{"id": "C100", "title": "Preprocessing works the same from every source", "statement": "Whatever source delivers sound data on pressure levels for every input time (levels with floating-point or integer coordinates, with or without total column water), preprocessing writes all times, every tracking run on these files ends without error, its output is non-negative and balances, and every cell is tracked with the data of its own latitude and meridian, linearly interpolated in time.", "quantifier": "all sound input data, all grids, periods, schedules of workers, domains, tagging regions and time steps", "why_tests_cant": "all data from all sources; the tests run one source with one small file", "anchors": ["src/wam2layers/preprocessing/shared.py:get_input_data", "src/wam2layers/preprocessing/shared.py:preprocess", "src/wam2layers/preprocessing/pressure_levels.py"]}
{"id": "C101", "title": "ARCO-ERA5 gives what ERA5 gives", "statement": "Preprocessing from the ARCO-ERA5 store gives, for the same fields on the same levels, exactly the preprocessed data of ERA5 files; it succeeds exactly for pressure levels, the proleptic Gregorian calendar, times the store has and levels the store has, and raises otherwise.", "quantifier": "all stores, level lists, times, calendars and level types", "why_tests_cant": "the store is remote and has petabytes; equality over all fields", "anchors": ["src/wam2layers/preprocessing/arco.py:get_input_data", "src/wam2layers/preprocessing/arco.py:open_arco", "src/wam2layers/preprocessing/era5.py:get_input_data"]}
{"id": "C102", "title": "From CMIP files to tracked moisture", "statement": "From CMIP files that hold plausible fields for every input time and three-hour mean fluxes for the six hours before, preprocessing and tracking run to the end and balance; the storages in every cell are the integrals of the humidity profile through the levels common to humidity and winds, the surface and zero at the top, divided by g; precipitation and evaporation are the mean fluxes over the six hours before. Data are returned exactly when the files have them; otherwise there is an error.", "quantifier": "all sets of files, levels, grids, periods, domains", "why_tests_cant": "all divisions into files, all level sets, all fields; integrals over continuous profiles", "anchors": ["src/wam2layers/preprocessing/cmip.py:get_input_data", "src/wam2layers/preprocessing/cmip.py:load_cmip_var", "src/wam2layers/preprocessing/cmip.py:resample_3hr_var", "src/wam2layers/preprocessing/cmip.py:common_levels"]}
{"id": "C103", "title": "Only the content of CMIP files matters", "statement": "Two sets of CMIP files with the same content give the same preprocessed data, however the content is divided over files, in whatever order these are listed, and in whatever order the levels are stored or a set of levels is iterated.", "quantifier": "all pairs of file sets with the same content, all orders", "why_tests_cant": "all permutations and divisions; set order varies between interpreter runs", "anchors": ["src/wam2layers/preprocessing/cmip.py:open_var", "src/wam2layers/preprocessing/cmip.py:common_levels", "src/wam2layers/utils/calendar.py:template_to_files"]}
{"id": "C104", "title": "ERA5 files are found and read, and gaps are not passed over", "statement": "If the ERA5 files that the file name template names for a time hold a field for every needed variable (under the old or new spelling of time and level coordinates, with more levels than wanted and in any order), these fields are loaded on the wanted levels; total column water may be missing. If data are returned at all, every other variable had its file and that file had that time. The documented templates give one name per day and variable, and different ones for different days or variables. Keeping opened files in a cache changes no result.", "quantifier": "all templates, directories of files, times, calendars, level lists, sequences of accesses", "why_tests_cant": "all directories and all orders of access; the tests have one directory with one spelling", "anchors": ["src/wam2layers/preprocessing/era5.py:load_data", "src/wam2layers/preprocessing/era5.py:open_da", "src/wam2layers/preprocessing/era5.py:get_input_data", "src/wam2layers/config.py:Config.filename_template"]}
{"id": "C105", "title": "From ERA5 files to tracked moisture", "statement": "Preprocessing ERA5 files gives what preprocessing the data they hold gives; so from files that hold plausible data for every input time, preprocessing writes all times, and every tracking run on the result ends without error, with non-negative output that balances.", "quantifier": "all directories of files, grids, level settings, periods, schedules of workers, domains, tagging regions and time steps", "why_tests_cant": "a statement about all files and all runs", "anchors": ["src/wam2layers/preprocessing/era5.py:get_input_data", "src/wam2layers/preprocessing/shared.py:preprocess", "src/wam2layers/tracking/forward.py", "src/wam2layers/tracking/backward.py"]}
{"id": "C106", "title": "Downloading ERA5 can be interrupted and continued", "statement": "The download scripts fetch, for every day of the list, exactly the files preprocessing asks for, each with the request for its own day and variable; however often the script fails or is killed, running it again (with skip_exist) until it ends without a failure leaves all files whole, and only missing files are requested again.", "quantifier": "all date lists and settings, all histories of runs, failures and crash points", "why_tests_cant": "the server is remote; all histories of failures and crashes", "anchors": ["scripts/download_era5_pl.py", "scripts/download_era5_ml.py", "src/wam2layers/preprocessing/era5.py:load_data"]}
{"id": "C107", "title": "A configuration survives export and re-reading", "statement": "Every configuration that is accepted, exported with to_string/to_file (or kept as metadata in an output file) and read again with from_yaml, from any working directory, is accepted again and equal to the original; so two output files with the same configuration text come from the same configuration.", "quantifier": "all yaml settings, texts, numbers, boxes, paths, dates and calendars, all working directories", "why_tests_cant": "all texts (escapes, unicode), all floats and paths; the writer (json) and the reader (yaml) are different programs", "anchors": ["src/wam2layers/config.py:Config.to_string", "src/wam2layers/config.py:Config.to_file", "src/wam2layers/config.py:Config.from_yaml", "src/wam2layers/config.py:Config.convert_dates", "src/wam2layers/tracking/io.py"]}
{"id": "C108", "title": "Paths and level lists mean what the documentation says", "statement": "Relative folders are taken from the working directory, absolute ones are used as written and ~ is the home directory; levels is a list of whole numbers or the shorthand for all levels, \"all\".", "quantifier": "all paths, home and working directories, all level entries", "why_tests_cant": "all paths; the documentation's own examples are not tested", "anchors": ["src/wam2layers/config.py:Config._expanduser", "src/wam2layers/config.py:Config.levels", "src/wam2layers/config.py:Config.output_folder"]}
{"id": "C109", "title": "Reading a configuration makes its folders and no others", "statement": "After a configuration is accepted its output and preprocessed-data folders exist, and no other folder was made; a configuration that is rejected leaves no folders behind.", "quantifier": "all settings, all states of the file system", "why_tests_cant": "all combinations of right and wrong entries", "anchors": ["src/wam2layers/config.py:Config._make_dir", "src/wam2layers/config.py:Config.convert_dates", "src/wam2layers/config.py:Config.check_date_order"]}
{"id": "C110", "title": "Input variables on different grids are never mixed up", "statement": "If the ERA5 files of the variables have different grids or orders of latitudes, longitudes or levels, then in data that are accepted every value still comes from the file of its variable at the same time, latitude, longitude and level; the grid is that of specific humidity. Files that cover this grid are accepted, a file that lacks one of its latitudes or longitudes is rejected, never filled up.", "quantifier": "all sets of ERA5 files with whatever coordinates and values, all times, both level types", "why_tests_cant": "all pairs of grids; a mix-up gives plausible fields without an error", "anchors": ["src/wam2layers/preprocessing/era5.py:get_input_data", "src/wam2layers/preprocessing/era5.py:load_data", "src/wam2layers/preprocessing/input_validation.py:check_nans"]}
{"id": "C111", "title": "The file named by a stability warning holds the field of that warning", "statement": "Every stability warning names a file in output_folder/debug; after the run that file holds the field of correction factors (corrected over uncorrected meridional flux, cell by cell) whose percentage and strongest factor the warning reports. Files of different steps have different names and no other file is touched.", "quantifier": "all completed forward and backward runs, all wind and storage fields, all folders and earlier contents, all calendars", "why_tests_cant": "all histories of corrections over all steps and both layers; a lost debug file raises nothing", "anchors": ["src/wam2layers/utils/profiling.py:ProgressTracker.track_stability_correction", "src/wam2layers/tracking/core.py:stabilize_fluxes"]}
{"id": "C112", "title": "CMIP data in another calendar are reported, and only those", "statement": "Preprocessing CMIP data gives a calendar warning if the input has a date that the configured calendar reads differently, and no warning if the input is in the configured calendar, by whichever of its accepted names that is called.", "quantifier": "all nine configured calendar names, all calendar attributes and times of the input files, all directory listings", "why_tests_cant": "all pairs of calendars and all times; that two calendars agree on a range of dates is a statement about every day of it", "anchors": ["src/wam2layers/utils/calendar.py:validate_calendar_type", "src/wam2layers/utils/calendar.py:get_calendar_type", "src/wam2layers/utils/calendar.py:has_cftime", "src/wam2layers/preprocessing/shared.py:prep_experiment"]}
{"id": "C113", "title": "The figures can be made after a run", "statement": "For every configuration that is accepted, with its input data and the files of a finished run in place, `wam2layers visualize input`, `visualize output` and `visualize both` save their figure in output_folder/figures.", "quantifier": "all accepted configurations, tagging regions, input data and finished forward and backward runs", "why_tests_cant": "all configurations and runs; the plotting commands have no test with a real configuration", "anchors": ["src/wam2layers/analysis/visualization.py:_plot_input", "src/wam2layers/analysis/visualization.py:_plot_output", "src/wam2layers/analysis/visualization.py:visualize_input_data", "src/wam2layers/analysis/visualization.py:visualize_output_data", "src/wam2layers/analysis/visualization.py:visualize_both", "src/wam2layers/config.py:Config.convert_dates"]}
{"id": "C114", "title": "Every command leaves a log file with all its messages", "statement": "Every command (preprocess, track, visualize) writes the messages it logs, DEBUG and up, in order to a log file of its own in its output folder; logs of earlier commands are kept. The terminal shows INFO and up, with --debug everything.", "quantifier": "all histories of processes and commands, all folders, starting times and messages, every moment at which a command may be stopped", "why_tests_cant": "all histories; a lost log raises nothing", "anchors": ["src/wam2layers/cli.py:setup_logging", "src/wam2layers/cli.py:track", "src/wam2layers/cli.py:era5", "src/wam2layers/cli.py:input"]}
{"id": "C115", "title": "Output files say where they come from", "statement": "Every output file of a run names in its global attributes the direction, the configuration, the version and time of writing, and keeps the source and the history of the preprocessed data it was made from.", "quantifier": "all runs in both directions with any updates and writes, restarted or not, all attributes of the preprocessed data", "why_tests_cant": "all attribute contents and all files of a run; lost provenance raises nothing", "anchors": ["src/wam2layers/tracking/io.py:get_main_attrs", "src/wam2layers/tracking/io.py:write_output", "src/wam2layers/tracking/backtrack.py:initialize", "src/wam2layers/tracking/forwardtrack.py:initialize"]}
{"id": "C116", "title": "Latitude bounds of output files lie on the sphere", "statement": "The latitude bounds that every output file gets are latitudes: no cell extends beyond a pole.", "quantifier": "all uniform latitude axes, ascending or descending, with and without the poles", "why_tests_cant": "all axes; conservative regridding of the output relies on it", "anchors": ["src/wam2layers/preprocessing/utils.py:add_bounds", "src/wam2layers/tracking/io.py:write_output", "src/wam2layers/utils/grid.py:get_grid_info"]}
