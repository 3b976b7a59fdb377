{"claims": [
{"property": "C01", "status": "proved", "theorems": ["C01_closed_conservation", "C01_periodic_conservation", "C01_stagger_seam", "C01_staggered_conservation"], "note": ""},
{"property": "C02", "status": "proved", "theorems": ["C02_donor_cell"], "note": ""},
{"property": "C03", "status": "proved", "theorems": ["C03_reciprocity", "C03_adjoint"], "note": ""},
{"property": "C04", "status": "proved", "theorems": ["C04_roll_equivariance", "C04_roll_equivariance_binary64", "C04_boundary_mask"], "note": ""},
{"property": "C05", "status": "partial", "theorems": ["C05_vertical_flux_depends_on_seam_refuted", "C05_vertical_flux_away_from_seam_partial", "C05_stability_correction_roll", "C05_step_roll_given_vertical_flux", "C05_backward_step_roll_given_vertical_flux"], "note": "REFUTED as stated: calculate_fz uses np.gradient, which is one-sided at the first and last longitude, so the vertical flux depends on where the seam is (C05_vertical_flux_depends_on_seam_refuted). Proved: equivariance away from the seam, of the stability correction, and of the tracking step given the vertical flux."},
{"property": "C06", "status": "proved", "theorems": ["C06_vertical_advection", "C06_vertical_dispersion", "C06_column_independent_of_vertical_flux", "C06_column_independent_of_vertical_flux_backward"], "note": ""},
{"property": "C07", "status": "proved", "theorems": ["C07_superposition", "C07_backward_superposition"], "note": ""},
{"property": "C08", "status": "proved", "theorems": ["C08_forward_mass_balance"], "note": ""},
{"property": "C09", "status": "proved", "theorems": ["C09_backward_mass_balance"], "note": ""},
{"property": "C10", "status": "proved", "theorems": ["C10_forward_bounds_any_arithmetic", "C10_backward_bounds_any_arithmetic", "C10_forward_bounds_binary64", "C10_backward_bounds_binary64", "C10_forward_bounds", "C10_backward_bounds"], "note": ""},
{"property": "C11", "status": "proved", "theorems": ["C11_corrections_local"], "note": ""},
{"property": "C12", "status": "proved", "theorems": ["C12_forward_attribution", "C12_backward_attribution"], "note": ""},
{"property": "C13", "status": "proved", "theorems": ["C13_forward_untagged_step", "C13_backward_untagged_step", "C13_forward_untagged_run", "C13_backward_untagged_run"], "note": ""},
{"property": "C14", "status": "proved", "theorems": ["C14_stability_correction"], "note": ""},
{"property": "C15", "status": "partial", "theorems": ["C15_calm_cell_becomes_nan_refuted", "C15_calm_cell_poisons_storage_refuted", "C15_calm_cell_binary64_refuted", "C15_one_component_partial"], "note": "REFUTED: the results of fillna(0) are discarded, a calm cell becomes 0/0 = NaN and poisons tracked storage (in IEEE binary64 too). Proved: what holds if one component is non-zero."},
{"property": "C16", "status": "partial", "theorems": ["C16_outflow_exceeds_content_refuted", "C16_negative_storage_booked_as_gain_refuted", "C16_outflow_bounded_partial"], "note": "REFUTED: limiting is done at cell centres, staggering afterwards averages with a moist neighbour; a dry cell can lose more than it contains. Proved: the bound under the extra hypothesis that the neighbours hold no more moisture."},
{"property": "C17", "status": "proved", "theorems": ["C17_proportional_closure"], "note": ""},
{"property": "C18", "status": "proved", "theorems": ["C18_vertical_flux_limited"], "note": ""},
{"property": "C19", "status": "partial", "theorems": ["C19_surface_fluxes_refuted", "C19_no_surface_flux_partial"], "note": "REFUTED: evaporation and precipitation (per unit area) are divided by the cell area in the closure. Proved: the statement without surface fluxes."},
{"property": "C20", "status": "proved", "theorems": ["C20_consistent_transport"], "note": ""},
{"property": "C21", "status": "proved", "theorems": ["C21_forward_step_finite", "C21_backward_step_finite"], "note": ""},
{"property": "C22", "status": "proved", "theorems": ["C22_area_is_exact", "C22_areas_positive", "C22_proportional_to_cosine", "C22_cells_tile_the_band", "C22_global_grid_is_the_sphere", "C22_faces_match_areas", "C22_face_lengths"], "note": ""},
{"property": "C23", "status": "partial", "theorems": ["C23_area_uses_longitude_spacing_refuted", "C23_square_cells_partial"], "note": "REFUTED: the latitudinal extent of a cell is computed from the longitude spacing; the area is right iff the spacings are equal (general theorem for every interior cell). Proved for equal spacings."},
{"property": "C24", "status": "proved", "theorems": ["C24_stagger_x", "C24_stagger_y"], "note": ""},
{"property": "C25", "status": "proved", "theorems": ["C25_forward_interval", "C25_backward_interval", "C25_forward_run_ends", "C25_backward_run_ends", "C25_forward_uses_only", "C25_backward_uses_only"], "note": ""},
{"property": "C26", "status": "partial", "theorems": ["C26_zero_timestep_runs_forever_refuted", "C26_positive_timestep_partial"], "note": "REFUTED: timestep is a plain int, 0 (or negative) is accepted and the loop never advances (C26_zero_timestep_runs_forever_refuted). Proved: termination for every positive timestep."},
{"property": "C27", "status": "proved", "theorems": ["C27_forward_tagging_window", "C27_backward_tagging_window"], "note": ""},
{"property": "C28", "status": "proved", "theorems": ["C28_forward_nothing_lost", "C28_backward_nothing_lost", "C28_forward_file_content", "C28_backward_file_content"], "note": ""},
{"property": "C29", "status": "proved", "theorems": ["C29_forward_run_mass_balance", "C29_backward_run_mass_balance"], "note": ""},
{"property": "C30", "status": "proved", "theorems": ["C30_forward_files", "C30_backward_files"], "note": ""},
{"property": "C31", "status": "proved", "theorems": ["C31_forward_restart", "C31_backward_restart"], "note": "Storage is exact: over the reals (file storage is the identity). The single-precision rounding of the restart file is the subject of C81."},
{"property": "C32", "status": "partial", "theorems": ["C32_directions_differ", "C32_collision_is_same_minute", "C32_forward_partial", "C32_backward_partial", "C32_overwrites_refuted"], "note": "REFUTED as stated: output names have minute resolution, so sub-minute output times overwrite each other (C32_overwrites_refuted). Proved: names collide iff same minute; distinct for timestep >= 60 s; directions never collide."},
{"property": "C33", "status": "partial", "theorems": ["C33_forward_aligned_partial", "C33_backward_aligned_partial", "C33_time_bnds_refuted"], "note": "REFUTED: add_time_bounds always uses the full output frequency; C33_time_bnds_refuted gives a run whose last file covers 1 s but is labelled with 2 s. Proved: when timestep | output frequency and the run begins and ends at output times, the bounds are exactly the accumulation period (C28_*_file_content identifies that period)."},
{"property": "C34", "status": "proved", "theorems": ["C34_exact_at_input_times", "C34_linear_between", "C34_bounded_and_monotone", "C34_fluxes_bounded_and_monotone", "C34_healthy_files_healthy_run"], "note": ""},
{"property": "C35", "status": "proved", "theorems": ["C35_run_finds_its_input", "C35_preprocessed_run_completes"], "note": ""},
{"property": "C36", "status": "proved", "theorems": ["C36_cache_is_transparent", "C36_cached_load_data"], "note": ""},
{"property": "C37", "status": "proved", "theorems": ["C37_bounded_retry"], "note": ""},
{"property": "C38", "status": "proved", "theorems": ["C38_mask_is_the_box"], "note": ""},
{"property": "C39", "status": "proved", "theorems": ["C39_subdomain_is_the_box"], "note": ""},
{"property": "C40", "status": "partial", "theorems": ["C40_same_cells_as_tagging_partial", "C40_edge_columns_dropped_refuted", "C40_meridian_box_refuted"], "note": "REFUTED: boxes across the antimeridian use strict inequalities (edge columns dropped), and west = east keeps everything but that meridian. Proved when no column lies on an edge, or west < east."},
{"property": "C41", "status": "proved", "theorems": ["C41_square_mask", "C41_square_is_a_box", "C41_track_masks"], "note": ""},
{"property": "C42", "status": "proved", "theorems": ["C42_reads_dates", "C42_boxes", "C42_accepted_configurations"], "note": ""},
{"property": "C43", "status": "partial", "theorems": ["C43_export_cuts_to_the_minute", "C43_round_trip_partial", "C43_seconds_are_lost_refuted", "C43_iso_round_trip"], "note": "REFUTED: dates are exported with %Y%m%dT%H:%M, so seconds are dropped (C43_seconds_are_lost_refuted). Proved: the export cuts to the minute, hence round trips exactly whole-minute dates; ISO strings round trip."},
{"property": "C44", "status": "proved", "theorems": ["C44_frequencies", "C44_idempotent", "C44_others_unchanged"], "note": ""},
{"property": "C45", "status": "partial", "theorems": ["C45_parses_dois", "C45_result_is_in_the_text_partial", "C45_dot_is_a_wildcard_refuted", "C45_rejects", "C45_rejects_exactly", "C45_4tu_id"], "note": "REFUTED: the dot of '10.' is not escaped in the regular expression, so text that is not a DOI is accepted (C45_dot_is_a_wildcard_refuted). Proved: every DOI after text without '10' is parsed into its two parts; whatever is returned occurs in the text; text without '10' is rejected."},
{"property": "C46", "status": "proved", "theorems": ["C46_era5_surface_fluxes", "C46_arco_equals_era5"], "note": ""},
{"property": "C47", "status": "partial", "theorems": ["C47_dew_is_subtracted_refuted", "C47_upward_heat_flux_partial"], "note": "REFUTED: the sign convention is such that dew (negative evaporation) is subtracted from precipitation instead of added (C47_..._refuted). Proved: non-negativity, and the net flux wherever hfls >= 0."},
{"property": "C48", "status": "proved", "theorems": ["C48_layers_partition", "C48_model_levels", "C48_pressure_levels", "C48_pressure_level_layers"], "note": ""},
{"property": "C49", "status": "partial", "theorems": ["C49_extended_levels", "C49_extension_succeeds", "C49_thicknesses_partial", "C49_integer_levels_refuted", "C49_integer_levels_error_partial"], "note": "REFUTED for integer level coordinates (ARCO-ERA5 and older ERA5 files): np.insert/assignment into an integer coordinate truncates the surface pressure and the boundary to whole Pa (error < 1 Pa each, C49_integer_levels_error_partial). Proved exactly for floating-point coordinates."},
{"property": "C50", "status": "proved", "theorems": ["C50_interpolate_guards", "C50_interpolate_value", "C50_bounded", "C50_no_division_by_zero"], "note": ""},
{"property": "C51", "status": "proved", "theorems": ["C51_thicknesses_add_up", "C51_thicknesses_positive", "C51_thickness_of_a_level"], "note": ""},
{"property": "C52", "status": "partial", "theorems": ["C52_no_shorthand_works_refuted", "C52_full_list_partial"], "note": "REFUTED: no string shorthand works for model levels: the configuration only accepts 'All', get_edges compares with 'all'; both end in an exception. Proved: the full explicit list 1..137 works."},
{"property": "C53", "status": "proved", "theorems": ["C53_input_times", "C53_input_times_rounded", "C53_day_files_complete_any_schedule", "C53_parallel_equals_sequential"], "note": ""},
{"property": "C54", "status": "proved", "theorems": ["C54_rerun_after_crash"], "note": ""},
{"property": "C55", "status": "proved", "theorems": ["C55_shift_longitude", "C55_strictly_ascending", "C55_global_axis"], "note": ""},
{"property": "C56", "status": "proved", "theorems": ["C56_bounds_are_centred", "C56_uniform_axis", "C56_one_jump"], "note": ""},
{"property": "C57", "status": "proved", "theorems": ["C57_accepts", "C57_means", "C57_loaded_flux"], "note": ""},
{"property": "C58", "status": "proved", "theorems": ["C58_accepts_exactly_complete_data"], "note": ""},
{"property": "C59", "status": "partial", "theorems": ["C59_forward_closure_partial", "C59_backward_closure_partial", "C59_closure_above_100_refuted"], "note": "REFUTED: the closure adds the gained percentage instead of subtracting it; C59_closure_above_100_refuted gives a run whose log reports more than 100%. Proved: on every grid with cell area proportional to cos(latitude), the reported closure is exactly 100% + 2 x gained%, hence 100% iff nothing was gained."},
{"property": "C60", "status": "proved", "theorems": ["C60_history", "C60_reported_percentage", "C60_reported_factor", "C60_warns_about_stronger_corrections", "C60_warns_about_larger_corrections", "C60_forward_run_history", "C60_backward_run_history", "C60_forward_run", "C60_backward_run"], "note": ""},
{"property": "C61", "status": "partial", "theorems": ["C61_forward_figure_partial", "C61_backward_figure_partial", "C61_unaligned_start_refuted", "C61_last_period_missing_refuted"], "note": "REFUTED: the figure leaves out the last output period of the run in both directions, fails for a run of a single period, and fails (FileNotFoundError) when the start of the run is not an output time. Proved: exactly which files an aligned run's figure shows, for every number of periods."},
{"property": "C62", "status": "partial", "theorems": ["C62_check_range_partial", "C62_values_above_are_not_reported_refuted", "C62_no_false_alarm"], "note": "REFUTED: because of `not a and b` precedence a value above the range is never reported. Proved: exactly when check_range warns; no false alarms."},
{"property": "C63", "status": "proved", "theorems": ["C63_track_runs_the_configured_direction", "C63_other_directions_rejected", "C63_names_are_those_of_C32"], "note": ""},
{"property": "C64", "status": "proved", "theorems": ["C64_input_file_is_the_day", "C64_label_is_the_second", "C64_output_file_is_the_minute", "C64_calendar_days_follow_each_other"], "note": ""},
{"property": "C65", "status": "partial", "theorems": ["C65_unaligned_start_refuted"], "note": "REFUTED: a start that is not a multiple of the input frequency (since 1970) makes every load at every time fail, because the tracker floors to multiples of the frequency. The aligned case is C35."},
{"property": "C66", "status": "proved", "theorems": ["C66_nearest_mask"], "note": ""},
{"property": "C67", "status": "partial", "theorems": ["C67_spacing_of_a_rolled_domain_refuted"], "note": "REFUTED: if exactly one column of the rolled domain lies before the antimeridian the derived spacing is 360 - d; in all other cases it is d (the theorem gives both)."},
{"property": "C68", "status": "proved", "theorems": ["C68_storages_are_integrals"], "note": ""},
{"property": "C69", "status": "proved", "theorems": ["C69_model_levels", "C69_pressure_levels", "C69_positive_storages"], "note": ""},
{"property": "C70", "status": "partial", "theorems": ["C70_region_stays_contiguous_partial", "C70_region_across_antimeridian_refuted"], "note": "REFUTED: a region across the antimeridian (e.g. 170E-190E) is cut in two and its two ends become neighbours, 360-(n-1)dx apart (C70_region_across_antimeridian_refuted). Proved for regions on one side."},
{"property": "C71", "status": "partial", "theorems": ["C71_increasing_latitudes_reverse_the_wind_refuted"], "note": "REFUTED: the advection assumes latitudes in decreasing order (a comment says so) but nothing sorts or checks; storing the data south-to-north is the same as reversing the meridional wind (general theorem)."},
{"property": "C72", "status": "partial", "theorems": ["C72_figure_scale", "C72_hourly_partial", "C72_other_frequencies_refuted"], "note": "REFUTED: the factor is always 3600 s, so the figure is wrong by 3600 s / freq for every other input frequency (C72_figure_scale, C72_other_frequencies_refuted). Proved for hourly data. The sum is reached only with dates that pandas accepts: see C113."},
{"property": "C73", "status": "partial", "theorems": ["C73_signs", "C73_order", "C73_spacing", "C73_uneven_coordinate_raises_refuted", "C73_missing_coordinate_raises_refuted", "C73_silence"], "note": "REFUTED: an unevenly spaced coordinate raises NameError and a missing one KeyError instead of a warning. Proved: exact conditions for the sign and order warnings, and that the checks are silent exactly if all requirements hold (with the weak range requirement of C62)."},
{"property": "C74", "status": "partial", "theorems": ["C74_configuration_is_copied", "C74_copy_cannot_be_used_refuted", "C74_moved_copy_repeats_the_run_partial"], "note": "REFUTED: a run started from the copy in the output folder always fails (shutil.SameFileError). Proved: the copy is made, nothing else changes, and any copy kept elsewhere repeats the run."},
{"property": "C75", "status": "proved", "theorems": ["C75_forward_step", "C75_backward_step"], "note": ""},
{"property": "C76", "status": "proved", "theorems": ["C76_forward_run", "C76_backward_run"], "note": ""},
{"property": "C77", "status": "proved", "theorems": ["C77_forward_log_lines", "C77_backward_log_lines", "C77_one_line_per_file"], "note": ""},
{"property": "C78", "status": "proved", "theorems": ["C78_is_specific_humidity", "C78_monotone"], "note": ""},
{"property": "C79", "status": "proved", "theorems": ["C79_level_order_is_irrelevant", "C79_common_levels", "C79_cmip_columns"], "note": ""},
{"property": "C80", "status": "partial", "theorems": ["C80_six_hourly", "C80_six_hourly_value", "C80_three_hourly_partial", "C80_three_hourly_value_partial", "C80_order_matters_refuted", "C80_order_raises_refuted"], "note": "REFUTED for the three-hourly variables: time steps are averaged in pairs after concatenating the files in listing order (glob does not sort); if a file ends within a six-hour period another listing silently gives another flux, and a file that does not begin at 01:30 may come first and raise (both refuted theorems). Proved: six-hourly variables always; three-hourly if every file holds whole six-hour periods from 01:30."},
{"property": "C81", "status": "proved", "theorems": ["C81_forward_restart_any_arithmetic", "C81_backward_restart_any_arithmetic", "C81_forward_restart", "C81_backward_restart", "C81_files_in_single_precision"], "note": "The tracked storages are float32 arrays in memory (numpy 2 promotion rules: Python scalars do not widen, in-place updates keep the type), so writing and reading them back loses nothing. C81_..._any_arithmetic is the statement for an arbitrary arithmetic whose rounding settles. C81_files_in_single_precision discharges the hypothesis on the input; C81_world, C81_case and C81_files_case show a run meeting all hypotheses."},
{"property": "C82", "status": "proved", "theorems": ["C82_conservation_binary64", "C82_staggered_conservation_binary64", "C82_cell_accuracy_binary64"], "note": "Values of results are assumed not to overflow (all_finite of the result). Example C82_rounding_creates_mass shows that the sum of the tendencies is not exactly zero."},
{"property": "C83", "status": "proved", "theorems": ["C83_forward_mass_balance_float", "C83_backward_mass_balance_float"], "note": "The balance is about one step; results are assumed not to overflow (fwd_numbers/bwd_numbers of the result), cells are at least 1 m2 large. C83_forward_case and C83_backward_case show a step that meets all hypotheses."},
{"property": "C84", "status": "proved", "theorems": ["C84_forward_run_mass_balance_float", "C84_backward_run_mass_balance_float"], "note": "Exact (real-number) balance is C29; this is the version with the program's single- and double-precision roundings and float32 files. Results are assumed not to overflow; C85 removes that assumption for healthy data. C85_case and C85_backward_case show runs meeting all hypotheses (with ex_world_shape and ex_healthy)."},
{"property": "C85", "status": "proved", "theorems": ["C85_forward_run_finite", "C85_backward_run_finite", "C85_forward_run_balance", "C85_backward_run_balance"], "note": "Hypotheses: healthy64 (ranges of the data) and, for a restarted run, a previous file with storages between 0 and 2^20, which the theorem shows every file of a run to have. ex_world_shape, ex_healthy, C85_case and C85_backward_case show a non-trivial world, run and completion. The requirement that some flux does not vanish is needed: 0/0 in the stabilisation gives NaN otherwise."},
{"property": "C86", "status": "proved", "theorems": ["C86_mask_is_the_covered_fraction", "C86_polygon_off_the_grid"], "note": "The area that shapely computes is modelled as the double integral of the even-odd interior over the box (Polygon.v), with integrability, additivity and bounds proved for every polygon; rectangle_area and triangle_area check the definition. GEOS's algorithm and rounding are not modelled. C87_case meets the hypotheses."},
{"property": "C87", "status": "partial", "theorems": ["C87_total_area_partial", "C87_polygon_at_the_antimeridian_refuted"], "note": "REFUTED: on a global axis -180, -180+d, ... the cells end at 180-d/2, so that the part of a polygon between 180-d/2 and 180 is lost, without an error if the rest or a cell is near (C87_polygon_at_the_antimeridian_refuted, C87_lost_polygon). Proved for all polygons that the cells cover (C87_total_area_partial, C87_case)."},
{"property": "C88", "status": "partial", "theorems": ["C88_one_named_region_partial", "C88_one_shapefile_region_partial", "C88_region_off_the_grid_refuted", "C88_number_zero_refuted", "C88_wrong_arguments"], "note": "REFUTED: regionmask leaves out regions without a grid point and the mask is then chosen by position, so that on a regional grid a number stands for a different region (C88_region_off_the_grid_refuted); with srex, giorgi and prudence the number 0 gives the last region (C88_number_zero_refuted). Proved when all regions with smaller numbers are on the grid."},
{"property": "C89", "status": "partial", "theorems": ["C89_several_regions_partial", "C89_weight_of_one_of_several_refuted", "C89_no_regions_refuted"], "note": "REFUTED: the masks are averaged, so that a cell in one of k chosen regions gets the weight 1/k (C89_weight_of_one_of_several_refuted), and no regions give NaN everywhere (C89_no_regions_refuted). The value actually written is characterised by C89_several_regions_partial."},
{"property": "C90", "status": "proved", "theorems": ["C90_preprocessing_succeeds", "C90_no_silent_errors", "C90_runs_complete_and_balance"], "note": "Real arithmetic; levels with floating-point or integer coordinates; with the latter the boundary must be a few pascals from the ground (boundary_in_air; in general C49 is refuted). C90_case (pressure levels, one below the ground, domain cropped) and C90_model_levels_case meet the hypotheses."},
{"property": "C91", "status": "proved", "theorems": ["C91_every_place_has_its_own_data"], "note": "comes_from relates a cell of the run's domain to the raw cell with the same latitude and meridian (unique: comes_from_unique). C90_case meets the hypotheses."},
{"property": "C92", "status": "proved", "theorems": ["C92_tracked_water_within_column_water"], "note": "C90_case meets the hypotheses and has an output file."},
{"property": "C93", "status": "proved", "theorems": ["C93_pressure_levels", "C93_model_levels"], "note": "Real arithmetic; floating-point level coordinate. C90_case and C93_case meet the hypotheses (pressure levels), C90_model_levels_case those on model-level data."},
{"property": "C94", "status": "proved", "theorems": ["C94_append", "C94_new_file", "C94_append_keeps_records", "C94_preprocessing_refined", "C94_netcdf_files"], "note": "Times must be whole seconds from 1900-01-01, which those of preprocessing are. static_ok: the other variables (coordinates, bounds) have no time dimension. C94_case meets the hypotheses."},
{"property": "C95", "status": "partial", "theorems": ["C95_old_records_survive_partial", "C95_incomplete_record_refuted"], "note": "REFUTED: variables are written one after the other; after a crash between time and a field the file has the new time with nothing (nan) in that field (C95_incomplete_record_refuted; C95_case). Proved: the old records survive every such crash; a rerun repairs the file (C54)."},
{"property": "C96", "status": "partial", "theorems": ["C96_split_between_days_partial", "C96_split_within_a_day_refuted"], "note": "REFUTED: the first time of a day is written with mode \"w\"; if the second run starts on a day that the first has begun, it overwrites that day's file, and tracking then fails with KeyError at the lost times (C96_split_within_a_day_refuted). Proved: equal if the division is between two days. C96_case meets the hypotheses of both."},
{"property": "C97", "status": "partial", "theorems": ["C97_existing_target_refused", "C97_existing_files_untouched_partial", "C97_hostile_file_name_refuted"], "note": "REFUTED for hostile servers: a listed file name with slashes (../x) overwrites files outside the target directory (C97_hostile_file_name_refuted). Proved: an existing target is refused and nothing changes; with listed names without slash nothing existing changes, whatever happens."},
{"property": "C98", "status": "partial", "theorems": ["C98_all_files_arrive_partial", "C98_what_is_stored_refuted", "C98_error_page_refuted"], "note": "REFUTED: download does not check the status (error pages are stored as files), stores compressed answers undecoded (r.raw), and files with the same name overwrite each other (C98_what_is_stored_refuted, C98_error_page_refuted). Proved: complete if names are distinct and plain and the answers are uncompressed and without error."},
{"property": "C99", "status": "partial", "theorems": ["C99_retry_refused_refuted", "C99_rejected_doi_leaves_nothing_partial", "C99_remove_and_retry_partial"], "note": "REFUTED: the directory is created before the first request, so every later attempt is refused with FileExistsError (C99_retry_refused_refuted). Proved: a rejected DOI leaves nothing; removing the directory brings back the state before."},
{"property": "C100", "status": "proved", "theorems": ["C100_preprocessing_succeeds", "C100_runs_complete_and_balance", "C100_every_place_has_its_own_data"], "note": "Real arithmetic. The data are those get_input_data returns (input_data); sound: moist air, a layer boundary in the air, fluxes not negative. Proved by showing that such data could have come from ERA5 (inverting the dew point formula), so that C90 and C91 apply. C100_case meets the hypotheses, with integer and floating-point levels."},
{"property": "C101", "status": "proved", "theorems": ["C101_arco_requirements", "C101_arco_equals_era5", "C101_same_files"], "note": "Real arithmetic. The store is modelled by its fields for the times it has; same_fields says what it means that an ERA5 download holds the same data. C101_case meets the hypotheses."},
{"property": "C102", "status": "proved", "theorems": ["C102_input_data", "C102_data_or_error", "C102_plausible_is_sound", "C102_preprocessing_succeeds", "C102_runs_complete_and_balance", "C102_tracked_data"], "note": "Real arithmetic. All variables on one grid (xarray would align others); three-hour flux files have an even number of intervals of whole days (otherwise C80, refuted); evaporation on average not negative (dew: C47, refuted). C102_tracked_data for a floating-point level coordinate. Latitudes must descend, as everywhere (C71, refuted). C102_case meets the hypotheses."},
{"property": "C103", "status": "proved", "theorems": ["C103_only_content_matters"], "note": "No level exactly at the surface pressure (there a tie in sorting would have to be broken by order). C103_case: two layouts with the same content."},
{"property": "C104", "status": "proved", "theorems": ["C104_files_are_loaded", "C104_no_silent_gaps", "C104_file_names", "C104_names_differ", "C104_cache_is_transparent"], "note": "Format specifications other than zero padding are not modelled (error). All variables on one grid (xarray would align others to the grid of q, filling with NaN). A file is its one variable with coordinates and values per time. C105_case meets the hypotheses of C104_files_are_loaded, C104_names_case those of the name theorems."},
{"property": "C105", "status": "proved", "theorems": ["C105_files_are_their_data", "C105_runs_complete_and_balance"], "note": "Real arithmetic. By C104 the loaded data are those the files hold; then C90. C91 and C92 follow in the same way from C105_files_are_their_data. C105_case: files with more levels in another order, new spellings, with and without total column water."},
{"property": "C106", "status": "partial", "theorems": ["C106_names", "C106_only_these", "C106_interrupted_partial", "C106_interrupted_refuted", "C106_download_again", "C106_download_then_preprocess"], "note": "REFUTED for crashes while a file is written: the part that was written counts as existing, so runs with skip_exist never repair it and report nothing (C106_interrupted_refuted, for every script). Proved: names and requests; the claim if nothing is left of unsuccessful downloads (C106_interrupted_partial); repair without skip_exist; the chain to preprocessing. cdsapi is modelled by its possible outcomes (success, exception, death, with any part of the file left)."},
{"property": "C107", "status": "partial", "theorems": ["C107_yaml_reads_json", "C107_reads_back_to_the_minute", "C107_accepted_are_valid", "C107_reads_back_partial", "C107_same_text_same_configuration", "C107_other_planes_refuted", "C107_infinite_refuted", "C107_seconds_refuted"], "note": "REFUTED for dates with seconds (C107_seconds_refuted), for characters beyond the basic plane in texts (json writes two surrogates, PyYAML does not join them: C107_other_planes_refuted) and for infinite or nan numbers (written as null: C107_infinite_refuted). Proved for all other accepted configurations, from any working directory (C107_reads_back_partial, C107_accepted_are_valid); json.dumps and the flow-style part of PyYAML are modelled character by character (C107_yaml_reads_json). Python's float repr and pydantic's URL normal form are parameters of the theorems with their contracts as hypotheses (met by C107_case)."},
{"property": "C108", "status": "partial", "theorems": ["C108_paths_partial", "C108_home_refuted", "C108_all_levels_refuted", "C108_levels"], "note": "REFUTED: ~ is not expanded (the examples of the documentation make a folder named ~ in the working directory) and the documented shorthand \"all\" is rejected (\"All\" is accepted). Proved: relative and absolute paths, level lists."},
{"property": "C109", "status": "partial", "theorems": ["C109_folders_exist_partial", "C109_bad_dates_make_nothing", "C109_rejected_leaves_folders_refuted"], "note": "REFUTED for rejected configurations: once the dates are readable, the folders are made whatever else is wrong, dates in the wrong order included. Proved for accepted configurations, and that unreadable dates leave nothing. Parents of new folders are not modelled."},
{"property": "C110", "status": "proved", "theorems": ["C110_own_places", "C110_missing_places_rejected", "C110_covering_grids_accepted", "C110_equal_grids", "C110_preprocessed_as_held"], "note": "Coordinates are compared as real numbers. Alignment is modelled for latitude, longitude and level; dimensions without coordinates and other dimensions are not modelled. Repeated labels in the grid of q are an error in the model whenever labels have to be looked up (xarray accepts some such cases)."},
{"property": "C111", "status": "partial", "theorems": ["C111_forward_partial", "C111_backward_partial", "C111_file_is_the_second", "C111_overwritten_refuted"], "note": "REFUTED: both layers of a step write to the same file; if both warn, the first warning names a file with the field of the second (C111_overwritten_refuted). Proved: the last warning of every step is kept, at most the upper layer's is lost, different steps have different files, nothing else is touched. The content is the field; netCDF encoding is not modelled."},
{"property": "C112", "status": "partial", "theorems": ["C112_silence_is_safe", "C112_mismatch_is_reported", "C112_no_false_alarm_partial", "C112_false_alarm_refuted", "C112_other_files_refuted", "C112_nothing_to_check"], "note": "REFUTED in both directions: gregorian, 365_day and 366_day always give a warning, proleptic_gregorian does for data of 1678-2261 (C112_false_alarm_refuted); only one file of one variable is looked at (C112_other_files_refuted). Proved: for that file silence is safe (the standard and the proleptic Gregorian calendar agree on every date datetime64 can hold), mismatches are reported, the main names give no false alarm. xarray's choice of datetime64 is modelled as: standard or proleptic Gregorian, and all times fit into 64 bits of nanoseconds."},
{"property": "C113", "status": "partial", "theorems": ["C113_input_never_refuted", "C113_both_never_refuted", "C113_output_forward_partial", "C113_output_backward_partial", "C113_timestamps_would_do", "C113_case"], "note": "REFUTED: the input figure hands the configuration's cftime dates to pd.date_range, which makes pandas timestamps of its ends and raises TypeError; so `visualize input` and `visualize both` fail for every accepted configuration (C113_input_never_refuted, C113_both_never_refuted), the latter even where `visualize output` works. Proved: `visualize output` saves its figure after every aligned run over at least two output periods (what it shows: C61), and with pandas timestamps the input figure would be made (C113_timestamps_would_do). pandas' refusal of cftime objects is part of the model, from pandas' documented behaviour. C113_case meets all hypotheses."},
{"property": "C114", "status": "partial", "theorems": ["C114_names", "C114_own_log_partial", "C114_history_partial", "C114_same_second_refuted", "C114_one_process_refuted", "C114_case"], "note": "REFUTED: of two commands with the same output folder in the same second of the local clock only the second's log is left (C114_same_second_refuted); in a process that runs several commands all messages go to the first command's file, the other files stay empty (C114_one_process_refuted, basicConfig works once per process). Proved: a command in its own process has its complete log, nothing else is touched, and after any history of such commands with distinct seconds or folders all logs are there. A file emptied while the same process still writes to it is not modelled. C114_case meets all hypotheses."},
{"property": "C115", "status": "partial", "theorems": ["C115_attributes_partial", "C115_one_per_file", "C115_source_lost_refuted", "C115_history_lost_refuted", "C115_would_be_kept", "C115_case"], "note": "REFUTED: initialize builds the output dataset without the attributes of the input, so get_main_attrs never sees a source or history: every file of every run has source UNKNOWN and a history that begins with itself (C115_source_lost_refuted, C115_history_lost_refuted). Proved: the other attributes of every file, and that get_main_attrs would keep an origin it is given (C115_would_be_kept). A run is any sequence of assignments to variables and writes; that xr.Dataset({...}) has no attributes is part of the model. C115_case meets the hypotheses."},
{"property": "C116", "status": "partial", "theorems": ["C116_exactly", "C116_away_from_poles_partial", "C116_poles_refuted", "C116_era5"], "note": "REFUTED: bounds are not cut off at the poles, so a global axis with latitudes of 90 degrees (ERA5's: C116_era5) has cells that end half a spacing beyond them, whereas the cell areas of get_grid_info are cut off. Proved: exactly which cells are affected (C116_exactly), none on axes that stay half a cell away."}
]}
