{
 "claims": [
  {
   "property": "C01",
   "status": "proved",
   "theorems": [
    "merge_nodes_conserves_column"
   ],
   "note": ""
  },
  {
   "property": "C02",
   "status": "proved",
   "theorems": [
    "merge_nodes_index_error",
    "merge_nodes_minus_one_wraps",
    "merge_nodes_minus_one_single"
   ],
   "note": ""
  },
  {
   "property": "C03",
   "status": "proved",
   "theorems": [
    "layer_counter_invariant",
    "layer_counter_preserved",
    "layer_counter_init_twice_refuted"
   ],
   "note": "Invariant for all operation sequences; a second init_grid call is shown to break it."
  },
  {
   "property": "C04",
   "status": "proved",
   "theorems": [
    "correct_layer_resizes",
    "correct_layer_index_error",
    "correct_layer_overfills_refuted"
   ],
   "note": "Also shown: a split can put more than 100 % water into the thin upper part."
  },
  {
   "property": "C05",
   "status": "proved",
   "theorems": [
    "log_profile_conserves_column",
    "log_profile_deletes_thin_ice_refuted"
   ],
   "note": "Termination and conservation; the vanishing single thin ice layer is exhibited."
  },
  {
   "property": "C06",
   "status": "proved",
   "theorems": [
    "update_grid_log_conserves",
    "update_grid_log_every_column",
    "update_grid_other"
   ],
   "note": ""
  },
  {
   "property": "C07",
   "status": "proved",
   "theorems": [
    "adaptive_merges_bounded",
    "adaptive_merge_limit_refuted"
   ],
   "note": "The documented limit merge_max is refuted by a witness; the true bound merge_max+1 is proved."
  },
  {
   "property": "C08",
   "status": "proved",
   "theorems": [
    "split_node_effect",
    "split_node_conserves_refuted"
   ],
   "note": "Conservation of water refuted; the exact loss (half the layer's water) is proved for all columns."
  },
  {
   "property": "C09",
   "status": "proved",
   "theorems": [
    "merge_snow_with_glacier_effect",
    "merge_snow_with_glacier_refuted"
   ],
   "note": "Mass conservation refuted by a witness; the exact effect is proved, including weight conservation for pure dry ice."
  },
  {
   "property": "C10",
   "status": "proved",
   "theorems": [
    "remove_node_exactly",
    "remove_node_default"
   ],
   "note": ""
  },
  {
   "property": "C11",
   "status": "proved",
   "theorems": [
    "remove_melt_exact"
   ],
   "note": ""
  },
  {
   "property": "C12",
   "status": "proved",
   "theorems": [
    "fresh_snow_height_ignores_melt",
    "melt_reduces_fresh_snow_refuted",
    "negative_melt_only_raises_fresh_snow"
   ],
   "note": "The expected reduction is refuted; what happens instead is proved exactly for all columns."
  },
  {
   "property": "C13",
   "status": "proved",
   "theorems": [
    "depths_are_midpoints",
    "depths_increase"
   ],
   "note": ""
  },
  {
   "property": "C14",
   "status": "proved",
   "theorems": [
    "snow_getters_report_snow",
    "buried_snow_misreported_refuted"
   ],
   "note": "Exact when snow lies over ice; refuted by a witness for buried snow."
  },
  {
   "property": "C15",
   "status": "proved",
   "theorems": [
    "density_round_trip"
   ],
   "note": "Exact round-trip error proved."
  },
  {
   "property": "C16",
   "status": "proved",
   "theorems": [
    "add_fresh_snow_effect"
   ],
   "note": ""
  },
  {
   "property": "C17",
   "status": "proved",
   "theorems": [
    "snow_clock_step",
    "snow_clock_history",
    "old_snow_lags"
   ],
   "note": "The age of the fresh snow and of the old snow are characterised exactly over every history; finding: the old snow lags by one time step."
  },
  {
   "property": "C18",
   "status": "proved",
   "theorems": [
    "percolation_conserves_water",
    "percolation_is_bucket_scheme"
   ],
   "note": "For every column with positive heights and ice contents and every amount of water."
  },
  {
   "property": "C19",
   "status": "proved",
   "theorems": [
    "percolation_is_bucket_scheme",
    "percolation_leaves_irreducible_water",
    "percolation_at_rest"
   ],
   "note": "Percolation is shown to be exactly the bucket scheme."
  },
  {
   "property": "C20",
   "status": "proved",
   "theorems": [
    "refreezing_conserves_mass"
   ],
   "note": "Needs fractions in range and temperatures less than 154 K below melting (shipped constants)."
  },
  {
   "property": "C21",
   "status": "proved",
   "theorems": [
    "refreezing_stays_frozen",
    "refreezing_fits_refuted",
    "percolation_then_refreezing_fits"
   ],
   "note": "Limits proved; that ice plus water stays below 100 % is refuted for refreezing alone and proved for percolation followed by refreezing."
  },
  {
   "property": "C22",
   "status": "proved",
   "theorems": [
    "heat_maximum_principle",
    "heat_isothermal_unchanged",
    "heat_comparison"
   ],
   "note": "Also proved: an isothermal column is unchanged and warmer columns stay warmer."
  },
  {
   "property": "C23",
   "status": "proved",
   "theorems": [
    "heat_substeps_cover_time_step",
    "heat_needs_three_layers"
   ],
   "note": "Sub-steps characterised exactly; fewer than three layers raise ValueError."
  },
  {
   "property": "C24",
   "status": "proved",
   "theorems": [
    "boone_exact",
    "boone_layer_mass",
    "boone_loses_mass"
   ],
   "note": "Conservation is refuted: mass is strictly lost in every column with a layer to compact; exact factors proved."
  },
  {
   "property": "C25",
   "status": "proved",
   "theorems": [
    "boone_exact",
    "boone_only_thins",
    "boone_heights_positive",
    "boone_negative_height_refuted",
    "densification_warning_never",
    "densification_dispatch"
   ],
   "note": "Thinning proved for all columns; positivity of heights under a bound on the step, with a witness that the bound is needed."
  },
  {
   "property": "C26",
   "status": "proved",
   "theorems": [
    "bintanja_exact",
    "bintanja_shares",
    "bintanja_energy",
    "penetrating_dispatch"
   ],
   "note": "Shares, their sum and the energy bound are proved for every column."
  },
  {
   "property": "C27",
   "status": "proved",
   "theorems": [
    "bintanja_exact",
    "bintanja_cold",
    "bintanja_conserves_mass",
    "bintanja_underreports",
    "bintanja_loses_layer_refuted"
   ],
   "note": "Temperatures proved; mass conserved unless a layer vanishes (refuted by a witness then); the reported melt is proved too small."
  },
  {
   "property": "C28",
   "status": "proved",
   "theorems": [
    "oerlemans_exact",
    "oerlemans_range",
    "surface_dispatch"
   ],
   "note": "Range proved for every column; exact formula and frame also proved."
  },
  {
   "property": "C29",
   "status": "proved",
   "theorems": [
    "oerlemans_exact",
    "oerlemans_monotone"
   ],
   "note": "Monotone in age and depth for all ages and depths."
  },
  {
   "property": "C30",
   "status": "proved",
   "theorems": [
    "bougamont_exact",
    "bougamont_timescale",
    "bougamont_stable",
    "bougamont_melting_history",
    "bougamont_diverges_refuted"
   ],
   "note": "Range proved when timescale*dt >= 1 day; refuted for hourly steps, with the exact factor -1.4 per melting hour proved for all histories."
  },
  {
   "property": "C31",
   "status": "proved",
   "theorems": [
    "roughness_range",
    "roughness_monotone",
    "surface_dispatch",
    "roughness_exact"
   ],
   "note": "Range, monotonicity, units and unknown methods."
  },
  {
   "property": "C32",
   "status": "proved",
   "theorems": [
    "surface_never_above_melting",
    "nan_becomes_melting",
    "surface_lower_bound"
   ],
   "note": "Proved for arbitrary solvers; NaN from the solver is proved to become melting."
  },
  {
   "property": "C33",
   "status": "proved",
   "theorems": [
    "secant_refuses",
    "secant_terminates",
    "secant_affine_exact",
    "secant_silent_refuted",
    "secant_outcome",
    "surface_by_secant"
   ],
   "note": "Termination, absence of division by zero and exactness on affine functions proved; silent non-convergence refuted by a witness. The refused arguments are in secant_refuses."
  },
  {
   "property": "C34",
   "status": "proved",
   "theorems": [
    "subsurface_interpolation",
    "subsurface_thin_column",
    "subsurface_wraps",
    "subsurface_bounded_refuted"
   ],
   "note": "Exact interpolation proved; thin columns raise, thick top layers wrap to the bottom layer (refuted by a witness)."
  },
  {
   "property": "C35",
   "status": "proved",
   "theorems": [
    "fluxes_down_gradient",
    "richardson_fluxes_exact",
    "stability_jump"
   ],
   "note": "Signs proved for both corrections; exact formulas for the Richardson correction."
  },
  {
   "property": "C36",
   "status": "proved",
   "theorems": [
    "saturation_pressure"
   ],
   "note": "Positive and strictly increasing above 0.55 K."
  },
  {
   "property": "C37",
   "status": "proved",
   "theorems": [
    "mo_terminates"
   ],
   "note": "Two to seven passes; never fails in stable air."
  },
  {
   "property": "C38",
   "status": "proved",
   "theorems": [
    "snow_share_decreases",
    "precipitation_partition_exact",
    "precipitation_threshold",
    "snow_exceeding_total",
    "precipitation_both_exact"
   ],
   "note": "Exact partition for total precipitation; if snowfall is given separately it may exceed the total and rain is cut to zero (proved)."
  },
  {
   "property": "C39",
   "status": "proved",
   "theorems": [
    "mass_fluxes_exclusive"
   ],
   "note": "For every latent heat flux and surface temperature."
  },
  {
   "property": "C40",
   "status": "proved",
   "theorems": [
    "step_balance",
    "run_balance",
    "cell_run_balance"
   ],
   "note": "For every step and every history, from any start."
  },
  {
   "property": "C41",
   "status": "proved",
   "theorems": [
    "deposition_never_stored"
   ],
   "note": "The expected gain is refuted: deposition in excess of melt is never stored, for every column."
  },
  {
   "property": "C42",
   "status": "proved",
   "theorems": [
    "water_step_budget",
    "deposition_never_stored"
   ],
   "note": "Exact residuals proved: water of vanished layers counts twice and pore air counts as water; deposition and sublimation as in C41."
  },
  {
   "property": "C43",
   "status": "proved",
   "theorems": [
    "missing_rain_raises",
    "inputs_selected",
    "no_run_without_RRR",
    "no_step_without_longwave"
   ],
   "note": "Exact exceptions proved; no cell is ever computed without RRR."
  },
  {
   "property": "C44",
   "status": "proved",
   "theorems": [
    "restart_round_trip",
    "restart_too_many_layers",
    "resumed_step",
    "resumed_run",
    "interrupted_run",
    "restart_never_resumes",
    "bougamont_restart"
   ],
   "note": "Round trip exact under the written names; with Oerlemans98 an interrupted run equals the uninterrupted one at every split point; as coded every resume raises AttributeError; what Bougamont05 loses is characterised exactly."
  },
  {
   "property": "C45",
   "status": "proved",
   "theorems": [
    "initial_column"
   ],
   "note": "For every initial snow height and air temperature."
  },
  {
   "property": "C46",
   "status": "proved",
   "theorems": [
    "schedule_independent",
    "files_schedule_independent",
    "worker_answers",
    "result_atm",
    "result_internal",
    "result_layers",
    "run_succeeds"
   ],
   "note": "For every pair of completion orders; the rows of the stake statistics agree up to their order."
  },
  {
   "property": "C47",
   "status": "proved",
   "theorems": [
    "submitted_cells",
    "submission_stops_on_nan",
    "stakes_of_cell"
   ],
   "note": "Exactly the cells of the mask, each once, with the data of its own cell."
  },
  {
   "property": "C48",
   "status": "proved",
   "theorems": [
    "input_check"
   ],
   "note": "Exact characterisation; finding: the bounds of SLOPE are swapped, so every slope is reported."
  },
  {
   "property": "C49",
   "status": "proved",
   "theorems": [
    "minute_of_time",
    "period_refused",
    "unreadable_period",
    "start_refused",
    "time_labels_kept",
    "unsorted_time_mislabels_refuted",
    "time_labels_complete"
   ],
   "note": "Proved for ascending axes; refuted for unsorted ones, as the code sorts only the labels."
  },
  {
   "property": "C50",
   "status": "proved",
   "theorems": [
    "config_normalised",
    "values_that_count",
    "config_normalised_twice",
    "config_loads_iff",
    "last_setting_wins",
    "attributes_are_entries",
    "later_table_overrides_refuted",
    "load_twice",
    "constants_normalised",
    "slurm_normalised",
    "shipped_config_loads",
    "utility_section",
    "switched_off",
    "slurm_file"
   ],
   "note": "Exact effect of the loaders on every entry; findings: a later table overrides the normalisation, and keys of different tables share one name space."
  },
  {
   "property": "C51",
   "status": "proved",
   "theorems": [
    "humidity_bounds",
    "humidity_order_refuted",
    "lapse_correction",
    "file_ranges"
   ],
   "note": "Findings: humidity_order_refuted; exactly 0 stays 0 while negative values become 0.1."
  },
  {
   "property": "C52",
   "status": "proved",
   "theorems": [
    "grid_pressure_at_station",
    "point_pressure_at_station",
    "point_pressure_identity_refuted",
    "pressure_falls_with_height",
    "pressure_formula"
   ],
   "note": "Closed form of both conversions at every height (pressure_formula). The identity holds for the gridded conversion and is refuted for the point conversion (5.255 against 5.22)."
  },
  {
   "property": "C53",
   "status": "proved",
   "theorems": [
    "wrf_precipitation_telescopes",
    "wrf_atmosphere",
    "wrf_mask_zero_one",
    "wrf_reset_refuted"
   ],
   "note": "Finding: wrf_reset_refuted, a bucket reset gives negative precipitation that is written. A land-use class of 0 makes every cell glacier."
  },
  {
   "property": "C54",
   "status": "proved",
   "theorems": [
    "diffuse_fraction_formula",
    "great_circle",
    "haversine_sym",
    "haversine_zero",
    "diffuse_fraction",
    "flat_uncorrected",
    "low_sun_uncorrected",
    "beam_correction",
    "correction_bounded",
    "correction_negative_refuted"
   ],
   "note": "Flat terrain and low sun are left alone; the direct part is scaled with the inner product of the direction of the sun and the surface normal; closed form, bounds and monotonicity of the diffuse fraction; bounds of the corrected value; great-circle distance exact on the sphere. correction_negative_refuted: the correction alone may be negative."
  },
  {
   "property": "C55",
   "status": "proved",
   "theorems": [
    "answers_read",
    "confirmation_answers",
    "existing_file_needs_yes",
    "setup_consent",
    "setup_declined",
    "setup_complete",
    "setup_succeeds",
    "setup_same_directory"
   ],
   "note": "The file system is a map from paths to contents, the user a list of answers, path resolution an arbitrary function. Identical directories are recognised only if they are written alike."
  },
  {
   "property": "C56",
   "status": "proved",
   "theorems": [
    "adaptive_profile_loses_only_thin_layers",
    "adaptive_profile_conserves_refuted"
   ],
   "note": ""
  },
  {
   "property": "C57",
   "status": "proved",
   "theorems": [
    "heat_flux_balance",
    "heat_content_conserved_refuted"
   ],
   "note": "Balance over control lengths proved; balance over layer thicknesses refuted by a concrete column of pure ice."
  },
  {
   "property": "C58",
   "status": "proved",
   "theorems": [
    "boone_overburden",
    "boone_thin_layer_hides_load"
   ],
   "note": "Exact load proved; deviates from the weight above in two ways."
  },
  {
   "property": "C59",
   "status": "proved",
   "theorems": [
    "vionnet_exact",
    "vionnet_sign",
    "vionnet_thickens_gentle_slopes"
   ],
   "note": "The slope unit error is proved to reverse compaction for all columns on slopes of 2 to 4.5 degrees."
  },
  {
   "property": "C60",
   "status": "proved",
   "theorems": [
    "empirical_exact",
    "empirical_density_jump",
    "empirical_creates_mass_refuted"
   ],
   "note": "Conservation refuted by a witness; the density jump is proved for all wet layers."
  },
  {
   "property": "C61",
   "status": "proved",
   "theorems": [
    "fallback_reports_melting"
   ],
   "note": "Proved that the fallback reports melting for every calm, dry forcing."
  },
  {
   "property": "C62",
   "status": "proved",
   "theorems": [
    "longwave_emissivity"
   ],
   "note": "Proved for all cloud covers."
  },
  {
   "property": "C63",
   "status": "proved",
   "theorems": [
    "unknown_name_loses_run",
    "worker_answers",
    "result_atm",
    "result_internal",
    "result_layers",
    "result_misplaced",
    "result_no_glacier",
    "run_succeeds",
    "output_names"
   ],
   "note": "Every listed name is traced from the worker to the file; findings: exceptions as stated."
  },
  {
   "property": "C64",
   "status": "proved",
   "theorems": [
    "restart_data",
    "restart_file_named",
    "start_refused",
    "restart_continues",
    "restart_skips_steps_refuted",
    "restart_never_completes",
    "restart_text_fails_early"
   ],
   "note": "Proved that no restarted run ever completes through main; which steps it would read is characterised."
  },
  {
   "property": "C65",
   "status": "proved",
   "theorems": [
    "output_name",
    "output_name_refused",
    "output_name_collision"
   ],
   "note": "Same file exactly if both days agree."
  },
  {
   "property": "C66",
   "status": "proved",
   "theorems": [
    "rmse_root_mean_square",
    "stake_simulated",
    "other_evaluation_fails",
    "stakes_of_cell"
   ],
   "note": "For every cell and stake; finding: other evaluation methods lose the run."
  },
  {
   "property": "C67",
   "status": "proved",
   "theorems": [
    "on_ellipsoid",
    "coordinates_injective",
    "packing"
   ],
   "note": "For all points and ranges, in real arithmetic."
  },
  {
   "property": "C68",
   "status": "proved",
   "theorems": [
    "restart_written",
    "restart_file_named"
   ],
   "note": "For every cell."
  },
  {
   "property": "C69",
   "status": "proved",
   "theorems": [
    "shipped_config_loads",
    "shipped_constants_loaded",
    "shipped_names",
    "unknown_name_loses_run",
    "shipped_full_field_fails",
    "stamp_variables_written"
   ],
   "note": "Finding: LW in output_full loses every run with full fields."
  },
  {
   "property": "C70",
   "status": "proved",
   "theorems": [
    "sun_azimuth_formula",
    "azimuth_beyond_full_turn",
    "sun_elevation",
    "sun_ignores_longitude",
    "correction_ignores_longitude",
    "sun_symmetric",
    "noon_azimuth_wrong"
   ],
   "note": "Elevation exact in clock time. Findings: sun_ignores_longitude (longitude, time zone and equation of time cancel) and noon_azimuth_wrong (azimuth positive at noon for every latitude north of the declination); sun_azimuth_formula gives the azimuth that is returned, and azimuth_beyond_full_turn shows that beyond 84.3 degrees it exceeds a full turn at six in the evening."
  },
  {
   "property": "C71",
   "status": "proved",
   "theorems": [
    "shading_values",
    "shading_monotone",
    "shading_shift",
    "shading_level",
    "shading_meaning",
    "shading_progress",
    "shading_border_refuted"
   ],
   "note": "Meaning and success on every regular grid; values, monotonicity and invariance for all inputs. Finding shading_border_refuted: ValueError for a glacier cell next to the border."
  },
  {
   "property": "C72",
   "status": "proved",
   "theorems": [
    "sky_view_counts",
    "sky_view_range",
    "sky_view_level",
    "sky_view_progress"
   ],
   "note": "Counts exactly the visible directions; success characterised on regular grids."
  },
  {
   "property": "C73",
   "status": "proved",
   "theorems": [
    "shading_table",
    "subhourly_table",
    "table_time",
    "table_time_refuted"
   ],
   "note": "End to end for steps of k | 24 hours. Findings: subhourly_table (no table below one hour) and table_time_refuted (table and radiation model use different times unless the step is one hour)."
  },
  {
   "property": "C74",
   "status": "proved",
   "theorems": [
    "table_sun",
    "night_radiation",
    "day_radiation",
    "clear_sky_transmissivity",
    "shade_darkens"
   ],
   "note": "metpy's vapour pressure is an arbitrary function. Azimuth of the table only claimed for hour angles within +-180 degrees."
  },
  {
   "property": "C75",
   "status": "proved",
   "theorems": [
    "polar_solar_parameters",
    "solar_parameters",
    "solar_parameters_of_day",
    "solar_parameters_exist_iff"
   ],
   "note": "Between 60 and 67.5 degrees existence is characterised by the tangents (solar_parameters_exist_iff), the limiting latitude itself is not computed."
  },
  {
   "property": "C76",
   "status": "proved",
   "theorems": [
    "point_file_times",
    "point_file_content"
   ],
   "note": "The csv file is modelled as a frame of numbers or NaN; column names distinct."
  },
  {
   "property": "C77",
   "status": "proved",
   "theorems": [
    "resampling_conserves_sum",
    "hourly_mean_between",
    "point_precipitation_total",
    "precipitation_repeated_refuted"
   ],
   "note": "Finding: precipitation_repeated_refuted."
  },
  {
   "property": "C78",
   "status": "proved",
   "theorems": [
    "point_file_complete",
    "point_hours_have_rows",
    "point_conversion_succeeds",
    "grid_file_complete",
    "grid_conversion_succeeds"
   ],
   "note": ""
  },
  {
   "property": "C79",
   "status": "proved",
   "theorems": [
    "point_temperature_range",
    "temperature_unit_detected",
    "grid_temperature_range"
   ],
   "note": ""
  },
  {
   "property": "C80",
   "status": "proved",
   "theorems": [
    "grid_file_content",
    "grid_static_fields",
    "grid_cell_at_station",
    "grid_file_times",
    "grid_cell_by_height"
   ],
   "note": "Radiation is the subject of C81."
  },
  {
   "property": "C81",
   "status": "proved",
   "theorems": [
    "radiation_uncorrected",
    "radiation_wohlfahrt",
    "radiation_refused"
   ],
   "note": "The Moelg model gets the humidity before it is limited to 100 percent."
  },
  {
   "property": "C82",
   "status": "proved",
   "theorems": [
    "wrf_point_coordinates",
    "wrf_point_static",
    "grid_coordinates"
   ],
   "note": "Finding: the point conversion exchanges latitude and longitude and then cannot use a static file."
  },
  {
   "property": "C83",
   "status": "proved",
   "theorems": [
    "point_terrain_default",
    "point_terrain_static"
   ],
   "note": "The latitude of the file is the one of the configuration, the longitude the one of the grid point."
  },
  {
   "property": "C84",
   "status": "proved",
   "theorems": [
    "point_required_columns",
    "pressure_never_replaced",
    "longwave_or_clouds",
    "one_date_ignored"
   ],
   "note": "Finding: the 660 hPa replacement is dead code."
  },
  {
   "property": "C85",
   "status": "proved",
   "theorems": [
    "window_selects",
    "window_all",
    "window_order"
   ],
   "note": "With an empty window the file is written before the conversion fails."
  },
  {
   "property": "C86",
   "status": "proved",
   "theorems": [
    "wrf_wind_speed",
    "wrf_snow_mass",
    "wrf_wind_height_unused",
    "wrf_conversion_succeeds",
    "wrf_conversion_fails"
   ],
   "note": "Finding: the option hu has no effect."
  },
  {
   "property": "C87",
   "status": "proved",
   "theorems": [
    "wrf_dates_compact",
    "wrf_dates_one_year",
    "wrf_dates_hyphens",
    "wrf_single_date"
   ],
   "note": "Finding: with the date form of the usage text only whole years can be selected, because dates are compared as text."
  },
  {
   "property": "C88",
   "status": "proved",
   "theorems": [
    "layer_mixture",
    "layer_mixture_formula",
    "overfull_layer",
    "layer_diffusivity",
    "cold_content",
    "cold_content_profile"
   ],
   "note": ""
  },
  {
   "property": "C89",
   "status": "proved",
   "theorems": [
    "irreducible_decreases",
    "irreducible_without_ice",
    "irreducible_formula"
   ],
   "note": ""
  },
  {
   "property": "C90",
   "status": "proved",
   "theorems": [
    "log_profile_layers",
    "log_profile_mixes",
    "first_layer_thickened"
   ],
   "note": "Restricted to dry columns in which the ice is at least the first layer and at least stretching times the snow height. The remaining snow is only merged pairwise, so several layers may remain below the last complete one. Finding: first_layer_thickened, the top layer is not always of the configured height."
  },
  {
   "property": "C91",
   "status": "proved",
   "theorems": [
    "adaptive_snow_thickness",
    "adaptive_top_layer"
   ],
   "note": ""
  },
  {
   "property": "C92",
   "status": "proved",
   "theorems": [
    "step_keeps_layers_sound",
    "run_keeps_layers_sound",
    "cell_keeps_layers_sound"
   ],
   "note": "For densification methods other than 'constant' the theorem asks that heights and ice come out of the densification positive (C24/C25 say when that is so); temperatures are covered for all methods. Non-vacuous: calm_step is a concrete completed step."
  },
  {
   "property": "C93",
   "status": "proved",
   "theorems": [
    "step_energy_report",
    "step_vapour_report",
    "balanced_surface_no_melt"
   ],
   "note": "Finding: melt energy is not tied to a melting surface, it is the positive residual of the fluxes at whatever temperature the solver returns."
  },
  {
   "property": "C94",
   "status": "proved",
   "theorems": [
    "unknown_methods_raise",
    "unknown_remesh_silent"
   ],
   "note": "Finding: unknown_remesh_silent, an unknown remeshing name changes nothing and raises nothing."
  },
  {
   "property": "C95",
   "status": "proved",
   "theorems": [
    "step_mass_budget",
    "run_mass_budget",
    "step_mass_no_gain"
   ],
   "note": "Bintanja95, any remeshing, albedo, flux scheme and solver answer. For the densification methods 'Vionnet' and 'empirical' the compaction residual is not bounded (C24/C25 treat these methods on their own). The run theorem asks for positive layers after each densification if it is not 'constant'."
  },
  {
   "property": "C96",
   "status": "proved",
   "theorems": [
    "missing_conversion",
    "mask_values",
    "static_files_touched",
    "static_written",
    "static_pipeline",
    "aspect_rows_aligned",
    "static_read_back",
    "stale_tile_refuted",
    "dem_deleted_refuted",
    "fill_value_passes_refuted"
   ],
   "note": "GDAL and richdem are parameters of the model; the exit status of a command is ignored as in the code. Findings: stale_tile_refuted, dem_deleted_refuted, fill_value_passes_refuted, and glaciers at or below sea level are not glacier points."
  },
  {
   "property": "C97",
   "status": "proved",
   "theorems": [
    "prefix_before_underscore",
    "prefix_before_point",
    "constants_converted",
    "constants_preserved",
    "config_converted",
    "config_conversion_fails",
    "config_preserved",
    "utility_section",
    "aws_converted",
    "other_utilities_converted",
    "converted_tables",
    "converted_output"
   ],
   "note": "toml.dump followed by tomllib.load is taken to be the identity. Findings: aws_converted: the path of the look-up table is missing; a name like my_run.nc loses a part (prefix_examples)."
  },
  {
   "property": "C98",
   "status": "proved",
   "theorems": [
    "profile_cell_nearest",
    "nearest_value_found",
    "profile_printed",
    "profile_layer_refuted",
    "profile_needs_cell",
    "image_pixel",
    "image_pixel_refuted",
    "image_never_drawn",
    "image_axes",
    "nearest_cell_found",
    "nearest_cell_refuted",
    "profile_names",
    "profile_empty"
   ],
   "note": "Findings: profile_layer_refuted and image_pixel_refuted (values of the wrong layer in the upper half of a layer), image_never_drawn (np.int with numpy 2), nearest_cell_refuted (a NaN coordinate wins)."
  },
  {
   "property": "C99",
   "status": "proved",
   "theorems": [
    "two_dimensional",
    "time_selected",
    "time_found",
    "day_mean_selected",
    "afternoon_mean_refuted",
    "surface_time",
    "panel_shows",
    "stamp_variables_written",
    "image_names",
    "period_outside",
    "plot_kind_refused",
    "image_letters"
   ],
   "note": "Finding: afternoon_mean_refuted, with means a time from noon on shows the next day. The drawing itself is not modelled."
  },
  {
   "property": "C100",
   "status": "proved",
   "theorems": [
    "surface_points",
    "surface_cells",
    "surface_cells_refuted",
    "surface_values"
   ],
   "note": "The search for the closest point of VTK is a parameter. Finding: surface_cells_refuted."
  },
  {
   "property": "C101",
   "status": "proved",
   "theorems": [
    "tile_cells",
    "tile_read",
    "tile_names",
    "tile_from_the_end"
   ],
   "note": "Negative bounds count from the end; other names of the dimensions are refused."
  },
  {
   "property": "C102",
   "status": "proved",
   "theorems": [
    "step_bound_irrelevant",
    "cell_bound_irrelevant",
    "part_bound_irrelevant"
   ],
   "note": "bound_case is a step that ends within a bound."
  },
  {
   "property": "C103",
   "status": "proved",
   "theorems": [
    "step_completes_or_stuck",
    "stuck_step_raises",
    "step_completes_iff",
    "only_short_columns_vanish"
   ],
   "note": "For both remeshings, both albedo methods, the four densifications (Vionnet only where the cosine of the slope as the code takes it is not negative), the four surface temperature methods, Moelg12, Bintanja95 and Ri; not for the Monin-Obukhov correction. only_short_columns_vanish says which columns the remeshing can use up. The minimiser is a parameter that answers within its bounds."
  },
  {
   "property": "C104",
   "status": "proved",
   "theorems": [
    "run_completes_or_stuck",
    "cell_completes_or_stuck"
   ],
   "note": "Restart data as the start of a cell and the coupled mode are covered by run_completes_or_stuck, not by the theorem on whole cells. With constant densification the layers stay firm."
  },
  {
   "property": "C105",
   "status": "proved",
   "theorems": [
    "cell_computed"
   ],
   "note": "files_hold in SpecCell.v says what the files hold. The example is a whole run over two cells."
  },
  {
   "property": "C106",
   "status": "proved",
   "theorems": [
    "cell_local",
    "tile_same_results"
   ],
   "note": "Finding: runs of different tiles overwrite each other's files. A restarted run never completes (C64), so the tile theorem is for runs without restart; C110 says what a restart would do."
  },
  {
   "property": "C107",
   "status": "proved",
   "theorems": [
    "run_completes_iff",
    "main_completes_iff",
    "cell_refused"
   ],
   "note": "Together with C103/C104, which say when a column completes."
  },
  {
   "property": "C108",
   "status": "proved",
   "theorems": [
    "file_balance"
   ],
   "note": "The names that must be listed are in the shipped configuration, which the example uses. The same relations per step are proved for the column model."
  },
  {
   "property": "C109",
   "status": "proved",
   "theorems": [
    "other_dimensions_fail",
    "other_dimensions_tile"
   ],
   "note": "xarray raises ValueError for isel along a dimension that the data do not have; the data have the dimensions that the configuration names."
  },
  {
   "property": "C110",
   "status": "proved",
   "theorems": [
    "tile_restart_uncut"
   ],
   "note": "At the level of the submitted jobs, since a restarted run never completes (C64). The example has a tile whose worker starts from the snow of the neighbour."
  },
  {
   "property": "C111",
   "status": "proved",
   "theorems": [
    "stake_closest",
    "stakes_located",
    "stake_in_own_cell",
    "stake_longitude",
    "worker_stakes",
    "stake_off_glacier",
    "coordinates_of_cells",
    "stakes_unused",
    "stake_without_place"
   ],
   "note": "scipy's KD-tree is a parameter that finds a nearest point; the example is a linear search. Finding: with a tile or a mask the stakes outside are not dropped but given to the closest cell of the tile, however far away, or lost without a message."
  },
  {
   "property": "C112",
   "status": "proved",
   "theorems": [
    "step_surface_range",
    "run_surface_range",
    "cell_ranges",
    "file_ranges",
    "main_ranges"
   ],
   "note": "Builds on C92 (per column), C28 and C31 (per grid) and C105 (what the files hold). The albedo of Bougamont has no such range (C30). The hypothesis on the densification is needed: with the shipped method a height can become negative (C25)."
  },
  {
   "property": "C113",
   "status": "proved",
   "theorems": [
    "conversion_warnings",
    "file_units",
    "conversion_refusals",
    "wrf_file_units",
    "wrf_warnings",
    "wrf_no_spacing"
   ],
   "note": "The file is written whatever the warnings say. Ranges and units are tables of the specification, not of the model. Finding: the temperature converted from WRF output has the unit m."
  },
  {
   "property": "C114",
   "status": "proved",
   "theorems": [
    "fresh_density_formula",
    "fresh_density_constant",
    "fresh_density_wind"
   ],
   "note": "The same formula is used by the conversion of WRF output (C86)."
  },
  {
   "property": "C115",
   "status": "proved",
   "theorems": [
    "coupled_calls_chain",
    "coupled_one_step",
    "coupled_places",
    "layer_limit",
    "coupled_schemes"
   ],
   "note": "The calling program is not part of the repository; what it hands back is a definition of the specification (the returned layers and the snow clock under the names that load_snowpack reads). The stability scheme matters only for the fluxes; the albedo is what would be lost between the calls with another scheme (the surface temperature and the snow albedo restart from their initial values)."
  },
  {
   "property": "C116",
   "status": "proved",
   "theorems": [
    "stake_columns",
    "stake_rows",
    "stake_run_completes"
   ],
   "note": "For runs of the driver with the worker of the column model; completion for runs without restart. Finding: the file of the simulations starts as a copy of the measurements, so stakes outside of the glacier keep them."
  },
  {
   "property": "C117",
   "status": "proved",
   "theorems": [
    "inputs_repeated",
    "shipped_repeats"
   ],
   "note": "For runs without restart (a restarted run raises, C68). Finding: unit and long name of missing precipitation and cloud cover are exchanged."
  },
  {
   "property": "C118",
   "status": "proved",
   "theorems": [
    "units_of_files",
    "stored_water_unit_refuted"
   ],
   "note": "For runs of the driver whose worker answers like the column model. Finding: the unit of the layer water content is not that of the number (stored_water_unit_refuted); the new snow height of the restart file has the unit 'm .w.e'."
  },
  {
   "property": "C119",
   "status": "proved",
   "theorems": [
    "refreezing_exact",
    "refreezing_leaves_cold",
    "second_pass_freezes"
   ],
   "note": "Exact amount per layer. Finding: one of the four limits is dead and refreezing leaves cold content in wet layers."
  },
  {
   "property": "C120",
   "status": "proved",
   "theorems": [
    "percolation_in_portions",
    "percolation_monotone"
   ],
   "note": "For exact arithmetic; the second portion must not be negative."
  },
  {
   "property": "C121",
   "status": "proved",
   "theorems": [
    "melt_in_portions",
    "melt_portions_water_refuted"
   ],
   "note": "Column, clock and fresh snow height proved equal; equality of the returned water refuted."
  },
  {
   "property": "C122",
   "status": "proved",
   "theorems": [
    "heat_superposition"
   ],
   "note": "Superposition with a constant; includes scaling and shifting."
  },
  {
   "property": "C123",
   "status": "proved",
   "theorems": [
    "balance_falls",
    "two_balances_refuted"
   ],
   "note": "Strict monotonicity proved; uniqueness refuted by a night with two balances (intermediate value theorem)."
  },
  {
   "property": "C124",
   "status": "proved",
   "theorems": [
    "last_file_wins",
    "after_two_hyphens",
    "abbreviation_refused",
    "option_refused",
    "unknown_words_ignored",
    "directory_needed",
    "start_files",
    "only_chosen_files",
    "missing_file",
    "worker_default_files",
    "workers_agree_refuted",
    "wrf2cosipy_start",
    "installed_scripts"
   ],
   "note": "argparse is modelled for options with one argument and -h; help texts and exit codes are not. The model of argparse agreed with Python's own (3.11.10) on 6,500 random command lines. How dask starts its workers is not modelled: the refutation is for any process whose own words hold none of the options."
  },
  {
   "property": "C125",
   "status": "proved",
   "theorems": [
    "utility_values",
    "utility_refusals",
    "wrf_default_files",
    "start_date_clash",
    "utilities_file"
   ],
   "note": "What float accepts is a parameter. The parser of setup_cosipy with its switch is in C128. The model of argparse agreed with Python's own (3.11.10) on 3,000 random command lines of these programs. In aws2cosipy the configuration of COSIPY plays no role."
  },
  {
   "property": "C126",
   "status": "proved",
   "theorems": [
    "melting_jump",
    "no_balance",
    "frozen_and_melting",
    "unbalanced_storm_refuted",
    "frozen_or_melting_refuted"
   ],
   "note": "Jump, missing balance and double balance proved for the Richardson correction without damping; the storm and the day with the shipped constants refute that a balance exists and that it is unique (intermediate value theorem)."
  },
  {
   "property": "C127",
   "status": "proved",
   "theorems": [
    "fields_drawn",
    "fields_refused",
    "images_distinct",
    "mean_overwrites_refuted",
    "series_first_cell",
    "series_columns",
    "depths_refuse_series",
    "series_position_refuted",
    "single_profile"
   ],
   "note": "The programs from the parsed arguments on; what is drawn and the name of the file. Findings: mean_overwrites_refuted, series_position_refuted, depths_refuse_series. With the required numpy the profiles over time are not drawn at all (C98)."
  },
  {
   "property": "C128",
   "status": "proved",
   "theorems": [
    "switch_settings",
    "switch_refusals",
    "setup_from_words",
    "nothing_overwritten",
    "fields_from_words",
    "profiles_from_words",
    "vtk_name_optional"
   ],
   "note": "What int and float accept are parameters. The model of argparse agreed with Python's own (3.11.10) on 1,900 random command lines of these programs. The profile program is modelled without --stake-file and --pit; what it raises without a file is not modelled."
  },
  {
   "property": "C129",
   "status": "proved",
   "theorems": [
    "merged_heights_decide",
    "merging_commutes",
    "merging_cold_content",
    "merging_loses_cold",
    "merging_conserves_cold_refuted"
   ],
   "note": "Merging through the list of nodes with positions from the top (the position -1 is C02). Finding: merging_conserves_cold_refuted with the delivered constants."
  },
  {
   "property": "C130",
   "status": "proved",
   "theorems": [
    "one_rest",
    "rest_stays",
    "conduction_relaxes",
    "unchanged_is_rest",
    "conduction_continues"
   ],
   "note": "The state of rest is that of the scheme: mean diffusivities and distances between the midpoints of the layers. The relaxation time is not optimal."
  },
  {
   "property": "C131",
   "status": "proved",
   "theorems": [
    "radiation_amount",
    "radiation_in_portions"
   ],
   "note": "Portions only for radiation without melt; with melt the layers get thinner in between and nothing is claimed."
  },
  {
   "property": "C132",
   "status": "proved",
   "theorems": [
    "log_profile_leaves_settled",
    "log_profile_unchanged_iff_settled",
    "log_profile_idempotent_refuted",
    "update_grid_leaves_settled"
   ],
   "note": "Full for dry columns of snow over ice: log_profile_leaves_settled and log_profile_unchanged_iff_settled. That remeshing twice differs from once is shown by an example (log_profile_idempotent_refuted). Columns with liquid water are not covered."
  },
  {
   "property": "C133",
   "status": "proved",
   "theorems": [
    "adaptive_snow_walk",
    "adaptive_snow_unchanged",
    "adaptive_profile_steps",
    "adaptive_bare_ice",
    "adaptive_profile_leaves"
   ],
   "note": "Full: adaptive_snow_walk and adaptive_profile_steps describe the result by relations on lists of layers (walk, thickened, resized); adaptive_snow_unchanged and adaptive_bare_ice are consequences."
  },
  {
   "property": "C134",
   "status": "proved",
   "theorems": [
    "clear_sky_within_top_of_atmosphere",
    "beam_exceeds_top_of_atmosphere_refuted",
    "day_radiation_bounded"
   ],
   "note": "Full within the stated limits of the pressure, which are sufficient conditions; beam_exceeds_top_of_atmosphere_refuted shows that the unconditional claim fails. metpy's vapour pressure is an arbitrary function whose value is assumed not negative."
  },
  {
   "property": "C135",
   "status": "proved",
   "theorems": [
    "stability_functions",
    "obukhov_pass_exact",
    "stable_air_damps"
   ],
   "note": "Closed forms of the stability functions and of one pass; damping proved for the result of the iteration in stable or neutral air. In unstable air nothing is claimed beyond the pass itself."
  },
  {
   "property": "C136",
   "status": "proved",
   "theorems": [
    "friction_velocity_unstable",
    "integrated_profile_positive",
    "obukhov_pass_unstable"
   ],
   "note": "Existence and uniqueness of the critical length by the intermediate value theorem and monotonicity; the integrated profile is proved positive for momentum and heat, so that the cause is the missing term. No statement on whether given weather leads to such a length."
  },
  {
   "property": "C137",
   "status": "proved",
   "theorems": [
    "python_index",
    "python_change_delete",
    "python_insert",
    "running_sums",
    "python_range",
    "python_dict"
   ],
   "note": "About the representation of Python in the model; that Python itself behaves like this is its documentation, not a theorem."
  }
 ]
}