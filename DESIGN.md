# Formal model of cosipy in Rocq (Coq 8.16.1): design and trusted base

Contents: 1 approach · 2 conventions · 3 what is modelled · 4 what is not modelled · 5 trusted base ·
6 how the theorems were tested · 7 findings about the code · 8 properties and their theorems ·
9 assumptions of each theorem.

## 1 Approach

* Shallow embedding. Every modelled Python function is a total Gallina function that mirrors
  the code branch by branch and cites file and lines in /repo.
* `Model*.v` hold definitions only, `Spec*.v` hold definitions used to state properties,
  `Lem*.v` hold proofs. `Prop*.v` hold the property theorems and nothing else: each is closed by
  `exact`, followed by `Print Assumptions`, and accompanied by an `Example` whose concrete case meets
  the hypotheses where there are any.
* The statements speak about lists of layers, totals, dictionaries and files. They avoid the
  model's own helpers wherever the claim can be said without them.
* A property that the code violates is proved as `..._refuted : exists ...` or as a theorem giving
  the exact deviation, together with the strongest true variant. No property is only `partial`.

## 2 Conventions

* Exceptions are values: `res A := Ok a | Err e` (`ModelPy.v`). Python list indexing (negative
  wrap-around, `IndexError`), `del`, `insert`, `range` loops and scalar division
  (`ZeroDivisionError`, numba's default error model) are defined once.
* `Err NotReal` marks places where numpy would leave the reals (NaN, infinity) in scalar code.
  In arrays a NaN is `None`, where missing values matter (`number := option R`).
* `while` loops take fuel and answer `Err OutOfFuel` when it runs out. Theorems either prove
  that some fuel suffices (termination) or speak about `Ok` results for every fuel.
* Numbers are Coq's reals. float64 rounding and overflow are not modelled.
* The constants of `constants.toml` are a record `Consts` passed to every function. Theorems
  quantify over all constants satisfying a small predicate (`constants_ok`, `run_constants_ok`)
  which is proved for the shipped values.
* Third-party code is a parameter over which the theorems quantify, see section 4.
* Arrays with the axes time, north, east (and layer) are kept as rasters of per-cell lists.

## 3 What is modelled

| source | model | remarks |
|---|---|---|
| `cpkernel/node.py` | `ModelNode.v` | all derived quantities and setters; trivial getters are record projections |
| `cpkernel/grid.py` | `ModelGrid.v` | all operations, all remeshing, melt, fresh snow, getters and setters. `init_grid` takes the five arrays as rows. Not modelled: `check`, `info`, `grid_info`, `grid_info_screen`, `check_layer_property` (only print; `check_layer_property` and `check` are never called). `grid_check`, called at the start of every step, has the body `pass` |
| `cpkernel/init.py` | `ModelInit.v` | `init_snowpack`, `load_snowpack`, `create_grid_jitted` |
| `cpkernel/cosipy_core.py` | `ModelCore.v`, `ModelMain.v`, `ModelCoupled.v` | the whole time loop with the restart, WRF coupling and stake branches. Not modelled: `init_nan_array_*` (the arrays are built by the loop), messages |
| `cpkernel/io.py` | `ModelIO.v` | reading, selecting and checking input, all metadata tables, result and restart arrays, copying from workers, writing. The property accessors (848-913), which return a field, are record projections. Not modelled: netCDF encoding, warnings, broadcasting of axes of length one |
| `modules/albedo.py`, `roughness.py` | `ModelAlbedo.v` | complete |
| `modules/densification.py` | `ModelDensification.v` | complete; the text of `log_fraction_warning` is left out |
| `modules/heatEquation.py` | `ModelHeat.v` | complete |
| `modules/penetratingRadiation.py` | `ModelRadiation.v` | complete |
| `modules/percolation.py`, `refreezing.py` | `ModelWater.v` | complete |
| `modules/surfaceTemperature.py`, `secant.py` | `ModelSurface.v` | complete; scipy's `minimize` is a parameter (section 4); `np_isclose` is inlined as its formula |
| `modules/evaluation.py` | `ModelMain.v` | complete |
| `modules/radCor.py` | `ModelRadCor.v` | complete |
| `COSIPY.py` | `ModelMain.v`, `ModelStake.v` | `main`, `run_cosipy`, the places of the stakes (the search of the nearest point is a parameter), the selection of the data of a cell and what is read from it (all of it before the snowpack is built; the data have the horizontal dimensions that the configuration names), `transform_coordinates`, `compute_scale_and_offset`, `check_for_nan`, output names. Not modelled: logging, messages, timing, `create_data_directory` |
| `cosipy/config.py`, `constants.py`, `utilities/config_utils.py` | `ModelConfig.v`, `ModelArgs.v`, `ModelUtilArgs.v`, `ModelPlotArgs.v`, `ModelFiles.v`, `ModelConstants.v` | loaders, normalisation, the shipped files as data, COSIPY's command line with the part of argparse it uses, the directory of the default files, the start of the programs, the installed scripts, the command lines of the conversions, of the setup and of the plots. Not modelled: texts and exit codes of the parsers |
| `utilities/aws2cosipy/aws2cosipy.py` | `ModelAws.v` | the point and the grid conversion with all radiation options. The command line is in `ModelUtilArgs.v`. Not modelled: `read_input_file` beyond a frame of numbers, the look-up tables being written to a file |
| `utilities/wrf2cosipy/wrf2cosipy.py` | `ModelWrf.v` | complete; the command line is in `ModelUtilArgs.v` |
| `utilities/createStatic/create_static_file.py` | `ModelStatic.v` | complete up to `check_folder_path`, which is never called; the command line is in `ModelUtilArgs.v` |
| `utilities/setup_cosipy/setup_cosipy.py` | `ModelSetup.v`, `ModelPlotArgs.v` | complete up to the messages |
| `convert_config.py` | `ModelConvert.v` | complete up to the path of the script, the messages and the TOML text |
| `postprocessing/profile_plots/plot_profiles.py` | `ModelPost.v`, `ModelPlots.v`, `ModelPlotArgs.v` | the choice of cell, layer and pixel, the command line and the program; not the drawing, `plot_profile` (never called) and the stake markers |
| `postprocessing/field_plots/plot_cosipy_fields.py` | `ModelPost.v`, `ModelPlots.v`, `ModelPlotArgs.v` | the command line, `check_2d`, `get_selection`, data of `plot_axes`, `plot_data`, `plotMesh`, `plotContour`, `main`, names of images; not the drawing and its labels |
| `postprocessing/vtk_plots/plot_cosipy_fields_vtk.py` | `ModelPost.v`, `ModelPlotArgs.v` | the command line, `get_selection`, `create_points`, `createDEM_v2`, `add_scalar`, `set_filename`; not Delaunay, smoothing and rendering |

## 4 What is not modelled, and parameters

* float64 arithmetic, netCDF, xarray's alignment beyond what each model file says, dask and the
  cluster. Workers are a function from cell to result, and every completion order is considered.
* scipy's `minimize` (L-BFGS-B, SLSQP): arbitrary functions of the record `Solvers`. Nothing is
  assumed about their answers (which may be NaN) unless a theorem says so. The secant iteration of
  `secant.py` is modelled.
* metpy's vapour pressure (`aws2cosipy`), `xrs.slope` and `xrs.aspect` (`wrf2cosipy`), GDAL and
  richdem (`create_static_file`): arbitrary functions.
* File systems are dictionaries from paths to contents. Permissions, links (except through an
  arbitrary `resolve`) and concurrent access are left out.
* Logging, printing, plotting, progress bars, SLURM job files
  (`utilities/hpc/*`).
* Tests and documentation in /repo.
* Numba specifics (types, compilation, `fastmath`) except the error model of scalar division.

## 5 Trusted base

* Coq's kernel (8.16.1). No kernel check is switched off; there are no axioms, parameters,
  functors or plugins of our own.
* Axioms of the standard library, as reported by `Print Assumptions` (section 9):
  `ClassicalDedekindReals.sig_forall_dec` and `ClassicalDedekindReals.sig_not_dec` (the reals),
  `FunctionalExtensionality.functional_extensionality_dep` (used by the reals) and
  `Classical_Prop.classic` (used by the library's theorems on exp, ln, sin, cos, atan and
  integrals). No others.
* The faithfulness of the reading of /repo: the code is not run.
* Real arithmetic stands in for float64.

## 6 How the theorems were tested

`seeded/LOG.jsonl` has one line per attempt to break the model: the definition, the edit, the
claim it breaks, the theorems whose proofs fail, and the theorems that were added or tightened when
none failed.

How `failed` was found: in a scratch copy the definition was edited, every proof that no longer
compiled was replaced by `Admitted`, and the theorems that mention such a lemma, directly or through
others, are listed. The list is thus an upper bound. A proof that breaks does not by itself show that the
statement became false; it may only be the script that no longer fits. Where reading showed that only
scripts broke, the line has a note and the theorems were tightened.

## 7 Findings about the code

Most are theorems (section 8 names them, many with the suffix `_refuted`); the rest were seen while
modelling and are recorded in comments of the model.

* Layers. Splitting a layer halves its water; merging snow into ice changes the mass; adaptive
  remeshing does `merge_max + 1` merges; logarithmic remeshing does not always make the top layer
  the configured height and mixes thin snow with ice; an unknown remeshing name is silently ignored.
* Melt. Melt energy is the positive residual of the fluxes at whatever temperature the solver
  returns, also below melting; water of vanished layers counts twice; the reported subsurface
  melt is too small; deposition beyond melt is never stored; evaporation is reported but never taken
  from the column. One of the four limits of refreezing never binds, and wet layers stay below the
  melting temperature after it.
* Densification. Mass is lost by Boone's method; Vionnet's slope is read in the wrong unit, which
  reverses compaction on slopes of 2 to 4.5 degrees; the empirical method makes the density of wet
  layers jump.
* Albedo. With Bougamont's method and hourly steps the albedo leaves [0, 1]: the factor is -1.4
  per melting hour.
* Surface. A NaN of the solver becomes a melting surface; the secant method may stop without
  convergence and without saying so; thin columns raise, thick top layers read the bottom layer. The
  damping of turbulence sets in with a jump, next to which two temperatures may balance the energy. The sum of the
  fluxes also jumps at the melting point: there are forcings which no surface temperature balances, and
  forcings which a frozen surface balances although the melting surface would melt.
* A process that a batch system starts with a command line of its own reads the default files, not those
  named with `-c` and `-x` when the run was started; misspelt options are ignored silently;
  `cosipy-plot-profile` names a function that does not exist (C124).
* The WRF conversion always works with the default constants of COSIPY: its own parser refuses the words that
  would name others. Its option --start_date abbreviated to --s is also read as COSIPY's Slurm file (C125).
* Runs. Every restarted run raises `AttributeError`; the bounds of SLOPE are swapped in the input
  check; unsorted axes are relabelled, not sorted; LW in `output_full` loses every full-field run;
  runs on the same days overwrite each other's file. The file of the simulations at the stakes shows
  the measurements for stakes outside of the glacier; precipitation and cloud cover that the input
  lacks have unit and long name exchanged in the result file. The liquid water of the layers is a
  share of the volume, its unit in the files is kg m^-2.
* Configuration. A later table overrides the normalisation of an earlier one; keys of different
  tables share one name space; `convert_config.py` forgets the path of the look-up table, cuts
  names at an underscore, and turns missing settings into 0.
* aws2cosipy. The longitude cancels in the position of the sun; the azimuth is
  positive instead of zero at noon north of the declination, and exceeds a full turn near the poles; shading raises next to the border; there is no table below hourly
  steps; point and grid conversion use different pressure exponents; forward filling repeats
  precipitation; the point conversion exchanges latitude and longitude when WRF coordinates are
  asked for; the replacement of missing pressure by 660 hPa is dead code; the checks run after
  the file is written.
* wrf2cosipy. A bucket reset gives negative precipitation; the temperature has the unit m; the option `hu` has no effect; dates are
  compared as text; a land-use class of 0 makes every cell glacier.
* createStatic. A failing command goes unnoticed and stale files are used; a DEM that has the name
  of the temporary file is deleted; -9999 passes the check; glaciers at or below sea level are no
  glacier points.
* setup. Identical directories are recognised only if they are written alike.
* Plots. Values and pixels in the upper half of a layer show the layer above it; `np.int` stops the
  image of a profile over time with every numpy the project allows; the search for a cell prefers
  NaN coordinates; daily means for a time from noon on show the next day; the cells of
  `createDEM_v2` refer to a point that does not exist and join the ends of neighbouring columns. The
  mean of a day and a time step are saved under the same name; the profiles over time ignore the
  position in the arguments and fail if depths are given (C127). The three-dimensional plots start
  without the variable that their documentation requires (C128).
* Completion of steps. With the shipped methods, and with the other remeshing, albedo and densification
  methods, a step on a firm column completes unless one of five things happens (C103). Each is proved to raise: IndexError, ZeroDivisionError or ValueError, or
  whatever the iteration of Newton or Secant raises, of which only RuntimeError and ValueError are
  caught. From reading only, without a theorem: the melt of a step has no bound in terms of the
  input, as the conductivity grows with the water of the top layer. C104 leaves open whether a
  densification can take a layer out of the range of firm layers; it does not exclude it.
* Grids (C105 to C110). Northing and easting may be configured, but without WRF every run whose
  dimensions are not called lat and lon raises ValueError; runs on tiles of one area write files of
  the same name; the restart file is not cut to the tile, so that a restarted tile starts from the
  snow of other cells. From reading only: the replacement of a NaN snow height by 0 in `init.py` is
  never reached from `COSIPY.py`, which stops at a NaN before.
* Stakes (C111). A stake outside of the grid or of the tile is not dropped: it is compared with the
  closest cell, however far away. A stake whose closest cell is not glacier is compared with nothing,
  without a message. One stake without coordinates stops the whole run.
* Merging (C129). The temperature of a merged layer is the mean over the heights, not over the heat
  capacities, and the specific heat of a layer is the mean over the volumes and is multiplied by the
  density: merging two layers of one temperature below melting with different ice fractions lowers
  the reported cold content.
* Logarithmic remeshing (C132). Layers that are left below the last complete layer are merged in
  every second place only, so that remeshing the result once more may change it again. One such
  layer may remain for good, as long as the layer above it is thicker than the profile asks.
* Clear-sky radiation (C134). Within about a degree of the horizon and at pressures close to that of
  sea level the Rayleigh transmissivity of the code exceeds one. Under a nearly cloudless sky the
  proved bound for a flat cell is 4.6 percent higher than for a clear sky, because the diffuse part
  then is a percentage of the global radiation and is added to the full beam.
* Monin-Obukhov correction (C135). The drag coefficient uses ln(z/z0) - psi(z) - psi(z0) where the
  integrated profile has ln(z/z0) - psi(z) + psi(z0); in stable air the transfer coefficients are too
  small by this. The friction velocity leaves psi(z0) out altogether.
  In very unstable air the missing term makes the friction velocity divide by zero at one Obukhov length and negative
  above it, and the next Obukhov length positive (C136); with the full profile this cannot happen.

## 8 Properties and their theorems

| id | property | status | theorems | note |
|---|---|---|---|---|
| C01 | Merging two layers conserves the column | proved | `merge_nodes_conserves_column` |  |
| C02 | Index errors of merge_nodes | proved | `merge_nodes_index_error`, `merge_nodes_minus_one_wraps`, `merge_nodes_minus_one_single` |  |
| C03 | Layer counter always equals the number of stored layers | proved | `layer_counter_invariant`, `layer_counter_preserved`, `layer_counter_init_twice_refuted` | Invariant for all operation sequences; a second init_grid call is shown to break it. |
| C04 | correct_layer resizes a layer without changing the column | proved | `correct_layer_resizes`, `correct_layer_index_error`, `correct_layer_overfills_refuted` | Also shown: a split can put more than 100 % water into the thin upper part. |
| C05 | Logarithmic remeshing conserves the column and terminates | proved | `log_profile_conserves_column`, `log_profile_deletes_thin_ice_refuted` | Termination and conservation; the vanishing single thin ice layer is exhibited. |
| C06 | update_grid only ever drops a too-thin surface layer | proved | `update_grid_log_conserves`, `update_grid_log_every_column`, `update_grid_other` |  |
| C07 | Adaptive remeshing exceeds the documented merge limit by one | proved | `adaptive_merges_bounded`, `adaptive_merge_limit_refuted` | The documented limit merge_max is refuted by a witness; the true bound merge_max+1 is proved. |
| C08 | Splitting a layer loses half of its water | proved | `split_node_effect`, `split_node_conserves_refuted` | Conservation of water refuted; the exact loss (half the layer's water) is proved for all columns. |
| C09 | Merging snow into glacier ice loses the water of the ice | proved | `merge_snow_with_glacier_effect`, `merge_snow_with_glacier_refuted` | Mass conservation refuted by a witness; the exact effect is proved, including weight conservation for pure dry ice. |
| C10 | remove_node deletes exactly the requested layers | proved | `remove_node_exactly`, `remove_node_default` |  |
| C11 | Melting removes exactly the requested mass from the top | proved | `remove_melt_exact` |  |
| C12 | Melt does not reduce the tracked fresh snow height | proved | `fresh_snow_height_ignores_melt`, `melt_reduces_fresh_snow_refuted`, `negative_melt_only_raises_fresh_snow` | The expected reduction is refuted; what happens instead is proved exactly for all columns. |
| C13 | Layer depths are consistent | proved | `depths_are_midpoints`, `depths_increase` |  |
| C14 | Snow height getters report the snow | proved | `snow_getters_report_snow`, `buried_snow_misreported_refuted` | Exact when snow lies over ice; refuted by a witness for buried snow. |
| C15 | Constructor density is what the layer reports | proved | `density_round_trip` | Exact round-trip error proved. |
| C16 | Adding fresh snow only adds a surface layer | proved | `add_fresh_snow_effect` |  |
| C17 | Snow age clock | proved | `snow_clock_step`, `snow_clock_history`, `old_snow_lags` | The age of the fresh snow and of the old snow are characterised exactly over every history; finding: the old snow lags by one time step. |
| C18 | Percolation conserves water | proved | `percolation_conserves_water`, `percolation_is_bucket_scheme` | For every column with positive heights and ice contents and every amount of water. |
| C19 | Percolation leaves at most the irreducible water | proved | `percolation_is_bucket_scheme`, `percolation_leaves_irreducible_water`, `percolation_at_rest` | Percolation is shown to be exactly the bucket scheme. |
| C20 | Refreezing conserves mass | proved | `refreezing_conserves_mass` | Needs fractions in range and temperatures less than 154 K below melting (shipped constants). |
| C21 | Refreezing never melts or overfills a layer | proved | `refreezing_stays_frozen`, `refreezing_fits_refuted`, `percolation_then_refreezing_fits` | Limits proved; that ice plus water stays below 100 % is refuted for refreezing alone and proved for percolation followed by refreezing. |
| C22 | Heat conduction obeys the maximum principle | proved | `heat_maximum_principle`, `heat_isothermal_unchanged`, `heat_comparison` | Also proved: an isothermal column is unchanged and warmer columns stay warmer. |
| C23 | The heat solver's sub-steps cover exactly the time step | proved | `heat_substeps_cover_time_step`, `heat_needs_three_layers` | Sub-steps characterised exactly; fewer than three layers raise ValueError. |
| C24 | Compaction after Boone loses mass | proved | `boone_exact`, `boone_layer_mass`, `boone_loses_mass` | Conservation is refuted: mass is strictly lost in every column with a layer to compact; exact factors proved. |
| C25 | Compaction only thins snow layers | proved | `boone_exact`, `boone_only_thins`, `boone_heights_positive`, `boone_negative_height_refuted`, `densification_warning_never`, `densification_dispatch` | Thinning proved for all columns; positivity of heights under a bound on the step, with a witness that the bound is needed. |
| C26 | Penetrating radiation absorbs no more than it is given | proved | `bintanja_exact`, `bintanja_shares`, `bintanja_energy`, `penetrating_dispatch` | Shares, their sum and the energy bound are proved for every column. |
| C27 | Penetrating radiation: temperatures, mass and reported melt | proved | `bintanja_exact`, `bintanja_cold`, `bintanja_conserves_mass`, `bintanja_underreports`, `bintanja_loses_layer_refuted` | Temperatures proved; mass conserved unless a layer vanishes (refuted by a witness then); the reported melt is proved too small. |
| C28 | Oerlemans albedo stays in range | proved | `oerlemans_exact`, `oerlemans_range`, `surface_dispatch` | Range proved for every column; exact formula and frame also proved. |
| C29 | Oerlemans albedo is monotone | proved | `oerlemans_exact`, `oerlemans_monotone` | Monotone in age and depth for all ages and depths. |
| C30 | Bougamont snow albedo leaves its range for short time steps | proved | `bougamont_exact`, `bougamont_timescale`, `bougamont_stable`, `bougamont_melting_history`, `bougamont_diverges_refuted` | Range proved when timescale*dt >= 1 day; refuted for hourly steps, with the exact factor -1.4 per melting hour proved for all histories. |
| C31 | Roughness length stays in range and grows with snow age | proved | `roughness_range`, `roughness_monotone`, `surface_dispatch`, `roughness_exact` | Range, monotonicity, units and unknown methods. |
| C32 | Surface never warmer than melting | proved | `surface_never_above_melting`, `nan_becomes_melting`, `surface_lower_bound` | Proved for arbitrary solvers; NaN from the solver is proved to become melting. |
| C33 | Secant solver terminates and exact roots are returned | proved | `secant_refuses`, `secant_terminates`, `secant_affine_exact`, `secant_silent_refuted`, `secant_outcome`, `surface_by_secant` | Termination, absence of division by zero and exactness on affine functions proved; silent non-convergence refuted by a witness. The refused arguments are in secant_refuses. |
| C34 | Sub-surface temperature interpolation is bounded | proved | `subsurface_interpolation`, `subsurface_thin_column`, `subsurface_wraps`, `subsurface_bounded_refuted` | Exact interpolation proved; thin columns raise, thick top layers wrap to the bottom layer (refuted by a witness). |
| C35 | Turbulent fluxes are down-gradient | proved | `fluxes_down_gradient`, `richardson_fluxes_exact`, `stability_jump` | Signs proved for both corrections; exact formulas for the Richardson correction. |
| C36 | Saturation vapour pressure | proved | `saturation_pressure` | Positive and strictly increasing above 0.55 K. |
| C37 | Monin-Obukhov iteration terminates | proved | `mo_terminates` | Two to seven passes; never fails in stable air. |
| C38 | Precipitation partition is exact | proved | `snow_share_decreases`, `precipitation_partition_exact`, `precipitation_threshold`, `snow_exceeding_total`, `precipitation_both_exact` | Exact partition for total precipitation; if snowfall is given separately it may exceed the total and rain is cut to zero (proved). |
| C39 | Surface mass fluxes are exclusive and correctly signed | proved | `mass_fluxes_exclusive` | For every latent heat flux and surface temperature. |
| C40 | Mass balance bookkeeping adds up | proved | `step_balance`, `run_balance`, `cell_run_balance` | For every step and every history, from any start. |
| C41 | Deposition that exceeds melt is never stored | proved | `deposition_never_stored` | The expected gain is refuted: deposition in excess of melt is never stored, for every column. |
| C42 | Column water budget of a full time step | proved | `water_step_budget`, `deposition_never_stored` | Exact residuals proved: water of vanished layers counts twice and pore air counts as water; deposition and sublimation as in C41. |
| C43 | Missing precipitation inputs | proved | `missing_rain_raises`, `inputs_selected`, `no_run_without_RRR`, `no_step_without_longwave` | Exact exceptions proved; no cell is ever computed without RRR. |
| C44 | Saving and resuming reproduces the layers | proved | `restart_round_trip`, `restart_too_many_layers`, `resumed_step`, `resumed_run`, `interrupted_run`, `restart_never_resumes`, `bougamont_restart` | Round trip exact under the written names; with Oerlemans98 an interrupted run equals the uninterrupted one at every split point; as coded every resume raises AttributeError; what Bougamont05 loses is characterised exactly. |
| C45 | Initial snowpack is well formed | proved | `initial_column` | For every initial snow height and air temperature. |
| C46 | Result assembly is independent of worker completion order | proved | `schedule_independent`, `files_schedule_independent`, `worker_answers`, `result_atm`, `result_internal`, `result_layers`, `run_succeeds` | For every pair of completion orders; the rows of the stake statistics agree up to their order. |
| C47 | Each glacier cell is computed exactly once | proved | `submitted_cells`, `submission_stops_on_nan`, `stakes_of_cell` | Exactly the cells of the mask, each once, with the data of its own cell. |
| C48 | Input validation rejects out-of-range data | proved | `input_check` | Exact characterisation; finding: the bounds of SLOPE are swapped, so every slope is reported. |
| C49 | Time labels and data | proved | `minute_of_time`, `period_refused`, `unreadable_period`, `start_refused`, `time_labels_kept`, `unsorted_time_mislabels_refuted`, `time_labels_complete` | Proved for ascending axes; refuted for unsorted ones, as the code sorts only the labels. |
| C50 | Configuration normalisation | proved | `config_normalised`, `values_that_count`, `config_normalised_twice`, `config_loads_iff`, `last_setting_wins`, `attributes_are_entries`, `later_table_overrides_refuted`, `load_twice`, `constants_normalised`, `slurm_normalised`, `shipped_config_loads`, `utility_section`, `switched_off`, `slurm_file` | Exact effect of the loaders on every entry; findings: a later table overrides the normalisation, and keys of different tables share one name space. |
| C51 | Humidity and bias corrections stay in range | proved | `humidity_bounds`, `humidity_order_refuted`, `lapse_correction`, `file_ranges` | Findings: humidity_order_refuted; exactly 0 stays 0 while negative values become 0.1. |
| C52 | Pressure lapse is the identity at station altitude | proved | `grid_pressure_at_station`, `point_pressure_at_station`, `point_pressure_identity_refuted`, `pressure_falls_with_height`, `pressure_formula` | Closed form of both conversions at every height (pressure_formula). The identity holds for the gridded conversion and is refuted for the point conversion (5.255 against 5.22). |
| C53 | WRF precipitation increments telescope | proved | `wrf_precipitation_telescopes`, `wrf_atmosphere`, `wrf_mask_zero_one`, `wrf_reset_refuted` | Finding: wrf_reset_refuted, a bucket reset gives negative precipitation that is written. A land-use class of 0 makes every cell glacier. |
| C54 | Radiation correction on flat terrain is the identity | proved | `diffuse_fraction_formula`, `great_circle`, `haversine_sym`, `haversine_zero`, `diffuse_fraction`, `flat_uncorrected`, `low_sun_uncorrected`, `beam_correction`, `correction_bounded`, `correction_negative_refuted` | Flat terrain and low sun are left alone; the direct part is scaled with the inner product of the direction of the sun and the surface normal; closed form, bounds and monotonicity of the diffuse fraction; bounds of the corrected value; great-circle distance exact on the sphere. correction_negative_refuted: the correction alone may be negative. |
| C55 | Setup never overwrites a file without consent | proved | `answers_read`, `confirmation_answers`, `existing_file_needs_yes`, `setup_consent`, `setup_declined`, `setup_complete`, `setup_succeeds`, `setup_same_directory` | The file system is a map from paths to contents, the user a list of answers, path resolution an arbitrary function. Identical directories are recognised only if they are written alike. |
| C56 | Adaptive remeshing terminates and loses only layers thinner than the minimum | proved | `adaptive_profile_loses_only_thin_layers`, `adaptive_profile_conserves_refuted` |  |
| C57 | Heat conduction is conservative in control lengths, not in layer thicknesses | proved | `heat_flux_balance`, `heat_content_conserved_refuted` | Balance over control lengths proved; balance over layer thicknesses refuted by a concrete column of pure ice. |
| C58 | The load on a snow layer is not the weight of the snow above it | proved | `boone_overburden`, `boone_thin_layer_hides_load` | Exact load proved; deviates from the weight above in two ways. |
| C59 | Vionnet compaction takes the slope in degrees as radians | proved | `vionnet_exact`, `vionnet_sign`, `vionnet_thickens_gentle_slopes` | The slope unit error is proved to reverse compaction for all columns on slopes of 2 to 4.5 degrees. |
| C60 | Empirical compaction creates mass in wet layers | proved | `empirical_exact`, `empirical_density_jump`, `empirical_creates_mass_refuted` | Conservation refuted by a witness; the density jump is proved for all wet layers. |
| C61 | The fallback of the surface temperature solver reports melting | proved | `fallback_reports_melting` | Proved that the fallback reports melting for every calm, dry forcing. |
| C62 | Parameterised longwave radiation | proved | `longwave_emissivity` | Proved for all cloud covers. |
| C63 | Every output variable holds the series of its own quantity and cell | proved | `unknown_name_loses_run`, `worker_answers`, `result_atm`, `result_internal`, `result_layers`, `result_misplaced`, `result_no_glacier`, `run_succeeds`, `output_names` | Every listed name is traced from the worker to the file; findings: exceptions as stated. |
| C64 | A restarted run never completes | proved | `restart_data`, `restart_file_named`, `start_refused`, `restart_continues`, `restart_skips_steps_refuted`, `restart_never_completes`, `restart_text_fails_early` | Proved that no restarted run ever completes through main; which steps it would read is characterised. |
| C65 | Runs over the same days write to the same file | proved | `output_name`, `output_name_refused`, `output_name_collision` | Same file exactly if both days agree. |
| C66 | Stake evaluation compares like with like | proved | `rmse_root_mean_square`, `stake_simulated`, `other_evaluation_fails`, `stakes_of_cell` | For every cell and stake; finding: other evaluation methods lose the run. |
| C67 | Coordinates and packing | proved | `on_ellipsoid`, `coordinates_injective`, `packing` | For all points and ranges, in real arithmetic. |
| C68 | The restart file holds the last column of every cell | proved | `restart_written`, `restart_file_named` | For every cell. |
| C69 | The shipped configuration works | proved | `shipped_config_loads`, `shipped_constants_loaded`, `shipped_names`, `unknown_name_loses_run`, `shipped_full_field_fails`, `stamp_variables_written` | Finding: LW in output_full loses every run with full fields. |
| C70 | The sun position used for slope corrections follows local solar time | proved | `sun_azimuth_formula`, `azimuth_beyond_full_turn`, `sun_elevation`, `sun_ignores_longitude`, `correction_ignores_longitude`, `sun_symmetric`, `noon_azimuth_wrong` | Elevation exact in clock time. Findings: sun_ignores_longitude (longitude, time zone and equation of time cancel) and noon_azimuth_wrong (azimuth positive at noon for every latitude north of the declination); sun_azimuth_formula gives the azimuth that is returned, and azimuth_beyond_full_turn shows that beyond 84.3 degrees it exceeds a full turn at six in the evening. |
| C71 | Terrain shades a cell exactly if it rises above the ray to the sun | proved | `shading_values`, `shading_monotone`, `shading_shift`, `shading_level`, `shading_meaning`, `shading_progress`, `shading_border_refuted` | Meaning and success on every regular grid; values, monotonicity and invariance for all inputs. Finding shading_border_refuted: ValueError for a glacier cell next to the border. |
| C72 | The sky view factor is the visible fraction of the sampled sky | proved | `sky_view_counts`, `sky_view_range`, `sky_view_level`, `sky_view_progress` | Counts exactly the visible directions; success characterised on regular grids. |
| C73 | The shading table is read where it was written | proved | `shading_table`, `subhourly_table`, `table_time`, `table_time_refuted` | End to end for steps of k / 24 hours. Findings: subhourly_table (no table below one hour) and table_time_refuted (table and radiation model use different times unless the step is one hour). |
| C74 | Modelled radiation follows sun, slope, shade and clouds | proved | `table_sun`, `night_radiation`, `day_radiation`, `clear_sky_transmissivity`, `shade_darkens` | metpy's vapour pressure is an arbitrary function. Azimuth of the table only claimed for hour angles within +-180 degrees. |
| C75 | Solar parameters exist away from the poles | proved | `polar_solar_parameters`, `solar_parameters`, `solar_parameters_of_day`, `solar_parameters_exist_iff` | Between 60 and 67.5 degrees existence is characterised by the tangents (solar_parameters_exist_iff), the limiting latitude itself is not computed. |
| C76 | The point input file is the hourly station record | proved | `point_file_times`, `point_file_content` | The csv file is modelled as a frame of numbers or NaN; column names distinct. |
| C77 | Resampling conserves precipitation | proved | `resampling_conserves_sum`, `hourly_mean_between`, `point_precipitation_total`, `precipitation_repeated_refuted` | Finding: precipitation_repeated_refuted. |
| C78 | Converted files have no gaps on the glacier | proved | `point_file_complete`, `point_hours_have_rows`, `point_conversion_succeeds`, `grid_file_complete`, `grid_conversion_succeeds` |  |
| C79 | Temperature units are detected | proved | `point_temperature_range`, `temperature_unit_detected`, `grid_temperature_range` |  |
| C80 | The gridded input file is the station record moved to each cell | proved | `grid_file_content`, `grid_static_fields`, `grid_cell_at_station`, `grid_file_times`, `grid_cell_by_height` | Radiation is the subject of C81. |
| C81 | Radiation options of the gridded conversion | proved | `radiation_uncorrected`, `radiation_wohlfahrt`, `radiation_refused` | The Moelg model gets the humidity before it is limited to 100 percent. |
| C82 | Coordinates for WRF | proved | `wrf_point_coordinates`, `wrf_point_static`, `grid_coordinates` | Finding: the point conversion exchanges latitude and longitude and then cannot use a static file. |
| C83 | Terrain of a point | proved | `point_terrain_default`, `point_terrain_static` | The latitude of the file is the one of the configuration, the longitude the one of the grid point. |
| C84 | Required columns and dates of the station conversion | proved | `point_required_columns`, `pressure_never_replaced`, `longwave_or_clouds`, `one_date_ignored` | Finding: the 660 hPa replacement is dead code. |
| C85 | The spatial window of the gridded conversion | proved | `window_selects`, `window_all`, `window_order` | With an empty window the file is written before the conversion fails. |
| C86 | Wind and snowfall from WRF | proved | `wrf_wind_speed`, `wrf_snow_mass`, `wrf_wind_height_unused`, `wrf_conversion_succeeds`, `wrf_conversion_fails` | Finding: the option hu has no effect. |
| C87 | Dates of the WRF conversion | proved | `wrf_dates_compact`, `wrf_dates_one_year`, `wrf_dates_hyphens`, `wrf_single_date` | Finding: with the date form of the usage text only whole years can be selected, because dates are compared as text. |
| C88 | Thermal properties of a layer | proved | `layer_mixture`, `layer_mixture_formula`, `overfull_layer`, `layer_diffusivity`, `cold_content`, `cold_content_profile` |  |
| C89 | Irreducible water content decreases with the ice fraction | proved | `irreducible_decreases`, `irreducible_without_ice`, `irreducible_formula` |  |
| C90 | Logarithmic remeshing yields the geometric profile | proved | `log_profile_layers`, `log_profile_mixes`, `first_layer_thickened` | Restricted to dry columns in which the ice is at least the first layer and at least stretching times the snow height. The remaining snow is only merged pairwise, so several layers may remain below the last complete one. Finding: first_layer_thickened, the top layer is not always of the configured height. |
| C91 | Layer thicknesses after adaptive remeshing | proved | `adaptive_snow_thickness`, `adaptive_top_layer` |  |
| C92 | The layers stay sound over a whole run | proved | `step_keeps_layers_sound`, `run_keeps_layers_sound`, `cell_keeps_layers_sound` | For densification methods other than 'constant' the theorem asks that heights and ice come out of the densification positive (C24/C25 say when that is so); temperatures are covered for all methods. Non-vacuous: calm_step is a concrete completed step. |
| C93 | Energy report of a step | proved | `step_energy_report`, `step_vapour_report`, `balanced_surface_no_melt` | Finding: melt energy is not tied to a melting surface, it is the positive residual of the fluxes at whatever temperature the solver returns. |
| C94 | Unknown method names | proved | `unknown_methods_raise`, `unknown_remesh_silent` | Finding: unknown_remesh_silent, an unknown remeshing name changes nothing and raises nothing. |
| C95 | Mass of the column over a step and a run | proved | `step_mass_budget`, `run_mass_budget`, `step_mass_no_gain` | Bintanja95, any remeshing, albedo, flux scheme and solver answer. For the densification methods 'Vionnet' and 'empirical' the compaction residual is not bounded (C24/C25 treat these methods on their own). The run theorem asks for positive layers after each densification if it is not 'constant'. |
| C96 | Static file | proved | `missing_conversion`, `mask_values`, `static_files_touched`, `static_written`, `static_pipeline`, `aspect_rows_aligned`, `static_read_back`, `stale_tile_refuted`, `dem_deleted_refuted`, `fill_value_passes_refuted` | GDAL and richdem are parameters of the model; the exit status of a command is ignored as in the code. Findings: stale_tile_refuted, dem_deleted_refuted, fill_value_passes_refuted, and glaciers at or below sea level are not glacier points. |
| C97 | Conversion of old configuration modules | proved | `prefix_before_underscore`, `prefix_before_point`, `constants_converted`, `constants_preserved`, `config_converted`, `config_conversion_fails`, `config_preserved`, `utility_section`, `aws_converted`, `other_utilities_converted`, `converted_tables`, `converted_output` | toml.dump followed by tomllib.load is taken to be the identity. Findings: aws_converted: the path of the look-up table is missing; a name like my_run.nc loses a part (prefix_examples). |
| C98 | Profiles shown by the plots | proved | `profile_cell_nearest`, `nearest_value_found`, `profile_printed`, `profile_layer_refuted`, `profile_needs_cell`, `image_pixel`, `image_pixel_refuted`, `image_never_drawn`, `image_axes`, `nearest_cell_found`, `nearest_cell_refuted`, `profile_names`, `profile_empty` | Findings: profile_layer_refuted and image_pixel_refuted (values of the wrong layer in the upper half of a layer), image_never_drawn (np.int with numpy 2), nearest_cell_refuted (a NaN coordinate wins). |
| C99 | Fields shown by the plots | proved | `two_dimensional`, `time_selected`, `time_found`, `day_mean_selected`, `afternoon_mean_refuted`, `surface_time`, `panel_shows`, `stamp_variables_written`, `image_names`, `period_outside`, `plot_kind_refused`, `image_letters` | Finding: afternoon_mean_refuted, with means a time from noon on shows the next day. The drawing itself is not modelled. |
| C100 | Surfaces of the three-dimensional plots | proved | `surface_points`, `surface_cells`, `surface_cells_refuted`, `surface_values` | The search for the closest point of VTK is a parameter. Finding: surface_cells_refuted. |
| C101 | A tile is a part of the data | proved | `tile_cells`, `tile_read`, `tile_names`, `tile_from_the_end` | Negative bounds count from the end; other names of the dimensions are refused. |
| C102 | The bound on the number of loop passes does not matter | proved | `step_bound_irrelevant`, `cell_bound_irrelevant`, `part_bound_irrelevant` | bound_case is a step that ends within a bound. |
| C103 | When a time step completes | proved | `step_completes_or_stuck`, `stuck_step_raises`, `step_completes_iff`, `only_short_columns_vanish` | For both remeshings, both albedo methods, the four densifications (Vionnet only where the cosine of the slope as the code takes it is not negative), the four surface temperature methods, Moelg12, Bintanja95 and Ri; not for the Monin-Obukhov correction. only_short_columns_vanish says which columns the remeshing can use up. The minimiser is a parameter that answers within its bounds. |
| C104 | When a run completes | proved | `run_completes_or_stuck`, `cell_completes_or_stuck` | Restart data as the start of a cell and the coupled mode are covered by run_completes_or_stuck, not by the theorem on whole cells. With constant densification the layers stay firm. |
| C105 | Each cell of the files is computed from its own data | proved | `cell_computed` | files_hold in SpecCell.v says what the files hold. The example is a whole run over two cells. |
| C106 | Cells do not influence each other; tiles agree with the whole area | proved | `cell_local`, `tile_same_results` | Finding: runs of different tiles overwrite each other's files. A restarted run never completes (C64), so the tile theorem is for runs without restart; C110 says what a restart would do. |
| C107 | A gridded run completes exactly if all its columns do | proved | `run_completes_iff`, `main_completes_iff`, `cell_refused` | Together with C103/C104, which say when a column completes. |
| C108 | The result file keeps the books | proved | `file_balance` | The names that must be listed are in the shipped configuration, which the example uses. The same relations per step are proved for the column model. |
| C109 | The configured names of the dimensions do not work | proved | `other_dimensions_fail`, `other_dimensions_tile` | xarray raises ValueError for isel along a dimension that the data do not have; the data have the dimensions that the configuration names. |
| C110 | A restarted tile starts from the snow of other cells | proved | `tile_restart_uncut` | At the level of the submitted jobs, since a restarted run never completes (C64). The example has a tile whose worker starts from the snow of the neighbour. |
| C111 | Stakes go to the closest cell | proved | `stake_closest`, `stakes_located`, `stake_in_own_cell`, `stake_longitude`, `worker_stakes`, `stake_off_glacier`, `coordinates_of_cells`, `stakes_unused`, `stake_without_place` | scipy's KD-tree is a parameter that finds a nearest point; the example is a linear search. Finding: with a tile or a mask the stakes outside are not dropped but given to the closest cell of the tile, however far away, or lost without a message. |
| C112 | Ranges in the result file | proved | `step_surface_range`, `run_surface_range`, `cell_ranges`, `file_ranges`, `main_ranges` | Builds on C92 (per column), C28 and C31 (per grid) and C105 (what the files hold). The albedo of Bougamont has no such range (C30). The hypothesis on the densification is needed: with the shipped method a height can become negative (C25). |
| C113 | What the conversions warn about and refuse | proved | `conversion_warnings`, `file_units`, `conversion_refusals`, `wrf_file_units`, `wrf_warnings`, `wrf_no_spacing` | The file is written whatever the warnings say. Ranges and units are tables of the specification, not of the model. Finding: the temperature converted from WRF output has the unit m. |
| C114 | Density of fresh snow | proved | `fresh_density_formula`, `fresh_density_constant`, `fresh_density_wind` | The same formula is used by the conversion of WRF output (C86). |
| C115 | Coupled runs lose nothing between the calls | proved | `coupled_calls_chain`, `coupled_one_step`, `coupled_places`, `layer_limit`, `coupled_schemes` | The calling program is not part of the repository; what it hands back is a definition of the specification (the returned layers and the snow clock under the names that load_snowpack reads). The stability scheme matters only for the fluxes; the albedo is what would be lost between the calls with another scheme (the surface temperature and the snow albedo restart from their initial values). |
| C116 | What the files of the stakes hold | proved | `stake_columns`, `stake_rows`, `stake_run_completes` | For runs of the driver with the worker of the column model; completion for runs without restart. Finding: the file of the simulations starts as a copy of the measurements, so stakes outside of the glacier keep them. |
| C117 | What the result file repeats of the input | proved | `inputs_repeated`, `shipped_repeats` | For runs without restart (a restarted run raises, C68). Finding: unit and long name of missing precipitation and cloud cover are exchanged. |
| C118 | Units and long names in the files | proved | `units_of_files`, `stored_water_unit_refuted` | For runs of the driver whose worker answers like the column model. Finding: the unit of the layer water content is not that of the number (stored_water_unit_refuted); the new snow height of the restart file has the unit 'm .w.e'. |
| C119 | Water and cold stay side by side after refreezing | proved | `refreezing_exact`, `refreezing_leaves_cold`, `second_pass_freezes` | Exact amount per layer. Finding: one of the four limits is dead and refreezing leaves cold content in wet layers. |
| C120 | Percolation in portions | proved | `percolation_in_portions`, `percolation_monotone` | For exact arithmetic; the second portion must not be negative. |
| C121 | Melt in portions | proved | `melt_in_portions`, `melt_portions_water_refuted` | Column, clock and fresh snow height proved equal; equality of the returned water refuted. |
| C122 | Heat conduction is linear | proved | `heat_superposition` | Superposition with a constant; includes scaling and shifting. |
| C123 | How many surface temperatures balance the energy | proved | `balance_falls`, `two_balances_refuted` | Strict monotonicity proved; uniqueness refuted by a night with two balances (intermediate value theorem). |
| C124 | The command line chooses the files | proved | `last_file_wins`, `after_two_hyphens`, `abbreviation_refused`, `option_refused`, `unknown_words_ignored`, `directory_needed`, `start_files`, `only_chosen_files`, `missing_file`, `worker_default_files`, `workers_agree_refuted`, `wrf2cosipy_start`, `installed_scripts` | argparse is modelled for options with one argument and -h; help texts and exit codes are not. The model of argparse agreed with Python's own (3.11.10) on 6,500 random command lines. How dask starts its workers is not modelled: the refutation is for any process whose own words hold none of the options. |
| C125 | What the conversion programs accept and which files they start with | proved | `utility_values`, `utility_refusals`, `wrf_default_files`, `start_date_clash`, `utilities_file` | What float accepts is a parameter. The parser of setup_cosipy with its switch is in C128. The model of argparse agreed with Python's own (3.11.10) on 3,000 random command lines of these programs. In aws2cosipy the configuration of COSIPY plays no role. |
| C126 | The sum of the fluxes jumps at the melting point | proved | `melting_jump`, `no_balance`, `frozen_and_melting`, `unbalanced_storm_refuted`, `frozen_or_melting_refuted` | Jump, missing balance and double balance proved for the Richardson correction without damping; the storm and the day with the shipped constants refute that a balance exists and that it is unique (intermediate value theorem). |
| C127 | What the plot programs draw and where they save it | proved | `fields_drawn`, `fields_refused`, `images_distinct`, `mean_overwrites_refuted`, `series_first_cell`, `series_columns`, `depths_refuse_series`, `series_position_refuted`, `single_profile` | The programs from the parsed arguments on; what is drawn and the name of the file. Findings: mean_overwrites_refuted, series_position_refuted, depths_refuse_series. With the required numpy the profiles over time are not drawn at all (C98). |
| C128 | What the setup and plot programs accept on their command lines | proved | `switch_settings`, `switch_refusals`, `setup_from_words`, `nothing_overwritten`, `fields_from_words`, `profiles_from_words`, `vtk_name_optional` | What int and float accept are parameters. The model of argparse agreed with Python's own (3.11.10) on 1,900 random command lines of these programs. The profile program is modelled without --stake-file and --pit; what it raises without a file is not modelled. |
| C129 | Merging in any order, and the cold content it loses | proved | `merged_heights_decide`, `merging_commutes`, `merging_cold_content`, `merging_loses_cold`, `merging_conserves_cold_refuted` | Merging through the list of nodes with positions from the top (the position -1 is C02). Finding: merging_conserves_cold_refuted with the delivered constants. |
| C130 | Heat conduction comes to rest at constant flux | proved | `one_rest`, `rest_stays`, `conduction_relaxes`, `unchanged_is_rest`, `conduction_continues` | The state of rest is that of the scheme: mean diffusivities and distances between the midpoints of the layers. The relaxation time is not optimal. |
| C131 | Penetrating radiation in portions | proved | `radiation_amount`, `radiation_in_portions` | Portions only for radiation without melt; with melt the layers get thinner in between and nothing is claimed. |
| C132 | What logarithmic remeshing leaves alone | proved | `log_profile_leaves_settled`, `log_profile_unchanged_iff_settled`, `log_profile_idempotent_refuted`, `update_grid_leaves_settled` | Full for dry columns of snow over ice: log_profile_leaves_settled and log_profile_unchanged_iff_settled. That remeshing twice differs from once is shown by an example (log_profile_idempotent_refuted). Columns with liquid water are not covered. |
| C133 | Which layers adaptive remeshing changes | proved | `adaptive_snow_walk`, `adaptive_snow_unchanged`, `adaptive_profile_steps`, `adaptive_bare_ice`, `adaptive_profile_leaves` | Full: adaptive_snow_walk and adaptive_profile_steps describe the result by relations on lists of layers (walk, thickened, resized); adaptive_snow_unchanged and adaptive_bare_ice are consequences. |
| C134 | Modelled radiation stays between zero and the top of the atmosphere | proved | `clear_sky_within_top_of_atmosphere`, `beam_exceeds_top_of_atmosphere_refuted`, `day_radiation_bounded` | Full within the stated limits of the pressure, which are sufficient conditions; beam_exceeds_top_of_atmosphere_refuted shows that the unconditional claim fails. metpy's vapour pressure is an arbitrary function whose value is assumed not negative. |
| C135 | What the Monin-Obukhov correction does | proved | `stability_functions`, `obukhov_pass_exact`, `stable_air_damps` | Closed forms of the stability functions and of one pass; damping proved for the result of the iteration in stable or neutral air. In unstable air nothing is claimed beyond the pass itself. |
| C136 | The Monin-Obukhov iteration breaks down in very unstable air | proved | `friction_velocity_unstable`, `integrated_profile_positive`, `obukhov_pass_unstable` | Existence and uniqueness of the critical length by the intermediate value theorem and monotonicity; the integrated profile is proved positive for momentum and heat, so that the cause is the missing term. No statement on whether given weather leads to such a length. |
| C137 | Rules of lists, loops and dictionaries in the model | proved | `python_index`, `python_change_delete`, `python_insert`, `running_sums`, `python_range`, `python_dict` | About the representation of Python in the model; that Python itself behaves like this is its documentation, not a theorem. |

## 9 Assumptions of each theorem

What `Print Assumptions` lists for each of the 510 theorems in `Prop*.v`, grouped by the answer.

### Closed under the global context (52 theorems)

* `PropArgs`: last_file_wins, after_two_hyphens, abbreviation_refused, option_refused, unknown_words_ignored, installed_scripts
* `PropConfig`: last_setting_wins
* `PropConvert`: prefix_before_underscore, prefix_before_point, config_conversion_fails, utility_section
* `PropCopy`: shipped_repeats
* `PropDriver`: output_name, output_name_refused, output_name_collision
* `PropExact`: minute_of_time
* `PropGrid`: remove_node_exactly, remove_node_default
* `PropIO`: stakes_of_cell
* `PropIO2`: output_names, tile_cells, tile_from_the_end
* `PropPlotArgs`: switch_settings, switch_refusals, setup_from_words, nothing_overwritten, vtk_name_optional
* `PropPost`: image_never_drawn
* `PropPost2`: two_dimensional, image_names
* `PropPost3`: surface_cells
* `PropPost4`: image_letters
* `PropPrim`: python_index, python_change_delete, python_insert, python_range, python_dict
* `PropRead`: answers_read, converted_output
* `PropSetup`: confirmation_answers, existing_file_needs_yes, setup_consent, setup_declined, setup_complete, setup_succeeds, setup_same_directory
* `PropStake`: coordinates_of_cells
* `PropUtilArgs`: utility_values, utility_refusals, utilities_file
* `PropWrf`: wrf_dates_compact, wrf_dates_hyphens

### `ClassicalDedekindReals.sig_forall_dec` (3 theorems)

* `PropConvert`: aws_converted, other_utilities_converted
* `PropCore`: inputs_selected

### `ClassicalDedekindReals.sig_forall_dec`, `FunctionalExtensionality.functional_extensionality_dep` (234 theorems)

* `PropAdaptive`: adaptive_snow_walk, adaptive_snow_unchanged, adaptive_profile_steps, adaptive_bare_ice, adaptive_profile_leaves
* `PropAlbedo`: bougamont_timescale, roughness_range, roughness_monotone
* `PropArgs`: directory_needed, start_files, only_chosen_files, missing_file, worker_default_files, workers_agree_refuted, wrf2cosipy_start
* `PropAws`: humidity_bounds, humidity_order_refuted, lapse_correction, resampling_conserves_sum, hourly_mean_between, pressure_never_replaced
* `PropAws3`: window_selects, window_all
* `PropCell2`: other_dimensions_fail, other_dimensions_tile, tile_restart_uncut
* `PropConfig`: config_normalised, values_that_count, config_normalised_twice, config_loads_iff, attributes_are_entries, later_table_overrides_refuted, load_twice, constants_normalised, slurm_normalised, shipped_config_loads, shipped_constants_loaded, shipped_names, unknown_name_loses_run, shipped_full_field_fails
* `PropConvert`: constants_converted, constants_preserved, config_converted, config_preserved
* `PropCopy`: inputs_repeated, units_of_files, stored_water_unit_refuted
* `PropCore`: precipitation_threshold, mass_fluxes_exclusive, water_step_budget, deposition_never_stored
* `PropCoupled`: coupled_schemes
* `PropDensification`: densification_warning_never
* `PropDriver`: stake_simulated, packing
* `PropEnergy`: unknown_remesh_silent
* `PropExact`: secant_refuses
* `PropFuel`: part_bound_irrelevant
* `PropGrid`: merge_nodes_conserves_column, merge_nodes_index_error, merge_nodes_minus_one_wraps, merge_nodes_minus_one_single, layer_counter_invariant, layer_counter_preserved, layer_counter_init_twice_refuted, correct_layer_resizes, correct_layer_index_error, correct_layer_overfills_refuted, log_profile_conserves_column, log_profile_deletes_thin_ice_refuted, update_grid_log_conserves, update_grid_log_every_column, update_grid_other, adaptive_merges_bounded, adaptive_merge_limit_refuted, split_node_effect, split_node_conserves_refuted, merge_snow_with_glacier_effect, merge_snow_with_glacier_refuted, remove_melt_exact, fresh_snow_height_ignores_melt, melt_reduces_fresh_snow_refuted, negative_melt_only_raises_fresh_snow, depths_are_midpoints, depths_increase, snow_getters_report_snow, buried_snow_misreported_refuted, density_round_trip, add_fresh_snow_effect, adaptive_profile_loses_only_thin_layers, adaptive_profile_conserves_refuted
* `PropHeat`: heat_maximum_principle, heat_isothermal_unchanged, heat_comparison, heat_substeps_cover_time_step, heat_needs_three_layers, heat_flux_balance, heat_content_conserved_refuted
* `PropIO`: schedule_independent, files_schedule_independent, result_atm, result_internal, result_layers, result_misplaced, result_no_glacier, restart_written, submitted_cells, submission_stops_on_nan, run_succeeds
* `PropIO2`: period_refused, restart_data, restart_file_named, tile_read, unreadable_period, start_refused, tile_names
* `PropInit`: initial_column, restart_round_trip, restart_too_many_layers
* `PropInput`: input_check, time_labels_kept, unsorted_time_mislabels_refuted, time_labels_complete, restart_continues, restart_skips_steps_refuted, restart_never_completes, restart_text_fails_early
* `PropMerging`: merged_heights_decide, merging_commutes, merging_cold_content, merging_loses_cold, merging_conserves_cold_refuted
* `PropNearest`: profile_cell_nearest
* `PropNode`: layer_mixture, layer_mixture_formula, overfull_layer, layer_diffusivity, cold_content, cold_content_profile, irreducible_decreases, irreducible_without_ice
* `PropObukhov`: irreducible_formula, roughness_exact
* `PropPlotArgs`: fields_from_words, profiles_from_words
* `PropPlots`: fields_drawn, fields_refused, images_distinct, mean_overwrites_refuted, series_first_cell, series_columns, depths_refuse_series, series_position_refuted, single_profile
* `PropPortion`: refreezing_exact, refreezing_leaves_cold, second_pass_freezes, percolation_in_portions, percolation_monotone, melt_in_portions, melt_portions_water_refuted, heat_superposition
* `PropPost`: nearest_value_found, profile_printed, profile_layer_refuted, profile_needs_cell, image_pixel, image_pixel_refuted, image_axes, nearest_cell_found, nearest_cell_refuted
* `PropPost2`: time_selected, time_found, day_mean_selected, afternoon_mean_refuted, surface_time, panel_shows, stamp_variables_written
* `PropPost3`: surface_points, surface_cells_refuted, surface_values
* `PropPost4`: profile_names, profile_empty, period_outside, plot_kind_refused
* `PropPrim`: running_sums
* `PropProgress`: only_short_columns_vanish
* `PropRadiation`: bintanja_energy, bintanja_conserves_mass, bintanja_underreports
* `PropRead`: missing_conversion, converted_tables, switched_off, slurm_file
* `PropRemesh`: log_profile_layers, log_profile_mixes, first_layer_thickened, adaptive_snow_thickness, adaptive_top_layer
* `PropRest`: one_rest, rest_stays, conduction_continues
* `PropSecant`: secant_terminates, secant_affine_exact, secant_silent_refuted, secant_outcome
* `PropSettled`: log_profile_leaves_settled, log_profile_unchanged_iff_settled, log_profile_idempotent_refuted, update_grid_leaves_settled
* `PropStake`: stake_off_glacier
* `PropStatic`: mask_values, static_files_touched, static_written, static_pipeline, static_read_back, stale_tile_refuted, dem_deleted_refuted, fill_value_passes_refuted
* `PropSurface`: stability_jump, subsurface_interpolation, subsurface_thin_column, subsurface_wraps, subsurface_bounded_refuted
* `PropUtilArgs`: wrf_default_files, start_date_clash
* `PropWater`: percolation_conserves_water, percolation_is_bucket_scheme, percolation_leaves_irreducible_water, percolation_at_rest, refreezing_conserves_mass, refreezing_stays_frozen, refreezing_fits_refuted, percolation_then_refreezing_fits

### `ClassicalDedekindReals.sig_forall_dec`, `ClassicalDedekindReals.sig_not_dec`, `FunctionalExtensionality.functional_extensionality_dep` (37 theorems)

* `PropAlbedo`: oerlemans_exact, bougamont_exact, bougamont_stable, bougamont_melting_history, bougamont_diverges_refuted, surface_dispatch
* `PropCore`: precipitation_partition_exact, snow_exceeding_total
* `PropDensification`: boone_exact, boone_layer_mass, boone_loses_mass, boone_only_thins, boone_overburden, boone_thin_layer_hides_load, vionnet_exact, vionnet_sign, densification_dispatch
* `PropDriver`: rmse_root_mean_square, on_ellipsoid, coordinates_injective
* `PropExact`: diffuse_fraction_formula
* `PropFresh`: fresh_density_formula, fresh_density_constant, fresh_density_wind, precipitation_both_exact
* `PropInit`: bougamont_restart
* `PropRadCor`: flat_uncorrected, low_sun_uncorrected, beam_correction
* `PropRadiation`: penetrating_dispatch
* `PropStake`: stake_closest, stakes_located, stake_in_own_cell, stake_longitude, worker_stakes, stakes_unused, stake_without_place

### `ClassicalDedekindReals.sig_forall_dec`, `Classical_Prop.classic`, `FunctionalExtensionality.functional_extensionality_dep` (1 theorems)

* `PropStatic`: aspect_rows_aligned

### `ClassicalDedekindReals.sig_forall_dec`, `ClassicalDedekindReals.sig_not_dec`, `Classical_Prop.classic`, `FunctionalExtensionality.functional_extensionality_dep` (183 theorems)

* `PropAlbedo`: oerlemans_range, oerlemans_monotone
* `PropAws`: grid_pressure_at_station, point_pressure_at_station, point_pressure_identity_refuted, pressure_falls_with_height, point_file_times, point_file_content, point_file_complete, point_hours_have_rows, point_temperature_range, temperature_unit_detected, point_required_columns, longwave_or_clouds, one_date_ignored, wrf_point_coordinates, wrf_point_static, point_terrain_default, point_terrain_static
* `PropAws2`: point_conversion_succeeds, point_precipitation_total, precipitation_repeated_refuted
* `PropAws3`: window_order, grid_file_content, grid_static_fields, grid_cell_at_station, file_ranges
* `PropAws4`: grid_file_complete, grid_temperature_range, grid_coordinates, radiation_uncorrected, radiation_wohlfahrt, radiation_refused
* `PropAws5`: grid_file_times, grid_cell_by_height, grid_conversion_succeeds
* `PropBalance`: balance_falls, two_balances_refuted
* `PropCell`: cell_computed, cell_local, tile_same_results
* `PropCell2`: run_completes_iff, main_completes_iff, file_balance
* `PropCore`: snow_share_decreases, step_balance, run_balance, cell_run_balance, snow_clock_step, snow_clock_history, old_snow_lags, missing_rain_raises, no_run_without_RRR, no_step_without_longwave
* `PropCoupled`: coupled_calls_chain, coupled_one_step, coupled_places, layer_limit
* `PropDensification`: boone_heights_positive, boone_negative_height_refuted, vionnet_thickens_gentle_slopes, empirical_exact, empirical_density_jump, empirical_creates_mass_refuted
* `PropDriver`: other_evaluation_fails
* `PropEnergy`: step_energy_report, step_vapour_report, balanced_surface_no_melt, unknown_methods_raise
* `PropExact`: sun_azimuth_formula, azimuth_beyond_full_turn, pressure_formula
* `PropFuel`: step_bound_irrelevant, cell_bound_irrelevant
* `PropIO`: worker_answers
* `PropInit`: resumed_step, resumed_run, interrupted_run, restart_never_resumes
* `PropJump`: melting_jump, no_balance, frozen_and_melting, unbalanced_storm_refuted, frozen_or_melting_refuted
* `PropMass`: step_mass_budget, run_mass_budget, step_mass_no_gain
* `PropObukhov`: stability_functions, obukhov_pass_exact, stable_air_damps
* `PropPenetrate`: radiation_amount, radiation_in_portions
* `PropProgress`: step_completes_or_stuck, stuck_step_raises, step_completes_iff, run_completes_or_stuck, cell_completes_or_stuck
* `PropRad`: shading_table, subhourly_table, table_time, table_time_refuted, polar_solar_parameters, solar_parameters, table_sun, night_radiation, day_radiation, clear_sky_transmissivity, shade_darkens
* `PropRadCor`: great_circle, haversine_sym, haversine_zero, diffuse_fraction, correction_bounded, correction_negative_refuted, sun_elevation, sun_ignores_longitude, correction_ignores_longitude, sun_symmetric, noon_azimuth_wrong
* `PropRadiation`: bintanja_exact, bintanja_shares, bintanja_cold, bintanja_loses_layer_refuted
* `PropRange`: step_surface_range, run_surface_range, cell_ranges, file_ranges, main_ranges
* `PropRest`: conduction_relaxes, unchanged_is_rest
* `PropRun`: step_keeps_layers_sound, run_keeps_layers_sound, cell_keeps_layers_sound
* `PropSecant`: surface_by_secant
* `PropShade`: shading_values, shading_monotone, shading_shift, shading_level, shading_meaning, shading_progress, shading_border_refuted
* `PropSky`: sky_view_counts, sky_view_range, sky_view_level, sky_view_progress
* `PropSolar`: clear_sky_within_top_of_atmosphere, beam_exceeds_top_of_atmosphere_refuted, day_radiation_bounded, solar_parameters_of_day, solar_parameters_exist_iff
* `PropStake2`: stake_columns, stake_rows, stake_run_completes, cell_refused
* `PropSurface`: saturation_pressure, fluxes_down_gradient, richardson_fluxes_exact, mo_terminates, surface_never_above_melting, nan_becomes_melting, surface_lower_bound, fallback_reports_melting, longwave_emissivity
* `PropUnstable`: friction_velocity_unstable, integrated_profile_positive, obukhov_pass_unstable
* `PropWarn`: conversion_warnings, file_units, conversion_refusals
* `PropWarn2`: wrf_file_units, wrf_warnings, wrf_no_spacing
* `PropWrf`: wrf_precipitation_telescopes, wrf_atmosphere, wrf_mask_zero_one, wrf_wind_speed, wrf_snow_mass, wrf_wind_height_unused, wrf_conversion_succeeds, wrf_conversion_fails, wrf_dates_one_year, wrf_single_date, wrf_reset_refuted
