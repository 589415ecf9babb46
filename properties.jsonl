{"id": "C01", "title": "Merging two layers conserves the column", "statement": "Grid.merge_nodes(i) on a column with positive layer heights succeeds for every 0<=i<n-1; afterwards there is exactly one layer fewer, the total height, total ice, total liquid water and height-weighted temperature are exactly unchanged, the merged fractions and temperature lie between those of the two layers, and every other layer is untouched.", "quantifier": "every grid with positive layer heights, every valid index", "why_tests_cant": "conservation must hold for every combination of heights, fractions and temperatures and every position, a test samples one grid", "anchors": ["cosipy/cpkernel/grid.py:merge_nodes", "cosipy/cpkernel/grid.py:update_node", "cosipy/cpkernel/grid.py:remove_node"]}
{"id": "C02", "title": "Index errors of merge_nodes", "statement": "merge_nodes(i) raises IndexError for i>=n-1 and for i<-n; but i=-1 silently merges the bottom layer with the surface layer, and on a single-layer grid deletes the layer.", "quantifier": "every grid, every integer index", "why_tests_cant": "needs all out-of-range indices on all grid sizes", "anchors": ["cosipy/cpkernel/grid.py:merge_nodes"]}
{"id": "C03", "title": "Layer counter always equals the number of stored layers", "statement": "After any finite sequence of public Grid operations (adding snow, removing, merging, splitting, correcting, remeshing, removing melt, updating) that does not raise, the reported number of layers equals the number of layers actually stored; calling init_grid a second time breaks it.", "quantifier": "all grids and all finite sequences of grid operations", "why_tests_cant": "needs every operation history", "anchors": ["cosipy/cpkernel/grid.py:Grid", "cosipy/cpkernel/grid.py:number_nodes", "cosipy/cpkernel/grid.py:init_grid"]}
{"id": "C04", "title": "correct_layer resizes a layer without changing the column", "statement": "Grid.correct_layer(i,h) terminates; total height, ice, liquid water and height-weighted temperature are unchanged; layers above i are untouched; if the layer is at least h thick after absorbing same-class layers below it, it ends exactly h thick, and layers are only merged when both are snow or both are ice.", "quantifier": "every grid whose layers have positive height and ice content, every target height > 0, every index from 0 to n-1; indices from n on and below -n raise IndexError. Negative indices from -n to -1, which Python counts from the end, are not covered.", "why_tests_cant": "loop over data-dependent number of layers", "anchors": ["cosipy/cpkernel/grid.py:correct_layer"]}
{"id": "C05", "title": "Logarithmic remeshing conserves the column and terminates", "statement": "Grid.log_profile terminates for every column and, as long as a layer is left, conserves total height, ice, liquid water and height-weighted temperature; a layer is left whenever the column is at least as high as the first layer and as the stretched snow height. (A single ice layer thinner than the first layer height is deleted.)", "quantifier": "every column of layers with positive height and ice content; every first layer height > 0 and every stretching factor >= 1", "why_tests_cant": "unbounded loops; nested data dependent merging and splitting", "anchors": ["cosipy/cpkernel/grid.py:log_profile"]}
{"id": "C06", "title": "update_grid only ever drops a too-thin surface layer", "statement": "With the log profile, update_grid conserves height, ice, water and heat, except that exactly if the resulting top layer is thinner than the minimum layer height this one layer is removed. It raises IndexError if the profile is left without a layer, which happens only to a column that is empty, lower than the first layer height or lower than the stretched snow height. With an unknown remeshing name only the check of the top layer is made.", "quantifier": "every column of layers with positive height and ice content; every first layer height > 0 and every stretching factor >= 1", "why_tests_cant": "the drop is data dependent and hidden after remeshing", "anchors": ["cosipy/cpkernel/grid.py:update_grid"]}
{"id": "C07", "title": "Adaptive remeshing exceeds the documented merge limit by one", "statement": "The documentation limits adaptive_profile to merge_max similarity merges per time step. This limit is refuted: the code compares with <=, so that merge_max + 1 merges happen for some columns. At most merge_max + 1 merges happen for every column.", "quantifier": "the bound: every column and every merge_max >= 0; the refutation: a concrete column with the shipped constants", "why_tests_cant": "needs a column with more mergeable layers than merge_max, and a bound for all columns", "anchors": ["cosipy/cpkernel/grid.py:adaptive_profile"]}
{"id": "C08", "title": "Splitting a layer loses half of its water", "statement": "split_node(i) replaces the layer by two layers of half its height with its temperature and ice fraction, so that total height, ice and heat are unchanged. That it conserves water is refuted: the code halves the volumetric fraction of water as well as the height, so that exactly half of the water of the layer is lost. Other layers are untouched.", "quantifier": "every grid, every index from 0 to n-1", "why_tests_cant": "dry test layers hide it", "anchors": ["cosipy/cpkernel/grid.py:split_node"]}
{"id": "C09", "title": "Merging snow into glacier ice loses the water of the ice", "statement": "merge_snow_with_glacier(i) removes the snow layer and thickens the ice layer by the height of the snow times its density over the density of ice; temperature and ice fraction are those of the ice, the water of the ice layer is set to zero. For dry pure ice this keeps the weight of the column; that it keeps the mass in general is refuted.", "quantifier": "every grid with a snow layer above an ice layer, every position", "why_tests_cant": "dry test layers hide it", "anchors": ["cosipy/cpkernel/grid.py:merge_snow_with_glacier"]}
{"id": "C10", "title": "remove_node deletes exactly the requested layers", "statement": "remove_node(indices) with distinct valid indices removes exactly these layers, keeping the others in order; with no indices it removes the surface layer; on an empty grid it does nothing.", "quantifier": "every grid, every duplicate-free list of valid indices", "why_tests_cant": "all index subsets and orders", "anchors": ["cosipy/cpkernel/grid.py:remove_node"]}
{"id": "C11", "title": "Melting removes exactly the requested mass from the top", "statement": "remove_melt_weq(m) terminates and removes exactly min(m, total water equivalent) from the column, top-down; all layers below the first partially melted one are untouched and the surviving layers keep temperature, ice fraction and liquid water fraction.", "quantifier": "every column of layers with positive height and density, every melt amount >= 0 (negative amounts: C12)", "why_tests_cant": "loop over data dependent number of layers", "anchors": ["cosipy/cpkernel/grid.py:remove_melt_weq"]}
{"id": "C12", "title": "Melt does not reduce the tracked fresh snow height", "statement": "That removing melt from the surface reduces the tracked fresh snow height is refuted: the code subtracts what is left of the melt after the loop. The tracked height is unchanged by every melt that the column can supply; if the whole column melts, it is reduced by the melt that found nothing to melt; for a negative amount no layer changes and the tracked height grows.", "quantifier": "every column of layers with positive height and density, every melt amount; negative amounts for every grid", "why_tests_cant": "observable only over histories via albedo", "anchors": ["cosipy/cpkernel/grid.py:remove_melt_weq", "cosipy/cpkernel/grid.py:set_fresh_snow_props_height"]}
{"id": "C13", "title": "Layer depths are consistent", "statement": "get_depth and get_node_depth agree for every layer; depths are strictly increasing mid-points, each inside its layer, the last below the total height.", "quantifier": "every grid with positive heights", "why_tests_cant": "every number of layers", "anchors": ["cosipy/cpkernel/grid.py:get_depth", "cosipy/cpkernel/grid.py:get_node_depth"]}
{"id": "C14", "title": "Snow height getters report the snow", "statement": "get_total_snowheight is the summed height of the layers lighter than the snow/ice threshold whenever no such layer lies below an ice layer; with snow buried below an ice layer it reports wrong heights.", "quantifier": "every grid", "why_tests_cant": "stratigraphy dependent", "anchors": ["cosipy/cpkernel/grid.py:get_total_snowheight", "cosipy/cpkernel/grid.py:get_snow_heights", "cosipy/cpkernel/grid.py:get_number_snow_layers"]}
{"id": "C15", "title": "Constructor density is what the layer reports", "statement": "A dry layer created with density rho (0..ice density) reports a density within air_density^2/ice_density of rho, always at least rho; exact equality fails except for pure ice.", "quantifier": "every density", "why_tests_cant": "tests use a tolerance", "anchors": ["cosipy/cpkernel/node.py:Node.__init__", "cosipy/cpkernel/node.py:get_layer_density"]}
{"id": "C16", "title": "Adding fresh snow only adds a surface layer", "statement": "add_fresh_snow puts exactly one dry layer of the given height and temperature on top, leaves all other layers untouched and adds the given mass up to the density round-trip error.", "quantifier": "every grid, every snowfall height >= 0 and every density between 0 and that of ice", "why_tests_cant": "every grid size and snowfall", "anchors": ["cosipy/cpkernel/grid.py:add_fresh_snow"]}
{"id": "C17", "title": "Snow age clock", "statement": "Over every history of time steps, 0 <= age of the fresh snow; the age equals dt times the number of steps since the last effective snowfall; the age of the old snow is never less than the age of the fresh snow whenever the fresh snow has not disappeared.", "quantifier": "every sequence of snowfall amounts (including below-threshold ones)", "why_tests_cant": "all histories", "anchors": ["cosipy/cpkernel/grid.py:add_fresh_snow", "cosipy/cpkernel/grid.py:set_fresh_snow_props", "cosipy/cpkernel/grid.py:set_fresh_snow_props_update_time", "cosipy/cpkernel/cosipy_core.py:cosipy_core"]}
{"id": "C18", "title": "Percolation conserves water", "statement": "Liquid water in the column before plus added surface water equals liquid water after plus the returned runoff; heights, ice and temperatures are unchanged.", "quantifier": "every column of at least one layer with positive heights and ice contents, every amount of water added at the surface", "why_tests_cant": "all column sizes", "anchors": ["cosipy/modules/percolation.py:percolation", "cosipy/modules/percolation.py:get_runoff"]}
{"id": "C19", "title": "Percolation leaves at most the irreducible water", "statement": "After percolation every layer except the last holds at most its irreducible water content, the last layer holds none, and no layer holds negative water if none did before; runoff is non-negative.", "quantifier": "every column of at least one layer with positive heights and ice contents, every amount of water added; the signs for columns without negative water and non-negative amounts", "why_tests_cant": "all column sizes", "anchors": ["cosipy/modules/percolation.py:percolation"]}
{"id": "C20", "title": "Refreezing conserves mass", "statement": "In every layer ice mass plus water mass is unchanged by refreezing; heights are unchanged; the returned amount is the column sum of the refrozen water and equals the loss of liquid water.", "quantifier": "every column whose layers have positive height, fractions in range and temperatures so close to melting that the heat capacity is positive (less than 154 K below it for the shipped constants)", "why_tests_cant": "all column states", "anchors": ["cosipy/modules/refreezing.py:refreezing"]}
{"id": "C21", "title": "Refreezing never melts or overfills a layer", "statement": "Refreezing never raises, no layer cools, no layer at or below the melting temperature gets warmer than it, layers above it are untouched, liquid water stays non-negative and the ice fraction never exceeds the larger of its previous value and the pore close-off fraction. That ice and water together stay below the volume of the layer is refuted for refreezing alone and proved for percolation followed by refreezing.", "quantifier": "every column whose layers have positive height, fractions in range and temperatures less than 154 K below melting (shipped constants); for percolation followed by refreezing every column with at least 5 per cent of ice in each layer and every amount of water >= 0", "why_tests_cant": "boundary cases of four competing limits", "anchors": ["cosipy/modules/refreezing.py:refreezing", "cosipy/modules/refreezing.py:check_oob"]}
{"id": "C22", "title": "Heat conduction obeys the maximum principle", "statement": "After solveHeatEquation every layer temperature lies between the previous minimum and maximum; surface and bottom temperatures are unchanged; heights and water are unchanged; an isothermal column stays isothermal.", "quantifier": "every column with at least 3 layers of positive height and positive diffusivity, every time step", "why_tests_cant": "stability for all grids", "anchors": ["cosipy/modules/heatEquation.py:solveHeatEquation"]}
{"id": "C23", "title": "The heat solver's sub-steps cover exactly the time step", "statement": "The sub-stepping loop terminates and its sub-steps are positive, bounded by the stability limit and sum exactly to dt; fewer than three layers raise an error.", "quantifier": "every column of layers with positive heights and diffusivities, every dt (for dt <= 0 there are no sub-steps)", "why_tests_cant": "unbounded number of substeps", "anchors": ["cosipy/modules/heatEquation.py:solveHeatEquation"]}
{"id": "C24", "title": "Compaction after Boone loses mass", "statement": "That Boone densification leaves the ice and water mass of each layer unchanged is refuted. A compacted layer gets the height (1-d) h; its mass is multiplied by (1-d)(1+d) if it is dry and by (1-d)(1+d/2) if it holds water, with d > 0. The mass of the column never grows and strictly shrinks if there is a layer to compact.", "quantifier": "every column of layers with positive height and ice content, every time step > 0", "why_tests_cant": "small per-step loss hidden by tolerance, accumulates over histories", "anchors": ["cosipy/modules/densification.py:method_Boone"]}
{"id": "C25", "title": "Compaction only thins snow layers", "statement": "Boone compaction never thickens a layer and strictly thins every snow layer thicker than the minimum; it never touches other layers, temperatures or the number of layers, and ice and water fractions never shrink. Heights stay positive if the load and the time step are small enough; without this bound a height can become negative.", "quantifier": "every column of layers with positive height and ice content, every time step > 0", "why_tests_cant": "all stratigraphies", "anchors": ["cosipy/modules/densification.py:method_Boone"]}
{"id": "C26", "title": "Penetrating radiation absorbs no more than it is given", "statement": "The energy absorbed by all layers is at most the penetrating fraction of net shortwave radiation and each layer's share is non-negative.", "quantifier": "every column of layers with positive height and ice content, every radiation; the energy bound for layers at or below melting and a non-negative share", "why_tests_cant": "all grids", "anchors": ["cosipy/modules/penetratingRadiation.py:method_Bintanja"]}
{"id": "C27", "title": "Penetrating radiation: temperatures, mass and reported melt", "statement": "After the call every layer but the lowest, which is not processed, is at or below the melting temperature and has positive height and ice content. The mass of ice and water is unchanged unless a layer melts completely; a completely melted layer is dropped with its mass (so conservation in general is refuted). The reported subsurface melt is never more than the ice that melted, and strictly less if anything melted, because the code multiplies with the already reduced height.", "quantifier": "every column of layers with positive height and ice content, every radiation and time step", "why_tests_cant": "data dependent", "anchors": ["cosipy/modules/penetratingRadiation.py:method_Bintanja"]}
{"id": "C28", "title": "Oerlemans albedo stays in range", "statement": "The surface albedo lies between ice and fresh snow albedo.", "quantifier": "every grid state and snow age >= 0", "why_tests_cant": "all states", "anchors": ["cosipy/modules/albedo.py:method_Oerlemans"]}
{"id": "C29", "title": "Oerlemans albedo is monotone", "statement": "Older snow never has higher albedo and deeper snow never has lower albedo, all else equal.", "quantifier": "all ages and depths", "why_tests_cant": "relation between two runs", "anchors": ["cosipy/modules/albedo.py:get_simple_albedo", "cosipy/modules/albedo.py:get_albedo_with_decay"]}
{"id": "C30", "title": "Bougamont snow albedo leaves its range for short time steps", "statement": "The distance of the prognostic snow albedo from the firn albedo is multiplied by 1 - 1 / (t* dt) per step without snowfall, with the time scale t* and the step dt in days; the code divides by t* dt where the scheme divides t* by dt. The albedo stays between firn and fresh snow if t* dt is at least one. For hourly steps on a melting surface the factor is -1.4, so that the range is refuted: after three sufficiently long parts of a melting history the albedo was below firn, above 1 and below 0. The time scale is the constant for wet snow on a melting surface, and on a colder one it grows linearly as the surface gets colder, down to a bound.", "quantifier": "every column with a snow surface, every surface temperature with a positive time scale; every history of melting steps with the shipped constants", "why_tests_cant": "multi-step divergence", "anchors": ["cosipy/modules/albedo.py:method_Bougamont"]}
{"id": "C31", "title": "Roughness length stays in range and grows with snow age", "statement": "On snow the roughness length in metres grows linearly with the age of the snow in hours from the value of fresh snow and is cut at the value of firn; on ice it is that of ice. It lies between these values and is monotone in the age of the snow.", "quantifier": "every grid state", "why_tests_cant": "all ages", "anchors": ["cosipy/modules/roughness.py:method_Moelg"]}
{"id": "C32", "title": "Surface never warmer than melting", "statement": "update_surface_temperature never reports nor stores a surface temperature above the melting temperature, whatever the solver returns.", "quantifier": "every forcing, every solver outcome", "why_tests_cant": "solver outcome is arbitrary", "anchors": ["cosipy/modules/surfaceTemperature.py:update_surface_temperature"]}
{"id": "C33", "title": "Secant solver terminates and exact roots are returned", "statement": "The secant solver evaluates the function at most maxiter+2 times, never divides by zero, and for any affine function with non-zero slope returns the exact root; its only errors are a horizontal chord and the exceptions of the function. Not converging is not reported. With the method Secant the surface temperature is the zero of a chord of the sum of the fluxes, within 0.01 K of the last point unless all 52 evaluations are used, cut at melting, or else the result of the bounded search between 220 K and melting.", "quantifier": "every function, every start", "why_tests_cant": "all functions", "anchors": ["cosipy/modules/secant.py:secant"]}
{"id": "C34", "title": "Sub-surface temperature interpolation is bounded", "statement": "At a depth below the first layer boundary and inside of the column, the interpolated temperature is the linear interpolation between the temperatures of the two layers around it and lies between them. If the first layer is thicker than the depth, the code wraps around and extrapolates with the lowest layer, so that boundedness is refuted; if the column is thinner than the depth, it raises IndexError.", "quantifier": "every column of at least two layers with positive heights, every depth > 0", "why_tests_cant": "all layerings", "anchors": ["cosipy/modules/surfaceTemperature.py:get_subsurface_temperature", "cosipy/modules/surfaceTemperature.py:interp_subT"]}
{"id": "C35", "title": "Turbulent fluxes are down-gradient", "statement": "The sensible heat flux and the heat of rain have the sign of the difference of air and surface temperature and the latent heat flux that of the difference of the mixing ratios, with both stability corrections. With the Richardson correction the stability factor lies in [0,1], the fluxes are given in closed form, and both vanish for Ri > 0.2. The factor jumps down from 1 at Ri = 0.01.", "quantifier": "every admissible forcing", "why_tests_cant": "all forcings", "anchors": ["cosipy/modules/surfaceTemperature.py:eb_fluxes"]}
{"id": "C36", "title": "Saturation vapour pressure", "statement": "Saturation vapour pressure is positive and strictly increasing over the physical temperature range, and equals 6.112 hPa at the melting temperature from both branches.", "quantifier": "every temperature > 0.55 K", "why_tests_cant": "all temperatures", "anchors": ["cosipy/modules/surfaceTemperature.py:method_EW_Sonntag"]}
{"id": "C37", "title": "Monin-Obukhov iteration terminates", "statement": "The Obukhov length iteration stops after at most seven passes for any flux behaviour.", "quantifier": "every forcing", "why_tests_cant": "all forcings", "anchors": ["cosipy/modules/surfaceTemperature.py:eb_fluxes"]}
{"id": "C38", "title": "Precipitation partition is exact", "statement": "With total precipitation input, snowfall water equivalent plus rain equals total precipitation before thresholding, both are non-negative, and the snow share decreases with air temperature. With snowfall as a further input the snowfall is taken as given and the rain is the rest of the total, which is negative, and then cut to zero, if the snowfall exceeds the total.", "quantifier": "every precipitation and temperature", "why_tests_cant": "all inputs", "anchors": ["cosipy/cpkernel/cosipy_core.py:cosipy_core"]}
{"id": "C39", "title": "Surface mass fluxes are exclusive and correctly signed", "statement": "Sublimation and evaporation are <=0, deposition and condensation >=0; at most one of the four is non-zero and below the melting temperature evaporation and condensation vanish.", "quantifier": "every latent heat flux and surface temperature", "why_tests_cant": "all inputs", "anchors": ["cosipy/cpkernel/cosipy_core.py:cosipy_core"]}
{"id": "C40", "title": "Mass balance bookkeeping adds up", "statement": "In every step MB = surfMB + intMB, melt >= 0, melt*water density*latent heat = melt energy*dt, and the cumulative balance equals the sum of all steps' balances.", "quantifier": "every history", "why_tests_cant": "all histories", "anchors": ["cosipy/cpkernel/cosipy_core.py:cosipy_core"]}
{"id": "C41", "title": "Deposition that exceeds melt is never stored", "statement": "One would expect that deposition increases the mass of the snowpack. This is refuted: when sublimation and deposition together exceed melt, the melt routine is called with a negative amount, which leaves all layers unchanged. The deposited mass is counted in the mass balance, but the column is the same for every amount of deposition.", "quantifier": "every column of sound layers and all mass fluxes with melt - sublimation - deposition < 0", "why_tests_cant": "only visible by comparing grid mass with balance", "anchors": ["cosipy/cpkernel/cosipy_core.py:cosipy_core", "cosipy/cpkernel/grid.py:remove_melt_weq"]}
{"id": "C42", "title": "Column water budget of a full time step", "statement": "The change of the mass of the column over melt removal, percolation and refreezing equals rain, condensation, sublimation and deposition minus runoff, plus two residuals: the water of layers that melt completely counts twice, and the air in the melted snow counts as water. (With negative net melt: C41.)", "quantifier": "every column of sound layers and all mass fluxes with melt - sublimation - deposition >= 0", "why_tests_cant": "composition of modules", "anchors": ["cosipy/cpkernel/cosipy_core.py:cosipy_core"]}
{"id": "C43", "title": "Missing precipitation inputs", "statement": "A dataset with snowfall only cannot be processed: the rain variable is never assigned and the first comparison raises; a dataset with snowfall only and force_use_TP raises ValueError.", "quantifier": "every dataset with SNOWFALL but without RRR", "why_tests_cant": "configuration space", "anchors": ["cosipy/cpkernel/cosipy_core.py:cosipy_core"]}
{"id": "C44", "title": "Saving and resuming reproduces the layers", "statement": "A grid written to the restart dataset and loaded again has identical layers and snow clock (refreeze reset to 0). With the albedo of Oerlemans and Knap a run interrupted after any number of steps and resumed from that grid gives the outputs of the uninterrupted run. As coded the variable names written differ from the names read, so every resume raises.", "quantifier": "every grid with at most max_layers layers, every split of the time axis", "why_tests_cant": "all grids; crash/resume points", "anchors": ["cosipy/cpkernel/cosipy_core.py:cosipy_core", "cosipy/cpkernel/init.py:load_snowpack", "cosipy/cpkernel/io.py:create_local_restart_dataset"]}
{"id": "C45", "title": "Initial snowpack is well formed", "statement": "The initial column has the configured snow height and glacier height, layers with positive heights, densities between top and bottom density and ice density, temperatures between air and bottom temperature and no liquid water.", "quantifier": "every initial snow height and air temperature", "why_tests_cant": "all initial conditions", "anchors": ["cosipy/cpkernel/init.py:init_snowpack"]}
{"id": "C46", "title": "Result assembly is independent of worker completion order", "statement": "The gridded results are the same for every order in which the per-cell results arrive, and cells outside the mask stay missing.", "quantifier": "every set of cells and every completion order", "why_tests_cant": "all schedules", "anchors": ["COSIPY.py:run_cosipy", "cosipy/cpkernel/io.py:copy_local_to_global"]}
{"id": "C47", "title": "Each glacier cell is computed exactly once", "statement": "Exactly the cells with mask == 1 are submitted, each once, with the restart data and the stakes of its own cell. A missing value in a glacier cell stops the submission.", "quantifier": "every mask, every set of stakes; the stop for runs without restart whose dimensions have the right names", "why_tests_cant": "all masks", "anchors": ["COSIPY.py:run_cosipy"]}
{"id": "C48", "title": "Input validation rejects out-of-range data", "statement": "check_input_data reports for every listed variable of the data whether all its values lie in its range. It raises only if a listed variable has no entries at all. The bounds of SLOPE are swapped, so that every slope that is a number is reported as out of range.", "quantifier": "every dataset", "why_tests_cant": "all datasets", "anchors": ["cosipy/cpkernel/io.py:check_input_data", "cosipy/cpkernel/io.py:check_field"]}
{"id": "C49", "title": "Time labels and data", "statement": "For an ascending time axis the data that are read are exactly the steps of the period, each value with its own time stamp. For an unsorted axis this is refuted: the code sorts the labels only, so that values get the stamps of other values; the set of labels is complete even then. Periods outside of the data are refused.", "quantifier": "every input time axis", "why_tests_cant": "all orders", "anchors": ["cosipy/cpkernel/io.py:init_data_dataset"]}
{"id": "C50", "title": "Configuration normalisation", "statement": "After loading: WRF forces the WRF dimension names, coupling forces full fields, workers 0 means automatic, everything else is unchanged; normalising twice equals once; with duplicate keys the later table wins. False, 0, an empty text or list and None count as switched off, everything else as on. The shipped slurm file gives a job its own memory, or with a memory per process that many gigabytes.", "quantifier": "every configuration", "why_tests_cant": "all configurations", "anchors": ["cosipy/config.py:Config.set_correct_config", "cosipy/config.py:TomlLoader.set_config_values", "cosipy/constants.py:Constants.set_correct_config"]}
{"id": "C51", "title": "Humidity and bias corrections stay in range", "statement": "Relative humidity in the input file lies in [0,100]: values inside are kept, larger ones become 100, negative ones 0.1, idempotently. The correction is not monotone. The altitude correction adds lapse rate times height difference and with the limit never yields negative values.", "quantifier": "every field", "why_tests_cant": "all fields", "anchors": ["cosipy/utilities/aws2cosipy/aws2cosipy.py:set_relative_humidity_bounds", "cosipy/utilities/aws2cosipy/aws2cosipy.py:set_bias"]}
{"id": "C52", "title": "Pressure lapse is the identity at station altitude", "statement": "Gridded conversion: extrapolating station pressure to the station altitude returns the station pressure. The point conversion uses different exponents for the two directions and returns a higher pressure. Both are proportional to the station pressure and fall with height.", "quantifier": "every pressure and altitude", "why_tests_cant": "all altitudes", "anchors": ["cosipy/utilities/aws2cosipy/aws2cosipy.py:get_pressure_bias", "cosipy/utilities/aws2cosipy/aws2cosipy.py:create_1D_input"]}
{"id": "C53", "title": "WRF precipitation increments telescope", "statement": "The hourly precipitation derived from WRF accumulations sums to the total accumulation; humidity is within [0,100]; the mask is 0/1.", "quantifier": "every WRF file", "why_tests_cant": "all series", "anchors": ["cosipy/utilities/wrf2cosipy/wrf2cosipy.py:create_input"]}
{"id": "C54", "title": "Radiation correction on flat terrain is the identity", "statement": "For zero slope the terrain correction returns the measured radiation; the diffuse fraction lies in its bounds; great-circle distance is symmetric, non-negative and zero on the diagonal.", "quantifier": "every sun position and radiation", "why_tests_cant": "all inputs", "anchors": ["cosipy/modules/radCor.py:radCor2D", "cosipy/modules/radCor.py:Fdif_Neustift", "cosipy/modules/radCor.py:haversine"]}
{"id": "C55", "title": "Setup never overwrites a file without consent", "statement": "The setup utility leaves existing files untouched unless the user confirms. The answers y and yes confirm, n, no and an empty one decline, in any capitals and with blanks around them; anything else is asked again.", "quantifier": "every file system state and every answer sequence", "why_tests_cant": "all interactions", "anchors": ["cosipy/utilities/setup_cosipy/setup_cosipy.py"]}
{"id": "C56", "title": "Adaptive remeshing terminates and loses only layers thinner than the minimum", "statement": "Grid.adaptive_profile terminates; what is missing from the column afterwards is a list of layers each no thicker than the minimum layer height (they are deleted, not merged, so mass is lost); the only failure is an IndexError when the column has shrunk to a single layer thinner than the first layer height.", "quantifier": "every non-empty column of layers with positive height and ice content", "why_tests_cant": "unbounded data dependent loops; deletion branch needs thin dissimilar layers", "anchors": ["cosipy/cpkernel/grid.py:adaptive_profile"]}
{"id": "C57", "title": "Heat conduction is conservative in control lengths, not in layer thicknesses", "statement": "In one sub-step the heat gained by layers 1..n, each counted over the distance between the midpoints of its two gaps, equals the difference of the fluxes through the outer gaps. Counted over the true layer thicknesses heat is not conserved.", "quantifier": "every array of heights, diffusivities and temperatures, every sub-step", "why_tests_cant": "needs all profiles; the refutation needs a non-uniform grid", "anchors": ["cosipy/modules/heatEquation.py:solveHeatEquation"]}
{"id": "C58", "title": "The load on a snow layer is not the weight of the snow above it", "statement": "The load that Boone compaction uses for a layer is the weight of the layers above it plus half of the top layer once more (for the top layer: half of its own weight), so that below the top layer it is larger than the weight above. A layer that is too thin to be compacted hides part of the load: below such a layer as second layer half of the weight of the top layer is missing.", "quantifier": "every snow pack of layers thicker than the minimum; every snow pack whose second layer is thinner than the minimum", "why_tests_cant": "the load is a local variable and never visible", "anchors": ["cosipy/modules/densification.py:method_Boone"]}
{"id": "C59", "title": "Vionnet compaction takes the slope in degrees as radians", "statement": "The slope reaches densification in degrees. The Vionnet scheme takes its cosine as if it were in radians: the sign of that cosine decides whether snow gets thinner or thicker, and on slopes between 2 and 4.5 degrees every layer gets thicker.", "quantifier": "every snow pack, slope and time step", "why_tests_cant": "needs slopes where the cosine turns negative", "anchors": ["cosipy/modules/densification.py:method_Vionnet", "cosipy/cpkernel/cosipy_core.py:cosipy_core"]}
{"id": "C60", "title": "Empirical compaction creates mass in wet layers", "statement": "That the empirical scheme conserves mass is refuted. The code converts the whole density of a layer, with its water and air, to ice and leaves the water in place, so that the density of a layer below 600 kg m-3 grows by at least the weight of its water in every step. Layers from 600 kg m-3 on, temperatures and water fractions are untouched.", "quantifier": "every column of layers with positive height and ice content, every time step > 0", "why_tests_cant": "needs wet layers and a mass balance over a step", "anchors": ["cosipy/modules/densification.py:method_empirical"]}
{"id": "C61", "title": "The fallback of the surface temperature solver reports melting", "statement": "If the root finder fails or leaves its bounds, one would expect the fallback to find the temperature at which the energy balance closes. This is refuted: the code minimises the signed balance instead of its absolute value. Without wind and rain the fallback reports a melting surface for every forcing and column, and every lower temperature has a larger balance.", "quantifier": "every forcing without wind and rain, every column, every failure of the root finder, every minimiser that finds the minimum", "why_tests_cant": "needs forcings on which the root finder fails", "anchors": ["cosipy/modules/surfaceTemperature.py:update_surface_temperature", "cosipy/modules/surfaceTemperature.py:eb_optim"]}
{"id": "C62", "title": "Parameterised longwave radiation", "statement": "Without measured longwave radiation the sky emissivity lies between the clear-sky value and the overcast value for every cloud cover, and the incoming radiation is positive.", "quantifier": "every cloud cover in [0,1], humidity and temperature", "why_tests_cant": "all inputs", "anchors": ["cosipy/modules/surfaceTemperature.py:eb_fluxes"]}
{"id": "C63", "title": "Every output variable holds the series of its own quantity and cell", "statement": "Each variable listed in the configuration ends up in the result file with the series that the worker of the cell computed for that quantity, at the position of that cell; cells without glacier are NaN. Exceptions: names known to the table but assigned nowhere stay NaN, unknown names stop the run, and input variables listed as output are overwritten with NaN.", "quantifier": "every configuration of output variables, mask, grid and worker answers", "why_tests_cant": "45 values are passed by position through three lists; a swap of two series of the same shape is invisible to tests on plausible values", "anchors": ["COSIPY.py:run_cosipy", "cosipy/cpkernel/io.py:copy_local_to_global", "cosipy/cpkernel/io.py:write_results_to_file", "cosipy/cpkernel/cosipy_core.py:cosipy_core"]}
{"id": "C64", "title": "A restarted run never completes", "statement": "A restarted run should read the steps after the time of the restart file and complete. The code reads from that time plus the step length on, which are exactly the later steps if the axis has this step length and others if not. That a restarted run completes is refuted: a start time in text has no strftime, and a TOML date cannot be cut into the name of the output file. The restart file is named after the last computed time.", "quantifier": "every configuration with restart, every input file and restart file", "why_tests_cant": "needs a restart file and a full run; the failure depends on the type of a configuration value", "anchors": ["cosipy/cpkernel/io.py:create_data_file", "cosipy/cpkernel/io.py:init_data_dataset", "COSIPY.py:get_timestamp_label"]}
{"id": "C65", "title": "Runs over the same days write to the same file", "statement": "The name of the output file consists of the prefix and the two dates. Two runs with the same prefix write to the same file exactly if their first days and last days agree, whatever the times of day, the input and the other settings are. A start or an end that is not a text, such as a date of the TOML file, gives no name: TypeError.", "quantifier": "every pair of configurations with the same prefix and start and end times in ISO text", "why_tests_cant": "all pairs of periods", "anchors": ["COSIPY.py:set_output_netcdf_path", "COSIPY.py:get_timestamp_label"]}
{"id": "C66", "title": "Stake evaluation compares like with like", "statement": "The statistic of a stake is the root mean square difference of the measurement and the simulation of the cell of the stake at the times of the measurements, skipping missing values. Methods other than rmse, which evaluate provides for, lose the run.", "quantifier": "every set of stakes, measurements and runs", "why_tests_cant": "all data", "anchors": ["cosipy/modules/evaluation.py:rmse", "cosipy/modules/evaluation.py:evaluate", "cosipy/cpkernel/cosipy_core.py:cosipy_core", "COSIPY.py:run_cosipy"]}
{"id": "C67", "title": "Coordinates and packing", "statement": "transform_coordinates maps every point onto the WGS84 ellipsoid and different points to different coordinates; compute_scale_and_offset maps the range of a variable exactly onto the range of the packed integers.", "quantifier": "every point, every range and number of bits", "why_tests_cant": "all real inputs", "anchors": ["COSIPY.py:transform_coordinates", "COSIPY.py:compute_scale_and_offset"]}
{"id": "C68", "title": "The restart file holds the last column of every cell", "statement": "After a run the restart file holds for every glacier cell exactly the restart data its worker returned, and NaN elsewhere.", "quantifier": "every grid, mask and worker answers", "why_tests_cant": "all grids", "anchors": ["cosipy/cpkernel/io.py:copy_local_restart_to_global", "cosipy/cpkernel/io.py:write_restart_to_file"]}
{"id": "C69", "title": "The shipped configuration works", "statement": "The shipped config.toml and constants.toml load, no key is set twice, every listed output variable is known, and the constants are those the other properties are instantiated with. The list of layer variables contains LW, which is unknown: with full_field switched on no run completes.", "quantifier": "the shipped files; every run with them", "why_tests_cant": "needs a complete run with full_field", "anchors": ["config.toml", "constants.toml", "cosipy/config.py:Config.load", "cosipy/cpkernel/io.py:write_results_to_file"]}
{"id": "C70", "title": "The sun position used for slope corrections follows local solar time", "statement": "The elevation of the sun is that of the site's latitude, day and hour angle. The code's longitude correction and equation of time cancel, so clock time is used as solar time everywhere; and the azimuth formula has misplaced parentheses, so that at noon the sun is never due south north of the tropics.", "quantifier": "every latitude, longitude, time zone, day and hour", "why_tests_cant": "needs an independent solar position; the cancellation is invisible for one site", "anchors": ["cosipy/modules/radCor.py:solarFParallel", "cosipy/modules/radCor.py:correctRadiation"]}
{"id": "C71", "title": "Terrain shades a cell exactly if it rises above the ray to the sun", "statement": "Shading is 0 or 1 in inner glacier cells and missing elsewhere; it is 0 exactly if some point of the profile towards the sun lies above the ray with the solar elevation. A higher sun never darkens, raising all terrain changes nothing, level terrain casts no shade. The profile of a cell close to the border may be empty, which raises ValueError.", "quantifier": "every elevation model, mask, solar elevation and direction; meaning and success on every regular grid", "why_tests_cant": "all terrains and directions", "anchors": ["cosipy/modules/radCor.py:relshad", "cosipy/modules/radCor.py:haversine"]}
{"id": "C72", "title": "The sky view factor is the visible fraction of the sampled sky", "statement": "It is the fraction of the 1584 sampled directions above the slope and not shaded, in [0,1] on the glacier and missing elsewhere, 1 for level terrain. On regular grids it can be computed exactly if no inner glacier cell is within one profile step of the border cells.", "quantifier": "every elevation model, mask, slope and aspect", "why_tests_cant": "all terrains", "anchors": ["cosipy/modules/radCor.py:LUTsvf"]}
{"id": "C73", "title": "The shading table is read where it was written", "statement": "For time steps of k hours, k a divisor of 24, the slot the radiation model reads for a day and hour holds the shading of that day and hour and no slot is written twice. Steps below an hour raise ZeroDivisionError. The sun of the table is placed in the middle of an hour, that of the radiation model in the middle of the time step: they differ for every other step, including the shipped one.", "quantifier": "every table, day and hour, every such time step", "why_tests_cant": "a year of slots for every step", "anchors": ["cosipy/modules/radCor.py:LUTshad", "cosipy/modules/radCor.py:calcRad"]}
{"id": "C74", "title": "Modelled radiation follows sun, slope, shade and clouds", "statement": "Zero on the glacier at night, missing elsewhere. By day the direct part is proportional to the cosine of the angle between sun and slope normal and is absent in shade or on slopes facing away; clouds remove it linearly; the diffuse part scales with the sky view factor. Shade never brightens; a closed cover leaves 35 percent of the clear-sky global radiation. Elevation and azimuth of the sun in the table are the direction of the sun.", "quantifier": "every grid, time, weather and vapour pressure function", "why_tests_cant": "all angles and weather", "anchors": ["cosipy/modules/radCor.py:calcRad", "cosipy/modules/radCor.py:LUTshad"]}
{"id": "C75", "title": "Solar parameters exist away from the poles", "statement": "The parameters of all 366 days exist exactly if the product of the tangents of latitude and declination lies in [-1,1] on all 365 days, otherwise solpars raises ValueError: they exist for latitudes up to 60 degrees and not from 67.5 degrees to the poles. Eccentricity factor and declination of a day are the Fourier series in the day angle and are bounded, the hour angle of sunset and the day length belong to that declination, and the time correction is the equation of time in degrees, at most 4.4. Day 366 is day 365.", "quantifier": "every latitude between the poles, every day", "why_tests_cant": "Existence is a condition over all days at once for a continuum of latitudes; a test evaluates the table at single latitudes.", "anchors": ["cosipy/modules/radCor.py:solpars"]}
{"id": "C76", "title": "The point input file is the hourly station record", "statement": "The times of the file for a point are the full hours from the first to the last row of the station file, inside the dates if both are given. Every value is the hourly mean (precipitation and snowfall: sum) of the gap-filled column plus the altitude correction; empty optional columns are left out.", "quantifier": "every station file with distinct column names, every configuration and date", "why_tests_cant": "all station files", "anchors": ["cosipy/utilities/aws2cosipy/aws2cosipy.py:create_1D_input"]}
{"id": "C77", "title": "Resampling conserves precipitation", "statement": "Adding up a column to longer steps keeps its sum; means lie between the smallest and largest value. The precipitation of the point file is the total of the gap-filled column. Gap filling repeats the last precipitation, so that a station record with gaps yields more precipitation than measured.", "quantifier": "every column and step", "why_tests_cant": "all records", "anchors": ["cosipy/utilities/aws2cosipy/aws2cosipy.py:create_1D_input", "cosipy/utilities/aws2cosipy/aws2cosipy.py:create_2D_input", "cosipy/utilities/aws2cosipy/aws2cosipy.py:nansumwrapper"]}
{"id": "C78", "title": "Converted files have no gaps on the glacier", "statement": "A converted file passes the missing-value check that the model makes before it simulates a cell; a station file with an hour without rows is not converted for a point; a complete one is.", "quantifier": "every station file", "why_tests_cant": "all positions of gaps", "anchors": ["cosipy/utilities/aws2cosipy/aws2cosipy.py:check_for_nan_point", "cosipy/utilities/aws2cosipy/aws2cosipy.py:check_for_nan_2D", "cosipy/utilities/aws2cosipy/aws2cosipy.py:create_1D_input"]}
{"id": "C79", "title": "Temperature units are detected", "statement": "Every converted station temperature lies between 173.16 K and 373.16 K; natural temperatures with the wrong setting of in_K are rejected.", "quantifier": "every station file", "why_tests_cant": "all temperatures", "anchors": ["cosipy/utilities/aws2cosipy/aws2cosipy.py:check_temperature_bounds"]}
{"id": "C80", "title": "The gridded input file is the station record moved to each cell", "statement": "Every cell of the gridded file holds the station record of the chosen period, aggregated if asked, corrected with the height difference of that cell and the station; a cell at station altitude gets the station values; a cell depends on its own height only; absent columns are absent.", "quantifier": "every station file, static file, cell", "why_tests_cant": "all grids and cells", "anchors": ["cosipy/utilities/aws2cosipy/aws2cosipy.py:create_2D_input", "cosipy/utilities/aws2cosipy/aws2cosipy.py:set_bias"]}
{"id": "C81", "title": "Radiation options of the gridded conversion", "statement": "Without correction glacier cells get the measured radiation and other cells nothing. The Wohlfahrt correction is non-negative. An unknown module is refused. The Moelg model cannot run without cloud cover.", "quantifier": "every input", "why_tests_cant": "all options and inputs", "anchors": ["cosipy/utilities/aws2cosipy/aws2cosipy.py:create_2D_input"]}
{"id": "C82", "title": "Coordinates for WRF", "statement": "With WRF coordinates a gridded file holds the latitude and longitude of each cell; the file for a point has latitude and longitude exchanged, and its static file cannot be used.", "quantifier": "every configuration", "why_tests_cant": "all coordinates", "anchors": ["cosipy/utilities/aws2cosipy/aws2cosipy.py:create_1D_input", "cosipy/utilities/aws2cosipy/aws2cosipy.py:create_2D_input"]}
{"id": "C83", "title": "Terrain of a point", "statement": "Without static file a point is horizontal glacier. With one, slope, aspect and mask come from the nearest grid point and the height from the configuration.", "quantifier": "every static file and position", "why_tests_cant": "all positions", "anchors": ["cosipy/utilities/aws2cosipy/aws2cosipy.py:create_1D_input"]}
{"id": "C84", "title": "Required columns and dates of the station conversion", "statement": "Without a required column no file is written, so that the replacement of missing pressure by 660 hPa never happens. Without any longwave radiation and cloud cover no file is written. A single date is ignored.", "quantifier": "every station file", "why_tests_cant": "all column sets", "anchors": ["cosipy/utilities/aws2cosipy/aws2cosipy.py:set_order_and_type", "cosipy/utilities/aws2cosipy/aws2cosipy.py:get_time_slice", "cosipy/utilities/aws2cosipy/aws2cosipy.py:create_1D_input"]}
{"id": "C85", "title": "The spatial window of the gridded conversion", "statement": "The window keeps exactly the grid points whose coordinates lie inside the bounds, in order and with all their fields; without bounds everything is kept. For descending latitudes the bounds have to be given in descending order, otherwise nothing is kept and the conversion fails.", "quantifier": "every static file and window", "why_tests_cant": "all windows", "anchors": ["cosipy/utilities/aws2cosipy/aws2cosipy.py:create_2D_input"]}
{"id": "C86", "title": "Wind and snowfall from WRF", "statement": "The wind speed of the file is the speed of the WRF wind moved to 2 m with the logarithmic profile; the setting for the measurement height has no effect. The snowfall has the mass of the snow water increment at the fresh snow density of the model. The conversion succeeds for every consistent file, and fails without the required fields.", "quantifier": "every WRF file and configuration", "why_tests_cant": "all files", "anchors": ["cosipy/utilities/wrf2cosipy/wrf2cosipy.py:create_input"]}
{"id": "C87", "title": "Dates of the WRF conversion", "statement": "Dates in the documented form yyyymmdd keep whole years, from the year after the first date to the year of the last one; two dates in the same year keep nothing and the conversion fails. Dates with hyphens drop the last day. A single date is ignored.", "quantifier": "every WRF file and pair of dates", "why_tests_cant": "all dates", "anchors": ["cosipy/utilities/wrf2cosipy/wrf2cosipy.py:create_input"]}
{"id": "C88", "title": "Thermal properties of a layer", "statement": "Density, specific heat and bulk conductivity lie between the values of ice, water and air. Diffusivity is positive and equals conductivity over volumetric heat capacity. Cold content is the heat needed to reach the melting point, positive exactly for layers below it.", "quantifier": "every layer whose fractions are non-negative and fill at most the volume; every set of positive constants", "why_tests_cant": "continuum of states", "anchors": ["cosipy/cpkernel/node.py:get_layer_cold_content", "cosipy/cpkernel/node.py:get_layer_thermal_conductivity", "cosipy/cpkernel/node.py:get_layer_thermal_diffusivity", "cosipy/cpkernel/grid.py:get_cold_content"]}
{"id": "C89", "title": "Irreducible water content decreases with the ice fraction", "statement": "The irreducible water content of a layer is a hyperbola in the ice fraction up to 0.23, a line up to 0.812 and zero above. It is non-negative and does not grow with the ice fraction; a layer without ice has none and raises an error.", "quantifier": "every pair of layers with ice fractions in (0,1]; every layer without ice", "why_tests_cant": "continuum of states", "anchors": ["cosipy/cpkernel/node.py:get_layer_irreducible_water_content"]}
{"id": "C90", "title": "Logarithmic remeshing yields the geometric profile", "statement": "Remeshing dry snow over enough dry ice gives layers of thickness f, f s, f s^2 and so on from the top (f the first layer height, s the stretching factor) until less than one further such layer of snow is left; that remainder thickens the last complete layer, possibly followed by further snow layers, and the ice below continues the profile in the same way. Snow and ice thinner than the top layer are mixed, and the top layer is thicker than configured if the snow fills more than one but less than two layers.", "quantifier": "every dry column of snow over ice whose ice is thick enough for the profile; every first layer height and stretching factor that the configuration admits", "why_tests_cant": "all columns and constants", "anchors": ["cosipy/cpkernel/grid.py:log_profile", "cosipy/cpkernel/grid.py:correct_layer"]}
{"id": "C91", "title": "Layer thicknesses after adaptive remeshing", "statement": "After the pass of adaptive remeshing over the snow, every snow layer but the lowest is thicker than the minimum thickness. In the result the top layer has exactly the configured height, or is thinner only if it is the last layer of its kind.", "quantifier": "every column accepted by the remeshing", "why_tests_cant": "all columns", "anchors": ["cosipy/cpkernel/grid.py:adaptive_profile"]}
{"id": "C92", "title": "The layers stay sound over a whole run", "statement": "If all layers have positive height and ice fraction, no negative water and a temperature between a lower bound and the melting temperature, and the air is never colder than the bound, then the same holds after every completed step of the time loop, for every forcing, remeshing, albedo, flux and conductivity method and every answer of the surface temperature solver within its bounds; with a densification other than 'constant' heights and ice fractions are asked to come out of the densification positive. The column then has at least three layers and every reported value has the right sign (melt, runoff, refreezing, rain, snowfall, deposition not negative; sublimation and evaporation not positive; surface temperature between 220 K and melting).", "quantifier": "every step and every run of any length", "why_tests_cant": "all inputs and all run lengths", "anchors": ["cosipy/cpkernel/cosipy_core.py:cosipy_core"]}
{"id": "C93", "title": "Energy report of a step", "statement": "In every completed step the reported melt energy is the positive part of the sum of the reported fluxes and the absorbed shortwave radiation that does not penetrate. Negative shortwave input counts as zero, a tenth or a fifth of the absorbed radiation penetrates, and by night nothing penetrates and nothing melts inside. Emitted radiation and rain heat belong to the reported surface temperature, and given longwave radiation is reported unchanged. The vapour fluxes carry the reported latent heat. If the reported fluxes balance or are negative, nothing melts at the surface.", "quantifier": "every completed step, every forcing and every solver answer", "why_tests_cant": "all inputs", "anchors": ["cosipy/cpkernel/cosipy_core.py:cosipy_core", "cosipy/modules/surfaceTemperature.py:eb_fluxes"]}
{"id": "C94", "title": "Unknown method names", "statement": "A step never completes with an unknown name of the densification, albedo, roughness, stability, conductivity or surface temperature method, nor by day with an unknown method for penetrating radiation. An unknown remeshing method is silently ignored.", "quantifier": "every configuration and every step", "why_tests_cant": "all names", "anchors": ["cosipy/cpkernel/cosipy_core.py:cosipy_core", "cosipy/modules/densification.py:densification", "cosipy/cpkernel/grid.py:update_grid"]}
{"id": "C95", "title": "Mass of the column over a step and a run", "statement": "Ice and water of the column after a step are those before plus the reported snow, rain, condensation and vapour exchange minus runoff, plus residuals that no reported value accounts for: thin layers dropped by remeshing (at most one unless remeshing is adaptive), layers melted away by penetrating radiation (not more ice than the reported subsurface melt), the water of layers melted at the surface, the air in melted snow and in fresh snow, and compaction (none for 'constant', a loss for 'Boone'). Deposition is stored only as far as melt balances it, and evaporation is not taken from the column. Over a run the residuals add up.", "quantifier": "every completed step and run of any length from a column with positive layers", "why_tests_cant": "all inputs and all run lengths", "anchors": ["cosipy/cpkernel/cosipy_core.py:cosipy_core"]}
{"id": "C96", "title": "Static file", "statement": "The mask of the created static file is 1 exactly where the elevation inside of the outline is above zero; where the glacier is at or below sea level it stays the elevation. Elevation, slope, aspect and mask come from the same elevations, tiled and averaged only if switched on, and their rows fit together. The file is written exactly if every glacier point has all values, and the printed number is the number of glacier points. A run touches only its intermediate files and the output, and removes the intermediate files. A conversion that writes nothing is noticed if its file was not there before; otherwise failed commands go unnoticed. A DEM with the name of an intermediate file is deleted, and -9999 passes the check.", "quantifier": "every DEM, outline, configuration, state of the folder and behaviour of GDAL and richdem", "why_tests_cant": "all rasters and all folders; needs GDAL", "anchors": ["cosipy/utilities/createStatic/create_static_file.py:main", "cosipy/utilities/createStatic/create_static_file.py:check_for_nan", "cosipy/utilities/createStatic/create_static_file.py:insert_var"]}
{"id": "C97", "title": "Conversion of old configuration modules", "statement": "Converting old configuration modules and loading the result keeps every setting that the program has a name for; missing settings become 0. The converted files have the tables and keys of the shipped ones. The constants and, without WRF and coupling, the run described are the same as before. The prefix of the output is the old name up to its last underscore, or else up to its last point with points turned into underscores. The converted configuration of aws2cosipy lacks the path of the look-up table. A utility gets the section of its name, and stops with an AttributeError without one.", "quantifier": "every old module, every file of output variables and every file for the utilities", "why_tests_cant": "all modules and all names", "anchors": ["convert_config.py:set_module_params", "convert_config.py:get_config_params", "convert_config.py:get_constants_params", "convert_config.py:get_utilities_params", "cosipy/utilities/config_utils.py:UtilitiesConfig"]}
{"id": "C98", "title": "Profiles shown by the plots", "statement": "The printed line for a depth shows the layer boundary next to it and the values of the layer above this boundary, and the image of a profile over time draws nothing from the snow surface upwards and below it the layer whose lower boundary is next: both are the layer that holds the depth only in its lower half or in the top layer. The image has eight names of variables and refuses any other. With the required numpy the image is never drawn. The search for the nearest value or cell answers one with the smallest distance, unless a coordinate is NaN. A cell given by its position is the one in the row with the next latitude and the column with the next longitude, of two equally far the larger.", "quantifier": "every column of layers, every depth, every position", "why_tests_cant": "all columns and depths; the scripts are not tested", "anchors": ["cosipy/postprocessing/profile_plots/plot_profiles.py:plot_profile_1D", "cosipy/postprocessing/profile_plots/plot_profiles.py:plot_profile_1D_timeseries", "cosipy/postprocessing/profile_plots/plot_profiles.py:find_nearest", "cosipy/postprocessing/profile_plots/plot_profiles.py:naive_fast"]}
{"id": "C99", "title": "Fields shown by the plots", "statement": "A field plot shows of every cell the one time of the file in the named period, and stops if there are several, if the period lies outside of the file or, for an exact time, if there is none. With means it shows the mean of the numbers of the day whose midnight is next to the given time: the day itself before noon, the next day from noon on. Files with a dimension of one entry beside time and layer are refused, and so are kinds of plots other than contour and mesh. A field called elevation is shown as it is. All variables of the plots of several variables are written by a run with the shipped configuration. Names of images keep only the letters, digits and underscores of the time.", "quantifier": "every time series, period and field", "why_tests_cant": "all series and periods", "anchors": ["cosipy/postprocessing/field_plots/plot_cosipy_fields.py:get_selection", "cosipy/postprocessing/field_plots/plot_cosipy_fields.py:plot_axes", "cosipy/postprocessing/field_plots/plot_cosipy_fields.py:save_image", "cosipy/postprocessing/vtk_plots/plot_cosipy_fields_vtk.py:get_selection"]}
{"id": "C100", "title": "Surfaces of the three-dimensional plots", "statement": "The points of a surface are those of the grid, numbered column by column. Each value of a field is put on its own point if the search for the closest point is right, and all other points stay without value. The cells of the older surface are wrong on every grid: one refers to a point that does not exist, each column has one that joins its last row to the first row of the next column, and the cells of the first row are missing.", "quantifier": "every grid of at least two rows and columns, every field", "why_tests_cant": "all grids; needs VTK", "anchors": ["cosipy/postprocessing/vtk_plots/plot_cosipy_fields_vtk.py:create_points", "cosipy/postprocessing/vtk_plots/plot_cosipy_fields_vtk.py:createDEM_v2", "cosipy/postprocessing/vtk_plots/plot_cosipy_fields_vtk.py:add_scalar"]}
{"id": "C101", "title": "A tile is a part of the data", "statement": "With a tile the run reads the period it would read without, and then exactly the cells from the start of the tile on and before its end, under their positions relative to the start, with all variables and times. Negative bounds count from the end of the grid. Data whose dimensions have other names than the tile expects stop the program.", "quantifier": "every dataset and every tile; negative bounds for rectangular data", "why_tests_cant": "all grids and tiles", "anchors": ["cosipy/cpkernel/io.py:IOClass.create_data_file"]}
{"id": "C102", "title": "The bound on the number of loop passes does not matter", "statement": "The model gives the while loops of the code a bound on the number of passes. A step, the run of a cell and each part of it that does not run into the bound gives the same outcome, be it a result or an exception, for every larger bound, so the bound is an artefact of the model that no other property depends on.", "quantifier": "every input, state, switch, solver and pair of bounds", "why_tests_cant": "the loops of the code have no bound: this is a statement about all executions", "anchors": ["cosipy/cpkernel/cosipy_core.py:cosipy_core", "cosipy/cpkernel/grid.py:Grid.correct_layer"]}
{"id": "C103", "title": "When a time step completes", "statement": "Take a firm column (every layer with a height, between 5 and 100 per cent of ice, no negative water and a temperature between a lower bound and melting), input in range, a minimiser that answers within its bounds, one of the two remeshings, one of the two albedo methods, one of the four densifications (for Vionnet with a slope whose cosine in the code is not negative), and the methods Moelg12, Bintanja95 and Ri. Then a time step completes exactly if it is not stuck, and it is stuck for one of five reasons: the remeshing leaves no layer or looks for one that is not there, which happens only to columns that are too low; the column is too shallow for the temperatures below the surface; the iteration for the surface temperature raises an exception that is not caught; melt and sublimation use up all layers but two; more layers are left than can be stored. Every stuck step raises an exception.", "quantifier": "every state with a firm column, every input in range, every solver that answers within its bounds", "why_tests_cant": "no finite set of runs shows that there is no other reason for a step to stop", "anchors": ["cosipy/cpkernel/cosipy_core.py:cosipy_core", "cosipy/cpkernel/grid.py:Grid.log_profile", "cosipy/modules/surfaceTemperature.py:update_surface_temperature", "cosipy/cpkernel/grid.py:Grid.remove_melt_weq"]}
{"id": "C104", "title": "When a run completes", "statement": "A run over any number of steps with input in range and the methods of C103 completes, or stops after some completed steps at a step that is stuck for one of the reasons of C103, or (with a densification other than constant) a layer leaves the range of firm layers. A whole cell, from its initial column to its restart data, completes, stops in one of these ways, or has more layers at its end than the restart file can hold.", "quantifier": "every number of steps, every input in range, every dependable solver", "why_tests_cant": "runs of every length over all inputs", "anchors": ["cosipy/cpkernel/cosipy_core.py:cosipy_core", "cosipy/cpkernel/init.py:init_snowpack", "cosipy/cpkernel/io.py:IOClass.create_grid_restart"]}
{"id": "C105", "title": "Each cell of the files is computed from its own data", "statement": "In a run that completes, the column model is applied in each glacier cell to the entries of the input variables in this cell (and, after a restart, of the restart file in this cell), and the result and restart files hold in this cell the series, profiles and restart data that this computation returns.", "quantifier": "every completed run, every grid, every order in which the workers finish, with and without restart and stakes", "why_tests_cant": "all grids, inputs and completion orders", "anchors": ["COSIPY.py:run_cosipy", "cosipy/cpkernel/cosipy_core.py:cosipy_core", "cosipy/cpkernel/io.py:IOClass.copy_local_to_global"]}
{"id": "C106", "title": "Cells do not influence each other; tiles agree with the whole area", "statement": "What the files hold in a glacier cell depends on the input of this cell, its restart data and the settings alone, not on the other cells, the size of the grid, the stakes or the order of the workers. A run on a tile therefore gives in its glacier cells what the run on the whole area gives there. Both runs give their files the same names.", "quantifier": "every pair of completed runs of the same settings, every pair of glacier cells with the same input; every tile with non-negative bounds", "why_tests_cant": "all pairs of runs, a relation between two executions", "anchors": ["COSIPY.py:run_cosipy", "cosipy/cpkernel/io.py:IOClass.create_data_file"]}
{"id": "C107", "title": "A gridded run completes exactly if all its columns do", "statement": "A run without restart and stake evaluation, with dimensions of the right names, complete data in all glacier cells and known output variables completes exactly if the column model completes in every glacier cell. With periods in text and at least one selected time the same holds for the whole program from the input file to the written files.", "quantifier": "every grid and input, every tile, every order in which the workers finish", "why_tests_cant": "completion is a statement about all executions", "anchors": ["COSIPY.py:main", "COSIPY.py:run_cosipy", "cosipy/cpkernel/io.py:IOClass.create_data_file"]}
{"id": "C108", "title": "The result file keeps the books", "statement": "In the result file of a completed run, for each glacier cell and each step: MB = surfMB + intMB, surfMB = SNOWFALL - surfM + SUBLIMATION + DEPOSITION + EVAPORATION, intMB = REFREEZE - subM, ME >= 0 and surfM times water density (1000) times latent heat = ME times the time step.", "quantifier": "every completed run that writes these variables, every glacier cell, every step", "why_tests_cant": "all files that the program can write", "anchors": ["COSIPY.py:run_cosipy", "cosipy/cpkernel/cosipy_core.py:cosipy_core", "cosipy/cpkernel/io.py:IOClass.write_results_to_file"]}
{"id": "C109", "title": "The configured names of the dimensions do not work", "statement": "The configuration has settings for the names of the horizontal dimensions. That other names than lat and lon can be used without WRF is refuted: every run over a grid with at least one cell raises ValueError at its first cell, and with a tile the data cannot be read.", "quantifier": "every grid with at least one cell, every configuration without WRF whose names differ from lat and lon; the tile: every configuration", "why_tests_cant": "all configurations and grids", "anchors": ["COSIPY.py:run_cosipy", "cosipy/cpkernel/io.py:IOClass.create_data_file"]}
{"id": "C110", "title": "A restarted tile starts from the snow of other cells", "statement": "One would expect each cell of a restarted tile to start from its own snow column. This is refuted: the restart file is not cut, so that the cell (y, x) of the tile, which gets the input of the cell (ystart + y, xstart + x) of the area, starts from the column of the cell (y, x) of the restart file.", "quantifier": "every restart file, dataset and tile with non-negative bounds", "why_tests_cant": "all grids and tiles", "anchors": ["COSIPY.py:run_cosipy", "cosipy/cpkernel/io.py:IOClass.create_data_file", "cosipy/cpkernel/io.py:IOClass.create_grid_restart"]}
{"id": "C111", "title": "Stakes go to the closest cell", "statement": "With stake evaluation each stake gets a cell of the grid such that no cell is closer to it in straight distance, provided the search tree finds a nearest point; a stake with the coordinates of a cell gets this cell; on the parallel of the stake the choice is the closest in longitude. There is no limit to the distance. The worker of a cell evaluates exactly the stakes of this cell, a stake whose closest cell is not glacier is evaluated by nobody, and a stake without coordinates stops the run with ValueError.", "quantifier": "every rectangular grid, every list of stakes, every search that finds a nearest point; the coordinates of a cell: latitudes between -90 and 90 and longitudes in (-180, 180], no two cells at the same place; evaluation by nobody: stakes with different names", "why_tests_cant": "all grids and positions of stakes", "anchors": ["COSIPY.py:run_cosipy", "COSIPY.py:transform_coordinates"]}
{"id": "C112", "title": "Ranges in the result file", "statement": "In the result file of a completed run without restart every value of a glacier cell lies in its range: surface temperature between 220 K and melting, albedo between ice and fresh snow, roughness between fresh snow and firn or that of ice, rain, snowfall, melt, melt energy, runoff, refreezing, condensation, deposition and heights not negative, sublimation and evaporation not positive, at least three layers; and in the profiles positive heights, densities and ice fractions, no negative water and temperatures between the lower bound and melting.", "quantifier": "every completed run of COSIPY.py, of any grid and order of the workers, with the albedo of Oerlemans, not coupled to WRF, with a search of the surface temperature within its bounds, sensible constants and air never colder than the lower bound, every listed variable, every glacier cell and step; with a densification other than 'constant' heights and ice are asked to come out of each step positive", "why_tests_cant": "all files that the program can write", "anchors": ["COSIPY.py:main", "COSIPY.py:run_cosipy", "cosipy/cpkernel/cosipy_core.py:cosipy_core", "cosipy/modules/albedo.py:updateAlbedo", "cosipy/modules/roughness.py:updateRoughness"]}
{"id": "C113", "title": "What the conversions warn about and refuse", "statement": "The conversion of station data checks temperature, humidity, wind, radiation and pressure and each of precipitation, snowfall, longwave radiation and clouds that the file has, and prints a warning on a variable if and only if one of its numbers is out of its range; the conversion of WRF output does the same with its own seven ranges. Every variable of the files has the unit, description and dimensions of a fixed table; in the file converted from WRF output the temperature has the unit m. The exceptions with which missing values, temperatures out of range, missing columns, a static file without coordinates, a missing static file and a missing grid spacing are refused are determined.", "quantifier": "every completed conversion of station data for a point or a grid, with any configuration, period and window and a static file without input variables of its own, every completed conversion of WRF output; the refusals for all inputs of the checking functions", "why_tests_cant": "all station and WRF files", "anchors": ["cosipy/utilities/aws2cosipy/aws2cosipy.py:check", "cosipy/utilities/aws2cosipy/aws2cosipy.py:check_data", "cosipy/utilities/aws2cosipy/aws2cosipy.py:check_for_nan", "cosipy/utilities/wrf2cosipy/wrf2cosipy.py:create_input"]}
{"id": "C114", "title": "Density of fresh snow", "statement": "Without the method constant the density of fresh snow is 109 + 6 (T2 - 273.16) + 26 sqrt(U2), but at least 50; it never falls with a higher air temperature or a stronger wind. It exists if and only if the wind speed is not negative. With the method constant it is the constant density, whatever the weather.", "quantifier": "every set of constants, every air temperature and wind speed", "why_tests_cant": "all weather", "anchors": ["cosipy/cpkernel/cosipy_core.py:cosipy_core"]}
{"id": "C115", "title": "Coupled runs lose nothing between the calls", "statement": "Called by an atmospheric model, the column model does exactly the first step of its data, with the time step, the number of layers and the height of measurement that come with the data, and stops with an AttributeError without them. It stops with a ValueError if the step ends with more layers than that number, which has no other effect. Its tuple has the places of the tuple of a stand-alone run; rain, snowfall, incoming longwave radiation, restart data, cold content, porosity, irreducible water, refreezing of the layers and the stakes are empty. One call after the other, each with the layers and the snow clock that the one before returned, gives exactly what a program would give that keeps everything in memory, or stops with the same exception at the same step. Loading the constants in the coupled mode forces the albedo scheme for which this holds, whatever the file says.", "quantifier": "every sequence of calls with any data that have a time, any constants with the albedo of Oerlemans, solvers and first restart data; the places for every completed call; the schemes for every file of constants without a key in two tables", "why_tests_cant": "the calling program is not part of the repository", "anchors": ["cosipy/cpkernel/cosipy_core.py:cosipy_core", "cosipy/cpkernel/init.py:load_snowpack", "cosipy/constants.py:Constants.set_correct_config"]}
{"id": "C116", "title": "What the files of the stakes hold", "statement": "With stake evaluation a completed run leaves two files. In the file of the simulations the column of a stake on a glacier cell holds, at every time of a measurement, the summed mass balance or the snow height that the column model simulates in the cell of the stake, and nothing at times that are not simulated; the column of a stake outside of the glacier holds the measurements. The file of the statistics has a line for each stake of each glacier cell with the root of the mean squared difference of its measurements and the simulation of its cell. A run completes exactly if every cell completes, method and kind of observation are known and every stake on the glacier has measurements.", "quantifier": "every grid, mask, set of stakes and measurements, every order in which the workers finish", "why_tests_cant": "the simulated values reach the file through the worker, the tuple of 45 values and the loop over the finished workers; a wrong column is a plausible number", "anchors": ["COSIPY.py:run_cosipy", "cosipy/modules/evaluation.py:evaluate", "cosipy/modules/evaluation.py:rmse", "cosipy/cpkernel/cosipy_core.py:cosipy_core"]}
{"id": "C117", "title": "What the result file repeats of the input", "statement": "The result file of a completed run repeats each field of the input that the simulation does not write itself: with its numbers, dimensions, unit and long name; fields that the input lacks are absent. Exceptions: precipitation and cloud cover that the input lacks are in the file without numbers, with unit and long name exchanged. With the shipped lists of the output all fields but snowfall and incoming longwave radiation are repeated.", "quantifier": "every input, configuration of the output, tile and order in which the workers finish", "why_tests_cant": "the same name may be written twice, first from the input and then from the simulation; only the second is looked at", "anchors": ["cosipy/cpkernel/io.py:init_result_dataset", "cosipy/cpkernel/io.py:get_input_metadata", "cosipy/cpkernel/io.py:write_results_to_file"]}
{"id": "C118", "title": "Units and long names in the files", "statement": "Every variable that the simulation writes into the result file, whether of the surface or of the layers, and every variable of the restart file carries the unit and the long name of a fixed table, each variable its own. The expectation that these units are the ones of the numbers is refuted for the liquid water of the layers: the table says kilograms per square metre, the stored number is the share of the volume.", "quantifier": "every completed run with at least one glacier cell, any choice of output variables, any order in which the workers finish", "why_tests_cant": "a wrong unit changes no number of the model", "anchors": ["cosipy/cpkernel/io.py:get_result_metadata", "cosipy/cpkernel/io.py:get_full_field_metadata", "cosipy/cpkernel/io.py:get_restart_metadata", "cosipy/cpkernel/io.py:write_results_to_file", "cosipy/cpkernel/io.py:write_restart_to_file"]}
{"id": "C119", "title": "Water and cold stay side by side after refreezing", "statement": "In every layer at or below the melting temperature refreezing freezes exactly the least of the water present, the pore space below close-off, and the water whose latent heat warms the ice alone to the melting temperature; the limit of the code that counts the heat content of the water never matters. A layer below melting in which water and pore space remain is therefore still below melting, by the heat that the water would take up, and a second pass over the column would freeze more.", "quantifier": "every column whose layers have ice, fractions in range and temperatures less than 154 K below melting (shipped constants); the second pass for columns that refreezing leaves with fractions in range", "why_tests_cant": "both limits are plausible numbers; that one never binds shows only in the algebra", "anchors": ["cosipy/modules/refreezing.py:refreezing"]}
{"id": "C120", "title": "Percolation in portions", "statement": "Water that reaches the surface in two portions ends in exactly the column that it ends in when it comes at once, and the runoffs add up. More water leaves no layer with less water and never makes the runoff smaller.", "quantifier": "every column of at least one layer with positive heights and ice contents, every first portion, every second portion that is not negative", "why_tests_cant": "all columns and all ways of cutting the water in two", "anchors": ["cosipy/modules/percolation.py:percolation", "cosipy/modules/percolation.py:get_runoff"]}
{"id": "C121", "title": "Melt in portions", "statement": "Melt that is removed in two portions leaves exactly the column, the snow clock and the fresh snow height that one removal leaves. That it returns the same water of the layers that disappear is refuted: it never returns more, and a layer that melts in two halves returns half of its water.", "quantifier": "every column of layers with positive height and density without negative water, all portions that are not negative", "why_tests_cant": "all columns and all ways of cutting the melt in two", "anchors": ["cosipy/cpkernel/grid.py:Grid.remove_melt_weq"]}
{"id": "C122", "title": "Heat conduction is linear", "statement": "If the temperatures of a column are a linear combination of those of two other columns, plus a constant, and the columns agree in all else, the temperatures after solveHeatEquation are the same combination of theirs.", "quantifier": "every three columns with at least 3 layers of positive height and positive diffusivity that differ only in temperature, all coefficients, every time step", "why_tests_cant": "all combinations of temperature profiles", "anchors": ["cosipy/modules/heatEquation.py:solveHeatEquation"]}
{"id": "C123", "title": "How many surface temperatures balance the energy", "statement": "With the Richardson correction the sum of the fluxes falls strictly with the surface temperature as long as turbulence is not damped or completely damped and the surface stays on one side of the melting point, so that at most one temperature of such a range balances the energy. In general the surface temperature is not determined by the energy balance: the damping sets in with a jump, and with the shipped constants a night is shown in which two temperatures balance the energy.", "quantifier": "every forcing, column and pair of temperatures; the second part one forcing and column", "why_tests_cant": "needs a scan over all surface temperatures, the jump lies at a single Richardson number", "anchors": ["cosipy/modules/surfaceTemperature.py:246-410", "cosipy/modules/surfaceTemperature.py:533-555"]}
{"id": "C124", "title": "The command line chooses the files", "statement": "A configuration, constants or Slurm file can be named by its short or long option, abbreviated down to --conf, --cons and --s, with the file behind it, attached or after an equals sign; the last one wins, and a program that starts works with exactly the chosen files, otherwise with the default files in COSIPY_DIR or the working directory. Ambiguous abbreviations, options without a file and -h stop it, as do a missing file and a COSIPY_DIR that is no directory, even if all files are named. Misspelt options are ignored together with their value. That all processes of a run use the same constants is refuted: a worker that a batch system starts with a command line of its own reads the default files. The WRF conversion passes through the same parser before its own, so that its help is never shown and it needs a configuration of COSIPY. Of the installed scripts one, cosipy-plot-profile, names a function that does not exist.", "quantifier": "every command line of words that were understood so far, followed by any words; every file system, directory and variable; the refutation for the shipped files with one other file beside them", "why_tests_cant": "the tests call the parser with one well-formed line; workers started by a batch system cannot be tested without one", "anchors": ["cosipy/config.py:18-112", "cosipy/config.py:189-197", "cosipy/config.py:273-282", "cosipy/constants.py:11-56", "cosipy/utilities/wrf2cosipy/wrf2cosipy.py:36", "pyproject.toml:88-102"]}
{"id": "C125", "title": "What the conversion programs accept and which files they start with", "statement": "For the conversions of station and WRF data and the static file, words that name values give the last value of every option, in full, abbreviated as far as no other name shares the beginning, attached or with an equals sign. The conversions exit if the input or the output is missing, the one for stations also if a corner of the region is no number; the static file is not required. Any other word, an ambiguous option, a lone pair of hyphens and the wish for help end the program. The file of the utilities is the named one or the one in the working directory. The WRF conversion cannot be told which configuration and constants of COSIPY to use: a conversion that starts works with the default files. Its start date abbreviated to --s is also read as COSIPY's Slurm file and stops a run that is configured for Slurm.", "quantifier": "every command line made of named values, followed by any words; for the default files every command line of words without blanks and every file system", "why_tests_cant": "there is no test of the command lines of the conversions; the clash needs a Slurm configuration", "anchors": ["cosipy/utilities/config_utils.py:46-85", "cosipy/utilities/aws2cosipy/aws2cosipy.py:913-1021", "cosipy/utilities/wrf2cosipy/wrf2cosipy.py:36", "cosipy/utilities/wrf2cosipy/wrf2cosipy.py:177-234", "cosipy/utilities/createStatic/create_static_file.py:58-89"]}
{"id": "C126", "title": "The sum of the fluxes jumps at the melting point", "statement": "At the melting point the latent heat switches from sublimation to evaporation. With the Richardson correction and undamped turbulence the sum of the fluxes therefore jumps there by (1 - sublimation / evaporation) times the latent heat flux at the melting point. In humid air it jumps down: when the sum is negative at the melting point by less than the jump, no surface temperature balances the energy. In dry air it jumps up: a frozen surface may balance the energy although the melting surface has energy left for melt. Both happen with the shipped constants.", "quantifier": "every forcing, column and surface temperature without damping; one storm and one day for the last sentence", "why_tests_cant": "The cases fill bands of a few W/m2 in the forcing; a test with other numbers sees a solver that converges.", "anchors": ["cosipy/modules/surfaceTemperature.py:eb_fluxes", "cosipy/modules/surfaceTemperature.py:eb_optim"]}
{"id": "C127", "title": "What the plot programs draw and where they save it", "statement": "A run of the field plots that succeeds has a file whose horizontal dimensions are longer than one, and draws the variable asked for, or the twelve variables of the plot of several variables in their places; each panel shows the selection at the date in every cell, and the elevation as it is. A missing variable or elevation and a dimension of length one are refused. Two figures are saved under the same name exactly if the letters and digits of the dates, the variables and the kinds of plot are the same: the mean of a day and a time step of it overwrite each other. The profiles over time always show the first cell, whatever position is asked for, and are never drawn when depths are given; the single profile is that of the nearest cell at its time.", "quantifier": "every file, date, variable and position; for the names dates and variables without underscores", "why_tests_cant": "the tests draw single panels and never run the programs; the profile plots have no test", "anchors": ["cosipy/postprocessing/field_plots/plot_cosipy_fields.py:212-379", "cosipy/postprocessing/field_plots/plot_cosipy_fields.py:466-497", "cosipy/postprocessing/profile_plots/plot_profiles.py:33-47", "cosipy/postprocessing/profile_plots/plot_profiles.py:242-261"]}
{"id": "C128", "title": "What the setup and plot programs accept on their command lines", "statement": "The installation of the configuration files and the programs for fields, three-dimensional plots and profiles read the last setting of every option, written in full, abbreviated as far as no other name shares the beginning, with its argument in the next word, after an equals sign or attached, and several switches behind one hyphen, the last letter of which may take an argument. A missing required option, a kind of plot other than 1 and 2, a position or depth that is no number, an unknown or ambiguous option, an option without its argument, a switch with an argument, a lone pair of hyphens, the wish for help and, unless depths were given, a word without an option or with blanks end the program. Whatever the command line, without a word that starts with -y or --y and without a clear yes among the answers the installation leaves the text of every existing file. The plots are those of the settings, with the density, the first kind of plot and no mean, position or date unless given. The program for three-dimensional plots accepts a command line without the variable that its documentation lists as required.", "quantifier": "every command line made of settings, followed by any words for the refusals; every command line, file system and list of answers for the installation", "why_tests_cant": "the tests of the plots and of the setup hand over parsed arguments or a few command lines", "anchors": ["cosipy/utilities/setup_cosipy/setup_cosipy.py:29-72", "cosipy/utilities/setup_cosipy/setup_cosipy.py:136-162", "cosipy/postprocessing/field_plots/plot_cosipy_fields.py:384-497", "cosipy/postprocessing/vtk_plots/plot_cosipy_fields_vtk.py:480-547", "cosipy/postprocessing/profile_plots/plot_profiles.py:242-261"]}
{"id": "C129", "title": "Merging in any order, and the cold content it loses", "statement": "Merging neighbouring layers leaves a column that depends only on the heights of the layers left: two runs of merges with the same heights at the end give the same layers, count and clock, and merging at two places commutes, also for three neighbours merged into one. The cold content that the layers report is not conserved: the merged layer reports the sum of both plus the product of the heights over their sum times the difference of the heat capacities per volume times the difference of the temperatures, less the difference of the specific heats times the difference of the densities times the distance of the mean temperature from the melting point. Two dry layers of one temperature below melting with different ice fractions always lose cold content.", "quantifier": "every column of positive heights and every list of positions counted from the top; for the cold content, layers whose ice and water fill at most the layer", "why_tests_cant": "the tests merge one pair of layers and do not look at the cold content", "anchors": ["cosipy/cpkernel/grid.py:181-256", "cosipy/cpkernel/node.py:122-176"]}
{"id": "C130", "title": "Heat conduction comes to rest at constant flux", "statement": "Every column has exactly one state of rest: temperatures with its first and last one and the same heat flowing through all gaps between the layers. A positive time step of conduction leaves a column as it is exactly if it is at rest. Left to conduction alone, over any time steps, every temperature approaches the state of rest at least like the exponential of the time over a relaxation time that does not depend on the temperatures or the time steps.", "quantifier": "every column of at least three layers with ice and known conductivity method, all temperatures, every list of time steps", "why_tests_cant": "the approach to rest concerns all times; the tests run single steps", "anchors": ["cosipy/modules/heatEquation.py:solveHeatEquation"]}
{"id": "C131", "title": "Penetrating radiation in portions", "statement": "What the penetrating radiation does to the column and the melt it reports depend only on the product of net radiation and time. Radiation for which the column reports no melt may be given in portions: the parts, one after the other, report none either and leave the same column.", "quantifier": "every column of layers with ice, all amounts of radiation and times (for the portions not negative)", "why_tests_cant": "all columns and all ways to divide the radiation; the tests call the function once", "anchors": ["cosipy/modules/penetratingRadiation.py:method_Bintanja"]}
{"id": "C132", "title": "What logarithmic remeshing leaves alone", "statement": "Call the snow settled if its layers have the thicknesses of the logarithmic profile; or all but the last, which is thicker by the remaining height; or if that layer has some of the remaining height and one further layer the rest; or if it is a single layer thinner than the first layer of the profile. The same for the ice, whose profile continues that of the snow and has a complete layer. Remeshing a dry column that has settled returns the grid unchanged, and so does update_grid if the top layer has the minimum height. Over enough ice no other dry column of snow over ice is left unchanged. Remeshing twice is not the same as remeshing once: four thin layers become two and then one.", "quantifier": "every dry column of snow over ice, every first layer height above zero and stretching factor of at least one; for the converse ice as thick as the first layer and as the stretched snow height", "why_tests_cant": "an equality of all layers with real thicknesses, for every number of layers", "anchors": ["cosipy/cpkernel/grid.py:log_profile", "cosipy/cpkernel/grid.py:correct_layer", "cosipy/cpkernel/grid.py:merge_nodes"]}
{"id": "C133", "title": "Which layers adaptive remeshing changes", "statement": "The snow part of adaptive remeshing walks from the top. A layer of at most 10 cm whose temperature and density differ from those of the next by no more than the thresholds is merged with it, as long as no more than merge_max layers were merged before. Otherwise a layer no thicker than the minimum height is deleted, and otherwise the walk goes on with the next layer, up to the last but one layer of snow. The column is left unchanged by this part exactly if no layer of snow but the last is thin or like the next. If, moreover, the layers below have the minimum height and the top layer the defined height, adaptive remeshing returns the grid unchanged. Below the snow, from the second layer of the column at the highest, layers thinner than the minimum are merged with the next; then the top layer is resized. If at most one layer of snow is left and the top layer is too thin, the second layer is resized first, which is an IndexError if there is none. Bare ice with a thick enough top layer gets a top layer of the defined height and, the two top layers and the last excepted, layers of at least the minimum height.", "quantifier": "every column of layers with positive height and ice content, all constants with a first layer height above zero (for the equivalence merge_max >= 0)", "why_tests_cant": "data dependent merging and deletion in a loop of unbounded length", "anchors": ["cosipy/cpkernel/grid.py:adaptive_profile", "cosipy/cpkernel/grid.py:correct_layer"]}
{"id": "C134", "title": "Modelled radiation stays between zero and the top of the atmosphere", "statement": "Clear-sky direct and diffuse radiation on a horizontal surface exist, are not negative and together do not exceed the radiation at the top of the atmosphere, if the pressure is at most 835 hPa, or at most 1020 hPa with the sun above 1.15 degrees. The radiation of a cell by day then is not negative and bounded; on a flat cell it exceeds the top of the atmosphere by at most 4.6 percent, and not at all without clouds. Beyond these limits a Rayleigh transmissivity above one can make the beam stronger than at the top of the atmosphere.", "quantifier": "all elevations above -35 km, pressures not negative within the limits, air temperatures above 0 K, vapour pressures not negative, solar elevations above the threshold of the code, eccentricity factors above 0, slopes, aspects, shading tables, cloud fractions and sky view factors in [0,1]; the limits of the pressure are sufficient, not necessary", "why_tests_cant": "The bounds rest on inequalities between fractional powers over continuous ranges of pressure, elevation and sun position; the formula breaks down only within about a degree of the horizon, where samples are rare.", "anchors": ["cosipy/modules/radCor.py:calcRad"]}
{"id": "C135", "title": "What the Monin-Obukhov correction does", "statement": "The stability functions and one pass of the iteration are given in closed form: transfer coefficients, fluxes and the next Obukhov length. In stable or neutral air the transfer coefficients of the result are positive and at most those of neutral air. The code subtracts the stability function at the roughness length from the profile of the wind, where the integrated profile adds it; in stable air the coefficients therefore are smaller than those of the integrated profile.", "quantifier": "every forcing with 0 < z0 < z, every Obukhov length and state of the iteration, both settings of the coupling; the damping for air not colder than the surface, wind speed, density, heat capacity and cosine of the slope not negative", "why_tests_cant": "The sign of a small term in a logarithm changes fluxes by a few percent only; the bounds hold for a continuum of states of an iteration whose number of passes varies.", "anchors": ["cosipy/modules/surfaceTemperature.py:phi_m", "cosipy/modules/surfaceTemperature.py:phi_tq", "cosipy/modules/surfaceTemperature.py:eb_fluxes", "cosipy/modules/surfaceTemperature.py:MO"]}
{"id": "C136", "title": "The Monin-Obukhov iteration breaks down in very unstable air", "statement": "In unstable air the integrated profile of the wind, with the difference of the stability functions at the two heights, is always positive, and so is that of heat. The friction velocity of the code leaves out the stability function at the roughness length. For every wind, height and roughness length there is therefore a negative Obukhov length at which it divides by zero; it is positive below and negative above this length. A pass over a surface warmer than the air that starts between this length and zero reports an upward heat flux and a positive next Obukhov length, so the next pass takes the air to be stable.", "quantifier": "every wind speed > 0, every 0 < z0 < z and every Obukhov length < 0, both settings of the coupling; the pass for every surface warmer than the air, positive density, heat capacity and cosine of the slope. Whether the iteration reaches such a length from given weather is not claimed.", "why_tests_cant": "The length at which the change of sign happens has no closed form and follows from the intermediate value theorem; sampled weather rarely comes close to it.", "anchors": ["cosipy/modules/surfaceTemperature.py:ustar", "cosipy/modules/surfaceTemperature.py:phi_m", "cosipy/modules/surfaceTemperature.py:phi_tq", "cosipy/modules/surfaceTemperature.py:MO", "cosipy/modules/surfaceTemperature.py:eb_fluxes"]}
{"id": "C137", "title": "Rules of lists, loops and dictionaries in the model", "statement": "The list, loop and dictionary operations with which the code is modelled follow the rules documented for Python: indices count from the front or, if negative, from the end, and raise IndexError outside; changing, deleting and inserting an element leaves the others as they are; a loop over a range does one pass for each number from the lower bound on and before the upper one, in order, and ends at the first exception; running sums add up the entries so far; a dictionary answers with the value set last, an unknown key raises KeyError, and in a union the second dictionary has precedence.", "quantifier": "every list, index, range, loop body and dictionary; unions whose second dictionary has each key once", "why_tests_cant": "The model of the code and many statements use these operations. If one of them were off, for instance in how it treats negative indices, theorems about the columns would still prove and would describe a different program.", "anchors": ["cosipy/cpkernel/grid.py:remove_node", "cosipy/cpkernel/grid.py:merge_nodes", "cosipy/cpkernel/grid.py:split_node", "cosipy/cpkernel/io.py:get_restart_metadata"]}
