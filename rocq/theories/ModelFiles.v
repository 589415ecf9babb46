(** * The shipped configuration files, and how the attributes of Config and Constants reach the
    rest of the model *)
From Verif Require Import ModelPy ModelConstants ModelConfig ModelIO.

(** ** The shipped files *)

(** /repo config.toml:1-63 *)
Definition shipped_config : toml :=
  [("SIMULATION_PERIOD",
     [("time_start", VStr "2009-01-01T06:00"); ("time_end", VStr "2009-01-10T00:00")]);
   ("FILENAMES",
     [("data_path", VStr "./data/"); ("input_netcdf", VStr "Zhadang/Zhadang_ERA5_2009.nc");
      ("output_prefix", VStr "Zhadang_ERA5")]);
   ("RESTART",
     [("restart", VBool false)]);
   ("STAKE_DATA",
     [("stake_evaluation", VBool false); ("stakes_loc_file", VStr
      "./data/input/HEF/loc_stakes.csv"); ("stakes_data_file", VStr
      "./data/input/HEF/data_stakes_hef.csv"); ("eval_method", VStr "rmse"); ("obs_type", VStr
      "snowheight")]);
   ("DIMENSIONS",
     [("WRF", VBool false); ("WRF_X_CSPY", VBool false); ("northing", VStr "lat"); ("easting",
      VStr "lon")]);
   ("COMPRESSION",
     [("compression_level", VInt 2)]);
   ("PARALLELIZATION",
     [("slurm_use", VBool false); ("workers", VInt 0); ("local_port", VInt 8786)]);
   ("FULL_FIELDS",
     [("full_field", VBool false)]);
   ("FORCINGS",
     [("force_use_TP", VBool false); ("force_use_N", VBool false)]);
   ("SUBSET",
     [("tile", VBool false); ("xstart", VInt 20); ("xend", VInt 40); ("ystart", VInt 20);
      ("yend", VInt 40)]);
   ("OUTPUT_VARIABLES",
     [("output_atm", VStr
      "T2,RH2,U2,RAIN,SNOWFALL,RRR,PRES,N,G,LWin,LWout,H,LE,B,QRR,Z0,ALBEDO,TS");
      ("output_internal", VStr
      "ME,MB,surfMB,intMB,EVAPORATION,SUBLIMATION,CONDENSATION,DEPOSITION,surfM,subM,Q,REFREEZE,SNOWHEIGHT,TOTALHEIGHT,LAYERS");
      ("output_full", VStr
      "HEIGHT,RHO,T,LWC,CC,POROSITY,LW,ICE_FRACTION,IRREDUCIBLE_WATER,REFREEZE")])]%string%Z%R.

(** /repo constants.toml:1-96 *)
Definition shipped_constants : toml :=
  [("GENERAL",
     [("dt", VInt 3600); ("max_layers", VInt 200); ("z", VFloat 2)]);
   ("PARAMETERIZATIONS",
     [("stability_correction", VStr "Ri"); ("albedo_method", VStr "Oerlemans98");
      ("densification_method", VStr "Boone"); ("penetrating_method", VStr "Bintanja95");
      ("roughness_method", VStr "Moelg12"); ("saturation_water_vapour_method", VStr
      "Sonntag90"); ("thermal_conductivity_method", VStr "bulk"); ("sfc_temperature_method",
      VStr "Secant")]);
   ("INITIAL_CONDITIONS",
     [("initial_snowheight_constant", VFloat 0.2); ("initial_snow_layer_heights", VFloat 0.1);
      ("initial_glacier_height", VFloat 40); ("initial_glacier_layer_heights", VFloat 0.5);
      ("initial_top_density_snowpack", VFloat 300); ("initial_bottom_density_snowpack", VFloat
      600); ("temperature_bottom", VFloat 270.16); ("const_init_temp", VFloat 0.1); ("zlt1",
      VFloat 0.06); ("zlt2", VFloat 0.1)]);
   ("PRECIPITATION",
     [("center_snow_transfer_function", VFloat 1); ("spread_snow_transfer_function", VInt 1);
      ("mult_factor_RRR", VFloat 1); ("minimum_snow_layer_height", VFloat 0.001);
      ("minimum_snowfall", VFloat 0.001)]);
   ("REMESHING",
     [("remesh_method", VStr "log_profile"); ("first_layer_height", VFloat 0.01);
      ("layer_stretching", VFloat 1.2); ("merge_max", VInt 1); ("density_threshold_merging",
      VInt 5); ("temperature_threshold_merging", VFloat 0.01)]);
   ("CONSTANTS",
     [("constant_density", VFloat 300); ("albedo_fresh_snow", VFloat 0.85); ("albedo_firn",
      VFloat 0.55); ("albedo_ice", VFloat 0.3); ("albedo_mod_snow_aging", VInt 22);
      ("albedo_mod_snow_depth", VInt 3); ("t_star_wet", VInt 10); ("t_star_dry", VInt 30);
      ("t_star_K", VInt 14); ("t_star_cutoff", VFloat 263.17); ("roughness_fresh_snow", VFloat
      0.24); ("roughness_ice", VFloat 1.7); ("roughness_firn", VFloat 4);
      ("aging_factor_roughness", VFloat 0.0026); ("snow_ice_threshold", VFloat 900);
      ("lat_heat_melting", VFloat 334000); ("lat_heat_vaporize", VFloat 2500000);
      ("lat_heat_sublimation", VFloat 2834000); ("spec_heat_air", VFloat 1004.67);
      ("spec_heat_ice", VFloat 2050); ("spec_heat_water", VFloat 4217); ("k_i", VFloat 2.22);
      ("k_w", VFloat 0.55); ("k_a", VFloat 0.024); ("water_density", VFloat 1000);
      ("ice_density", VFloat 917); ("air_density", VFloat 1.1); ("sigma", VFloat 5.67e-08);
      ("zero_temperature", VFloat 273.16); ("surface_emission_coeff", VFloat 0.99)])]%string%Z%R.

(** /repo slurm_config.toml:1-23 *)
Definition shipped_slurm : toml :=
  [("LABELS",
     [("account", VStr ""); ("name", VStr "test_cosipy_slurm"); ("queue", VStr "work")]);
   ("PARAMETERS",
     [("slurm_parameters", VList [VStr "--nodes=1"; VStr "--error=slurm.err"; VStr
      "--output=slurm.out"; VStr "--time=00:10:00"; VStr "--mem='4G'"]); ("shebang", VStr
      "#!/bin/bash -l"); ("local_directory", VStr "./logs/dask-worker-space")]);
   ("MEMORY",
     [("port", VInt 8786); ("cores", VInt 1); ("nodes", VInt 1); ("processes", VInt 20);
      ("memory", VStr "4G")]);
   ("OVERRIDES",
     [("memory_per_process", VInt 0)])]%string%Z%R.

(** ** Attributes *)

(** a number; whole numbers of the file are Python integers *)
Definition as_number (v : value) : res R :=
  match v with VInt z => Ok (IZR z) | VFloat r => Ok r | _ => Err TypeError end.
Definition as_int (v : value) : res Z := match v with VInt z => Ok z | _ => Err TypeError end.
Definition as_text (v : value) : res string := match v with VStr s => Ok s | _ => Err TypeError end.

Definition attr_number (a : dict value) (k : string) : res R := v <- attr_get a k ;; as_number v.
Definition attr_int (a : dict value) (k : string) : res Z := v <- attr_get a k ;; as_int v.
Definition attr_text (a : dict value) (k : string) : res string := v <- attr_get a k ;; as_text v.
(** flags are only used as conditions *)
Definition attr_flag (a : dict value) (k : string) : res bool := v <- attr_get a k ;; Ok (truthy v).

(** The record of constants from the attributes of Constants: [Constants.<name>] raises
    AttributeError if the file had no such key. *)
Definition consts_of (a : dict value) : res Consts :=
  v_dt <- attr_number a "dt" ;;
  v_max_layers <- attr_int a "max_layers" ;;
  v_z <- attr_number a "z" ;;
  v_stability_correction <- attr_text a "stability_correction" ;;
  v_albedo_method <- attr_text a "albedo_method" ;;
  v_densification_method <- attr_text a "densification_method" ;;
  v_penetrating_method <- attr_text a "penetrating_method" ;;
  v_roughness_method <- attr_text a "roughness_method" ;;
  v_saturation_water_vapour_method <- attr_text a "saturation_water_vapour_method" ;;
  v_thermal_conductivity_method <- attr_text a "thermal_conductivity_method" ;;
  v_sfc_temperature_method <- attr_text a "sfc_temperature_method" ;;
  v_initial_snowheight_constant <- attr_number a "initial_snowheight_constant" ;;
  v_initial_glacier_height <- attr_number a "initial_glacier_height" ;;
  v_initial_glacier_layer_heights <- attr_number a "initial_glacier_layer_heights" ;;
  v_initial_top_density_snowpack <- attr_number a "initial_top_density_snowpack" ;;
  v_initial_bottom_density_snowpack <- attr_number a "initial_bottom_density_snowpack" ;;
  v_temperature_bottom <- attr_number a "temperature_bottom" ;;
  v_zlt1 <- attr_number a "zlt1" ;;
  v_zlt2 <- attr_number a "zlt2" ;;
  v_center_snow_transfer_function <- attr_number a "center_snow_transfer_function" ;;
  v_spread_snow_transfer_function <- attr_number a "spread_snow_transfer_function" ;;
  v_mult_factor_RRR <- attr_number a "mult_factor_RRR" ;;
  v_minimum_snow_layer_height <- attr_number a "minimum_snow_layer_height" ;;
  v_minimum_snowfall <- attr_number a "minimum_snowfall" ;;
  v_remesh_method <- attr_text a "remesh_method" ;;
  v_first_layer_height <- attr_number a "first_layer_height" ;;
  v_layer_stretching <- attr_number a "layer_stretching" ;;
  v_merge_max <- attr_int a "merge_max" ;;
  v_density_threshold_merging <- attr_number a "density_threshold_merging" ;;
  v_temperature_threshold_merging <- attr_number a "temperature_threshold_merging" ;;
  v_constant_density <- attr_number a "constant_density" ;;
  v_albedo_fresh_snow <- attr_number a "albedo_fresh_snow" ;;
  v_albedo_firn <- attr_number a "albedo_firn" ;;
  v_albedo_ice <- attr_number a "albedo_ice" ;;
  v_albedo_mod_snow_aging <- attr_number a "albedo_mod_snow_aging" ;;
  v_albedo_mod_snow_depth <- attr_number a "albedo_mod_snow_depth" ;;
  v_t_star_wet <- attr_number a "t_star_wet" ;;
  v_t_star_dry <- attr_number a "t_star_dry" ;;
  v_t_star_K <- attr_number a "t_star_K" ;;
  v_t_star_cutoff <- attr_number a "t_star_cutoff" ;;
  v_roughness_fresh_snow <- attr_number a "roughness_fresh_snow" ;;
  v_roughness_ice <- attr_number a "roughness_ice" ;;
  v_roughness_firn <- attr_number a "roughness_firn" ;;
  v_aging_factor_roughness <- attr_number a "aging_factor_roughness" ;;
  v_snow_ice_threshold <- attr_number a "snow_ice_threshold" ;;
  v_lat_heat_melting <- attr_number a "lat_heat_melting" ;;
  v_lat_heat_vaporize <- attr_number a "lat_heat_vaporize" ;;
  v_lat_heat_sublimation <- attr_number a "lat_heat_sublimation" ;;
  v_spec_heat_air <- attr_number a "spec_heat_air" ;;
  v_spec_heat_ice <- attr_number a "spec_heat_ice" ;;
  v_spec_heat_water <- attr_number a "spec_heat_water" ;;
  v_k_i <- attr_number a "k_i" ;;
  v_k_w <- attr_number a "k_w" ;;
  v_k_a <- attr_number a "k_a" ;;
  v_water_density <- attr_number a "water_density" ;;
  v_ice_density <- attr_number a "ice_density" ;;
  v_air_density <- attr_number a "air_density" ;;
  v_sigma <- attr_number a "sigma" ;;
  v_zero_temperature <- attr_number a "zero_temperature" ;;
  v_surface_emission_coeff <- attr_number a "surface_emission_coeff" ;;
  Ok (Build_Consts v_dt v_max_layers v_z v_stability_correction v_albedo_method
    v_densification_method v_penetrating_method v_roughness_method
    v_saturation_water_vapour_method v_thermal_conductivity_method v_sfc_temperature_method
    v_initial_snowheight_constant v_initial_glacier_height v_initial_glacier_layer_heights
    v_initial_top_density_snowpack v_initial_bottom_density_snowpack v_temperature_bottom v_zlt1
    v_zlt2 v_center_snow_transfer_function v_spread_snow_transfer_function v_mult_factor_RRR
    v_minimum_snow_layer_height v_minimum_snowfall v_remesh_method v_first_layer_height
    v_layer_stretching v_merge_max v_density_threshold_merging v_temperature_threshold_merging
    v_constant_density v_albedo_fresh_snow v_albedo_firn v_albedo_ice v_albedo_mod_snow_aging
    v_albedo_mod_snow_depth v_t_star_wet v_t_star_dry v_t_star_K v_t_star_cutoff
    v_roughness_fresh_snow v_roughness_ice v_roughness_firn v_aging_factor_roughness
    v_snow_ice_threshold v_lat_heat_melting v_lat_heat_vaporize v_lat_heat_sublimation
    v_spec_heat_air v_spec_heat_ice v_spec_heat_water v_k_i v_k_w v_k_a v_water_density
    v_ice_density v_air_density v_sigma v_zero_temperature v_surface_emission_coeff).

(** The configuration of a run from the attributes of Config *)
Definition run_config_of (a : dict value) : res RunConfig :=
  v_output_atm <- attr_text a "output_atm" ;;
  v_output_internal <- attr_text a "output_internal" ;;
  v_output_full <- attr_text a "output_full" ;;
  v_full_field <- attr_flag a "full_field" ;;
  v_restart <- attr_flag a "restart" ;;
  v_WRF <- attr_flag a "WRF" ;;
  v_northing <- attr_text a "northing" ;;
  v_easting <- attr_text a "easting" ;;
  v_tile <- attr_flag a "tile" ;;
  v_xstart <- attr_int a "xstart" ;;
  v_xend <- attr_int a "xend" ;;
  v_ystart <- attr_int a "ystart" ;;
  v_yend <- attr_int a "yend" ;;
  v_stake_evaluation <- attr_flag a "stake_evaluation" ;;
  v_eval_method <- attr_text a "eval_method" ;;
  v_obs_type <- attr_text a "obs_type" ;;
  v_time_start <- attr_get a "time_start" ;;
  v_time_end <- attr_get a "time_end" ;;
  v_output_prefix <- attr_text a "output_prefix" ;;
  Ok (mkRunConfig v_output_atm v_output_internal v_output_full v_full_field v_restart v_WRF
    v_northing v_easting v_tile v_xstart v_xend v_ystart v_yend v_stake_evaluation v_eval_method
    v_obs_type v_time_start v_time_end v_output_prefix).
