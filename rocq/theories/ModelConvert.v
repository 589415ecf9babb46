(** * Conversion of the old configuration modules (convert_config.py)

    A Python module is the dictionary of its attributes.  The path of the script and the messages
    are left out; writing a dictionary with [toml.dump] and reading it back is taken to give the
    same dictionary, in particular without entries that are [None] (there are none, see below). *)
From Verif Require Import ModelPy ModelConfig.
From Coq Require Import Ascii.

(** convert_config.py:30-40 [ModuleWrapper.__getattr__]: [None] if there is no such attribute *)
Definition wrapped (module : dict value) (name : string) : value :=
  match dict_find module name with Some v => v | None => VNone end.

(** convert_config.py:48-51: [None] becomes 0 *)
Definition converted (module : dict value) (attr : string) : value :=
  match wrapped module attr with VNone => VInt 0 | v => v end.

(** convert_config.py:43-53 [set_module_params] *)
Definition set_module_params (module : dict value) (parameters : toml)
  (key_pairs : list (string * list string)) : toml :=
  fold_left
    (fun ps ka =>
       dict_set ps (fst ka)
         (fold_left (fun t attr => dict_set t attr (converted module attr)) (snd ka) []))
    key_pairs parameters.

(** ** config.py *)

(** convert_config.py:60-77 *)
Definition config_keys : list (string * list string) :=
  [("SIMULATION_PERIOD",
     ["time_start"; "time_end"]);
   ("FILENAMES",
     ["data_path"; "input_netcdf"; "output_prefix"]);
   ("RESTART",
     ["restart"]);
   ("STAKE_DATA",
     ["stake_evaluation"; "stakes_loc_file"; "stakes_data_file"; "eval_method"; "obs_type"]);
   ("DIMENSIONS",
     ["WRF"; "WRF_X_CSPY"; "northing"; "easting"]);
   ("COMPRESSION",
     ["compression_level"]);
   ("PARALLELIZATION",
     ["slurm_use"; "workers"; "local_port"]);
   ("FULL_FIELDS",
     ["full_field"]);
   ("FORCINGS",
     ["force_use_TP"; "force_use_N"]);
   ("SUBSET",
     ["tile"; "xstart"; "xend"; "ystart"; "yend"])]%string.

(** [s.split(c)] for one character *)
Fixpoint split_char (c : ascii) (s : string) : list string :=
  match s with
  | EmptyString => [EmptyString]
  | String ch rest =>
      if Ascii.eqb ch c then EmptyString :: split_char c rest
      else match split_char c rest with
           | w :: ws => String ch w :: ws
           | [] => [String ch EmptyString]
           end
  end.

(** [c in s] for one character *)
Definition has_char (c : ascii) (s : string) : bool :=
  existsb (Ascii.eqb c) (list_ascii_of_string s).

(** convert_config.py:83-88 *)
Definition output_prefix (output_netcdf : string) : string :=
  let output_split :=
    if has_char "_" output_netcdf then split_char "_" output_netcdf
    else split_char "." output_netcdf in
  String.concat "_" (removelast output_split).

(** convert_config.py:96-108 [get_output_params]; [variables] is the section vars of the file
    cosipy/output *)
Definition get_output_params (variables : dict value) : res table :=
  atm <- dict_get variables "atm" ;;
  internal <- dict_get variables "internal" ;;
  full <- dict_get variables "full" ;;
  Ok [("output_atm", atm); ("output_internal", internal); ("output_full", full)]%string.

(** convert_config.py:56-93 [get_config_params]; a name of the output that is no text is not
    followed *)
Definition get_config_params (module variables : dict value) : res toml :=
  let params := set_module_params module [] config_keys in
  out <- attr_get module "output_netcdf" ;;
  name <- match out with VStr s => Ok s | _ => Err TypeError end ;;
  params <- set2 params "FILENAMES" "output_prefix" (VStr (output_prefix name)) ;;
  outs <- get_output_params variables ;;
  Ok (dict_set params "OUTPUT_VARIABLES" outs).

(** ** constants.py *)

(** convert_config.py:115-186 *)
Definition constants_keys : list (string * list string) :=
  [("GENERAL",
     ["dt"; "max_layers"; "z"]);
   ("PARAMETERIZATIONS",
     ["stability_correction"; "albedo_method"; "densification_method"; "penetrating_method";
      "roughness_method"; "saturation_water_vapour_method"; "thermal_conductivity_method";
      "sfc_temperature_method"]);
   ("INITIAL_CONDITIONS",
     ["initial_snowheight_constant"; "initial_snow_layer_heights"; "initial_glacier_height";
      "initial_glacier_layer_heights"; "initial_top_density_snowpack";
      "initial_bottom_density_snowpack"; "temperature_bottom"; "const_init_temp"; "zlt1";
      "zlt2"]);
   ("PRECIPITATION",
     ["center_snow_transfer_function"; "spread_snow_transfer_function"; "mult_factor_RRR";
      "minimum_snow_layer_height"; "minimum_snowfall"]);
   ("REMESHING",
     ["remesh_method"; "first_layer_height"; "layer_stretching"; "merge_max";
      "density_threshold_merging"; "temperature_threshold_merging"]);
   ("CONSTANTS",
     ["constant_density"; "albedo_fresh_snow"; "albedo_firn"; "albedo_ice";
      "albedo_mod_snow_aging"; "albedo_mod_snow_depth"; "t_star_wet"; "t_star_dry"; "t_star_K";
      "t_star_cutoff"; "roughness_fresh_snow"; "roughness_ice"; "roughness_firn";
      "aging_factor_roughness"; "snow_ice_threshold"; "lat_heat_melting"; "lat_heat_vaporize";
      "lat_heat_sublimation"; "spec_heat_air"; "spec_heat_ice"; "spec_heat_water"; "k_i"; "k_w";
      "k_a"; "water_density"; "ice_density"; "air_density"; "sigma"; "zero_temperature";
      "surface_emission_coeff"])]%string.

(** convert_config.py:111-191 [get_constants_params] *)
Definition get_constants_params (module : dict value) : toml :=
  set_module_params module [] constants_keys.

(** ** The utilities *)

(** convert_config.py:198-223 *)
Definition aws2cosipy_keys : list (string * list string) :=
  [("names",
     ["PRES_var"; "T2_var"; "in_K"; "RH2_var"; "G_var"; "RRR_var"; "U2_var"; "LWin_var";
      "SNOWFALL_var"; "N_var"]);
   ("coords",
     ["WRF"; "aggregate"; "aggregation_step"; "delimiter"]);
   ("radiation",
     ["radiationModule"; "LUT"; "dtstep"; "tcart"; "timezone_lon"; "zeni_thld"]);
   ("points",
     ["point_model"; "plon"; "plat"; "hgt"]);
   ("station",
     ["stationName"; "stationAlt"; "stationLat"]);
   ("lapse",
     ["lapse_T"; "lapse_RH"; "lapse_RRR"; "lapse_SNOWFALL"])]%string.

(** convert_config.py:194-229 [get_aws2cosipy_params] *)
Definition get_aws2cosipy_params (module : dict value) : toml :=
  set_module_params module [] aws2cosipy_keys.

(** convert_config.py:232-241 [get_wrf2cosipy_params] *)
Definition get_wrf2cosipy_params (module : dict value) : toml :=
  set_module_params module [] [("constants", ["hu"; "lu_class"])]%string.

(** convert_config.py:251-262 *)
Definition create_static_keys : list (string * list string) :=
  [("paths",
     ["static_folder"; "dem_path"; "shape_path"; "output_file"]);
   ("coords",
     ["tile"; "aggregate"; "aggregate_degree"; "longitude_upper_left"; "latitude_upper_left";
      "longitude_lower_right"; "latitude_lower_right"])]%string.

(** convert_config.py:266-271 *)
Definition static_default (key attr : string) : value :=
  if String.eqb key "paths" then VStr ""
  else if (String.eqb key "coords" && (String.eqb attr "tile" || String.eqb attr "aggregate"))%bool
  then VBool true
  else VFloat 0.

(** convert_config.py:244-274 [get_create_static_params] *)
Definition get_create_static_params : toml :=
  fold_left
    (fun ps ka =>
       dict_set ps (fst ka)
         (fold_left (fun t attr => dict_set t attr (static_default (fst ka) attr)) (snd ka) []))
    create_static_keys [].

(** convert_config.py:277-284 [get_utilities_params] *)
Definition get_utilities_params (aws wrf : dict value) : dict toml :=
  [("aws2cosipy", get_aws2cosipy_params aws); ("create_static", get_create_static_params);
   ("wrf2cosipy", get_wrf2cosipy_params wrf)]%string.
