(** * Constants (constants.toml / cosipy/constants.py)

    /repo reads the constants once at import time (module-level names such as
    [ice_density = Constants.ice_density]); in the model they are one record
    that every function receives explicitly. *)
From Verif Require Import ModelPy.

(** /repo constants.toml:1-84.  Only constants read by the modelled code. *)
Record Consts : Type := {
  c_dt : R;                                (* GENERAL *)
  c_max_layers : Z;
  c_z : R;
  c_stability_correction : string;         (* PARAMETERIZATIONS *)
  c_albedo_method : string;
  c_densification_method : string;
  c_penetrating_method : string;
  c_roughness_method : string;
  c_saturation_water_vapour_method : string;
  c_thermal_conductivity_method : string;
  c_sfc_temperature_method : string;
  c_initial_snowheight_constant : R;       (* INITIAL_CONDITIONS *)
  c_initial_glacier_height : R;
  c_initial_glacier_layer_heights : R;
  c_initial_top_density_snowpack : R;
  c_initial_bottom_density_snowpack : R;
  c_temperature_bottom : R;
  c_zlt1 : R;
  c_zlt2 : R;
  c_center_snow_transfer_function : R;     (* PRECIPITATION *)
  c_spread_snow_transfer_function : R;
  c_mult_factor_RRR : R;
  c_minimum_snow_layer_height : R;
  c_minimum_snowfall : R;
  c_remesh_method : string;                (* REMESHING *)
  c_first_layer_height : R;
  c_layer_stretching : R;
  c_merge_max : Z;
  c_density_threshold_merging : R;
  c_temperature_threshold_merging : R;
  c_constant_density : R;                  (* CONSTANTS *)
  c_albedo_fresh_snow : R;
  c_albedo_firn : R;
  c_albedo_ice : R;
  c_albedo_mod_snow_aging : R;
  c_albedo_mod_snow_depth : R;
  c_t_star_wet : R;
  c_t_star_dry : R;
  c_t_star_K : R;
  c_t_star_cutoff : R;
  c_roughness_fresh_snow : R;
  c_roughness_ice : R;
  c_roughness_firn : R;
  c_aging_factor_roughness : R;
  c_snow_ice_threshold : R;
  c_lat_heat_melting : R;
  c_lat_heat_vaporize : R;
  c_lat_heat_sublimation : R;
  c_spec_heat_air : R;
  c_spec_heat_ice : R;
  c_spec_heat_water : R;
  c_k_i : R;
  c_k_w : R;
  c_k_a : R;
  c_water_density : R;
  c_ice_density : R;
  c_air_density : R;
  c_sigma : R;
  c_zero_temperature : R;
  c_surface_emission_coeff : R
}.

(** /repo constants.toml:1-84, the shipped values. *)
Definition default_constants : Consts := {|
  c_dt := 3600;
  c_max_layers := 200;
  c_z := 2;
  c_stability_correction := "Ri"%string;
  c_albedo_method := "Oerlemans98"%string;
  c_densification_method := "Boone"%string;
  c_penetrating_method := "Bintanja95"%string;
  c_roughness_method := "Moelg12"%string;
  c_saturation_water_vapour_method := "Sonntag90"%string;
  c_thermal_conductivity_method := "bulk"%string;
  c_sfc_temperature_method := "Secant"%string;
  c_initial_snowheight_constant := 0.2;
  c_initial_glacier_height := 40;
  c_initial_glacier_layer_heights := 0.5;
  c_initial_top_density_snowpack := 300;
  c_initial_bottom_density_snowpack := 600;
  c_temperature_bottom := 270.16;
  c_zlt1 := 0.06;
  c_zlt2 := 0.1;
  c_center_snow_transfer_function := 1;
  c_spread_snow_transfer_function := 1;
  c_mult_factor_RRR := 1;
  c_minimum_snow_layer_height := 0.001;
  c_minimum_snowfall := 0.001;
  c_remesh_method := "log_profile"%string;
  c_first_layer_height := 0.01;
  c_layer_stretching := 1.2;
  c_merge_max := 1;
  c_density_threshold_merging := 5;
  c_temperature_threshold_merging := 0.01;
  c_constant_density := 300;
  c_albedo_fresh_snow := 0.85;
  c_albedo_firn := 0.55;
  c_albedo_ice := 0.3;
  c_albedo_mod_snow_aging := 22;
  c_albedo_mod_snow_depth := 3;
  c_t_star_wet := 10;
  c_t_star_dry := 30;
  c_t_star_K := 14;
  c_t_star_cutoff := 263.17;
  c_roughness_fresh_snow := 0.24;
  c_roughness_ice := 1.7;
  c_roughness_firn := 4;
  c_aging_factor_roughness := 0.0026;
  c_snow_ice_threshold := 900;
  c_lat_heat_melting := 334000;
  c_lat_heat_vaporize := 2500000;
  c_lat_heat_sublimation := 2834000;
  c_spec_heat_air := 1004.67;
  c_spec_heat_ice := 2050;
  c_spec_heat_water := 4217;
  c_k_i := 2.22;
  c_k_w := 0.55;
  c_k_a := 0.024;
  c_water_density := 1000;
  c_ice_density := 917;
  c_air_density := 1.1;
  c_sigma := 5.67e-8;
  c_zero_temperature := 273.16;
  c_surface_emission_coeff := 0.99
|}.
