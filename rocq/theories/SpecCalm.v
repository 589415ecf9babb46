(** * A concrete step for the examples *)
From Verif Require Import ModelPy ModelConstants ModelNode ModelGrid ModelWater ModelSurface ModelInit ModelCore.
Open Scope R_scope.

(** a clear, calm night with fresh snow on cold ice, for the example: shipped constants but
    for the densification, the remeshing, the surface temperature method and the initial column *)
Definition calm_constants : Consts := {|
  c_dt := 3600; c_max_layers := 200; c_z := 2; c_stability_correction := "Ri"%string;
  c_albedo_method := "Oerlemans98"%string; c_densification_method := "constant"%string;
  c_penetrating_method := "Bintanja95"%string; c_roughness_method := "Moelg12"%string;
  c_saturation_water_vapour_method := "Sonntag90"%string;
  c_thermal_conductivity_method := "bulk"%string; c_sfc_temperature_method := "SLSQP"%string;
  c_initial_snowheight_constant := 0; c_initial_glacier_height := 1.5;
  c_initial_glacier_layer_heights := 0.5; c_initial_top_density_snowpack := 300;
  c_initial_bottom_density_snowpack := 600; c_temperature_bottom := 220; c_zlt1 := 0.06;
  c_zlt2 := 0.1; c_center_snow_transfer_function := 1; c_spread_snow_transfer_function := 1;
  c_mult_factor_RRR := 1; c_minimum_snow_layer_height := 0.001; c_minimum_snowfall := 0.001;
  c_remesh_method := "none"%string; c_first_layer_height := 0.01; c_layer_stretching := 1.2;
  c_merge_max := 1; c_density_threshold_merging := 5; c_temperature_threshold_merging := 0.01;
  c_constant_density := 300; c_albedo_fresh_snow := 0.85; c_albedo_firn := 0.55;
  c_albedo_ice := 0.3; c_albedo_mod_snow_aging := 22; c_albedo_mod_snow_depth := 3;
  c_t_star_wet := 10; c_t_star_dry := 30; c_t_star_K := 14; c_t_star_cutoff := 263.17;
  c_roughness_fresh_snow := 0.24; c_roughness_ice := 1.7; c_roughness_firn := 4;
  c_aging_factor_roughness := 0.0026; c_snow_ice_threshold := 900; c_lat_heat_melting := 334000;
  c_lat_heat_vaporize := 2500000; c_lat_heat_sublimation := 2834000; c_spec_heat_air := 1004.67;
  c_spec_heat_ice := 2050; c_spec_heat_water := 4217; c_k_i := 2.22; c_k_w := 0.55; c_k_a := 0.024;
  c_water_density := 1000; c_ice_density := 917; c_air_density := 1.1; c_sigma := 5.67e-8;
  c_zero_temperature := 273.16; c_surface_emission_coeff := 0.99
|}.
Definition calm_data : Data :=
  mkData [220] [60] [600] [0] [0] (Some [0.02]) (Some [6]) (Some [50]) None None None None.
Definition calm_switches : Switches := mkSwitches false false false true.
Definition calm_solvers : Solvers :=
  mkSolvers (fun _ _ => Err RuntimeError)
    (fun _ _ _ lo hi => if Rle_dec lo hi then Ok (Some lo, Some 0) else Err ValueError).
Definition calm_state : State :=
  mkState (mkGrid [mkNode 0.5 220 0 1 0; mkNode 0.5 220 0 1 0; mkNode 0.5 220 0 1 0] 3 0 0 0) 270 0.85 0.
Definition calm_settings : R * Z * R := (3600, 200%Z, 2).
