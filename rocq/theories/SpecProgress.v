(** * Vocabulary: when a step completes *)
From Verif Require Import ModelPy ModelConstants ModelNode ModelGrid ModelRadiation ModelAlbedo ModelSurface
  ModelInit ModelCore Spec SpecSurface SpecRun.

(** a sound layer with between 5 and 100 per cent of ice *)
Definition firm_layer (lo hi : R) (n : Node) : Prop :=
  sound_layer lo hi n /\ 0.05 <= n_ice n <= 1.
Definition firm_column (lo hi : R) (l : list Node) : Prop := Forall (firm_layer lo hi) l.

(** a bounded minimiser that answers, with a point between the bounds, whenever the function is
    defined between them *)
Definition dependable (minimize : string -> (R -> res R) -> R -> R -> R -> res (number * number)) : Prop :=
  respects_bounds minimize /\
  forall m func guess lo hi, lo <= hi -> (forall x, lo <= x <= hi -> exists y, func x = Ok y) ->
    exists answer, minimize m func guess lo hi = Ok answer.

(** constants and methods for which the theorems on completion hold *)
Record progress_constants (c : Consts) (lo : R) : Prop := {
  pc_run : run_constants_ok c lo;
  pc_flux : flux_constants_ok c;
  pc_surface : surface_constants_ok c;
  pc_densities : 11 * c_water_density c <= 12 * c_ice_density c;
  pc_first : c_minimum_snow_layer_height c <= c_first_layer_height c;
  pc_remesh : In (c_remesh_method c) ["log_profile"; "adaptive_profile"]%string;
  pc_albedo : In (c_albedo_method c) ["Oerlemans98"; "Bougamont05"]%string;
  pc_decay : c_albedo_method c = "Bougamont05"%string ->
    0 < c_t_star_wet c /\ 0 < c_t_star_dry c /\ 0 <= c_t_star_K c /\ c_t_star_cutoff c <= c_zero_temperature c;
  pc_roughness : c_roughness_method c = "Moelg12"%string;
  pc_radiation : c_penetrating_method c = "Bintanja95"%string;
  pc_stability : c_stability_correction c = "Ri"%string;
  pc_zero : c_zero_temperature c <= 330;
  pc_search : In (c_sfc_temperature_method c) ["L-BFGS-B"; "SLSQP"; "Newton"; "Secant"]%string;
  pc_densification : In (c_densification_method c) ["Boone"; "Vionnet"; "empirical"; "constant"]%string
}.

(** the input of step [t] is there and in range *)
Record forcing_fits (c : Consts) (dt z : R) (d : Data) (inp : Inputs) (t : Z) (lo : R) : Prop := {
  ff_dt : 0 < dt;
  ff_z : c_roughness_firn c / 1000 < z /\ c_roughness_ice c / 1000 < z;
  ff_slope : 0 <= i_SLOPE inp <= 90;
  ff_air : exists T2 U2 rho, py_get (d_T2 d) t = Ok T2 /\ py_get (d_U2 d) t = Ok U2 /\
    Rmax lo 0.56 <= T2 <= 330 /\ 0 <= U2 /\ fresh_snow_density c T2 U2 = Ok rho /\
    0.05 * c_ice_density c + c_air_density c <= rho <= c_ice_density c;
  ff_humidity : exists RH2 PRES, py_get (d_RH2 d) t = Ok RH2 /\ py_get (d_PRES d) t = Ok PRES /\
    0 <= RH2 /\ 300 <= PRES;
  ff_sun : exists G, py_get (d_G d) t = Ok G;
  ff_precipitation : exists sn r, opt_get (i_SNOWF inp) t = Ok sn /\ opt_get (i_RRR inp) t = Ok (Some r);
  ff_longwave : exists lw n, opt_get (i_LWin inp) t = Ok lw /\ opt_get (i_N inp) t = Ok n /\
    (lw <> None \/ n <> None);
  ff_load : c_densification_method c = "Vionnet"%string -> 0 <= cos (i_SLOPE inp)
}.

(** ** Stages of a step *)

(** the grid [g1] with the new snow on it, and the rain *)
Definition laid (c : Consts) (dt : R) (d : Data) (inp : Inputs) (t : Z) (s : State) (g1 : Grid) (RAIN : R) : Prop :=
  exists T2 U2 rho sn r raw SNOWFALL,
    py_get (d_T2 d) t = Ok T2 /\ py_get (d_U2 d) t = Ok U2 /\ fresh_snow_density c T2 U2 = Ok rho /\
    opt_get (i_SNOWF inp) t = Ok sn /\ opt_get (i_RRR inp) t = Ok r /\
    snow_and_rain c rho T2 sn r = Ok raw /\ threshold_precipitation c rho raw = Ok (SNOWFALL, RAIN) /\
    g1 = lay_snow c (s_grid s) SNOWFALL rho T2 dt.

(** [g2] is [g1] remeshed *)
Definition remeshed (c : Consts) (g1 g2 : Grid) : Prop :=
  exists N, forall fuel, (N <= fuel)%nat -> update_grid fuel c g1 = Ok g2.

(** the grid [g4] after the penetrating radiation, the radiation [swn] left at the surface and
    the roughness length [z0] *)
Definition lit (c : Consts) (dt : R) (d : Data) (t : Z) (s : State) (g2 g4 : Grid) (swn z0 : R) : Prop :=
  exists G g3 alpha albedo_snow sm Gp,
    py_get (d_G d) t = Ok G /\
    updateAlbedo c g2 (s_surface_temperature s) (s_albedo_snow s) = Ok (g3, alpha, albedo_snow) /\
    updateRoughness c g3 = Ok z0 /\
    shortwave_below c g3 (Rmax G 0 * (1 - alpha)) dt = Ok (g4, sm, Gp) /\ swn = Rmax G 0 * (1 - alpha) - Gp.

(** the grid [g5] with the new surface temperature and the water equivalent [m] that melt and
    sublimation are to take from it *)
Definition wanted (c : Consts) (sw : Switches) (sv : Solvers) (dt z : R) (d : Data) (inp : Inputs) (t : Z)
  (RAIN : R) (g4 : Grid) (swn z0 : R) (g5 : Grid) (m : R) : Prop :=
  exists T2 U2 RH2 PRES lw n fn Ts f mf,
    py_get (d_T2 d) t = Ok T2 /\ py_get (d_U2 d) t = Ok U2 /\ py_get (d_RH2 d) t = Ok RH2 /\
    py_get (d_PRES d) t = Ok PRES /\ opt_get (i_LWin inp) t = Ok lw /\ opt_get (i_N inp) t = Ok n /\
    update_surface_temperature c (sw_WRF_X_CSPY sw) (sv_newton sv) (sv_minimize sv) g4
      (mkAtm dt z z0 T2 RH2 PRES U2 RAIN (i_SLOPE inp) lw n) swn = Ok (g5, fn, Ts, f) /\
    mass_fluxes c Ts (f_LE f) dt = Ok mf /\
    m = available_melt_energy swn f * dt / (1000 * c_lat_heat_melting c) - m_sublimation mf - m_deposition mf.

(** ** Why a step may not complete *)

(** the column is lower than its first layer, or than the snow on it, stretched *)
Definition too_short (c : Consts) (l : list Node) : Prop :=
  column_height l < c_first_layer_height c \/
  column_height l < c_layer_stretching c * reported_snow c l.

(** but for layers not thicker than the minimum the column is one layer thinner than the first layer
    is to be *)
Definition thinned_out (c : Consts) (l : list Node) : Prop :=
  exists removed x, Forall (fun n => 0 < n_height n <= c_minimum_snow_layer_height c) removed /\
    n_height x < c_first_layer_height c /\ conserved l (removed ++ [x]).

(** the remeshing leaves no layer, or looks for one that is not there *)
Definition vanishes (c : Consts) (g : Grid) : Prop :=
  exists N, forall fuel, (N <= fuel)%nat ->
    update_grid fuel c g = Err IndexError \/ exists g', update_grid fuel c g = Ok g' /\ g_nodes g' = [].

(** no layer boundary below the depth at which the temperature is wanted, or only one layer *)
Definition shallow (c : Consts) (l : list Node) : Prop :=
  column_height l <= c_zlt2 c \/ (length l < 2)%nat.

(** the iteration for the surface temperature raises an exception for which there is no other
    method to fall back on *)
Definition search_fails (c : Consts) (sw : Switches) (sv : Solvers) (dt z : R) (d : Data) (inp : Inputs) (t : Z)
  (RAIN : R) (g4 : Grid) (swn z0 : R) (e : exn) : Prop :=
  exists T2 U2 RH2 PRES lw n B top,
    py_get (d_T2 d) t = Ok T2 /\ py_get (d_U2 d) t = Ok U2 /\ py_get (d_RH2 d) t = Ok RH2 /\
    py_get (d_PRES d) t = Ok PRES /\ opt_get (i_LWin inp) t = Ok lw /\ opt_get (i_N inp) t = Ok n /\
    interp_subT c g4 = Ok B /\ hd_error (g_nodes g4) = Some top /\ ~ In e [RuntimeError; ValueError] /\
    let func := eb_optim c (sw_WRF_X_CSPY sw) g4 (mkAtm dt z z0 T2 RH2 PRES U2 RAIN (i_SLOPE inp) lw n) swn B in
    (c_sfc_temperature_method c = "Newton"%string /\ sv_newton sv func (Rmin (n_temperature top) 270) = Err e) \/
    (c_sfc_temperature_method c = "Secant"%string /\ secant func (Rmin (n_temperature top) 270) 0.01 50 None 0 = Err e).

(** the water equivalent [m] uses up all layers but two *)
Definition molten (c : Consts) (l : list Node) (m : R) : Prop :=
  (length l < 3)%nat \/ column_weq c (firstn (length l - 2) l) <= m.

(** more layers than can be stored are left when the water equivalent [m] is gone *)
Definition crowded (c : Consts) (max_layers : Z) (l : list Node) (m : R) : Prop :=
  exists k, (k < length l)%nat /\ m < column_weq c (firstn (S k) l) /\
    (max_layers < Z.of_nat (length l - k))%Z.

(** the step from state [s] cannot complete *)
Inductive stuck (c : Consts) (sw : Switches) (sv : Solvers) (dt : R) (max_layers : Z) (z : R) (d : Data) (inp : Inputs)
  (t : Z) (s : State) : Prop :=
| stuck_vanished g1 RAIN : laid c dt d inp t s g1 RAIN -> vanishes c g1 ->
    stuck c sw sv dt max_layers z d inp t s
| stuck_shallow g1 RAIN g2 g4 swn z0 : laid c dt d inp t s g1 RAIN -> remeshed c g1 g2 ->
    lit c dt d t s g2 g4 swn z0 -> shallow c (g_nodes g4) -> stuck c sw sv dt max_layers z d inp t s
| stuck_search g1 RAIN g2 g4 swn z0 e : laid c dt d inp t s g1 RAIN -> remeshed c g1 g2 ->
    lit c dt d t s g2 g4 swn z0 -> search_fails c sw sv dt z d inp t RAIN g4 swn z0 e ->
    stuck c sw sv dt max_layers z d inp t s
| stuck_molten g1 RAIN g2 g4 swn z0 g5 m : laid c dt d inp t s g1 RAIN -> remeshed c g1 g2 ->
    lit c dt d t s g2 g4 swn z0 -> wanted c sw sv dt z d inp t RAIN g4 swn z0 g5 m ->
    molten c (g_nodes g5) m -> stuck c sw sv dt max_layers z d inp t s
| stuck_crowded g1 RAIN g2 g4 swn z0 g5 m : laid c dt d inp t s g1 RAIN -> remeshed c g1 g2 ->
    lit c dt d t s g2 g4 swn z0 -> wanted c sw sv dt z d inp t RAIN g4 swn z0 g5 m ->
    sw_WRF_X_CSPY sw = true \/ sw_full_field sw = true -> crowded c max_layers (g_nodes g5) m ->
    stuck c sw sv dt max_layers z d inp t s.

(** ** For the examples *)

(** the shipped constants but for the densification and the surface temperature method *)
Definition snowy_constants : Consts := {|
  c_dt := 3600; c_max_layers := 200; c_z := 2; c_stability_correction := "Ri"%string;
  c_albedo_method := "Oerlemans98"%string; c_densification_method := "constant"%string;
  c_penetrating_method := "Bintanja95"%string; c_roughness_method := "Moelg12"%string;
  c_saturation_water_vapour_method := "Sonntag90"%string;
  c_thermal_conductivity_method := "bulk"%string; c_sfc_temperature_method := "SLSQP"%string;
  c_initial_snowheight_constant := 0.2; c_initial_glacier_height := 40;
  c_initial_glacier_layer_heights := 0.5; c_initial_top_density_snowpack := 300;
  c_initial_bottom_density_snowpack := 600; c_temperature_bottom := 270.16; c_zlt1 := 0.06;
  c_zlt2 := 0.1; c_center_snow_transfer_function := 1; c_spread_snow_transfer_function := 1;
  c_mult_factor_RRR := 1; c_minimum_snow_layer_height := 0.001; c_minimum_snowfall := 0.001;
  c_remesh_method := "log_profile"%string; c_first_layer_height := 0.01; c_layer_stretching := 1.2;
  c_merge_max := 1; c_density_threshold_merging := 5; c_temperature_threshold_merging := 0.01;
  c_constant_density := 300; c_albedo_fresh_snow := 0.85; c_albedo_firn := 0.55;
  c_albedo_ice := 0.3; c_albedo_mod_snow_aging := 22; c_albedo_mod_snow_depth := 3;
  c_t_star_wet := 10; c_t_star_dry := 30; c_t_star_K := 14; c_t_star_cutoff := 263.17;
  c_roughness_fresh_snow := 0.24; c_roughness_ice := 1.7; c_roughness_firn := 4;
  c_aging_factor_roughness := 0.0026; c_snow_ice_threshold := 900; c_lat_heat_melting := 334000;
  c_lat_heat_vaporize := 2500000; c_lat_heat_sublimation := 2834000; c_spec_heat_air := 1004.67;
  c_spec_heat_ice := 2050; c_spec_heat_water := 4217; c_k_i := 2.22; c_k_w := 0.55; c_k_a := 0.024;
  c_water_density := 1000; c_ice_density := 917; c_air_density := 1.1; c_sigma := 5.67e-8;
  c_zero_temperature := 273.16; c_surface_emission_coeff := 0.99
|}.
(** the other methods of remeshing and of the albedo, and the densification after Vionnet *)
Definition vionnet_constants : Consts := {|
  c_dt := 3600; c_max_layers := 200; c_z := 2; c_stability_correction := "Ri"%string;
  c_albedo_method := "Bougamont05"%string; c_densification_method := "Vionnet"%string;
  c_penetrating_method := "Bintanja95"%string; c_roughness_method := "Moelg12"%string;
  c_saturation_water_vapour_method := "Sonntag90"%string;
  c_thermal_conductivity_method := "bulk"%string; c_sfc_temperature_method := "SLSQP"%string;
  c_initial_snowheight_constant := 0.2; c_initial_glacier_height := 40;
  c_initial_glacier_layer_heights := 0.5; c_initial_top_density_snowpack := 300;
  c_initial_bottom_density_snowpack := 600; c_temperature_bottom := 270.16; c_zlt1 := 0.06;
  c_zlt2 := 0.1; c_center_snow_transfer_function := 1; c_spread_snow_transfer_function := 1;
  c_mult_factor_RRR := 1; c_minimum_snow_layer_height := 0.001; c_minimum_snowfall := 0.001;
  c_remesh_method := "adaptive_profile"%string; c_first_layer_height := 0.01; c_layer_stretching := 1.2;
  c_merge_max := 1; c_density_threshold_merging := 5; c_temperature_threshold_merging := 0.01;
  c_constant_density := 300; c_albedo_fresh_snow := 0.85; c_albedo_firn := 0.55;
  c_albedo_ice := 0.3; c_albedo_mod_snow_aging := 22; c_albedo_mod_snow_depth := 3;
  c_t_star_wet := 10; c_t_star_dry := 30; c_t_star_K := 14; c_t_star_cutoff := 263.17;
  c_roughness_fresh_snow := 0.24; c_roughness_ice := 1.7; c_roughness_firn := 4;
  c_aging_factor_roughness := 0.0026; c_snow_ice_threshold := 900; c_lat_heat_melting := 334000;
  c_lat_heat_vaporize := 2500000; c_lat_heat_sublimation := 2834000; c_spec_heat_air := 1004.67;
  c_spec_heat_ice := 2050; c_spec_heat_water := 4217; c_k_i := 2.22; c_k_w := 0.55; c_k_a := 0.024;
  c_water_density := 1000; c_ice_density := 917; c_air_density := 1.1; c_sigma := 5.67e-8;
  c_zero_temperature := 273.16; c_surface_emission_coeff := 0.99
|}.
(** two hours of snowfall in a light wind *)
Definition snowy_data : Data :=
  mkData [265; 264] [60; 70] [600; 600] [0; 0] [3; 3] (Some [0.02; 0.01]) (Some [6; 3]) (Some [250; 250]) None None (Some (Some 0.3)) None.
