(** * Energy report of a step and method names (C93, C94)

    Theorems only; the proofs are in LemFinEnergy.v and the files it uses. *)

From Verif Require Import ModelPy ModelConstants ModelNode ModelGrid ModelWater ModelHeat ModelDensification ModelRadiation ModelAlbedo ModelSurface ModelInit ModelCore Spec SpecSurface SpecRun SpecCalm.
From Verif Require Import LemFinEnergy.

(** C93.  The energy report of every step that does not raise: the melt energy is what is left of
    the reported fluxes and the absorbed shortwave radiation, or zero if negative; negative
    shortwave radiation counts as zero; a tenth or a fifth of the absorbed
    radiation penetrates and is not available at the surface; emitted radiation and rain heat
    belong to the reported surface temperature; incoming longwave radiation is the input if
    there is one. *)
Theorem step_energy_report :
  forall fuel c sw sv dt ml z d inp t s s' o,
  core_step fuel c sw sv (dt, ml, z) d inp t s = Ok (s', o) ->
  exists Gt T2 pen, py_get (d_G d) t = Ok Gt /\ py_get (d_T2 d) t = Ok T2 /\
    let sw_net := Rmax 0 Gt * (1 - o_ALBEDO o) in
    o_ME o = Rmax 0 (sw_net - pen + o_LWin o + o_LWout o + o_B o + o_QRR o + o_H o + o_LE o) /\
    (sw_net <= 0 -> pen = 0 /\ o_subM o = 0) /\
    (0 < sw_net -> pen = sw_net * 0.1 \/ pen = sw_net * 0.2) /\
    o_LWout o = - c_surface_emission_coeff c * c_sigma c * o_TS o ^ 4 /\
    o_QRR o = c_water_density c * c_spec_heat_water c * (o_RAIN o / 1000 / dt) * (T2 - o_TS o) /\
    (forall v L, i_LWin inp = Some v -> py_get v t = Ok L -> o_LWin o = L).
Proof. exact step_energy_report_lem. Qed.
Print Assumptions step_energy_report.

(** C93.  The vapour fluxes belong to the reported latent heat: below melting as sublimation or
    deposition with the heat of sublimation, at melting as evaporation or condensation with
    the heat of vaporisation. *)
Theorem step_vapour_report :
  forall fuel c sw sv dt ml z d inp t s s' o,
  constants_ok c -> 0 < c_lat_heat_vaporize c -> 0 < c_lat_heat_sublimation c ->
  core_step fuel c sw sv (dt, ml, z) d inp t s = Ok (s', o) ->
  (o_TS o < c_zero_temperature c ->
     c_water_density c * c_lat_heat_sublimation c * (o_SUBLIMATION o + o_DEPOSITION o) = o_LE o * dt /\
     o_EVAPORATION o = 0 /\ o_CONDENSATION o = 0) /\
  (c_zero_temperature c <= o_TS o ->
     c_water_density c * c_lat_heat_vaporize c * (o_EVAPORATION o + o_CONDENSATION o) = o_LE o * dt /\
     o_SUBLIMATION o = 0 /\ o_DEPOSITION o = 0).
Proof. exact step_vapour_report_lem. Qed.
Print Assumptions step_vapour_report.

(** C93.  If the reported surface temperature balances the fluxes, nothing melts at the
    surface. *)
Theorem balanced_surface_no_melt :
  forall fuel c sw sv dt ml z d inp t s s' o,
  core_step fuel c sw sv (dt, ml, z) d inp t s = Ok (s', o) -> 0 < c_lat_heat_melting c ->
  (forall Gt, py_get (d_G d) t = Ok Gt ->
     Rmax 0 Gt * (1 - o_ALBEDO o) + o_LWin o + o_LWout o + o_B o + o_QRR o + o_H o + o_LE o <= 0) ->
  o_ALBEDO o <= 1 ->
  o_ME o = 0 /\ o_surfM o = 0.
Proof. exact balanced_surface_no_melt_lem. Qed.
Print Assumptions balanced_surface_no_melt.

(** C94.  No step completes with an unknown method name: neither for the densification, the
    albedo, the roughness, the stability correction, the conductivity or the surface
    temperature, nor for the penetrating radiation by day. *)
Theorem unknown_methods_raise :
  forall fuel c sw sv dt ml z d inp t s s' o,
  core_step fuel c sw sv (dt, ml, z) d inp t s = Ok (s', o) ->
  In (c_densification_method c) ["Boone"; "Vionnet"; "empirical"; "constant"]%string /\
  In (c_albedo_method c) ["Oerlemans98"; "Bougamont05"]%string /\
  c_roughness_method c = "Moelg12"%string /\
  In (c_stability_correction c) ["MO"; "Ri"]%string /\
  In (c_thermal_conductivity_method c) ["bulk"; "empirical"]%string /\
  In (c_sfc_temperature_method c) ["L-BFGS-B"; "SLSQP"; "Newton"; "Secant"]%string /\
  (o_ALBEDO o < 1 -> (forall Gt, py_get (d_G d) t = Ok Gt -> 0 < Gt) -> c_penetrating_method c = "Bintanja95"%string).
Proof. exact unknown_methods_raise_lem. Qed.
Print Assumptions unknown_methods_raise.

(** C94.  Finding: an unknown remeshing method is not noticed: the column is then not remeshed at
    all. *)
Theorem unknown_remesh_silent :
  forall fuel c g top below,
  c_remesh_method c <> "log_profile"%string -> c_remesh_method c <> "adaptive_profile"%string ->
  g_nodes g = top :: below -> c_minimum_snow_layer_height c <= n_height top ->
  update_grid fuel c g = Ok g.
Proof. exact unknown_remesh_silent_lem. Qed.
Print Assumptions unknown_remesh_silent.

(** The calm polar night of C92 is such a step: it emits what a surface at 220 K emits,
    melts nothing and evaporates nothing. *)
Example calm_energy :
  exists fuel inp s' o,
  core_step fuel calm_constants calm_switches calm_solvers calm_settings calm_data inp 0 calm_state = Ok (s', o) /\
  o_LWout o = - 0.99 * 5.67e-8 * 220 ^ 4 /\ o_LWout o < -100 /\ o_ME o = 0 /\ o_surfM o = 0 /\
  o_EVAPORATION o = 0.
Proof. exact calm_energy_lem. Qed.
