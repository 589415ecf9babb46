(** * Whole runs: the layers stay sound (C92)

    Theorems only; the proofs are in LemFinRun.v and the files it uses. *)

From Verif Require Import ModelPy ModelConstants ModelNode ModelGrid ModelWater ModelHeat ModelDensification ModelRadiation ModelAlbedo ModelSurface ModelInit ModelCore Spec SpecSurface SpecInit SpecRun SpecCalm.
From Verif Require Import LemFinRun.

(** C92.  One step keeps the layers sound, whatever the forcing, the remeshing, the albedo and
    the flux scheme, and whatever the search for the surface temperature answers: if all
    layers have a positive height, hold ice, no negative water, and lie between [lo] and the
    melting temperature before, and the air is not colder than [lo], then the same holds
    after every step that does not raise, with at least three layers, and all reported
    values have the right sign.  For the densification methods other than "constant" the
    layers must come out of the densification with positive heights and ice and without
    negative water; temperatures are kept by all methods. *)
Theorem step_keeps_layers_sound :
  forall fuel c sw sv dt ml z d inp t s s' o lo,
  run_constants_ok c lo -> 0 <= dt -> respects_bounds (sv_minimize sv) ->
  Forall (fun T => lo <= T) (d_T2 d) ->
  counted (s_grid s) -> sound_column lo (c_zero_temperature c) (g_nodes (s_grid s)) ->
  core_step fuel c sw sv (dt, ml, z) d inp t s = Ok (s', o) ->
  c_densification_method c = "constant"%string \/ layers_ok (g_nodes (s_grid s')) ->
  counted (s_grid s') /\ sound_column lo (c_zero_temperature c) (g_nodes (s_grid s')) /\
  sound_report lo (c_zero_temperature c) o /\ s_surface_temperature s' = o_TS o.
Proof. exact step_keeps_layers_sound_lem. Qed.
Print Assumptions step_keeps_layers_sound.

(** C92.  The same over any number of steps. *)
Theorem run_keeps_layers_sound :
  forall fuel c sw sv dt ml z d inp lo count t s s' os,
  run_constants_ok c lo -> 0 <= dt -> respects_bounds (sv_minimize sv) ->
  Forall (fun T => lo <= T) (d_T2 d) ->
  counted (s_grid s) -> sound_column lo (c_zero_temperature c) (g_nodes (s_grid s)) ->
  c_densification_method c = "constant"%string \/
  (forall k sk osk, (k <= count)%nat ->
     core_loop fuel c sw sv (dt, ml, z) d inp k t s = Ok (sk, osk) -> layers_ok (g_nodes (s_grid sk))) ->
  core_loop fuel c sw sv (dt, ml, z) d inp count t s = Ok (s', os) ->
  counted (s_grid s') /\ sound_column lo (c_zero_temperature c) (g_nodes (s_grid s')) /\
  Forall (sound_report lo (c_zero_temperature c)) os.
Proof. exact run_keeps_layers_sound_lem. Qed.
Print Assumptions run_keeps_layers_sound.

(** C92.  A complete run of one grid cell from the initial column: every air temperature series
    above [lo], every other forcing, every number of steps. *)
Theorem cell_keeps_layers_sound :
  forall fuel c sw sv d lo s os r,
  run_constants_ok c lo -> respects_bounds (sv_minimize sv) ->
  Forall (fun T => lo <= T) (d_T2 d) ->
  0 < c_initial_glacier_height c -> 0 < c_initial_glacier_layer_heights c ->
  c_air_density c < c_initial_top_density_snowpack c <= c_ice_density c ->
  c_air_density c < c_initial_bottom_density_snowpack c <= c_ice_density c ->
  lo <= c_temperature_bottom c <= c_zero_temperature c ->
  sw_WRF_X_CSPY sw = false -> c_densification_method c = "constant"%string ->
  cosipy_core fuel c sw sv d None = Ok (s, os, r) ->
  sound_column lo (c_zero_temperature c) (g_nodes (s_grid s)) /\
  Forall (sound_report lo (c_zero_temperature c)) os /\ length os = nt d.
Proof. exact cell_keeps_layers_sound_lem. Qed.
Print Assumptions cell_keeps_layers_sound.

(** A step that succeeds and meets all hypotheses: a calm polar night with 2 cm of fresh
    snow on three cold ice layers. *)
Example calm_step :
  exists fuel inp s' o,
  run_constants_ok calm_constants 150 /\ respects_bounds (sv_minimize calm_solvers) /\
  Forall (fun T => 150 <= T) (d_T2 calm_data) /\ counted (s_grid calm_state) /\
  sound_column 150 (c_zero_temperature calm_constants) (g_nodes (s_grid calm_state)) /\
  select_inputs calm_constants calm_switches calm_data = Ok inp /\
  core_step fuel calm_constants calm_switches calm_solvers calm_settings calm_data inp 0 calm_state = Ok (s', o) /\
  o_NLAYERS o = 4%Z /\ o_SNOWFALL o = 0.02 * (300 / 1000) /\ o_TS o = 220 /\ o_ME o = 0.
Proof. exact calm_step_lem. Qed.
