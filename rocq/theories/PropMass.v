(** * Mass of the column over whole steps and runs (C95)

    Theorems only; the proofs are in LemFinMass.v and the files it uses. *)

From Verif Require Import ModelPy ModelConstants ModelNode ModelGrid ModelWater ModelHeat ModelDensification ModelRadiation ModelAlbedo ModelSurface ModelInit ModelCore Spec SpecSurface SpecCore SpecRun SpecCalm SpecMass.
From Verif Require Import LemFinMass.

(** C95.  The mass of the column over one step, for every forcing, remeshing, albedo and flux
    scheme: ice and water after the step are ice and water before, plus the reported snow,
    rain, condensation and vapour exchange, minus the runoff, plus residuals which no
    reported value accounts for: thin layers dropped by the remeshing (at most one, unless
    remeshing is adaptive), layers melted away by penetrating radiation (their ice is not
    more than the reported subsurface melt), the water of layers melted at the surface,
    which is counted twice, the air in melted and in fresh snow, and the compaction (none
    for "constant", a loss for "Boone").  Deposition enters only as far as melt balances it. *)
Theorem step_mass_budget :
  forall fuel c sw sv dt ml z d inp t s s' o lo,
  run_constants_ok c lo -> 0 < dt -> respects_bounds (sv_minimize sv) ->
  Forall (fun T => lo <= T) (d_T2 d) ->
  counted (s_grid s) -> sound_column lo (c_zero_temperature c) (g_nodes (s_grid s)) ->
  g_nodes (s_grid s) <> [] ->
  core_step fuel c sw sv (dt, ml, z) d inp t s = Ok (s', o) ->
  exists r, residuals_ok c (g_nodes (s_grid s)) o r /\
    column_mass c (g_nodes (s_grid s'))
    = column_mass c (g_nodes (s_grid s)) + reported_gain c [o] + unaccounted c r.
Proof. exact step_mass_budget_lem. Qed.
Print Assumptions step_mass_budget.

(** C95.  The same over any number of steps: the residuals add up. *)
Theorem run_mass_budget :
  forall fuel c sw sv dt ml z d inp lo count t s s' os,
  run_constants_ok c lo -> 0 < dt -> respects_bounds (sv_minimize sv) ->
  Forall (fun T => lo <= T) (d_T2 d) ->
  counted (s_grid s) -> sound_column lo (c_zero_temperature c) (g_nodes (s_grid s)) ->
  g_nodes (s_grid s) <> [] ->
  c_densification_method c = "constant"%string \/
  (forall k sk osk, (k <= count)%nat ->
     core_loop fuel c sw sv (dt, ml, z) d inp k t s = Ok (sk, osk) -> layers_ok (g_nodes (s_grid sk))) ->
  core_loop fuel c sw sv (dt, ml, z) d inp count t s = Ok (s', os) ->
  exists rs, Forall2 (fun o r => exists before, column_good before /\ residuals_ok c before o r) os rs /\
    column_mass c (g_nodes (s_grid s'))
    = column_mass c (g_nodes (s_grid s)) + reported_gain c os
      + unaccounted c (fold_right add_residuals no_residuals rs).
Proof. exact run_mass_budget_lem. Qed.
Print Assumptions run_mass_budget.

(** C95.  A step in which deposition and sublimation leave no melt never ends with more mass
    than reported (with constant density or compaction after Boone, without adaptive
    remeshing), apart from rounding in the fresh snow of the order of the air density; at
    most one layer, a thin one, is dropped. *)
Theorem step_mass_no_gain :
  forall fuel c sw sv dt ml z d inp t s s' o lo,
  run_constants_ok c lo -> 0 < dt -> respects_bounds (sv_minimize sv) ->
  Forall (fun T => lo <= T) (d_T2 d) ->
  counted (s_grid s) -> sound_column lo (c_zero_temperature c) (g_nodes (s_grid s)) ->
  g_nodes (s_grid s) <> [] ->
  c_remesh_method c <> "adaptive_profile"%string ->
  In (c_densification_method c) ["constant"; "Boone"]%string ->
  o_surfM o <= o_SUBLIMATION o + o_DEPOSITION o ->
  core_step fuel c sw sv (dt, ml, z) d inp t s = Ok (s', o) ->
  exists thin, (length thin <= 1)%nat /\ Forall (fun n => 0 < n_height n <= c_minimum_snow_layer_height c) thin /\
    column_mass c (g_nodes (s_grid s')) + column_mass c thin
    <= column_mass c (g_nodes (s_grid s)) + reported_gain c [o]
       + c_water_density c * o_SNOWFALL o * (c_air_density c / c_ice_density c).
Proof. exact step_mass_no_gain_lem. Qed.
Print Assumptions step_mass_no_gain.

(** The calm polar night of C92: three ice layers of half a metre and 6 mm of snow. *)
Example calm_mass :
  exists fuel inp s' o r,
  core_step fuel calm_constants calm_switches calm_solvers calm_settings calm_data inp 0 calm_state = Ok (s', o) /\
  residuals_ok calm_constants (g_nodes (s_grid calm_state)) o r /\ r_compaction r = 0 /\
  o_SNOWFALL o = 0.006 /\ o_surfM o = 0 /\
  column_mass calm_constants (g_nodes (s_grid calm_state)) = 1.5 * c_ice_density calm_constants /\
  column_mass calm_constants (g_nodes (s_grid s'))
  = column_mass calm_constants (g_nodes (s_grid calm_state)) + reported_gain calm_constants [o] + unaccounted calm_constants r.
Proof. exact calm_mass_lem. Qed.
