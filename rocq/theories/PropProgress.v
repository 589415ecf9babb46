(** * When steps and runs complete (C103, C104)

    Theorems only; the proofs are in LemFinProgress.v and the files it uses. *)

From Verif Require Import ModelPy ModelConstants ModelNode ModelGrid ModelWater ModelHeat ModelDensification ModelRadiation ModelAlbedo ModelSurface ModelInit ModelCore Spec SpecSurface SpecRun SpecCore SpecCalm SpecProgress.
From Verif Require Import LemFinProgress.

(** C103.  One time step, for all states with a firm column (every layer has a height, 5 to 100 per cent of
    ice, no negative water and a temperature between the lower bound and melting), all admissible
    inputs, all admissible constants and every solver that answers: the step completes, with the same result for all
    bounds on the loops from some bound on, or it is stuck for one of the listed reasons. *)
Theorem step_completes_or_stuck :
  forall c sw sv dt max_layers z d inp t s lo,
    progress_constants c lo -> forcing_fits c dt z d inp t lo -> dependable (sv_minimize sv) ->
    counted (s_grid s) -> clock_ok (s_grid s) -> firm_column lo (c_zero_temperature c) (g_nodes (s_grid s)) ->
    (exists s' o N, forall fuel, (N <= fuel)%nat -> core_step fuel c sw sv (dt, max_layers, z) d inp t s = Ok (s', o)) \/
    stuck c sw sv dt max_layers z d inp t s.
Proof. exact step_completes_or_stuck_lem. Qed.
Print Assumptions step_completes_or_stuck.

(** C103.  Conversely every stuck step raises an exception. *)
Theorem stuck_step_raises :
  forall c sw sv dt max_layers z d inp t s lo,
    progress_constants c lo -> forcing_fits c dt z d inp t lo -> dependable (sv_minimize sv) ->
    counted (s_grid s) -> clock_ok (s_grid s) -> firm_column lo (c_zero_temperature c) (g_nodes (s_grid s)) ->
    stuck c sw sv dt max_layers z d inp t s ->
    exists N e, (forall fuel, (N <= fuel)%nat -> core_step fuel c sw sv (dt, max_layers, z) d inp t s = Err e) /\
      (In e [IndexError; ZeroDivisionError; ValueError] \/ In (c_sfc_temperature_method c) ["Newton"; "Secant"]%string).
Proof. exact stuck_step_raises_lem. Qed.
Print Assumptions stuck_step_raises.

(** C103.  So a step completes exactly if it is not stuck. *)
Theorem step_completes_iff :
  forall c sw sv dt max_layers z d inp t s lo,
    progress_constants c lo -> forcing_fits c dt z d inp t lo -> dependable (sv_minimize sv) ->
    counted (s_grid s) -> clock_ok (s_grid s) -> firm_column lo (c_zero_temperature c) (g_nodes (s_grid s)) ->
    ((exists fuel s' o, core_step fuel c sw sv (dt, max_layers, z) d inp t s = Ok (s', o)) <->
     ~ stuck c sw sv dt max_layers z d inp t s).
Proof. exact step_completes_iff_lem. Qed.
Print Assumptions step_completes_iff.

(** C103.  A column vanishes in the logarithmic remeshing only if it is lower than the first layer or than its snow
    stretched by the factor of the remeshing, and in the adaptive remeshing only if it has no layers or, apart from
    layers no thicker than the minimum, is one layer thinner than the first layer is to be. *)
Theorem only_short_columns_vanish :
  forall c g lo, progress_constants c lo -> counted g -> firm_column lo (c_zero_temperature c) (g_nodes g) ->
    vanishes c g ->
    (c_remesh_method c = "log_profile"%string -> too_short c (g_nodes g)) /\
    (c_remesh_method c = "adaptive_profile"%string -> g_nodes g = [] \/ thinned_out c (g_nodes g)).
Proof. exact only_short_columns_vanish_lem. Qed.
Print Assumptions only_short_columns_vanish.

(** C104.  A run over any number of steps, all of them with admissible input: it completes, or after some number of
    completed steps the next step is stuck, or (with a densification other than "constant") a layer has
    left the range of firm layers. *)
Theorem run_completes_or_stuck :
  forall c sw sv dt max_layers z d inp lo, progress_constants c lo -> dependable (sv_minimize sv) ->
  forall count t s,
    (forall k, (k < count)%nat -> forcing_fits c dt z d inp (t + Z.of_nat k) lo) ->
    counted (s_grid s) -> clock_ok (s_grid s) -> firm_column lo (c_zero_temperature c) (g_nodes (s_grid s)) ->
    exists N,
      (exists s' os, forall fuel, (N <= fuel)%nat -> core_loop fuel c sw sv (dt, max_layers, z) d inp count t s = Ok (s', os)) \/
      (exists k sk os, (k < count)%nat /\
        (forall fuel, (N <= fuel)%nat -> core_loop fuel c sw sv (dt, max_layers, z) d inp k t s = Ok (sk, os)) /\
        (stuck c sw sv dt max_layers z d inp (t + Z.of_nat k) sk \/
         (c_densification_method c <> "constant"%string /\
          ~ firm_column lo (c_zero_temperature c) (g_nodes (s_grid sk))))).
Proof. exact run_completes_or_stuck_lem. Qed.
Print Assumptions run_completes_or_stuck.

(** C104.  A whole cell, from the initial column to the restart data: with admissible constants and forcing
    the run completes, or stops at a stuck step, or (with a densification other than "constant") a layer has left
    the range of firm layers after some step, or the run has more layers at its end than can be stored. *)
Theorem cell_completes_or_stuck :
  forall c sw sv d inp lo, progress_constants c lo -> dependable (sv_minimize sv) ->
    sw_WRF_X_CSPY sw = false ->
    0 < c_initial_glacier_height c -> 0 < c_initial_glacier_layer_heights c ->
    0.05 * c_ice_density c + c_air_density c <= c_initial_top_density_snowpack c <= c_ice_density c - c_air_density c ->
    0.05 * c_ice_density c + c_air_density c <= c_initial_bottom_density_snowpack c <= c_ice_density c - c_air_density c ->
    lo <= c_temperature_bottom c <= c_zero_temperature c ->
    select_inputs c sw d = Ok inp -> (0 < nt d)%nat ->
    (forall k, (k < nt d)%nat -> forcing_fits c (c_dt c) (c_z c) d inp (Z.of_nat k) lo) ->
    exists N T2 g, py_get (d_T2 d) 0 = Ok T2 /\ init_snowpack c (d_SNOWHEIGHT d) T2 = Ok g /\
      ((exists s os r, forall fuel, (N <= fuel)%nat -> cosipy_core fuel c sw sv d None = Ok (s, os, Some r)) \/
       (exists k sk os, (k < nt d)%nat /\
         (forall fuel, (N <= fuel)%nat -> core_loop fuel c sw sv (c_dt c, c_max_layers c, c_z c) d inp k 0 (start_state c sw g) = Ok (sk, os)) /\
         (stuck c sw sv (c_dt c) (c_max_layers c) (c_z c) d inp (Z.of_nat k) sk \/
          (c_densification_method c <> "constant"%string /\
           ~ firm_column lo (c_zero_temperature c) (g_nodes (s_grid sk))))) \/
       (exists s os, (forall fuel, (N <= fuel)%nat ->
           core_loop fuel c sw sv (c_dt c, c_max_layers c, c_z c) d inp (nt d) 0 (start_state c sw g) = Ok (s, os)) /\
         (c_max_layers c < Z.of_nat (length (g_nodes (s_grid s))))%Z)).
Proof. exact cell_completes_or_stuck_lem. Qed.
Print Assumptions cell_completes_or_stuck.

(** C103 The shipped constants, an hour of snowfall and a cold column meet the hypotheses. *)
Example progress_case :
  exists inp,
  select_inputs default_constants calm_switches snowy_data = Ok inp /\
  progress_constants default_constants 150 /\ forcing_fits default_constants 3600 2 snowy_data inp 0 150 /\
  dependable (sv_minimize calm_solvers) /\ counted (s_grid calm_state) /\ clock_ok (s_grid calm_state) /\
  firm_column 150 (c_zero_temperature default_constants) (g_nodes (s_grid calm_state)).
Proof. exact progress_case_lem. Qed.

(** C103 So do adaptive remeshing, the albedo after Bougamont and the densification after Vionnet. *)
Example progress_other_methods :
  exists inp,
  select_inputs vionnet_constants calm_switches snowy_data = Ok inp /\
  c_remesh_method vionnet_constants = "adaptive_profile"%string /\ c_albedo_method vionnet_constants = "Bougamont05"%string /\
  c_densification_method vionnet_constants = "Vionnet"%string /\
  progress_constants vionnet_constants 150 /\ forcing_fits vionnet_constants 3600 2 snowy_data inp 0 150 /\
  firm_column 150 (c_zero_temperature vionnet_constants) (g_nodes (s_grid calm_state)).
Proof. exact progress_other_methods_lem. Qed.

(** C103 A dry hour on the last five millimetres of ice: that step is stuck. *)
Example stuck_case :
  let d := mkData [220] [60] [600] [0] [0] (Some [0]) (Some [0]) (Some [50]) None None None None in
  let s := mkState (mkGrid [mkNode 0.005 220 0 1 0] 1 0 0 0) 220 0.85 0 in
  exists inp, select_inputs snowy_constants calm_switches d = Ok inp /\
    counted (s_grid s) /\ clock_ok (s_grid s) /\ firm_column 150 (c_zero_temperature snowy_constants) (g_nodes (s_grid s)) /\
    stuck snowy_constants calm_switches calm_solvers 3600 200 2 d inp 0 s.
Proof. exact stuck_case_lem. Qed.

(** C104 Two hours of snowfall on an initial column of snow and ice meet the hypotheses. *)
Example run_progress_case :
  exists inp,
  progress_constants snowy_constants 150 /\ dependable (sv_minimize calm_solvers) /\
  sw_WRF_X_CSPY calm_switches = false /\ c_densification_method snowy_constants = "constant"%string /\
  select_inputs snowy_constants calm_switches snowy_data = Ok inp /\ nt snowy_data = 2%nat /\
  0.05 * c_ice_density snowy_constants + c_air_density snowy_constants <= c_initial_top_density_snowpack snowy_constants /\
  c_initial_bottom_density_snowpack snowy_constants <= c_ice_density snowy_constants - c_air_density snowy_constants /\
  150 <= c_temperature_bottom snowy_constants <= c_zero_temperature snowy_constants /\
  forall k, (k < nt snowy_data)%nat -> forcing_fits snowy_constants (c_dt snowy_constants) (c_z snowy_constants) snowy_data inp (Z.of_nat k) 150.
Proof. exact run_progress_case_lem. Qed.
