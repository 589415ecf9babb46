(** * The time loop (C17, C38-C43)

    Theorems only; the proofs are in LemFinCore.v and the files it uses. *)

From Verif Require Import ModelPy ModelConstants ModelNode ModelGrid ModelWater ModelHeat ModelDensification ModelRadiation ModelAlbedo ModelSurface ModelInit ModelCore Spec SpecCore.
From Verif Require Import LemFinCore.

From Coq Require Import Rtrigo_def.

(** C38.  The share of snow lies strictly between 0 and 1, is one half at the transfer
    temperature, and decreases strictly with the air temperature. *)
Theorem snow_share_decreases :
  forall (c : Consts) (T T' : R),
  0 < c_spread_snow_transfer_function c -> T < T' ->
  0 < snow_share c T' < snow_share c T /\ snow_share c T < 1 /\
  snow_share c (c_zero_temperature c + c_center_snow_transfer_function c) = / 2.
Proof. exact snow_share_decreases_lem. Qed.
Print Assumptions snow_share_decreases.

(** C38.  With total precipitation as the only input, every amount r >= 0 is split into snow
    and rain, neither negative, that add up to r exactly; the snow is the share given by the
    transfer function. *)
Theorem precipitation_partition_exact :
  forall (c : Consts) (rho T2 r : R),
  0 < c_water_density c -> 0 < rho -> 0 <= r ->
  exists s rain, snow_and_rain c rho T2 None (Some r) = Ok (s, Some rain) /\
    snow_mass c rho s + rain = r /\ 0 <= s /\ 0 <= rain /\
    snow_mass c rho s = r * snow_share c T2.
Proof. exact precipitation_partition_exact_lem. Qed.
Print Assumptions precipitation_partition_exact.

(** C38.  Afterwards each part is either kept as it is or, if it is smaller than the smallest
    accepted snowfall, dropped: the dropped amount is lost, not accumulated. *)
Theorem precipitation_threshold :
  forall (c : Consts) (rho s rain : R),
  0 < c_water_density c ->
  exists s' rain', threshold_precipitation c rho (s, Some rain) = Ok (s', rain') /\
    (c_minimum_snowfall c <= s -> s' = s) /\ (s < c_minimum_snowfall c -> s' = 0) /\
    (snow_mass c rho (c_minimum_snowfall c) <= rain -> rain' = rain) /\
    (rain < snow_mass c rho (c_minimum_snowfall c) -> rain' = 0).
Proof. exact precipitation_threshold_lem. Qed.
Print Assumptions precipitation_threshold.

(** C38.  Finding: with both inputs given, snowfall that exceeds the total precipitation makes
    the rain negative, the threshold sets it to zero, and more mass is accepted than the
    total precipitation. *)
Theorem snow_exceeding_total :
  forall (c : Consts) (rho T2 s r : R),
  constants_ok c -> 0 < rho -> c_minimum_snowfall c <= s -> r < snow_mass c rho s ->
  exists raw, snow_and_rain c rho T2 (Some s) (Some r) = Ok raw /\
    threshold_precipitation c rho raw = Ok (s, 0) /\ r < snow_mass c rho s + 0.
Proof. exact snow_exceeding_total_lem. Qed.
Print Assumptions snow_exceeding_total.

(** the hypotheses of the partition theorems are met by a concrete case *)
Example precipitation_example :
  constants_ok default_constants /\ 0 < c_spread_snow_transfer_function default_constants /\
  fresh_snow_density default_constants 270 4 = Ok 142.04 /\ 0 <= 2.5.
Proof. exact precipitation_example_lem. Qed.

(** C39.  The four surface mass fluxes: below the melting temperature only sublimation (<= 0)
    and deposition (>= 0) occur, at or above it only evaporation (<= 0) and condensation
    (>= 0); one of the two is zero, and together they carry exactly the latent heat flux. *)
Theorem mass_fluxes_exclusive :
  forall (c : Consts) (Ts LE dt : R),
  0 < c_water_density c -> 0 < c_lat_heat_sublimation c -> 0 < c_lat_heat_vaporize c -> 0 <= dt ->
  exists m, mass_fluxes c Ts LE dt = Ok m /\
    m_sublimation m <= 0 /\ 0 <= m_deposition m /\ m_evaporation m <= 0 /\ 0 <= m_condensation m /\
    (Ts < c_zero_temperature c ->
       m_evaporation m = 0 /\ m_condensation m = 0 /\
       (m_sublimation m = 0 \/ m_deposition m = 0) /\
       (m_sublimation m + m_deposition m) * (c_water_density c * c_lat_heat_sublimation c) = LE * dt) /\
    (c_zero_temperature c <= Ts ->
       m_sublimation m = 0 /\ m_deposition m = 0 /\
       (m_evaporation m = 0 \/ m_condensation m = 0) /\
       (m_evaporation m + m_condensation m) * (c_water_density c * c_lat_heat_vaporize c) = LE * dt).
Proof. exact mass_fluxes_exclusive_lem. Qed.
Print Assumptions mass_fluxes_exclusive.

(** C40.  Every step that does not raise: the balance is surface plus internal balance; the
    surface balance is snowfall minus melt plus sublimation, deposition and evaporation
    (condensation is not in it); the internal balance is refreezing minus subsurface melt;
    melt energy and melt are not negative and belong together (with the literal density
    1000); the cumulative balance grows by the balance of the step. *)
Theorem step_balance :
  forall fuel c sw sv dt ml z d inp t s s' o,
  0 < c_lat_heat_melting c -> 0 <= dt ->
  core_step fuel c sw sv (dt, ml, z) d inp t s = Ok (s', o) ->
  o_MB o = o_surfMB o + o_intMB o /\
  o_surfMB o = o_SNOWFALL o - o_surfM o + o_SUBLIMATION o + o_DEPOSITION o + o_EVAPORATION o /\
  o_intMB o = o_REFREEZE o - o_subM o /\
  0 <= o_ME o /\ 0 <= o_surfM o /\
  o_surfM o * (1000 * c_lat_heat_melting c) = o_ME o * dt /\
  s_MB_cum s' = s_MB_cum s + o_MB o.
Proof. exact step_balance_lem. Qed.
Print Assumptions step_balance.

(** C40.  Over a whole run the cumulative balance is its start value plus the sum of the
    balances of all steps, and there is one output per step. *)
Theorem run_balance :
  forall fuel c sw sv dt ml z d inp count t s s' os,
  core_loop fuel c sw sv (dt, ml, z) d inp count t s = Ok (s', os) ->
  length os = count /\ s_MB_cum s' = s_MB_cum s + sum_outputs o_MB os.
Proof. exact run_balance_lem. Qed.
Print Assumptions run_balance.

(** C40.  The same for a complete run of one grid cell: nt outputs, cumulative balance equal to
    the sum of the balances. *)
Theorem cell_run_balance :
  forall fuel c sw sv d restart s os r,
  sw_WRF_X_CSPY sw = false ->
  cosipy_core fuel c sw sv d restart = Ok (s, os, r) ->
  length os = nt d /\ s_MB_cum s = sum_outputs o_MB os /\ r <> None.
Proof. exact cell_run_balance_lem. Qed.
Print Assumptions cell_run_balance.

(** C17.  The snow clock over one step, for every step that does not raise: with an accepted
    snowfall the fresh snow is 0 s old and the old snow gets the age the fresh snow had at
    the end of the previous step; without, both ages grow by the time step.  The reported
    ages are those of the grid, the invariant is kept, the layer counter stays right. *)
Theorem snow_clock_step :
  forall fuel c sw sv dt ml z d inp t s s' o,
  constants_ok c -> 0 < c_constant_density c -> 0 <= dt ->
  counted (s_grid s) -> clock_ok (s_grid s) ->
  core_step fuel c sw sv (dt, ml, z) d inp t s = Ok (s', o) ->
  counted (s_grid s') /\ clock_ok (s_grid s') /\
  (snowed o -> ages (s_grid s') = (0, g_new_snow_timestamp (s_grid s))) /\
  (~ snowed o -> ages (s_grid s')
     = (g_new_snow_timestamp (s_grid s) + dt, g_old_snow_timestamp (s_grid s) + dt)) /\
  (o_new_snow_timestamp o, o_old_snow_timestamp o) = ages (s_grid s') /\
  o_NLAYERS o = Z.of_nat (length (g_nodes (s_grid s'))).
Proof. exact snow_clock_step_lem. Qed.
Print Assumptions snow_clock_step.

(** C17.  The snow clock over any history of steps: if the last accepted snowfall was in step
    [o] and [after] are the steps since, the age of the fresh snow is exactly the number of
    steps since times the time step, and the age of the old snow is the age the fresh snow
    had before that snowfall plus the same time.  Without any snowfall both ages have grown
    by the whole time. *)
Theorem snow_clock_history :
  forall fuel c sw sv dt ml z d inp count t s s' os,
  constants_ok c -> 0 < c_constant_density c -> 0 <= dt ->
  counted (s_grid s) -> clock_ok (s_grid s) ->
  core_loop fuel c sw sv (dt, ml, z) d inp count t s = Ok (s', os) ->
  clock_ok (s_grid s') /\
  (forall before o after, os = before ++ o :: after -> snowed o -> Forall (fun o => ~ snowed o) after ->
     exists s1, core_loop fuel c sw sv (dt, ml, z) d inp (length before) t s = Ok (s1, before) /\
       g_new_snow_timestamp (s_grid s') = INR (length after) * dt /\
       g_old_snow_timestamp (s_grid s') = g_new_snow_timestamp (s_grid s1) + INR (length after) * dt) /\
  (Forall (fun o => ~ snowed o) os ->
     g_new_snow_timestamp (s_grid s') = g_new_snow_timestamp (s_grid s) + INR count * dt /\
     g_old_snow_timestamp (s_grid s') = g_old_snow_timestamp (s_grid s) + INR count * dt).
Proof. exact snow_clock_history_lem. Qed.
Print Assumptions snow_clock_history.

(** C17.  Finding: the age handed to the old snow is not advanced by the time step of the
    snowfall itself; when it snows in two successive steps the first snow, one time step
    old, is reported as 0 s old. *)
Theorem old_snow_lags :
  forall fuel c sw sv dt ml z d inp t s s1 s2 o1 o2,
  constants_ok c -> 0 < c_constant_density c -> 0 <= dt ->
  counted (s_grid s) -> clock_ok (s_grid s) ->
  core_step fuel c sw sv (dt, ml, z) d inp t s = Ok (s1, o1) -> snowed o1 ->
  core_step fuel c sw sv (dt, ml, z) d inp (t + 1) s1 = Ok (s2, o2) -> snowed o2 ->
  o_old_snow_timestamp o2 = 0.
Proof. exact old_snow_lags_lem. Qed.
Print Assumptions old_snow_lags.

(** C42.  The water budget of melt, percolation and refreezing, for every column with positive
    heights and ice contents, whenever nothing raises.  If something is melted or sublimated
    away, the layers [gone] vanish and the next one loses height; ice and water after, plus
    runoff, equal ice and water before plus rain, condensation, sublimation and deposition
    plus two residuals: the liquid water of the vanished layers is counted twice (once as
    part of their density, once as percolating water), and the air in the lost pores counts
    as water. *)
Theorem water_step_budget :
  forall fuel c g melt m rain g' Q wr,
  constants_ok c -> counted g -> column_good (g_nodes g) ->
  water_step fuel c g melt m rain = Ok (g', Q, wr) ->
  0 <= melt - m_sublimation m - m_deposition m ->
  exists gone x x' below,
    g_nodes g = gone ++ x :: below /\ only_height x x' /\ 0 < n_height x' <= n_height x /\
    length (g_nodes g') = S (length below) /\
    column_height (g_nodes g') = column_height (x' :: below) /\
    column_mass c (g_nodes g') + c_water_density c * Q
    = column_mass c (g_nodes g)
      + c_water_density c * (rain / 1000 + m_condensation m + m_sublimation m + m_deposition m)
      + c_water_density c * column_water gone
      + c_air_density c * (column_air (g_nodes g) - column_air (x' :: below)).
Proof. exact water_step_budget_lem. Qed.
Print Assumptions water_step_budget.

(** C41,C42.  If deposition exceeds melt, nothing is removed and nothing is deposited either:
    the column gains only melt water, condensation and rain; it is exactly what it would be
    for any other such deposition, so the deposited mass, which the mass balance counts, is
    never stored. *)
Theorem deposition_never_stored :
  forall fuel c g melt m rain g' Q wr,
  constants_ok c -> counted g -> column_good (g_nodes g) ->
  water_step fuel c g melt m rain = Ok (g', Q, wr) ->
  melt - m_sublimation m - m_deposition m < 0 ->
  length (g_nodes g') = length (g_nodes g) /\
  column_height (g_nodes g') = column_height (g_nodes g) /\
  column_mass c (g_nodes g') + c_water_density c * Q
    = column_mass c (g_nodes g) + c_water_density c * (rain / 1000 + m_condensation m + melt) /\
  forall m2, m_condensation m2 = m_condensation m ->
    melt - m_sublimation m2 - m_deposition m2 < 0 ->
    exists g2, water_step fuel c g melt m2 rain = Ok (g2, Q, wr) /\ same_layers g' g2.
Proof. exact deposition_never_stored_lem. Qed.
Print Assumptions deposition_never_stored.

(** C43.  Exactly which exception is raised.  With snowfall but no total precipitation the
    first comparison of the rain, which was never assigned, raises TypeError; without both
    (also: snowfall only together with force_use_TP) the step raises ValueError.  The state
    plays no role. *)
Theorem missing_rain_raises :
  forall fuel c sw sv settings d inp t s T2 U2 rho,
  py_get (d_T2 d) t = Ok T2 -> py_get (d_U2 d) t = Ok U2 ->
  fresh_snow_density c T2 U2 = Ok rho -> i_RRR inp = None ->
  (forall l x, i_SNOWF inp = Some l -> py_get l t = Ok x ->
     core_step fuel c sw sv settings d inp t s = Err TypeError) /\
  (i_SNOWF inp = None -> core_step fuel c sw sv settings d inp t s = Err ValueError).
Proof. exact missing_rain_raises_lem. Qed.
Print Assumptions missing_rain_raises.

(** C43.  What the switches make of the variables present: force_use_TP ignores snowfall,
    force_use_N ignores longwave radiation, and without the variable used instead nothing is
    left; neither of the two raises AttributeError. *)
Theorem inputs_selected :
  forall c sw d,
  (d_SNOWFALL d = None -> d_RRR d = None -> select_inputs c sw d = Err AttributeError) /\
  (d_LWin d = None -> d_N d = None -> select_inputs c sw d = Err AttributeError) /\
  (forall inp, select_inputs c sw d = Ok inp ->
     i_RRR inp = option_map (map (fun x => x * c_mult_factor_RRR c)) (d_RRR d) /\
     i_SNOWF inp = (if sw_force_use_TP sw then None
                    else option_map (map (fun x => x * c_mult_factor_RRR c)) (d_SNOWFALL d)) /\
     i_LWin inp = (if sw_force_use_N sw then None else d_LWin d) /\
     i_N inp = d_N d /\
     i_SLOPE inp = match d_SLOPE d with Some s => s | None => 0 end).
Proof. exact inputs_selected_lem. Qed.
Print Assumptions inputs_selected.

(** C43.  Without total precipitation no cell with at least one time step is ever computed,
    whatever the other data, the switches, the constants and the start (initial column or
    restart file). *)
Theorem no_run_without_RRR :
  forall fuel c sw sv d restart r,
  d_RRR d = None -> (0 < nt d)%nat -> cosipy_core fuel c sw sv d restart <> Ok r.
Proof. exact no_run_without_RRR_lem. Qed.
Print Assumptions no_run_without_RRR.

(** C43.  Likewise for longwave radiation given as LWin only together with force_use_N: no step
    ever succeeds. *)
Theorem no_step_without_longwave :
  forall fuel c sw sv settings d inp t s r,
  i_LWin inp = None -> i_N inp = None -> core_step fuel c sw sv settings d inp t s <> Ok r.
Proof. exact no_step_without_longwave_lem. Qed.
Print Assumptions no_step_without_longwave.
