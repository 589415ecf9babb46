(** * The time loop (cosipy/cpkernel/cosipy_core.py) *)
From Verif Require Import ModelPy ModelConstants ModelNode ModelGrid ModelWater ModelHeat
  ModelDensification ModelRadiation ModelAlbedo ModelSurface ModelInit.
From Coq Require Import Rtrigo_def.

(** ** Inputs *)

(** configuration switches read here (config.toml) *)
Record Switches : Type := mkSwitches {
  sw_WRF_X_CSPY : bool; sw_force_use_TP : bool; sw_force_use_N : bool; sw_full_field : bool
}.

(** scipy's solvers, see ModelSurface *)
Record Solvers : Type := mkSolvers {
  sv_newton : (R -> res R) -> R -> res number;
  sv_minimize : string -> (R -> res R) -> R -> R -> R -> res (number * number)
}.

(** the input of one grid cell; [None]: the variable is not in the dataset.  [d_coupled]
    carries DT, max_layers and ZLVL of a coupled run (cosipy_core.py:94-97). *)
Record Data : Type := mkData {
  d_T2 : list R; d_RH2 : list R; d_PRES : list R; d_G : list R; d_U2 : list R;
  d_SNOWFALL : option (list R); d_RRR : option (list R);
  d_LWin : option (list R); d_N : option (list R);
  d_SLOPE : option R; d_SNOWHEIGHT : option number;
  d_coupled : option (Z * Z * R)
}.

(** length of the time axis, taken from the air temperature *)
Definition nt (d : Data) : nat := length (d_T2 d).

(** what the loop works with after the checks of optional variables (cosipy_core.py:176-211).
    A missing optional variable is [None]; the arrays of None of lines 194-195 are dropped,
    the values passed on are None as in the code. *)
Record Inputs : Type := mkInputs {
  i_SNOWF : option (list R); i_RRR : option (list R);
  i_LWin : option (list R); i_N : option (list R); i_SLOPE : R
}.

(** cosipy_core.py:179-211; a missing variable that is used raises AttributeError *)
Definition select_inputs (c : Consts) (sw : Switches) (d : Data) : res Inputs :=
  let scale := map (fun x => x * c_mult_factor_RRR c) in
  '(snowf, rrr) <-
    (match d_SNOWFALL d, d_RRR d with
     | Some s, Some r => Ok (Some (scale s), Some (scale r))
     | Some s, None => Ok (Some (scale s), None)
     | None, Some r => Ok (None, Some (scale r))
     | None, None => Err AttributeError
     end) ;;
  let snowf' := if sw_force_use_TP sw then None else snowf in
  '(lwin, n) <-
    (match d_LWin d, d_N d with
     | Some l, Some n => Ok (Some l, Some n)
     | Some l, None => Ok (Some l, None)
     | None, Some n => Ok (None, Some n)
     | None, None => Err AttributeError
     end) ;;
  let lwin' := if sw_force_use_N sw then None else lwin in
  let slope := match d_SLOPE d with Some s => s | None => 0 end in
  Ok (mkInputs snowf' rrr lwin' n slope).

(** cosipy_core.py:94-97: time step, number of layers and measurement height *)
Definition run_settings (c : Consts) (sw : Switches) (d : Data) : res (R * Z * R) :=
  if sw_WRF_X_CSPY sw then
    match d_coupled d with
    | Some (dt, m, z) => Ok (IZR dt, m, z)
    | None => Err AttributeError
    end
  else Ok (c_dt c, c_max_layers c, c_z c).

(** element [t] of an optional array *)
Definition opt_get (l : option (list R)) (t : Z) : res (option R) :=
  match l with
  | None => Ok None
  | Some v => x <- py_get v t ;; Ok (Some x)
  end.

(** ** Parts of one step *)

(** cosipy_core.py:240-243; the root of a negative wind speed is NaN *)
Definition fresh_snow_density (c : Consts) (T2 U2 : R) : res R :=
  if String.eqb (c_densification_method c) "constant"%string then Ok (c_constant_density c)
  else if Rltb U2 0 then Err NotReal
  else Ok (Rmax (109 + 6 * (T2 - 273.16) + 26 * sqrt U2) 50).

(** cosipy_core.py:246-256: snowfall [m] and rain [mm]; rain stays None if only snowfall is
    given (line 185) *)
Definition snow_and_rain (c : Consts) (rho T2 : R) (snowf rrr : option R)
  : res (R * option R) :=
  match snowf, rrr with
  | Some s, Some r =>
      q <- fdiv rho (c_water_density c) ;; Ok (s, Some (r - s * q * 1000))
  | Some s, None => Ok (s, None)
  | None, Some r =>
      p <- fdiv (c_water_density c) rho ;;
      let s := (r / 1000) * p
               * (0.5 * (- tanh (((T2 - c_zero_temperature c) - c_center_snow_transfer_function c)
                                 * c_spread_snow_transfer_function c) + 1)) in
      q <- fdiv rho (c_water_density c) ;;
      Ok (s, Some (r - s * q * 1000))
  | None, None => Err ValueError
  end.

(** cosipy_core.py:259-264: thresholds; comparing None raises *)
Definition threshold_precipitation (c : Consts) (rho : R) (p : R * option R) : res (R * R) :=
  let '(s, r) := p in
  let s' := if Rltb s (c_minimum_snowfall c) then 0 else s in
  match r with
  | None => Err TypeError
  | Some r =>
      q <- fdiv rho (c_water_density c) ;;
      let r' := if Rltb r (c_minimum_snowfall c * q * 1000) then 0 else r in
      Ok (s', r')
  end.

(** cosipy_core.py:266-270 *)
Definition lay_snow (c : Consts) (g : Grid) (snowfall rho T2 dt : R) : Grid :=
  if Rltb 0 snowfall
  then add_fresh_snow c g snowfall rho (Rmin T2 (c_zero_temperature c)) 0 dt
  else set_fresh_snow_props_update_time g dt.

(** cosipy_core.py:297-301 *)
Definition shortwave_below (c : Consts) (g : Grid) (SWnet dt : R) : res (Grid * R * R) :=
  if Rltb 0 SWnet then penetrating_radiation c g SWnet dt else Ok (g, 0, 0).

(** sublimation, deposition, evaporation, condensation [m w.e.] *)
Record MassFluxes : Type := mkMassFluxes {
  m_sublimation : R; m_deposition : R; m_evaporation : R; m_condensation : R
}.

(** cosipy_core.py:327-336 *)
Definition mass_fluxes (c : Consts) (Ts LE dt : R) : res MassFluxes :=
  if Rltb Ts (c_zero_temperature c) then
    q <- fdiv LE (c_water_density c * c_lat_heat_sublimation c) ;;
    Ok (mkMassFluxes (Rmin q 0 * dt) (Rmax q 0 * dt) 0 0)
  else
    q <- fdiv LE (c_water_density c * c_lat_heat_vaporize c) ;;
    Ok (mkMassFluxes 0 0 (Rmin q 0 * dt) (Rmax q 0 * dt)).

(** cosipy_core.py:342-351 *)
Definition available_melt_energy (sw_net : R) (f : Fluxes) : R :=
  Rmax 0 (sw_net + f_Li f + f_Lo f + f_B f + f_QRR f + f_H f + f_LE f).

(** cosipy_core.py:357-368: melt removal, percolation, refreezing; returns grid, runoff and
    refrozen water *)
Definition water_step (fuel : nat) (c : Consts) (g : Grid) (melt : R) (m : MassFluxes) (RAIN : R)
  : res (Grid * R * R) :=
  '(g1, lwc_from_melted_layers) <-
    remove_melt_weq fuel c g (melt - m_sublimation m - m_deposition m) 0 ;;
  '(g2, Q) <- percolation g1 (melt + m_condensation m + RAIN / 1000 + lwc_from_melted_layers) ;;
  '(g3, water_refreezed) <- refreezing c g2 ;;
  Ok (g3, Q, water_refreezed).

(** layer profiles that are stored with full_field (cosipy_core.py:438-446) *)
Record LayerFields : Type := mkLayerFields {
  lf_HEIGHT : list R; lf_RHO : list R; lf_T : list R; lf_LWC : list R; lf_CC : list R;
  lf_POROSITY : list R; lf_ICE_FRACTION : list R; lf_IRREDUCIBLE_WATER : list R; lf_REFREEZE : list R
}.

(** cosipy_core.py:436-446 *)
Definition store_profiles (c : Consts) (max_layers : Z) (g : Grid) : res LayerFields :=
  if (max_layers <? get_number_layers g)%Z then Err ValueError
  else
    h <- get_height g ;; r <- get_density c g ;; t <- get_temperature g ;;
    w <- get_liquid_water_content g ;; cc <- get_cold_content c g ;; p <- get_porosity g ;;
    f <- get_ice_fraction g ;; i <- get_irreducible_water_content g ;; z <- get_refreeze g ;;
    Ok (mkLayerFields h r t w cc p f i z).

(** cosipy_core.py:470-476 (coupled run): only five profiles *)
Definition check_profiles (c : Consts) (max_layers : Z) (g : Grid) : res unit :=
  if (max_layers <? get_number_layers g)%Z then Err ValueError
  else
    h <- get_height g ;; r <- get_density c g ;; t <- get_temperature g ;;
    w <- get_liquid_water_content g ;; f <- get_ice_fraction g ;; Ok tt.

(** everything stored for one step (cosipy_core.py:406-433) *)
Record Output : Type := mkOutput {
  o_RAIN : R; o_SNOWFALL : R; o_LWin : R; o_LWout : R; o_H : R; o_LE : R; o_B : R; o_QRR : R;
  o_MB : R; o_surfMB : R; o_Q : R; o_SNOWHEIGHT : R; o_TOTALHEIGHT : R; o_TS : R;
  o_ALBEDO : R; o_NLAYERS : Z; o_ME : R; o_intMB : R; o_EVAPORATION : R; o_SUBLIMATION : R;
  o_CONDENSATION : R; o_DEPOSITION : R; o_REFREEZE : R; o_subM : R; o_Z0 : R; o_surfM : R;
  o_MOL : option R; o_new_snow_height : R; o_new_snow_timestamp : R; o_old_snow_timestamp : R;
  o_profiles : option LayerFields
}.

(** what a step hands to the next one *)
Record State : Type := mkState {
  s_grid : Grid; s_surface_temperature : R; s_albedo_snow : R; s_MB_cum : R
}.

(** ** One step (cosipy_core.py:229-476) *)
Definition core_step (fuel : nat) (c : Consts) (sw : Switches) (sv : Solvers)
  (settings : R * Z * R) (d : Data) (inp : Inputs) (t : Z) (s : State) : res (State * Output) :=
  let '(dt, max_layers, z) := settings in
  T2 <- py_get (d_T2 d) t ;;
  U2 <- py_get (d_U2 d) t ;;
  rho <- fresh_snow_density c T2 U2 ;;
  snowf <- opt_get (i_SNOWF inp) t ;;
  rrr <- opt_get (i_RRR inp) t ;;
  raw <- snow_and_rain c rho T2 snowf rrr ;;
  '(SNOWFALL, RAIN) <- threshold_precipitation c rho raw ;;
  let g1 := lay_snow c (s_grid s) SNOWFALL rho T2 dt in
  Gt <- py_get (d_G d) t ;;
  let G := Rmax Gt 0 in
  g2 <- update_grid fuel c g1 ;;
  '(g3, alpha, albedo_snow) <- updateAlbedo c g2 (s_surface_temperature s) (s_albedo_snow s) ;;
  z0 <- updateRoughness c g3 ;;
  let SWnet := G * (1 - alpha) in
  '(g4, subsurface_melt, G_penetrating) <- shortwave_below c g3 SWnet dt ;;
  let sw_net := SWnet - G_penetrating in
  RH2 <- py_get (d_RH2 d) t ;;
  PRES <- py_get (d_PRES d) t ;;
  lwin <- opt_get (i_LWin inp) t ;;
  n <- opt_get (i_N inp) t ;;
  '(g5, fn, Ts, f) <-
    update_surface_temperature c (sw_WRF_X_CSPY sw) (sv_newton sv) (sv_minimize sv) g4
      (mkAtm dt z z0 T2 RH2 PRES U2 RAIN (i_SLOPE inp) lwin n) sw_net ;;
  m <- mass_fluxes c Ts (f_LE f) dt ;;
  let melt_energy := available_melt_energy sw_net f in
  melt <- fdiv (melt_energy * dt) (1000 * c_lat_heat_melting c) ;;
  '(g8, Q, water_refreezed) <- water_step fuel c g5 melt m RAIN ;;
  g9 <- solveHeatEquation fuel c g8 dt ;;
  g10 <- densification c g9 (i_SLOPE inp) dt ;;
  ratio <- fdiv rho (c_water_density c) ;;
  let surfMB := SNOWFALL * ratio - melt + m_sublimation m + m_deposition m + m_evaporation m in
  let intMB := water_refreezed - subsurface_melt in
  let MB := surfMB + intMB in
  let MB_cum := s_MB_cum s + MB in
  snowheight <- get_total_snowheight c g10 ;;
  totalheight <- get_total_height g10 ;;
  let '(nsh, nst, ost) := get_fresh_snow_props g10 in
  profiles <-
    (if sw_WRF_X_CSPY sw then check_profiles c max_layers g10 ;; Ok None
     else if sw_full_field sw then p <- store_profiles c max_layers g10 ;; Ok (Some p)
     else Ok None) ;;
  Ok (mkState g10 Ts albedo_snow MB_cum,
      mkOutput RAIN (SNOWFALL * ratio) (f_Li f) (f_Lo f) (f_H f) (f_LE f) (f_B f) (f_QRR f)
        MB surfMB Q snowheight totalheight Ts alpha (get_number_layers g10) melt_energy intMB
        (m_evaporation m) (m_sublimation m) (m_condensation m) (m_deposition m) water_refreezed
        subsurface_melt z0 melt (f_MOL f) nsh nst ost profiles).

(** the loop over [count] steps from step [t] on *)
Fixpoint core_loop (fuel : nat) (c : Consts) (sw : Switches) (sv : Solvers)
  (settings : R * Z * R) (d : Data) (inp : Inputs) (count : nat) (t : Z) (s : State)
  : res (State * list Output) :=
  match count with
  | O => Ok (s, [])
  | S k =>
      '(s1, o) <- core_step fuel c sw sv settings d inp t s ;;
      '(s2, os) <- core_loop fuel c sw sv settings d inp k (t + 1)%Z s1 ;;
      Ok (s2, o :: os)
  end.

(** cosipy_core.py:213-220 *)
Definition start_state (c : Consts) (sw : Switches) (g : Grid) : State :=
  mkState g 270 (if sw_WRF_X_CSPY sw then c_albedo_firn c else c_albedo_fresh_snow c) 0.

(** cosipy_core.py:53-512 [cosipy_core] without stakes and without the pass-through of
    indY, indX.  A coupled run returns after the first step (line 478) and without restart
    data; without any step the loop variable is unbound when the restart is written. *)
Definition cosipy_core (fuel : nat) (c : Consts) (sw : Switches) (sv : Solvers) (d : Data)
  (restart : option dataset) : res (State * list Output * option dataset) :=
  settings <- run_settings c sw d ;;
  g <- (match restart with
        | None => T2_0 <- py_get (d_T2 d) 0 ;; init_snowpack c (d_SNOWHEIGHT d) T2_0
        | Some r => load_snowpack c r
        end) ;;
  inp <- select_inputs c sw d ;;
  let s := start_state c sw g in
  if sw_WRF_X_CSPY sw then
    '(s1, os) <- core_loop fuel c sw sv settings d inp (Nat.min 1 (nt d)) 0 s ;;
    Ok (s1, os, None)
  else
    '(s1, os) <- core_loop fuel c sw sv settings d inp (nt d) 0 s ;;
    if (nt d =? 0)%nat then Err UnboundLocalError
    else r <- write_restart c (s_grid s1) ;; Ok (s1, os, Some r).
