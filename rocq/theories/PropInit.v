(** * Initial snow pack and restart (C44, C45)

    Theorems only; the proofs are in LemFinInit.v and the files it uses. *)

From Verif Require Import ModelPy ModelConstants ModelNode ModelGrid ModelWater ModelHeat ModelDensification ModelRadiation ModelAlbedo ModelSurface ModelInit ModelCore Spec SpecCore SpecInit.
From Verif Require Import LemFinInit.

(** C45.  The initial column, for every snow height in the data (also missing or NaN), every air
    temperature and all constants with positive thicknesses and densities in range: at most
    five equal snow layers of the given total height (at least 10 cm each if there are more
    than one), ice layers of the configured thickness that fill the configured glacier height
    up to less than one layer, no liquid water, snow density between the configured top and
    bottom density (up to the density round-trip error), pure ice below, and temperatures
    on the straight line from the air temperature (at most melting) at the surface to the
    bottom temperature at the configured depth, taken at the lower boundary of each layer; a
    single snow layer thinner than 10 cm has the air temperature and the line starts below
    it. *)
Theorem initial_column :
  forall c snowheight T2,
  0 < c_air_density c -> c_air_density c <= c_ice_density c ->
  0 < c_initial_glacier_height c -> 0 < c_initial_glacier_layer_heights c ->
  0 <= c_initial_top_density_snowpack c <= c_ice_density c ->
  0 <= c_initial_bottom_density_snowpack c <= c_ice_density c ->
  let h := start_height c snowheight in
  let top := Rmin T2 (c_zero_temperature c) in
  let line := linear_temperature top (c_temperature_bottom c) (Rmax 0 h + c_initial_glacier_height c) in
  exists g snow ice,
    init_snowpack c snowheight T2 = Ok g /\ g_nodes g = snow ++ ice /\ counted g /\
    get_fresh_snow_props g = (0, 0, 0) /\
    (* heights *)
    column_height snow = Rmax 0 h /\ (length snow <= 5)%nat /\
    Forall (fun n => n_height n = h / INR (length snow) /\ 0 < n_height n) snow /\
    (0.1 <= h -> Forall (fun n => 0.1 <= n_height n) snow) /\
    Forall (fun n => n_height n = c_initial_glacier_layer_heights c) ice /\
    c_initial_glacier_height c - c_initial_glacier_layer_heights c < column_height ice
      <= c_initial_glacier_height c /\
    (* contents *)
    Forall (fun n => n_lwc n = 0 /\ n_refreeze n = 0) (snow ++ ice) /\
    Forall (fun n => Rmin (c_initial_top_density_snowpack c) (c_initial_bottom_density_snowpack c)
                       <= layer_density c n
                     <= Rmax (c_initial_top_density_snowpack c) (c_initial_bottom_density_snowpack c)
                        + c_air_density c * c_air_density c / c_ice_density c) snow /\
    Forall (fun n => n_ice n = 1 /\ layer_density c n = c_ice_density c) ice /\
    (* temperatures *)
    (h < 0.1 -> Forall (fun n => n_temperature n = top) snow /\ follows line 0 ice) /\
    (0.1 <= h -> follows line 0 (snow ++ ice)) /\
    Forall (fun n => between (n_temperature n) top (c_temperature_bottom c)) (snow ++ ice).
Proof. exact initial_column_lem. Qed.
Print Assumptions initial_column.

(** the shipped constants meet the hypotheses *)
Example initial_column_ex :
  let c := default_constants in
  0 < c_air_density c /\ c_air_density c <= c_ice_density c /\
  0 < c_initial_glacier_height c /\ 0 < c_initial_glacier_layer_heights c /\
  0 <= c_initial_top_density_snowpack c <= c_ice_density c /\
  0 <= c_initial_bottom_density_snowpack c <= c_ice_density c.
Proof. exact initial_column_ex_lem. Qed.

(** C44.  Saving and resuming, for every grid with a correct counter: if it has at most
    max_layers layers it is written; the loader of the code then always raises, because it
    looks for other variable names; a loader that used the written names would return exactly
    the same layers, counter and snow clock, the refreezing diagnostic being zero.  A grid
    with more layers is not written. *)
Theorem restart_round_trip :
  forall c g, counted g ->
  (g_number_nodes g <= c_max_layers c)%Z ->
  exists d, write_restart c g = Ok d /\
    load_snowpack c d = Err AttributeError /\
    exists g', load_snowpack_with written_names c d = Ok g' /\
      g_nodes g' = map (set_layer_refreeze 0) (g_nodes g) /\
      g_number_nodes g' = g_number_nodes g /\ same_clock g g'.
Proof. exact restart_round_trip_lem. Qed.
Print Assumptions restart_round_trip.

(** C44.  With more than max_layers layers the restart file is not written: ValueError. *)
Theorem restart_too_many_layers :
  forall c g, counted g ->
  (c_max_layers c < g_number_nodes g)%Z -> write_restart c g = Err ValueError.
Proof. exact restart_too_many_layers_lem. Qed.
Print Assumptions restart_too_many_layers.

(** C44.  What a step needs from the past: if two states agree in layers (up to the refreezing
    diagnostic), counter and snow clock, and in surface temperature and snow albedo unless
    the albedo is that of Oerlemans and Knap, then the step does the same on both: the same
    exception, or the same output and again states that agree.  The solvers are arbitrary. *)
Theorem resumed_step :
  forall fuel c sw sv settings d inp t s s',
  counted (s_grid s) -> resumes c s s' ->
  match core_step fuel c sw sv settings d inp t s, core_step fuel c sw sv settings d inp t s' with
  | Ok (s1, o1), Ok (s1', o1') => o1' = o1 /\ counted (s_grid s1) /\ resumes c s1 s1'
  | Err e, Err e' => e' = e
  | _, _ => False
  end.
Proof. exact resumed_step_lem. Qed.
Print Assumptions resumed_step.

(** C44.  The same for any number of steps. *)
Theorem resumed_run :
  forall fuel c sw sv settings d inp count t s s',
  counted (s_grid s) -> resumes c s s' ->
  match core_loop fuel c sw sv settings d inp count t s,
        core_loop fuel c sw sv settings d inp count t s' with
  | Ok (s1, os1), Ok (s1', os1') => os1' = os1 /\ counted (s_grid s1) /\ resumes c s1 s1'
  | Err e, Err e' => e' = e
  | _, _ => False
  end.
Proof. exact resumed_run_lem. Qed.
Print Assumptions resumed_run.

(** C44.  Stopping and resuming a run with the albedo of Oerlemans and Knap, for every split
    of the time axis: if the restart is written after n steps and read back under the names it
    was written with, then continuing with the rest of the forcing gives the same outputs as
    the uninterrupted run, or the same exception.  The optional inputs are selected alike. *)
Theorem interrupted_run :
  forall fuel c sw sv settings d inp n m s s1 os1,
  c_albedo_method c = "Oerlemans98"%string -> counted (s_grid s) ->
  select_inputs c sw d = Ok inp ->
  core_loop fuel c sw sv settings d inp n 0 s = Ok (s1, os1) ->
  (g_number_nodes (s_grid s1) <= c_max_layers c)%Z ->
  exists r g',
    write_restart c (s_grid s1) = Ok r /\
    load_snowpack_with written_names c r = Ok g' /\
    select_inputs c sw (later_data n d) = Ok (later_inputs n inp) /\
    match core_loop fuel c sw sv settings d inp (n + m) 0 s,
          core_loop fuel c sw sv settings (later_data n d) (later_inputs n inp) m 0
            (start_state c sw g') with
    | Ok (s2, os), Ok (s2', os2) => os = os1 ++ os2 /\ resumes c s2 s2'
    | Err e, Err e' => e' = e
    | _, _ => False
    end.
Proof. exact interrupted_run_lem. Qed.
Print Assumptions interrupted_run.

(** C44.  No run of the code can be resumed: the restart data of every run that ends make the
    next run of that cell raise AttributeError, whatever its forcing and settings. *)
Theorem restart_never_resumes :
  forall fuel c sw sv d restart s os r,
  cosipy_core fuel c sw sv d restart = Ok (s, os, Some r) ->
  forall fuel' sw' sv' d', cosipy_core fuel' c sw' sv' d' (Some r) = Err AttributeError.
Proof. exact restart_never_resumes_lem. Qed.
Print Assumptions restart_never_resumes.

(** C44.  With Bougamont's albedo the snow albedo and the surface temperature are not part of
    the restart: over snow without new snowfall the first resumed step continues the snow
    albedo of the interrupted run exactly if the decay from the stored values happens to
    equal the decay from the start values (270 K, fresh snow). *)
Theorem bougamont_restart :
  forall c sw g Ts a m (top : Node) (below : list Node) g1 al1 a1 g2 al2 a2,
  c_albedo_method c = "Bougamont05"%string -> sw_WRF_X_CSPY sw = false ->
  constants_ok c -> surface_constants_ok c -> counted g -> g_nodes g = top :: below ->
  0 < decay_timescale c Ts -> 0 < decay_timescale c 270 ->
  layer_density c top <= c_snow_ice_threshold c -> albedo_age c g <> 0 ->
  let s := mkState g Ts a m in
  let s' := start_state c sw g in
  updateAlbedo c (s_grid s) (s_surface_temperature s) (s_albedo_snow s) = Ok (g1, al1, a1) ->
  updateAlbedo c (s_grid s') (s_surface_temperature s') (s_albedo_snow s') = Ok (g2, al2, a2) ->
  (a1 = a2 <->
   (1 - 86400 / (decay_timescale c Ts * c_dt c)) * (a - c_albedo_firn c)
   = (1 - 86400 / (decay_timescale c 270 * c_dt c)) * (c_albedo_fresh_snow c - c_albedo_firn c)).
Proof. exact bougamont_restart_lem. Qed.
Print Assumptions bougamont_restart.
