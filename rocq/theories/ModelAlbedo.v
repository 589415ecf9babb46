(** * Albedo (cosipy/modules/albedo.py) and roughness (cosipy/modules/roughness.py) *)
From Verif Require Import ModelPy ModelConstants ModelNode ModelGrid.

(** albedo.py:96-130 (the definition at 59-93 is identical and shadowed): returns the
    grid, whose snow clock may change, and height, timestamp and age in hours of the
    fresh snow *)
Definition get_surface_properties (c : Consts) (g : Grid) : Grid * (R * R * R) :=
  let '(h, t, _) := get_fresh_snow_props g in
  let hours := t / 3600 in
  if Rltb hours (c_albedo_mod_snow_aging c * 24) && Rleb h 0 then
    let g1 := set_fresh_snow_props_to_old_props g in
    let '(h1, t1, _) := get_fresh_snow_props g1 in
    (g1, (h1, t1, t1 / 3600))
  else (g, (h, t, hours)).

(** albedo.py:133-149 *)
Definition get_simple_albedo (c : Consts) (elapsed_time : R) : res R :=
  q <- fdiv (- elapsed_time) (c_albedo_mod_snow_aging c * 24) ;;
  Ok (c_albedo_firn c + (c_albedo_fresh_snow c - c_albedo_firn c) * exp q).

(** albedo.py:152-168 *)
Definition get_albedo_with_decay (c : Consts) (snow_albedo snow_height : R) : res R :=
  q <- fdiv (-1 * snow_height) (c_albedo_mod_snow_depth c / 100) ;;
  Ok (snow_albedo + (c_albedo_ice c - snow_albedo) * exp q).

(** albedo.py:171-195 *)
Definition method_Oerlemans (c : Consts) (g : Grid) : res (Grid * R) :=
  let '(g1, (_, _, hours)) := get_surface_properties c g in
  d <- get_node_density c g1 0 ;;
  if Rleb d (c_snow_ice_threshold c) then
    h <- get_total_snowheight c g1 ;;
    a <- get_simple_albedo c hours ;;
    m <- get_albedo_with_decay c a h ;;
    Ok (g1, m)
  else Ok (g1, c_albedo_ice c).

(** albedo.py:224-237 *)
Definition decay_timescale (c : Consts) (surface_temperature : R) : R :=
  if Rleb (c_zero_temperature c) surface_temperature then c_t_star_wet c
  else if Rltb surface_temperature (c_t_star_cutoff c)
  then c_t_star_dry c + (c_zero_temperature c - c_t_star_cutoff c) * c_t_star_K c
  else c_t_star_dry c + (c_zero_temperature c - surface_temperature) * c_t_star_K c.

(** albedo.py:198-263: grid, surface albedo, snow albedo *)
Definition method_Bougamont (c : Consts) (g : Grid) (surface_temperature albedo_snow : R)
  : res (Grid * R * R) :=
  let '(g1, (_, _, hours)) := get_surface_properties c g in
  let dt_days := c_dt c / 86400 in
  d <- get_node_density c g1 0 ;;
  if Rleb d (c_snow_ice_threshold c) then
    h <- get_total_snowheight c g1 ;;
    let t_star := decay_timescale c surface_temperature in
    let t_star_days := t_star * dt_days in
    let delta_albedo := albedo_snow - c_albedo_firn c in
    q <- fdiv delta_albedo t_star_days ;;
    let albedo_snow := albedo_snow - q in
    let albedo_snow := if Reqb hours 0 then c_albedo_fresh_snow c else albedo_snow in
    m <- get_albedo_with_decay c albedo_snow h ;;
    Ok (g1, m, albedo_snow)
  else Ok (g1, c_albedo_ice c, albedo_snow).

(** albedo.py:21-56 *)
Definition updateAlbedo (c : Consts) (g : Grid) (surface_temperature albedo_snow : R)
  : res (Grid * R * R) :=
  if String.eqb (c_albedo_method c) "Oerlemans98"%string then
    '(g1, a) <- method_Oerlemans c g ;; Ok (g1, a, albedo_snow)
  else if String.eqb (c_albedo_method c) "Bougamont05"%string then
    method_Bougamont c g surface_temperature albedo_snow
  else Err ValueError.

(** roughness.py:32-63 *)
Definition method_Moelg (c : Consts) (g : Grid) : res R :=
  let '(_, t, _) := get_fresh_snow_props g in
  let hours := t / 3600 in
  d <- get_node_density c g 0 ;;
  let sigma := if Rleb d (c_snow_ice_threshold c)
               then Rmin (c_roughness_fresh_snow c + c_aging_factor_roughness c * hours)
                         (c_roughness_firn c)
               else c_roughness_ice c in
  Ok (sigma / 1000).

(** roughness.py:4-29 *)
Definition updateRoughness (c : Consts) (g : Grid) : res R :=
  if String.eqb (c_roughness_method c) "Moelg12"%string then method_Moelg c g
  else Err ValueError.
