(** * Penetrating shortwave radiation (cosipy/modules/penetratingRadiation.py) *)
From Verif Require Import ModelPy ModelConstants ModelNode ModelGrid.

(** numpy.diff *)
Definition np_diff (l : list R) : list R := map2 (fun a b => b - a) l (tl l).

(** penetratingRadiation.py:62-68: the penetrating part of the radiation and the
    flux absorbed at each node; [depth] starts with 0 *)
Definition absorbed_flux (c : Consts) (top_density SWnet : R) (depth : list R) : R * list R :=
  let snow := Rleb top_density (c_snow_ice_threshold c) in
  let Si := SWnet * (if snow then 0.1 else 0.2) in
  let decay := map (fun z => exp ((if snow then 17.1 else 2.5) * - z)) depth in
  (Si, map (fun d => Si * Rabs d) (np_diff decay)).

(** penetratingRadiation.py:75-119: one pass; the state is the grid, the list of
    layers to remove and the subsurface melt *)
Definition bintanja_body (c : Consts) (E : list R) (A dt : R) (i : Z) (s : Grid * list Z * R)
  : res (Grid * list Z * R) :=
  let '(g, removed, melt) := s in
  t <- get_node_temperature g i ;;
  e <- py_get E i ;;
  rho <- get_node_density c g i ;;
  a <- fdiv e (rho * c_spec_heat_ice c) ;;
  h <- get_node_height g i ;;
  b <- fdiv dt h ;;
  let T_rad := t + a * b in
  if Rltb (c_zero_temperature c) T_rad then
    let dT := T_rad - c_zero_temperature c in
    f <- get_node_ice_fraction g i ;;
    let dtheta_w := A * dT * f in
    q <- fdiv (c_water_density c) (c_ice_density c) ;;
    let dtheta_i := q * - dtheta_w in
    dh <- fdiv (- dtheta_i) f ;;
    if Rleb 1 dh then
      h' <- get_node_height g i ;;
      Ok (g, removed ++ [i], melt + dtheta_w * h')
    else
      w <- get_node_lwc g i ;;
      g1 <- set_node_lwc g i (w + dtheta_w) ;;
      w1 <- get_node_lwc g1 i ;;
      h1 <- get_node_height g1 i ;;
      let LWC_temp := w1 * h1 in
      g2 <- set_node_temperature g1 i (c_zero_temperature c) ;;
      h2 <- get_node_height g2 i ;;
      g3 <- set_node_height g2 i ((1 - dh) * h2) ;;
      h3 <- get_node_height g3 i ;;
      w3 <- fdiv LWC_temp h3 ;;
      g4 <- set_node_lwc g3 i w3 ;;
      h4 <- get_node_height g4 i ;;
      Ok (g4, removed, melt + dtheta_w * h4)
  else
    g1 <- set_node_temperature g i T_rad ;;
    Ok (g1, removed, melt).

(** penetratingRadiation.py:41-126: grid, subsurface melt, penetrating radiation *)
Definition method_Bintanja (c : Consts) (g : Grid) (SWnet dt : R) : res (Grid * R * R) :=
  d <- get_depth g ;;
  rho0 <- get_node_density c g 0 ;;
  let '(Si, E) := absorbed_flux c rho0 SWnet (0 :: d) in
  A <- fdiv (c_spec_heat_ice c * c_ice_density c) (c_water_density c * c_lat_heat_melting c) ;;
  s <- for_range 0 (g_number_nodes g - 1) (bintanja_body c E A dt) (g, [], 0) ;;
  let '(g1, removed, melt) := s in
  g2 <- match removed with [] => Ok g1 | _ => remove_node g1 (Some removed) end ;;
  Ok (g2, melt, Si).

(** penetratingRadiation.py:15-38 *)
Definition penetrating_radiation (c : Consts) (g : Grid) (SWnet dt : R) : res (Grid * R * R) :=
  if String.eqb (c_penetrating_method c) "Bintanja95"%string then method_Bintanja c g SWnet dt
  else Err ValueError.
