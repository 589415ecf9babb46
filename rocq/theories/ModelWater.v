(** * Percolation and refreezing (cosipy/modules/percolation.py, refreezing.py) *)
From Verif Require Import ModelPy ModelConstants ModelNode ModelGrid.

(** percolation.py:34-60: one pass of the loop over the nodes.  The irreducible
    water content may raise (division by an ice fraction of 0). *)
Definition percolation_body (i : Z) (g : Grid) : res Grid :=
  theta_e <- get_node_irreducible g i ;;
  theta_w <- get_node_lwc g i ;;
  let residual := Rmax (theta_w - theta_e) 0 in
  if Rltb 0 residual then
    g1 <- set_node_lwc g i theta_e ;;
    h <- get_node_height g1 i ;;
    w1 <- get_node_lwc g1 (i + 1) ;;
    h1 <- get_node_height g1 (i + 1) ;;
    q <- fdiv (residual * h) h1 ;;
    set_node_lwc g1 (i + 1) (w1 + q)
  else Ok g.

(** percolation.py:68-88 *)
Definition get_runoff (g : Grid) : res (Grid * R) :=
  let max_index := (g_number_nodes g - 1)%Z in
  w <- get_node_lwc g max_index ;;
  h <- get_node_height g max_index ;;
  g1 <- set_node_lwc g max_index 0 ;;
  Ok (g1, w * h).

(** percolation.py:6-64; [dt] is unused in the code.  Returns the grid and the
    runoff. *)
Definition percolation (g : Grid) (water : R) : res (Grid * R) :=
  h0 <- get_node_height g 0 ;;
  w <- fdiv water h0 ;;
  w0 <- get_node_lwc g 0 ;;
  g1 <- set_node_lwc g 0 (w0 + w) ;;
  g2 <- for_range 0 (g_number_nodes g1 - 1) percolation_body g1 ;;
  get_runoff g2.

(** refreezing.py:16-31 *)
Definition check_oob (ice_fraction lwc : R) : res unit :=
  if negb (Rleb 0 ice_fraction && Rleb ice_fraction 1) then Err ValueError
  else if negb (Rleb 0 lwc && Rleb lwc 1) then Err ValueError
  else Ok tt.

(** refreezing.py:115-117 *)
Definition phi_ice_max (c : Consts) : res R :=
  fdiv (c_snow_ice_threshold c - c_air_density c) (c_ice_density c - c_air_density c).

(** refreezing.py:126-169: the four limits and their minimum, for the ice
    fraction, water content and temperature of one node *)
Definition refreeze_limit (c : Consts) (phi_max : R) (ice_fraction lwc temperature : R) : res R :=
  ratio <- fdiv (c_ice_density c) (c_water_density c) ;;
  let dT_max := temperature - c_zero_temperature c in
  let by_density := Rmax ((phi_max - ice_fraction) * ratio) 0 in
  by_cold <- fdiv
    (- (dT_max * (ice_fraction * (c_spec_heat_ice c * c_ice_density c)
                  + lwc * c_water_density c * c_spec_heat_water c)))
    (c_water_density c
     * (c_lat_heat_melting c - dT_max * (c_spec_heat_ice c - c_spec_heat_water c))) ;;
  by_bulk <- fdiv
    (- (c_spec_heat_ice c * c_ice_density c * ice_fraction * dT_max))
    (c_water_density c * c_lat_heat_melting c) ;;
  Ok (Rmin (Rmin (Rmin lwc by_density) by_cold) by_bulk).

(** refreezing.py:122-194: one pass of the loop; [acc] is the refrozen water.
    The products computed before the loop (118-120) are written out in place. *)
Definition refreezing_body (c : Consts) (phi_max : R) (i : Z) (s : Grid * R) : res (Grid * R) :=
  let '(g, acc) := s in
  t <- get_node_temperature g i ;;
  w <- get_node_lwc g i ;;
  '(g1, dtheta_w) <-
    (if Rleb t (c_zero_temperature c) && Rltb 0 w then
       f <- get_node_ice_fraction g i ;;
       dtheta_w <- refreeze_limit c phi_max f w t ;;
       ratio <- fdiv (c_water_density c) (c_ice_density c) ;;
       let dtheta_i := ratio * dtheta_w in
       check_oob (f + dtheta_i) (w - dtheta_w) ;;
       g1 <- set_node_lwc g i (w - dtheta_w) ;;
       g2 <- set_node_ice_fraction g1 i (f + dtheta_i) ;;
       f2 <- get_node_ice_fraction g2 i ;;
       w2 <- get_node_lwc g2 i ;;
       dT <- fdiv (dtheta_w * (c_water_density c * c_lat_heat_melting c))
                  (c_spec_heat_ice c * c_ice_density c * f2
                   + c_spec_heat_water c * c_water_density c * w2) ;;
       g3 <- set_node_temperature g2 i (t + dT) ;;
       (if Rltb (t + dT) 0 then Err ValueError else Ok (g3, dtheta_w))
     else Ok (g, 0)) ;;
  h <- get_node_height g1 i ;;
  g2 <- set_node_refreeze g1 i (dtheta_w * h) ;;
  Ok (g2, acc + dtheta_w * h).

(** refreezing.py:35-196: returns the grid and the refrozen water [m w.e.] *)
Definition refreezing (c : Consts) (g : Grid) : res (Grid * R) :=
  phi_max <- phi_ice_max c ;;
  for_range 0 (g_number_nodes g) (refreezing_body c phi_max) (g, 0).
