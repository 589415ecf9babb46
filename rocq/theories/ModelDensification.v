(** * Snow densification (cosipy/modules/densification.py) *)
From Verif Require Import ModelPy ModelConstants ModelNode ModelGrid.

(** densification.py:82-103: copies of the profiles, taken before any change *)
Record profiles : Type := mkProfiles {
  p_height : list R; p_rho : list R; p_t : list R; p_lwc : list R; p_icf : list R
}.
Definition copy_layer_profiles (c : Consts) (g : Grid) : res profiles :=
  h <- get_height g ;;
  rho <- get_density c g ;;
  t <- get_temperature g ;;
  w <- get_liquid_water_content g ;;
  f <- get_ice_fraction g ;;
  Ok (mkProfiles h rho t w f).

(** densification.py:52-79: whether the warning is printed; the printing itself
    is not modelled *)
Definition log_fraction_warning (g : Grid) (idx : Z) : res bool :=
  f <- get_node_ice_fraction g idx ;;
  w <- get_node_lwc g idx ;;
  p <- get_node_porosity g idx ;;
  Ok (Rltb 1 (f + w + p)).

(** densification.py:138-141 and 206-210: what is added to the accumulated load
    at node [i]; [w] is the weight of a height of snow *)
Definition load_above (p : profiles) (i : Z) : res R :=
  if (0 <? i)%Z then
    (r <- py_get (p_rho p) (i - 1) ;; h <- py_get (p_height p) (i - 1) ;; Ok (r * h))
  else
    (r <- py_get (p_rho p) 0 ;; h <- py_get (p_height p) 0 ;; Ok (r * (h / 2))).

(** densification.py:133-166: one pass; the state is the grid and M_s *)
Definition boone_body (c : Consts) (p : profiles) (dt : R) (i : Z) (s : Grid * R)
  : res (Grid * R) :=
  let '(g, M_s) := s in
  rho <- py_get (p_rho p) i ;;
  h <- py_get (p_height p) i ;;
  if Rltb rho (c_snow_ice_threshold c) && Rltb (c_minimum_snow_layer_height c) h then
    a <- load_above p i ;;
    let M_s := M_s + a in
    t <- py_get (p_t p) i ;;
    let eta := 3.7e7 * exp (0.081 * (c_zero_temperature c - t) + 0.018 * rho) in
    q <- fdiv (M_s * 9.81) eta ;;
    let dRho := (q + 2.8e-6 * exp (- 0.042 * (c_zero_temperature c - t)
                                   - 0.046 * Rmax 0 (rho - 150))) * dt in
    w <- py_get (p_lwc p) i ;;
    f <- py_get (p_icf p) i ;;
    let dtheta_i := if Reqb w 0 then dRho else dRho / 2 in
    let dtheta_w := if Reqb w 0 then 0 else dRho / 2 in
    g1 <- set_node_ice_fraction g i ((1 + dtheta_i) * f) ;;
    g2 <- set_node_lwc g1 i ((1 + dtheta_w) * w) ;;
    g3 <- set_node_height g2 i ((1 - dRho) * h) ;;
    log_fraction_warning g3 i ;;
    Ok (g3, M_s)
  else Ok (g, M_s).

(** densification.py:106-166; SLOPE is unused *)
Definition method_Boone (c : Consts) (g : Grid) (dt : R) : res Grid :=
  p <- copy_layer_profiles c g ;;
  k <- get_number_snow_layers c g ;;
  s <- for_range 0 k (boone_body c p dt) (g, 0) ;;
  Ok (fst s).

(** densification.py:195-235: one pass; the state is the grid and sigma.  The
    function is not compiled; its divisors (a layer height above the minimum and
    a viscosity) are nonzero on all inputs considered. *)
Definition vionnet_body (c : Consts) (p : profiles) (slope dt : R) (i : Z) (s : Grid * R)
  : res (Grid * R) :=
  let '(g, sigma) := s in
  rho <- py_get (p_rho p) i ;;
  h <- py_get (p_height p) i ;;
  if Rltb rho (c_snow_ice_threshold c) && Rltb (c_minimum_snow_layer_height c) h then
    w <- py_get (p_lwc p) i ;;
    t <- py_get (p_t p) i ;;
    q <- fdiv w h ;;
    f1 <- fdiv 1 (1 + 60 * q) ;;
    let eta := f1 * 1 * 7.62237e6 * (rho / 250) * exp (0.1 * (273.14 - t) + 0.023 * rho) in
    a <- load_above p i ;;
    let sigma := sigma + 9.81 * cos slope * a in
    r <- fdiv (- sigma) eta ;;
    let dD := r * dt in
    f <- py_get (p_icf p) i ;;
    let dtheta_i := if Reqb w 0 then - dD else - dD / 2 in
    let dtheta_w := if Reqb w 0 then 0 else - dD / 2 in
    g1 <- set_node_ice_fraction g i ((1 + dtheta_i) * f) ;;
    g2 <- set_node_lwc g1 i ((1 + dtheta_w) * w) ;;
    g3 <- set_node_height g2 i ((1 + dD) * h) ;;
    log_fraction_warning g3 i ;;
    Ok (g3, sigma)
  else Ok (g, sigma).

(** densification.py:170-235 *)
Definition method_Vionnet (c : Consts) (g : Grid) (slope dt : R) : res Grid :=
  p <- copy_layer_profiles c g ;;
  k <- get_number_snow_layers c g ;;
  s <- for_range 0 k (vionnet_body c p slope dt) (g, 0) ;;
  Ok (fst s).

(** densification.py:255-265: one pass; [rho] is the copied density profile.  The
    last line reads the density after the ice fraction has been changed. *)
Definition empirical_body (c : Consts) (rho : list R) (dt : R) (i : Z) (g : Grid) : res Grid :=
  d <- get_node_density c g i ;;
  let dRho := (1 / 8.0e5) * (600 - d) * dt in
  q <- fdiv dRho d ;;
  if Rltb (1 - q) 1 then
    r <- py_get rho i ;;
    f <- fdiv (600 + (r - 600) * exp (- dt / 8.0e5)) (c_ice_density c) ;;
    g1 <- set_node_ice_fraction g i f ;;
    d1 <- get_node_density c g1 i ;;
    q1 <- fdiv dRho d1 ;;
    h <- get_node_height g1 i ;;
    set_node_height g1 i ((1 - q1) * h)
  else Ok g.

(** densification.py:238-265; SLOPE is unused *)
Definition method_empirical (c : Consts) (g : Grid) (dt : R) : res Grid :=
  rho <- get_density c g ;;
  k <- get_number_snow_layers c g ;;
  for_range 0 k (empirical_body c rho dt) g.

(** densification.py:13-48 *)
Definition densification (c : Consts) (g : Grid) (slope dt : R) : res Grid :=
  let m := c_densification_method c in
  if String.eqb m "Boone"%string then method_Boone c g dt
  else if String.eqb m "Vionnet"%string then method_Vionnet c g slope dt
  else if String.eqb m "empirical"%string then method_empirical c g dt
  else if String.eqb m "constant"%string then Ok g
  else Err ValueError.
