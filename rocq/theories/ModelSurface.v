(** * Surface temperature and fluxes (cosipy/modules/surfaceTemperature.py, secant.py) *)
From Verif Require Import ModelPy ModelConstants ModelNode ModelGrid.

(** ** numpy operations that do not raise but may leave the reals *)
(** division by a numpy array element *)
Definition adiv (a b : R) : res R := if Req_EM_T b 0 then Err NotReal else Ok (a / b).
(** [np.log] *)
Definition np_log (x : R) : res R := if Rlt_dec 0 x then Ok (ln x) else Err NotReal.
(** [np.power] with a fractional exponent, only used with positive exponents *)
Definition np_power (x y : R) : res R :=
  if Rlt_dec 0 x then Ok (Rpower x y)
  else if Req_EM_T x 0 then Ok 0 else Err NotReal.

(** ** secant.py *)

(** secant.py:34-52, the loop with [n] passes left.  [calls] counts the evaluations of
    [func]. *)
Fixpoint secant_loop (n : nat) (func : R -> res R) (tol rtol : R) (p p0 p1 q0 q1 : R)
  (calls : nat) : res (R * nat) :=
  match n with
  | O => Ok (p, calls)
  | S k =>
    if Reqb q1 q0 then
      if negb (Reqb p1 p0) then Err RuntimeError else Ok ((p1 + p0) / 2, calls)
    else
      p <- (if Rltb (Rabs q0) (Rabs q1) then
              a <- adiv (- q0) q1 ;; b <- adiv q0 q1 ;; adiv (a * p1 + p0) (1 - b)
            else
              a <- adiv (- q1) q0 ;; b <- adiv q1 q0 ;; adiv (a * p0 + p1) (1 - b)) ;;
      if Rleb (Rabs (p - p1)) (tol + rtol * Rabs p1) then Ok (p, calls)
      else
        q <- func p ;;
        secant_loop k func tol rtol p p1 p q1 q (S calls)
  end.

(** secant.py:7-52 *)
Definition secant (func : R -> res R) (x0 tol : R) (maxiter : nat) (x1 : option R) (rtol : R)
  : res (R * nat) :=
  if (maxiter =? 0)%nat then Err AssertionError
  else if Rleb tol 0 then Err AssertionError
  else
    let p0 := 1 * x0 in
    p1 <- (match x1 with
           | Some x1 => if Reqb x1 x0 then Err ValueError else Ok x1
           | None => let eps := 0.0001 in
                     let p1 := x0 * (1 + eps) in
                     Ok (p1 + (if Rleb 0 p1 then eps else - eps))
           end) ;;
    q0 <- func p0 ;;
    q1 <- func p1 ;;
    if Rltb (Rabs q1) (Rabs q0)
    then secant_loop maxiter func tol rtol 0 p1 p0 q1 q0 2
    else secant_loop maxiter func tol rtol 0 p0 p1 q0 q1 2.

(** ** surfaceTemperature.py *)

(** arguments of eb_fluxes that do not change during the search for the temperature *)
Record Atm : Type := mkAtm {
  a_dt : R; a_z : R; a_z0 : R; a_T2 : R; a_rH2 : R; a_p : R; a_u2 : R;
  a_rain : R; a_slope : R; a_LWin : option R; a_N : option R
}.

(** what eb_fluxes returns *)
Record Fluxes : Type := mkFluxes {
  f_Li : R; f_Lo : R; f_H : R; f_LE : R; f_B : R; f_QRR : R; f_rho : R; f_Lv : R;
  f_MOL : option R; f_Cs_t : R; f_Cs_q : R; f_q0 : R; f_q2 : R
}.

(** surfaceTemperature.py:558-574 [method_EW_Sonntag] *)
Definition method_EW_Sonntag (T : R) : res R :=
  if Rleb 273.16 T then
    q <- fdiv (17.67 * (T - 273.16)) (T - 29.66) ;; Ok (6.112 * exp q)
  else
    q <- fdiv (22.46 * (T - 273.16)) (T - 0.55) ;; Ok (6.112 * exp q).

(** surfaceTemperature.py:218-243 [get_saturation_vapor_pressure]; both branches do the same *)
Definition get_saturation_vapor_pressure (T_0 T_2 : R) : res (R * R) :=
  Ew <- method_EW_Sonntag T_2 ;; Ew0 <- method_EW_Sonntag T_0 ;; Ok (Ew, Ew0).

(** surfaceTemperature.py:413-451 [get_sensible_heat_flux], [get_latent_heat_flux] *)
Definition get_sensible_heat_flux (c : Consts) (rho Cs_t u2 dT cos_slope : R) : R :=
  rho * c_spec_heat_air c * Cs_t * u2 * dT * cos_slope.
Definition get_latent_heat_flux (rho Lv Cs_q u2 dq cos_slope : R) : R :=
  rho * Lv * Cs_q * u2 * dq * cos_slope.

(** surfaceTemperature.py:454-475 [phi_m_stable]; [wrf] is Config.WRF_X_CSPY *)
Definition phi_m_stable (wrf : bool) (z L : R) : res R :=
  zeta <- fdiv z L ;;
  if Rltb 0 zeta && Rleb zeta 1 then Ok (-5 * zeta)
  else if Rltb 1 zeta then
    if wrf then Ok (-5) else l <- np_log zeta ;; Ok ((1 - 5) * (1 + l) - zeta)
  else Ok 0.

(** surfaceTemperature.py:478-500 [phi_m] *)
Definition phi_m (wrf : bool) (z L : R) : res R :=
  if Rltb 0 L then phi_m_stable wrf z L
  else if Rltb L 0 then
    q <- fdiv (16 * z) L ;;
    x <- np_power (1 - q) 0.25 ;;
    l1 <- np_log ((1 + x) / 2) ;;
    l2 <- np_log ((1 + x ^ 2) / 2) ;;
    Ok (2 * l1 + l2 - 2 * atan x + PI / 2)
  else Ok 0.

(** surfaceTemperature.py:503-512 [phi_tq] *)
Definition phi_tq (wrf : bool) (z L : R) : res R :=
  if Rltb 0 L then phi_m_stable wrf z L
  else if Rltb L 0 then
    q <- fdiv (19.3 * z) L ;;
    x <- np_power (1 - q) 0.25 ;;
    l <- np_log ((1 + x ^ 2) / 2) ;;
    Ok (2 * l)
  else Ok 0.

(** surfaceTemperature.py:515-518 [ustar] *)
Definition ustar (wrf : bool) (u2 z z0 L : R) : res R :=
  r <- fdiv z z0 ;; l <- np_log r ;; f <- phi_m wrf z L ;; fdiv (0.41 * u2) (l - f).

(** surfaceTemperature.py:521-529 [MO] *)
Definition MO (c : Consts) (rho ust T2 H : R) : res R :=
  if negb (Reqb H 0) then adiv (rho * c_spec_heat_air c * ust ^ 3 * T2) (0.41 * 9.81 * H)
  else Ok 0.

(** variables of the Monin-Obukhov loop; [mo_H0 = None] is the initial [inf] *)
Record MOstate : Type := mkMO {
  mo_L : R; mo_H0 : option R; mo_optim : bool; mo_niter : nat;
  mo_H : R; mo_LE : R; mo_Cs_t : R; mo_Cs_q : R
}.

(** surfaceTemperature.py:333-361, one pass *)
Definition mo_pass (c : Consts) (wrf : bool) (a : Atm) (T0 rho Lv q0 q2 cos_slope : R)
  (s : MOstate) : res MOstate :=
  let z := a_z a in let z0 := a_z0 a in let L := mo_L s in
  ust <- ustar wrf (a_u2 a) z z0 L ;;
  f1 <- phi_tq wrf z L ;; f2 <- phi_tq wrf z0 L ;;
  let delta_phi_tq := f1 - f2 in
  r <- fdiv z z0 ;; lz <- np_log r ;;
  m1 <- phi_m wrf z L ;; m2 <- phi_m wrf z0 L ;;
  Cd <- fdiv (0.41 ^ 2) ((lz - m1 - m2) ^ 2) ;;
  rt <- fdiv z (z0 / 100) ;; lt <- np_log rt ;;
  Cs_t <- fdiv (0.41 * sqrt Cd) (lt - delta_phi_tq) ;;
  rq <- fdiv z (z0 / 10) ;; lq <- np_log rq ;;
  Cs_q <- fdiv (0.41 * sqrt Cd) (lq - delta_phi_tq) ;;
  let H := get_sensible_heat_flux c rho Cs_t (a_u2 a) (a_T2 a - T0) cos_slope in
  let LE := get_latent_heat_flux rho Lv Cs_q (a_u2 a) (q2 - q0) cos_slope in
  L' <- MO c rho ust (a_T2 a) H ;;
  let close := match mo_H0 s with None => false | Some H0 => Rltb (Rabs (H0 - H)) 0.1 end in
  let optim := negb (close || (5 <? mo_niter s)%nat) in
  Ok (mkMO L' (Some H) optim (S (mo_niter s)) H LE Cs_t Cs_q).

(** surfaceTemperature.py:325-361.  The fluxes of the initial state are never read. *)
Definition mo_loop (fuel : nat) (c : Consts) (wrf : bool) (a : Atm) (T0 rho Lv q0 q2 cos_slope : R)
  : res MOstate :=
  while_loop fuel (fun s => Ok (mo_optim s)) (mo_pass c wrf a T0 rho Lv q0 q2 cos_slope)
    (mkMO 0 None true 0 0 0 0 0).

(** surfaceTemperature.py:369-379, Richardson number and its correction factor *)
Definition ri_phi (a : Atm) (T0 : R) : res R :=
  Ri <- (if negb (Reqb (a_u2 a) 0)
         then adiv (9.81 * (a_T2 a - T0) * a_z a) (a_T2 a * a_u2 a ^ 2) else Ok 0) ;;
  Ok (if Rltb 0.01 Ri && Rleb Ri 0.2 then (1 - 5 * Ri) ^ 2
      else if Rltb 0.2 Ri then 0 else 1).

(** surfaceTemperature.py:246-410 [eb_fluxes] *)
Definition eb_fluxes (c : Consts) (wrf : bool) (g : Grid) (T0 : R) (a : Atm) (B_Ts : R * R)
  : res Fluxes :=
  '(Ew, Ew0) <- get_saturation_vapor_pressure T0 (a_T2 a) ;;
  let Lv := if Rleb (c_zero_temperature c) T0 then c_lat_heat_vaporize c
            else c_lat_heat_sublimation c in
  let Ea := (a_rH2 a * Ew) / 100 in
  Li <- (match a_LWin a, a_N a with
         | None, Some N =>
             q <- fdiv (100 * Ea) (a_T2 a) ;;
             pw <- np_power q (1 / 8) ;;
             let eps_cs := 0.23 + 0.433 * pw in
             let eps_tot := eps_cs * (1 - N ^ 2) + 0.984 * N ^ 2 in
             Ok (eps_tot * c_sigma c * a_T2 a ^ 4)
         | Some L, _ => Ok L
         | None, None => Err AttributeError    (* None.item() at the end *)
         end) ;;
  m2 <- fdiv Ew (a_p a - Ew) ;;
  m0 <- adiv Ew0 (a_p a - Ew0) ;;
  let q2 := (a_rH2 a * 0.622 * m2) / 100 in
  let q0 := (100 * 0.622 * m0) / 100 in
  rho <- fdiv (a_p a * 100) (287.058 * (a_T2 a * (1 + 0.608 * q2))) ;;
  let z0t := a_z0 a / 100 in
  let z0q := a_z0 a / 10 in
  let cos_slope := cos (a_slope a * PI / 180) in
  '(H, LE, L, Cs_t, Cs_q) <-
    (if String.eqb (c_stability_correction c) "MO"%string then
       s <- mo_loop 8 c wrf a T0 rho Lv q0 q2 cos_slope ;;
       Ok (mo_H s, mo_LE s, Some (mo_L s), mo_Cs_t s, mo_Cs_q s)
     else if String.eqb (c_stability_correction c) "Ri"%string then
       r <- fdiv (a_z a) (a_z0 a) ;; l <- np_log r ;;
       rt <- fdiv (a_z a) z0t ;; lt <- np_log rt ;;
       Cs_t <- fdiv (0.41 ^ 2) (l * lt) ;;
       rq <- fdiv (a_z a) z0q ;; lq <- np_log rq ;;
       Cs_q <- fdiv (0.41 ^ 2) (l * lq) ;;
       phi <- ri_phi a T0 ;;
       Ok (phi * get_sensible_heat_flux c rho Cs_t (a_u2 a) (a_T2 a - T0) cos_slope,
           phi * get_latent_heat_flux rho Lv Cs_q (a_u2 a) (q2 - q0) cos_slope,
           None, Cs_t, Cs_q)
     else Err ValueError) ;;
  let Lo := - c_surface_emission_coeff c * c_sigma c * T0 ^ 4 in
  lam <- (n <- get_node g 0 ;; layer_thermal_conductivity c n) ;;
  let hminus := c_zlt1 c in
  let hplus := c_zlt2 c - hminus in
  let '(Tz1, Tz2) := B_Ts in
  r1 <- fdiv hminus (hplus + hminus) ;;
  r2 <- fdiv (Tz2 - Tz1) hplus ;;
  r3 <- fdiv hplus (hplus + hminus) ;;
  r4 <- adiv (Tz1 - T0) hminus ;;
  let B := lam * (r1 * r2 + r3 * r4) in
  r <- fdiv (a_rain a / 1000) (a_dt a) ;;
  let QRR := c_water_density c * c_spec_heat_water c * r * (a_T2 a - T0) in
  Ok (mkFluxes Li Lo H LE B QRR rho Lv L Cs_t Cs_q q0 q2).

(** the sum of the fluxes in the order of eb_optim *)
Definition flux_sum (SWnet : R) (f : Fluxes) : R :=
  SWnet + f_Li f + f_Lo f + f_H f + f_LE f + f_B f + f_QRR f.

Definition root_finder (c : Consts) : bool :=
  String.eqb (c_sfc_temperature_method c) "Newton"%string
  || String.eqb (c_sfc_temperature_method c) "Secant"%string.

(** surfaceTemperature.py:533-555 [eb_optim] *)
Definition eb_optim (c : Consts) (wrf : bool) (g : Grid) (a : Atm) (SWnet : R) (B_Ts : R * R)
  (T0 : R) : res R :=
  f <- eb_fluxes c wrf g T0 a B_Ts ;;
  if root_finder c then Ok (flux_sum SWnet f) else Ok (Rabs (flux_sum SWnet f)).

(** index of the first minimum, [np.argmin]; ValueError for an empty array *)
Fixpoint argmin_from (best : R) (bi i : Z) (l : list R) : Z :=
  match l with
  | [] => bi
  | x :: t => if Rltb x best then argmin_from x i (i + 1) t else argmin_from best bi (i + 1) t
  end.
Definition argmin (l : list R) : res Z :=
  match l with [] => Err ValueError | x :: t => Ok (argmin_from x 0 1 t) end.

(** surfaceTemperature.py:170-198 [get_subsurface_temperature] *)
Definition get_subsurface_temperature (g : Grid) (cumulative_depth : list R) (zlt : R) : res R :=
  idx1 <- argmin (map (fun d => Rabs (d - zlt)) cumulative_depth) ;;
  depth <- py_get cumulative_depth idx1 ;;
  let idx2 := (if Rltb zlt depth then idx1 - 1 else idx1 + 1)%Z in
  n1 <- get_node g idx1 ;;
  n2 <- get_node g idx2 ;;
  d1 <- py_get cumulative_depth idx1 ;;
  d2 <- py_get cumulative_depth idx2 ;;
  q <- fdiv (n_temperature n1 - n_temperature n2) (d1 - d2) ;;
  Ok (n_temperature n1 + q * (zlt - d1)).

(** surfaceTemperature.py:201-215 [interp_subT] *)
Definition interp_subT (c : Consts) (g : Grid) : res (R * R) :=
  let cum := cumsum (map n_height (g_nodes g)) in
  t1 <- get_subsurface_temperature g cum (c_zlt1 c) ;;
  t2 <- get_subsurface_temperature g cum (c_zlt2 c) ;;
  Ok (t1, t2).

(** Results of the numerical solvers: [None] is NaN *)
Definition number := option R.

(** surfaceTemperature.py:131-147 [check_residual_clip]; NaN passes the comparison *)
Definition check_residual_clip (residual : number) (lower_bound : R) : res bool :=
  match residual with
  | Some x => if Rltb x lower_bound then Err ValueError else Ok true
  | None => Ok true
  end.

(** Python's [min(a, b)]: [b] if [b < a], else [a] *)
Definition py_min_nan (a : R) (b : number) : R :=
  match b with Some x => if Rltb x a then x else a | None => a end.

(** [try: m except (RuntimeError, ValueError): h] *)
Definition try_except {A : Type} (m h : res A) : res A :=
  match m with
  | Err RuntimeError => h
  | Err ValueError => h
  | _ => m
  end.

(** surfaceTemperature.py:150-167 [call_secant_jitted] *)
Definition call_secant_jitted (func : R -> res R) (initial_guess lower_bnd_ts : R) : res R :=
  '(x, _) <- secant func initial_guess 0.01 50 None 0 ;;
  if Rltb x lower_bnd_ts then Err ValueError else Ok x.

(** surfaceTemperature.py:25-128 [update_surface_temperature].  [newton func guess] and
    [minimize method func guess lower upper] stand for scipy's solvers, which are not
    modelled; [minimize] returns position and value.  Returns the grid, the value of the
    minimised function if any, the surface temperature and the fluxes. *)
Definition update_surface_temperature (c : Consts) (wrf : bool)
  (newton : (R -> res R) -> R -> res number)
  (minimize : string -> (R -> res R) -> R -> R -> R -> res (number * number))
  (g : Grid) (a : Atm) (SWnet : R) : res (Grid * option number * R * Fluxes) :=
  B_Ts <- interp_subT c g ;;
  let lower_bnd_ts := 220 in
  let upper_bnd_ts := 330 in
  top <- get_node g 0 ;;
  let initial_guess := Rmin (n_temperature top) 270 in
  let func := eb_optim c wrf g a SWnet B_Ts in
  let method := c_sfc_temperature_method c in
  '(x, fn) <-
    (if String.eqb method "L-BFGS-B"%string || String.eqb method "SLSQP"%string then
       '(x, v) <- minimize method func initial_guess lower_bnd_ts upper_bnd_ts ;; Ok (x, Some v)
     else if String.eqb method "Newton"%string then
       try_except
         (x <- newton func initial_guess ;; check_residual_clip x lower_bnd_ts ;; Ok (x, None))
         ('(x, v) <- minimize "SLSQP"%string func initial_guess lower_bnd_ts upper_bnd_ts ;; Ok (x, Some v))
     else if String.eqb method "Secant"%string then
       try_except
         (x <- call_secant_jitted func initial_guess lower_bnd_ts ;;
          check_residual_clip (Some x) lower_bnd_ts ;; Ok (Some x, None))
         ('(x, v) <- minimize "SLSQP"%string func initial_guess lower_bnd_ts (c_zero_temperature c) ;; Ok (x, Some v))
     else Err NotImplementedError) ;;
  let surface_temperature := py_min_nan (c_zero_temperature c) x in
  g' <- upd_node g 0 (set_layer_temperature surface_temperature) ;;
  f <- eb_fluxes c wrf g' surface_temperature a B_Ts ;;
  Ok (g', fn, surface_temperature, f).
