(** * Surface temperature, turbulent fluxes and ground heat flux (C32, C34-C37, C61, C62)

    Theorems only; the proofs are in LemFinSurface.v and the files it uses. *)

From Verif Require Import ModelPy ModelConstants ModelNode ModelGrid ModelSurface Spec SpecSurface.
From Verif Require Import LemFinSurface.

(** C36.  The code computes the published formula, which is positive and strictly increasing
    for all temperatures above 0.55 K; both branches give 6.112 hPa at the melting point. *)
Theorem saturation_pressure :
  forall T T' : R, 0.55 < T < T' ->
  method_EW_Sonntag T = Ok (sonntag T) /\ 0 < sonntag T < sonntag T' /\
  sonntag 273.16 = 6.112 /\
  6.112 * exp (22.46 * (273.16 - 273.16) / (273.16 - 0.55)) = sonntag 273.16.
Proof. exact saturation_pressure_lem. Qed.
Print Assumptions saturation_pressure.

(** C35.  With either stability correction: whenever eb_fluxes answers, sensible and latent heat
    flow from high to low temperature and moisture, emitted radiation is negative and rain
    brings heat exactly if it is warmer than the surface. *)
Theorem fluxes_down_gradient :
  forall (c : Consts) (wrf : bool) (g : Grid) (T0 : R) (a : Atm) (B : R * R) (f : Fluxes),
  flux_constants_ok c -> forcing_ok c a T0 -> eb_fluxes c wrf g T0 a B = Ok f ->
  (T0 <= a_T2 a -> 0 <= f_H f /\ 0 <= f_QRR f) /\ (a_T2 a <= T0 -> f_H f <= 0 /\ f_QRR f <= 0) /\
  (f_q0 f <= f_q2 f -> 0 <= f_LE f) /\ (f_q2 f <= f_q0 f -> f_LE f <= 0) /\
  f_Lo f < 0 /\ 0 < f_rho f /\ f_Li f = longwave_in c a.
Proof. exact fluxes_down_gradient_lem. Qed.
Print Assumptions fluxes_down_gradient.

(** C35.  With the Richardson correction eb_fluxes always answers; the answer is the bulk
    formula for every flux, and the turbulent fluxes are damped by a factor in [0,1] that is
    zero for Richardson numbers above 0.2. *)
Theorem richardson_fluxes_exact :
  forall (c : Consts) (wrf : bool) (g : Grid) (T0 : R) (a : Atm) (B : R * R)
  (top : Node) (below : list Node),
  flux_constants_ok c -> forcing_ok c a T0 -> c_stability_correction c = "Ri"%string -> g_nodes g = top :: below ->
  exists lam, layer_thermal_conductivity c top = Ok lam /\
    eb_fluxes c wrf g T0 a B = Ok (ri_fluxes c lam T0 a B) /\
    0 <= stability_factor (richardson (a_z a) T0 (a_T2 a) (a_u2 a)) <= 1 /\
    (0.2 < richardson (a_z a) T0 (a_T2 a) (a_u2 a) ->
       f_H (ri_fluxes c lam T0 a B) = 0 /\ f_LE (ri_fluxes c lam T0 a B) = 0).
Proof. exact richardson_fluxes_exact_lem. Qed.
Print Assumptions richardson_fluxes_exact.

(** C35.  The stability factor is not continuous: it jumps at 0.01. *)
Theorem stability_jump :
  stability_factor 0.01 = 1 /\
  forall Ri, 0.01 < Ri -> stability_factor Ri < 0.91.
Proof. exact stability_jump_lem. Qed.
Print Assumptions stability_jump.

(** C37.  The Monin-Obukhov iteration makes between two and seven passes, whatever the forcing;
    it ends because two successive sensible heat fluxes differ by less than 0.1 or because
    the seventh pass is done.  In stable or neutral air nothing in it can fail. *)
Theorem mo_terminates :
  forall (c : Consts) (wrf : bool) (a : Atm) (T0 rho Lv q0 q2 cs : R),
  0 < a_z0 a < a_z a ->
  mo_loop 8 c wrf a T0 rho Lv q0 q2 cs <> Err OutOfFuel /\
  (forall s, mo_loop 8 c wrf a T0 rho Lv q0 q2 cs = Ok s ->
    (2 <= mo_niter s <= 7)%nat /\
    exists before, mo_pass c wrf a T0 rho Lv q0 q2 cs before = Ok s /\
      ((exists H0, mo_H0 before = Some H0 /\ Rabs (H0 - mo_H s) < 0.1) \/ mo_niter s = 7%nat)) /\
  (0 <= rho -> 0 <= c_spec_heat_air c -> 0 <= a_u2 a -> 0 < a_T2 a -> T0 <= a_T2 a -> 0 <= cs ->
    exists s, mo_loop 8 c wrf a T0 rho Lv q0 q2 cs = Ok s).
Proof. exact mo_terminates_lem. Qed.
Print Assumptions mo_terminates.

(** C34.  The temperature at a depth between the lower boundaries of two neighbouring layers is
    the linear interpolation of their temperatures, hence between them. *)
Theorem subsurface_interpolation :
  forall (g : Grid) (zlt : R) (k : nat) (x y : Node),
  Forall (fun n => 0 < n_height n) (g_nodes g) ->
  nth_error (g_nodes g) k = Some x -> nth_error (g_nodes g) (S k) = Some y ->
  depth_to (g_nodes g) k <= zlt < depth_to (g_nodes g) (S k) ->
  exists t, get_subsurface_temperature g (cumsum (map n_height (g_nodes g))) zlt = Ok t /\
    t = n_temperature x + (n_temperature y - n_temperature x) * ((zlt - depth_to (g_nodes g) k) / n_height y) /\
    Rmin (n_temperature x) (n_temperature y) <= t <= Rmax (n_temperature x) (n_temperature y).
Proof. exact subsurface_interpolation_lem. Qed.
Print Assumptions subsurface_interpolation.

(** C34.  A column that does not reach below the interpolation depth raises IndexError. *)
Theorem subsurface_thin_column :
  forall (g : Grid) (zlt : R),
  Forall (fun n => 0 < n_height n) (g_nodes g) -> g_nodes g <> [] -> column_height (g_nodes g) <= zlt ->
  get_subsurface_temperature g (cumsum (map n_height (g_nodes g))) zlt = Err IndexError.
Proof. exact subsurface_thin_column_lem. Qed.
Print Assumptions subsurface_thin_column.

(** C34.  If the top layer is thicker than the interpolation depth the index -1 wraps: the
    temperature is extrapolated from the top layer away from the bottom layer. *)
Theorem subsurface_wraps :
  forall (g : Grid) (zlt : R) (top bottom : Node) (middle : list Node),
  Forall (fun n => 0 < n_height n) (g_nodes g) -> g_nodes g = top :: middle ++ [bottom] ->
  0 < zlt < n_height top ->
  get_subsurface_temperature g (cumsum (map n_height (g_nodes g))) zlt
  = Ok (n_temperature top + (n_temperature bottom - n_temperature top)
          * ((zlt - n_height top) / column_height (middle ++ [bottom]))).
Proof. exact subsurface_wraps_lem. Qed.
Print Assumptions subsurface_wraps.

(** C34.  So the interpolated temperature may be warmer than every layer and than melting. *)
Theorem subsurface_bounded_refuted :
  exists (g : Grid) (t : R),
  Forall (fun n => 0 < n_height n /\ n_temperature n < 273.16) (g_nodes g) /\
  get_subsurface_temperature g (cumsum (map n_height (g_nodes g))) 0.06 = Ok t /\ 273.16 < t.
Proof. exact subsurface_bounded_refuted_lem. Qed.
Print Assumptions subsurface_bounded_refuted.

(** C32.  Whatever the solvers do, the surface temperature is not above melting; exactly the
    temperature of the top layer changes, to the reported value; the reported fluxes are
    those of the reported temperature. *)
Theorem surface_never_above_melting :
  forall (c : Consts) (wrf : bool) newton minimize (g : Grid) (a : Atm) (SWnet : R)
  (g' : Grid) (fn : option number) (Ts : R) (f : Fluxes),
  update_surface_temperature c wrf newton minimize g a SWnet = Ok (g', fn, Ts, f) ->
  Ts <= c_zero_temperature c /\
  exists B top below, interp_subT c g = Ok B /\ g_nodes g = top :: below /\
    g' = with_nodes g (set_layer_temperature Ts top :: below) /\
    eb_fluxes c wrf g Ts a B = Ok f /\
    eb_optim c wrf g a SWnet B Ts = Ok (if root_finder c then flux_sum SWnet f else Rabs (flux_sum SWnet f)).
Proof. exact surface_never_above_melting_lem. Qed.
Print Assumptions surface_never_above_melting.

(** C32.  If Newton's method answers NaN, the surface is reported to be melting: no comparison
    with NaN notices it. *)
Theorem nan_becomes_melting :
  forall (c : Consts) (wrf : bool) newton minimize (g : Grid) (a : Atm) (SWnet : R)
  (g' : Grid) (fn : option number) (Ts : R) (f : Fluxes),
  c_sfc_temperature_method c = "Newton"%string -> (forall func guess, newton func guess = Ok None) ->
  update_surface_temperature c wrf newton minimize g a SWnet = Ok (g', fn, Ts, f) ->
  Ts = c_zero_temperature c.
Proof. exact nan_becomes_melting_lem. Qed.
Print Assumptions nan_becomes_melting.

(** C32.  The reported temperature is at least 220 K if the bounded minimiser respects its
    bounds and Newton's method does not answer NaN. *)
Theorem surface_lower_bound :
  forall (c : Consts) (wrf : bool) newton minimize (g : Grid) (a : Atm) (SWnet : R)
  (g' : Grid) (fn : option number) (Ts : R) (f : Fluxes),
  220 <= c_zero_temperature c -> respects_bounds minimize ->
  update_surface_temperature c wrf newton minimize g a SWnet = Ok (g', fn, Ts, f) ->
  220 <= Ts.
Proof. exact surface_lower_bound_lem. Qed.
Print Assumptions surface_lower_bound.

(** C61.  After a failed Newton search the fallback minimises the signed energy balance, not
    its absolute value.  Without wind and rain this pushes the temperature to the upper
    bound: the surface is reported to be melting for every forcing and every column, and
    no colder temperature has a more negative balance. *)
Theorem fallback_reports_melting :
  forall (c : Consts) (wrf : bool) newton minimize (g : Grid) (a : Atm) (SWnet : R)
  (g' : Grid) (fn : option number) (Ts : R) (f : Fluxes),
  flux_constants_ok c -> c_stability_correction c = "Ri"%string ->
  c_sfc_temperature_method c = "Newton"%string -> 220 <= c_zero_temperature c <= 330 ->
  layers_ok (g_nodes g) -> forcing_ok c a 330 -> a_u2 a = 0 -> a_rain a = 0 ->
  newton_fails newton -> finds_minimum minimize ->
  update_surface_temperature c wrf newton minimize g a SWnet = Ok (g', fn, Ts, f) ->
  Ts = c_zero_temperature c /\
  forall B T fT, interp_subT c g = Ok B -> 220 <= T < Ts -> eb_fluxes c wrf g T a B = Ok fT ->
    flux_sum SWnet f < flux_sum SWnet fT.
Proof. exact fallback_reports_melting_lem. Qed.
Print Assumptions fallback_reports_melting.

(** C62.  Parameterised incoming longwave radiation: the emissivity of the sky lies between
    that of the clear sky and the overcast value 0.984, for all cloud covers; so the
    radiation is positive. *)
Theorem longwave_emissivity :
  forall (c : Consts) (a : Atm) (N : R),
  0 <= N <= 1 -> 0 <= a_rH2 a -> 0 < a_T2 a -> a_LWin a = None -> a_N a = Some N -> 0 < c_sigma c ->
  Rmin (sky_emissivity (a_T2 a) (a_rH2 a) 0) 0.984 <= sky_emissivity (a_T2 a) (a_rH2 a) N
    <= Rmax (sky_emissivity (a_T2 a) (a_rH2 a) 0) 0.984 /\
  0 < longwave_in c a.
Proof. exact longwave_emissivity_lem. Qed.
Print Assumptions longwave_emissivity.

(** A concrete forcing and column meet the hypotheses of the flux and surface temperature
    theorems, and the calm one those of the fallback theorem. *)
Example surface_case :
  flux_constants_ok default_constants /\ forcing_ok default_constants ex_atm 265 /\
  Forall (fun n => 0 < n_height n) (g_nodes ex_surface_grid) /\
  depth_to (g_nodes ex_surface_grid) 0 <= 0.06 < depth_to (g_nodes ex_surface_grid) 1 /\
  flux_constants_ok default_newton /\ forcing_ok default_newton ex_calm 330 /\
  layers_ok (g_nodes ex_surface_grid) /\ newton_fails (fun _ _ => Err RuntimeError).
Proof. exact surface_case_lem. Qed.
