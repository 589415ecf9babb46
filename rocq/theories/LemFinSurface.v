(** * Surface temperature, turbulent fluxes and ground heat flux (C32, C34-C37, C61, C62) *)
From Verif Require Import ModelPy ModelConstants ModelNode ModelGrid ModelSurface Spec SpecSurface LemPy
  LemGridBase LemDensification LemFinSecant LemSurface.

(** a concrete forcing and column *)
Definition ex_atm : Atm := mkAtm 3600 2 0.001 275 80 600 3 1 20 (Some 280) None.
Definition ex_calm : Atm := mkAtm 3600 2 0.001 230 50 600 0 0 0 (Some 60) None.
Definition ex_s1 : Node := mkNode 0.01 265 0 0.3 0.
Definition ex_s2 : Node := mkNode 0.08 263 0 0.4 0.
Definition ex_s3 : Node := mkNode 0.5 262 0 0.5 0.
Definition ex_surface_grid : Grid := mkGrid [ex_s1; ex_s2; ex_s3] 3 0 0 0.

(** ** C36 *)

(*@ C36 The code computes the published formula, which is positive and strictly increasing
    for all temperatures above 0.55 K; both branches give 6.112 hPa at the melting point. *)
Lemma saturation_pressure_lem : forall T T' : R, 0.55 < T < T' ->
  method_EW_Sonntag T = Ok (sonntag T) /\ 0 < sonntag T < sonntag T' /\
  sonntag 273.16 = 6.112 /\
  6.112 * exp (22.46 * (273.16 - 273.16) / (273.16 - 0.55)) = sonntag 273.16.
Proof.
  intros T T' H. split; [apply method_EW_ok; lra|]. split; [split; [apply sonntag_pos|apply sonntag_mono; exact H]|].
  split; [apply sonntag_melting|]. rewrite sonntag_melting.
  replace (22.46 * (273.16 - 273.16) / (273.16 - 0.55)) with 0 by lra. rewrite exp_0. lra.
Qed.

(** ** C35 *)
Lemma cos_slope_nonneg c a T0 : forcing_ok c a T0 -> 0 <= cos_slope a.
Proof.
  intros H. assert (K := fo_slope c a T0 H). assert (P := PI_RGT_0). unfold cos_slope. apply cos_ge_0.
  - assert (0 <= a_slope a * PI / 180) by (apply Rle_mult_inv_pos; [apply Rmult_le_pos; lra|lra]). lra.
  - assert (a_slope a * PI <= 90 * PI) by (apply Rmult_le_compat_r; lra). lra.
Qed.

Lemma latent_heat_pos c T0 : flux_constants_ok c -> 0 < latent_heat c T0.
Proof. intros H. assert (K := fc_lat c H). unfold latent_heat. destruct (Rle_dec _ _); lra. Qed.

(*@ C35 With either stability correction: whenever eb_fluxes answers, sensible and latent heat
    flow from high to low temperature and moisture, emitted radiation is negative and rain
    brings heat exactly if it is warmer than the surface. *)
Lemma fluxes_down_gradient_lem : forall (c : Consts) (wrf : bool) (g : Grid) (T0 : R) (a : Atm) (B : R * R) (f : Fluxes),
  flux_constants_ok c -> forcing_ok c a T0 -> eb_fluxes c wrf g T0 a B = Ok f ->
  (T0 <= a_T2 a -> 0 <= f_H f /\ 0 <= f_QRR f) /\ (a_T2 a <= T0 -> f_H f <= 0 /\ f_QRR f <= 0) /\
  (f_q0 f <= f_q2 f -> 0 <= f_LE f) /\ (f_q2 f <= f_q0 f -> f_LE f <= 0) /\
  f_Lo f < 0 /\ 0 < f_rho f /\ f_Li f = longwave_in c a.
Proof.
  intros c wrf g T0 a B f Hc Hf W.
  destruct (eb_fluxes_any c wrf g T0 a B f Hc Hf W) as (E1 & E2 & E3 & E4 & E5 & E6 & phi & Ct & Cq & P1 & P2 & P3 & EH & EL).
  assert (Hr := air_density_pos a T0 c Hf). assert (Hs := cos_slope_nonneg c a T0 Hf).
  assert (HL := latent_heat_pos c T0 Hc). destruct Hf. destruct Hc.
  rewrite E1, E2, E3, E4, E5, E6, EH, EL.
  set (rho := density_of_air a) in *. set (cs := cos_slope a) in *. set (Lh := latent_heat c T0) in *. clearbody rho cs Lh.
  assert (K1 : 0 <= phi * (rho * c_spec_heat_air c * Ct * a_u2 a * cs)) by (repeat apply Rmult_le_pos; lra).
  assert (K2 : 0 <= phi * (rho * Lh * Cq * a_u2 a * cs)) by (repeat apply Rmult_le_pos; lra).
  assert (K3 : 0 <= c_water_density c * c_spec_heat_water c * (a_rain a / 1000 / a_dt a)).
  { apply Rmult_le_pos; [apply Rmult_le_pos; lra|]. apply Rle_mult_inv_pos; lra. }
  assert (KT : forall d, phi * (rho * c_spec_heat_air c * Ct * a_u2 a * d * cs)
     = phi * (rho * c_spec_heat_air c * Ct * a_u2 a * cs) * d) by (intros; ring).
  assert (KL : forall d, phi * (rho * Lh * Cq * a_u2 a * d * cs)
     = phi * (rho * Lh * Cq * a_u2 a * cs) * d) by (intros; ring).
  rewrite KT, KL. set (k1 := phi * (rho * c_spec_heat_air c * _ * _ * _)) in *.
  set (k2 := phi * (rho * Lh * _ * _ * _)) in *.
  set (k3 := c_water_density c * c_spec_heat_water c * _) in *. clearbody k1 k2 k3.
  assert (0 < T0 ^ 4) by (apply pow_lt; lra).
  assert (0 < c_surface_emission_coeff c * c_sigma c * T0 ^ 4) by (repeat apply Rmult_lt_0_compat; lra).
  repeat split; intros; try nra; try assumption; try reflexivity.
Qed.

(*@ C35 With the Richardson correction eb_fluxes always answers; the answer is the bulk
    formula for every flux, and the turbulent fluxes are damped by a factor in [0,1] that is
    zero for Richardson numbers above 0.2. *)
Lemma richardson_fluxes_exact_lem : forall (c : Consts) (wrf : bool) (g : Grid) (T0 : R) (a : Atm) (B : R * R)
  (top : Node) (below : list Node),
  flux_constants_ok c -> forcing_ok c a T0 -> c_stability_correction c = "Ri"%string -> g_nodes g = top :: below ->
  exists lam, layer_thermal_conductivity c top = Ok lam /\
    eb_fluxes c wrf g T0 a B = Ok (ri_fluxes c lam T0 a B) /\
    0 <= stability_factor (richardson (a_z a) T0 (a_T2 a) (a_u2 a)) <= 1 /\
    (0.2 < richardson (a_z a) T0 (a_T2 a) (a_u2 a) ->
       f_H (ri_fluxes c lam T0 a B) = 0 /\ f_LE (ri_fluxes c lam T0 a B) = 0).
Proof.
  intros c wrf g T0 a B top below Hc Hf HS E. destruct (conductivity_ok c top Hc) as (lam & Hl).
  exists lam. split; [exact Hl|]. split; [apply (eb_fluxes_ri c wrf g T0 a B top below lam); assumption|].
  split; [apply stability_factor_range|]. intros H. unfold ri_fluxes. cbn. unfold stability_factor.
  destruct (Rle_dec _ 0.01); [lra|]. destruct (Rle_dec _ 0.2); [lra|]. split; ring.
Qed.

(*@ C35 The stability factor is not continuous: it jumps at 0.01. *)
Lemma stability_jump_lem : stability_factor 0.01 = 1 /\
  forall Ri, 0.01 < Ri -> stability_factor Ri < 0.91.
Proof.
  unfold stability_factor. split; [destruct (Rle_dec 0.01 0.01); lra|].
  intros Ri H. destruct (Rle_dec Ri 0.01); [lra|]. destruct (Rle_dec Ri 0.2); [nra|lra].
Qed.

(** ** C37 *)

(*@ C37 The Monin-Obukhov iteration makes between two and seven passes, whatever the forcing;
    it ends because two successive sensible heat fluxes differ by less than 0.1 or because
    the seventh pass is done.  In stable or neutral air nothing in it can fail. *)
Lemma mo_terminates_lem : forall (c : Consts) (wrf : bool) (a : Atm) (T0 rho Lv q0 q2 cs : R),
  0 < a_z0 a < a_z a ->
  mo_loop 8 c wrf a T0 rho Lv q0 q2 cs <> Err OutOfFuel /\
  (forall s, mo_loop 8 c wrf a T0 rho Lv q0 q2 cs = Ok s ->
    (2 <= mo_niter s <= 7)%nat /\
    exists before, mo_pass c wrf a T0 rho Lv q0 q2 cs before = Ok s /\
      ((exists H0, mo_H0 before = Some H0 /\ Rabs (H0 - mo_H s) < 0.1) \/ mo_niter s = 7%nat)) /\
  (0 <= rho -> 0 <= c_spec_heat_air c -> 0 <= a_u2 a -> 0 < a_T2 a -> T0 <= a_T2 a -> 0 <= cs ->
    exists s, mo_loop 8 c wrf a T0 rho Lv q0 q2 cs = Ok s).
Proof.
  intros c wrf a T0 rho Lv q0 q2 cs Hz. destruct (mo_loop_done c wrf a T0 rho Lv q0 q2 cs Hz) as (A & B).
  split; [exact A|]. split; [exact B|]. intros. apply mo_loop_stable; assumption.
Qed.

(** ** C34 *)

(*@ C34 The temperature at a depth between the lower boundaries of two neighbouring layers is
    the linear interpolation of their temperatures, hence between them. *)
Lemma subsurface_interpolation_lem : forall (g : Grid) (zlt : R) (k : nat) (x y : Node),
  Forall (fun n => 0 < n_height n) (g_nodes g) ->
  nth_error (g_nodes g) k = Some x -> nth_error (g_nodes g) (S k) = Some y ->
  depth_to (g_nodes g) k <= zlt < depth_to (g_nodes g) (S k) ->
  exists t, get_subsurface_temperature g (cumsum (map n_height (g_nodes g))) zlt = Ok t /\
    t = n_temperature x + (n_temperature y - n_temperature x) * ((zlt - depth_to (g_nodes g) k) / n_height y) /\
    Rmin (n_temperature x) (n_temperature y) <= t <= Rmax (n_temperature x) (n_temperature y).
Proof.
  intros g zlt k x y HF Ex Ey Hz. eexists. split; [apply (subsurface_between g zlt k x y); assumption|].
  split; [reflexivity|].
  assert (DS := depth_S (g_nodes g) k y Ey).
  assert (Hy : 0 < n_height y) by (rewrite Forall_forall in HF; apply HF; eapply nth_error_In; exact Ey).
  set (w := (zlt - depth_to (g_nodes g) k) / n_height y).
  assert (0 <= w <= 1).
  { unfold w. split; [apply Rle_mult_inv_pos; lra|]. apply (Rmult_le_reg_r (n_height y)); [exact Hy|].
    unfold Rdiv. rewrite Rmult_assoc, Rinv_l by lra. lra. }
  destruct (Rle_dec (n_temperature x) (n_temperature y)).
  - rewrite Rmin_left, Rmax_right by assumption. split; nra.
  - rewrite Rmin_right, Rmax_left by lra. split; nra.
Qed.

(*@ C34 A column that does not reach below the interpolation depth raises IndexError. *)
Lemma subsurface_thin_column_lem : forall (g : Grid) (zlt : R),
  Forall (fun n => 0 < n_height n) (g_nodes g) -> g_nodes g <> [] -> column_height (g_nodes g) <= zlt ->
  get_subsurface_temperature g (cumsum (map n_height (g_nodes g))) zlt = Err IndexError.
Proof. exact subsurface_thin. Qed.

(*@ C34 If the top layer is thicker than the interpolation depth the index -1 wraps: the
    temperature is extrapolated from the top layer away from the bottom layer. *)
Lemma subsurface_wraps_lem : forall (g : Grid) (zlt : R) (top bottom : Node) (middle : list Node),
  Forall (fun n => 0 < n_height n) (g_nodes g) -> g_nodes g = top :: middle ++ [bottom] ->
  0 < zlt < n_height top ->
  get_subsurface_temperature g (cumsum (map n_height (g_nodes g))) zlt
  = Ok (n_temperature top + (n_temperature bottom - n_temperature top)
          * ((zlt - n_height top) / column_height (middle ++ [bottom]))).
Proof. intros g zlt top bottom middle. apply subsurface_thick. Qed.

(*@ C34 So the interpolated temperature may be warmer than every layer and than melting. *)
Lemma subsurface_bounded_refuted_lem : exists (g : Grid) (t : R),
  Forall (fun n => 0 < n_height n /\ n_temperature n < 273.16) (g_nodes g) /\
  get_subsurface_temperature g (cumsum (map n_height (g_nodes g))) 0.06 = Ok t /\ 273.16 < t.
Proof.
  exists (mkGrid [mkNode 0.1 272 0 0.4 0; mkNode 0.1 260 0 0.4 0] 2 0 0 0). eexists.
  split; [|split].
  - constructor; [cbn; lra|]. constructor; [cbn; lra|]. constructor.
  - apply (subsurface_thick _ 0.06 (mkNode 0.1 272 0 0.4 0) [] (mkNode 0.1 260 0 0.4 0)).
    + constructor; [cbn; lra|]. constructor; [cbn; lra|]. constructor.
    + reflexivity.
    + cbn; lra.
  - cbn [n_temperature n_height app]. unfold column_height. rewrite total_cons, total_nil. cbn [n_height]. lra.
Qed.

(** ** C32 *)
Lemma conductivity_temperature c n t : layer_thermal_conductivity c (set_layer_temperature t n) = layer_thermal_conductivity c n.
Proof. reflexivity. Qed.

Lemma eb_fluxes_top c wrf g g' T0 a B n n' rest rest' :
  g_nodes g = n :: rest -> g_nodes g' = n' :: rest' ->
  layer_thermal_conductivity c n = layer_thermal_conductivity c n' ->
  eb_fluxes c wrf g T0 a B = eb_fluxes c wrf g' T0 a B.
Proof.
  intros E E' H. unfold eb_fluxes.
  rewrite (get_node_mid g [] n rest E : get_node g 0 = _), (get_node_mid g' [] n' rest' E' : get_node g' 0 = _).
  cbn [bind]. rewrite H. reflexivity.
Qed.

Lemma py_min_nan_le z x : py_min_nan z x <= z.
Proof. unfold py_min_nan. destruct x as [x|]; [|lra]. destruct (Rltb_spec x z); lra. Qed.

(** what a successful update consists of *)
Lemma update_inv c wrf newton minimize g a SWnet g' fn Ts f :
  update_surface_temperature c wrf newton minimize g a SWnet = Ok (g', fn, Ts, f) ->
  exists B top below x, interp_subT c g = Ok B /\ g_nodes g = top :: below /\
    Ts = py_min_nan (c_zero_temperature c) x /\
    g' = with_nodes g (set_layer_temperature Ts top :: below) /\
    eb_fluxes c wrf g Ts a B = Ok f /\
    (if String.eqb (c_sfc_temperature_method c) "L-BFGS-B"%string || String.eqb (c_sfc_temperature_method c) "SLSQP"%string then
       '(x, v) <- minimize (c_sfc_temperature_method c) (eb_optim c wrf g a SWnet B) (Rmin (n_temperature top) 270) 220 330 ;; Ok (x, Some v)
     else if String.eqb (c_sfc_temperature_method c) "Newton"%string then
       try_except
         (x <- newton (eb_optim c wrf g a SWnet B) (Rmin (n_temperature top) 270) ;; check_residual_clip x 220 ;; Ok (x, None))
         ('(x, v) <- minimize "SLSQP"%string (eb_optim c wrf g a SWnet B) (Rmin (n_temperature top) 270) 220 330 ;; Ok (x, Some v))
     else if String.eqb (c_sfc_temperature_method c) "Secant"%string then
       try_except
         (x <- call_secant_jitted (eb_optim c wrf g a SWnet B) (Rmin (n_temperature top) 270) 220 ;;
          check_residual_clip (Some x) 220 ;; Ok (Some x, None))
         ('(x, v) <- minimize "SLSQP"%string (eb_optim c wrf g a SWnet B) (Rmin (n_temperature top) 270) 220 (c_zero_temperature c) ;; Ok (x, Some v))
     else Err NotImplementedError) = Ok (x, fn).
Proof.
  intros W. unfold update_surface_temperature in W.
  apply bind_ok in W. destruct W as (B & EB & W).
  apply bind_ok in W. destruct W as (top & Et & W).
  assert (exists below, g_nodes g = top :: below) as (below & En).
  { unfold get_node, py_get in Et. destruct (g_nodes g) as [|n l]; [discriminate|]. cbn in Et. injection Et as ->. exists l. reflexivity. }
  apply bind_ok in W. destruct W as ((x & fn') & Ex & W).
  apply bind_ok in W. destruct W as (g1 & Eg & W).
  apply bind_ok in W. destruct W as (f1 & Ef & W). injection W as <- <- <- <-.
  assert (Eg' : g1 = with_nodes g (set_layer_temperature (py_min_nan (c_zero_temperature c) x) top :: below)).
  { rewrite (upd_node_mid g [] top below (set_layer_temperature (py_min_nan (c_zero_temperature c) x)) En
      : upd_node g 0 _ = _) in Eg. injection Eg as <-. reflexivity. }
  exists B, top, below, x. split; [exact EB|]. split; [exact En|]. split; [reflexivity|]. split; [exact Eg'|].
  split; [|exact Ex]. rewrite <- Ef. eapply eb_fluxes_top; [exact En|rewrite Eg'; reflexivity|reflexivity].
Qed.

(*@ C32 Whatever the solvers do, the surface temperature is not above melting; exactly the
    temperature of the top layer changes, to the reported value; the reported fluxes are
    those of the reported temperature. *)
Lemma surface_never_above_melting_lem : forall (c : Consts) (wrf : bool) newton minimize (g : Grid) (a : Atm) (SWnet : R)
  (g' : Grid) (fn : option number) (Ts : R) (f : Fluxes),
  update_surface_temperature c wrf newton minimize g a SWnet = Ok (g', fn, Ts, f) ->
  Ts <= c_zero_temperature c /\
  exists B top below, interp_subT c g = Ok B /\ g_nodes g = top :: below /\
    g' = with_nodes g (set_layer_temperature Ts top :: below) /\
    eb_fluxes c wrf g Ts a B = Ok f /\
    eb_optim c wrf g a SWnet B Ts = Ok (if root_finder c then flux_sum SWnet f else Rabs (flux_sum SWnet f)).
Proof.
  intros c wrf newton minimize g a SWnet g' fn Ts f W.
  destruct (update_inv _ _ _ _ _ _ _ _ _ _ _ W) as (B & top & below & x & EB & En & ET & Eg & Ef & _).
  split; [rewrite ET; apply py_min_nan_le|]. exists B, top, below.
  repeat (split; [assumption|]). unfold eb_optim. rewrite Ef. cbn [bind]. destruct (root_finder c); reflexivity.
Qed.

Definition default_newton : Consts := {|
  c_dt := 3600; c_max_layers := 200; c_z := 2; c_stability_correction := "Ri"%string;
  c_albedo_method := "Oerlemans98"%string; c_densification_method := "Boone"%string;
  c_penetrating_method := "Bintanja95"%string; c_roughness_method := "Moelg12"%string;
  c_saturation_water_vapour_method := "Sonntag90"%string; c_thermal_conductivity_method := "bulk"%string;
  c_sfc_temperature_method := "Newton"%string;
  c_initial_snowheight_constant := 0.2; c_initial_glacier_height := 40; c_initial_glacier_layer_heights := 0.5;
  c_initial_top_density_snowpack := 300; c_initial_bottom_density_snowpack := 600; c_temperature_bottom := 270.16;
  c_zlt1 := 0.06; c_zlt2 := 0.1; c_center_snow_transfer_function := 1; c_spread_snow_transfer_function := 1;
  c_mult_factor_RRR := 1; c_minimum_snow_layer_height := 0.001; c_minimum_snowfall := 0.001;
  c_remesh_method := "log_profile"%string; c_first_layer_height := 0.01; c_layer_stretching := 1.2; c_merge_max := 1;
  c_density_threshold_merging := 5; c_temperature_threshold_merging := 0.01; c_constant_density := 300;
  c_albedo_fresh_snow := 0.85; c_albedo_firn := 0.55; c_albedo_ice := 0.3; c_albedo_mod_snow_aging := 22;
  c_albedo_mod_snow_depth := 3; c_t_star_wet := 10; c_t_star_dry := 30; c_t_star_K := 14; c_t_star_cutoff := 263.17;
  c_roughness_fresh_snow := 0.24; c_roughness_ice := 1.7; c_roughness_firn := 4; c_aging_factor_roughness := 0.0026;
  c_snow_ice_threshold := 900; c_lat_heat_melting := 334000; c_lat_heat_vaporize := 2500000;
  c_lat_heat_sublimation := 2834000; c_spec_heat_air := 1004.67; c_spec_heat_ice := 2050; c_spec_heat_water := 4217;
  c_k_i := 2.22; c_k_w := 0.55; c_k_a := 0.024; c_water_density := 1000; c_ice_density := 917; c_air_density := 1.1;
  c_sigma := 5.67e-8; c_zero_temperature := 273.16; c_surface_emission_coeff := 0.99 |}.

(*@ C32 If Newton's method answers NaN, the surface is reported to be melting: no comparison
    with NaN notices it. *)
Lemma nan_becomes_melting_lem : forall (c : Consts) (wrf : bool) newton minimize (g : Grid) (a : Atm) (SWnet : R)
  (g' : Grid) (fn : option number) (Ts : R) (f : Fluxes),
  c_sfc_temperature_method c = "Newton"%string -> (forall func guess, newton func guess = Ok None) ->
  update_surface_temperature c wrf newton minimize g a SWnet = Ok (g', fn, Ts, f) ->
  Ts = c_zero_temperature c.
Proof.
  intros c wrf newton minimize g a SWnet g' fn Ts f HM HN W.
  destruct (update_inv _ _ _ _ _ _ _ _ _ _ _ W) as (B & top & below & x & EB & En & ET & Eg & Ef & Ex).
  rewrite HM in Ex. cbn [String.eqb Ascii.eqb Bool.eqb orb] in Ex. rewrite HN in Ex. cbn in Ex. injection Ex as <- _.
  rewrite ET. reflexivity.
Qed.

(*@ C32 The reported temperature is at least 220 K if the bounded minimiser respects its
    bounds and Newton's method does not answer NaN. *)
Lemma surface_lower_bound_lem : forall (c : Consts) (wrf : bool) newton minimize (g : Grid) (a : Atm) (SWnet : R)
  (g' : Grid) (fn : option number) (Ts : R) (f : Fluxes),
  220 <= c_zero_temperature c -> respects_bounds minimize ->
  update_surface_temperature c wrf newton minimize g a SWnet = Ok (g', fn, Ts, f) ->
  220 <= Ts.
Proof.
  intros c wrf newton minimize g a SWnet g' fn Ts f HZ HB W.
  destruct (update_inv _ _ _ _ _ _ _ _ _ _ _ W) as (B & top & below & x & EB & En & ET & Eg & Ef & Ex).
  assert (K : x = None \/ exists y, x = Some y /\ 220 <= y).
  { assert (KM : forall m hi, ('(x0, v) <- minimize m (eb_optim c wrf g a SWnet B) (Rmin (n_temperature top) 270) 220 hi ;; Ok (x0, Some v)) = Ok (x, fn) ->
       x = None \/ exists y, x = Some y /\ 220 <= y).
    { intros m hi H. apply bind_ok in H. destruct H as ((x0 & v) & H1 & H2). injection H2 as -> _.
      destruct (HB _ _ _ _ _ _ _ H1) as (y & -> & Hy). right. exists y. split; [reflexivity|lra]. }
    destruct (_ || _); [exact (KM _ _ Ex)|].
    destruct (String.eqb _ _).
    - unfold try_except in Ex.
      match type of Ex with match ?m with _ => _ end = _ => destruct m as [(x1, f1)|e] eqn:Em end.
      + injection Ex as -> _. apply bind_ok in Em. destruct Em as (x2 & _ & Em).
        apply bind_ok in Em. destruct Em as (b & Eb & Em). injection Em as -> _.
        destruct x as [y|]; [right; exists y|left; reflexivity]. split; [reflexivity|].
        unfold check_residual_clip in Eb. destruct (Rltb_spec y 220); [discriminate|lra].
      + destruct e; try discriminate; exact (KM _ _ Ex).
    - destruct (String.eqb _ _); [|discriminate]. unfold try_except in Ex.
      match type of Ex with match ?m with _ => _ end = _ => destruct m as [(x1, f1)|e] eqn:Em end.
      + injection Ex as -> _. apply bind_ok in Em. destruct Em as (x2 & _ & Em).
        apply bind_ok in Em. destruct Em as (b & Eb & Em). injection Em as <- _.
        right; exists x2. split; [reflexivity|].
        unfold check_residual_clip in Eb. destruct (Rltb_spec x2 220); [discriminate|lra].
      + destruct e; try discriminate; exact (KM _ _ Ex). }
  rewrite ET. unfold py_min_nan. destruct K as [->|(y & -> & Hy)]; [exact HZ|].
  destruct (Rltb_spec y (c_zero_temperature c)); lra.
Qed.

(** ** C61: the fallback *)

(** scipy's bounded minimiser finds a minimum within the bounds *)
Definition finds_minimum (minimize : string -> (R -> res R) -> R -> R -> R -> res (number * number)) : Prop :=
  forall m func guess lo hi x v, minimize m func guess lo hi = Ok (x, v) ->
  exists y, x = Some y /\ lo <= y <= hi /\
    forall z fz fy, lo <= z <= hi -> func z = Ok fz -> func y = Ok fy -> fy <= fz.

Lemma forcing_between c a T T' : forcing_ok c a T' -> 0.55 < T <= T' -> forcing_ok c a T.
Proof.
  intros [] H. constructor; try assumption; [lra|]. destruct (Req_dec T T') as [->|N]; [assumption|].
  assert (sonntag T < sonntag T') by (apply sonntag_mono; lra). lra.
Qed.

Lemma conductivity_pos c n lam : flux_constants_ok c -> 0 < n_ice n -> 0 <= n_lwc n ->
  layer_thermal_conductivity c n = Ok lam -> 0 < lam.
Proof.
  intros Hc Hi Hw W. assert (K := fc_cond c Hc). assert (Kk := fc_k c Hc). unfold layer_thermal_conductivity in W. cbn in K.
  destruct K as [E|[E|[]]]; rewrite <- E in W; cbn in W; injection W as <-.
  - assert (0 <= layer_air_porosity n) by (unfold layer_air_porosity; apply Rmax_l).
    assert (0 < n_ice n * c_k_i c) by (apply Rmult_lt_0_compat; lra).
    assert (0 <= layer_air_porosity n * c_k_a c) by (apply Rmult_le_pos; lra).
    assert (0 <= n_lwc n * c_k_w c) by (apply Rmult_le_pos; lra). lra.
  - assert (0 <= (layer_density c n / 1000) * (layer_density c n / 1000)) by nra. lra.
Qed.

Lemma pow4_lt x y : 0 < x < y -> x ^ 4 < y ^ 4.
Proof.
  intros H. assert (x * x < y * y) by nra. cbn [pow]. assert (0 < x * x) by nra. nra.
Qed.

(** without wind and rain the balance falls with the surface temperature *)
Lemma calm_decreasing c a lam B SWnet T T' : flux_constants_ok c -> forcing_ok c a T' -> 0 < lam ->
  a_u2 a = 0 -> a_rain a = 0 -> 0 < T < T' ->
  flux_sum SWnet (ri_fluxes c lam T' a B) < flux_sum SWnet (ri_fluxes c lam T a B).
Proof.
  intros Hc Hf Hl Hu Hr HT. unfold flux_sum, ri_fluxes. cbn. rewrite Hu, Hr. destruct Hc. destruct Hf.
  assert (P4 := pow4_lt T T' HT). cbn [pow] in P4.
  assert (0 < c_surface_emission_coeff c * c_sigma c) by (apply Rmult_lt_0_compat; lra).
  assert (K1 : c_surface_emission_coeff c * c_sigma c * (T * (T * (T * (T * 1)))) < c_surface_emission_coeff c * c_sigma c * (T' * (T' * (T' * (T' * 1)))))
    by (apply Rmult_lt_compat_l; assumption).
  assert (K2 : 0 < (c_zlt2 c - c_zlt1 c) / c_zlt2 c) by (apply Rdiv_lt_0_compat; lra).
  assert (K3 : (fst B - T') / c_zlt1 c < (fst B - T) / c_zlt1 c) by (apply Rmult_lt_compat_r; [apply Rinv_0_lt_compat; lra|lra]).
  assert (K4 : lam * ((c_zlt2 c - c_zlt1 c) / c_zlt2 c * ((fst B - T') / c_zlt1 c)) < lam * ((c_zlt2 c - c_zlt1 c) / c_zlt2 c * ((fst B - T) / c_zlt1 c)))
    by (apply Rmult_lt_compat_l; [exact Hl|apply Rmult_lt_compat_l; assumption]).
  set (e := c_surface_emission_coeff c) in *. set (sg := c_sigma c) in *.
  replace (- e * sg * (T' * (T' * (T' * (T' * 1))))) with (- (e * sg * (T' * (T' * (T' * (T' * 1)))))) by ring.
  replace (- e * sg * (T * (T * (T * (T * 1))))) with (- (e * sg * (T * (T * (T * (T * 1)))))) by ring.
  rewrite !Rmult_plus_distr_l.
  replace (0 / 1000 / a_dt a) with 0 by (unfold Rdiv; ring). rewrite !Rmult_0_r, !Rmult_0_l, !Rmult_0_r. lra.
Qed.

(** the primary solver raised or answered a temperature below 220 K *)
Definition newton_fails (newton : (R -> res R) -> R -> res number) : Prop :=
  forall func guess, newton func guess = Err RuntimeError \/ newton func guess = Err ValueError \/
    exists x, newton func guess = Ok (Some x) /\ x < 220.

(*@ C61 After a failed Newton search the fallback minimises the signed energy balance, not
    its absolute value.  Without wind and rain this pushes the temperature to the upper
    bound: the surface is reported to be melting for every forcing and every column, and
    no colder temperature has a more negative balance. *)
Lemma fallback_reports_melting_lem : forall (c : Consts) (wrf : bool) newton minimize (g : Grid) (a : Atm) (SWnet : R)
  (g' : Grid) (fn : option number) (Ts : R) (f : Fluxes),
  flux_constants_ok c -> c_stability_correction c = "Ri"%string ->
  c_sfc_temperature_method c = "Newton"%string -> 220 <= c_zero_temperature c <= 330 ->
  layers_ok (g_nodes g) -> forcing_ok c a 330 -> a_u2 a = 0 -> a_rain a = 0 ->
  newton_fails newton -> finds_minimum minimize ->
  update_surface_temperature c wrf newton minimize g a SWnet = Ok (g', fn, Ts, f) ->
  Ts = c_zero_temperature c /\
  forall B T fT, interp_subT c g = Ok B -> 220 <= T < Ts -> eb_fluxes c wrf g T a B = Ok fT ->
    flux_sum SWnet f < flux_sum SWnet fT.
Proof.
  intros c wrf newton minimize g a SWnet g' fn Ts f Hc HS HM HZ HL Hf Hu Hr HN HMin W.
  destruct (update_inv _ _ _ _ _ _ _ _ _ _ _ W) as (B & top & below & x & EB & En & ET & Eg & Ef & Ex).
  destruct (conductivity_ok c top Hc) as (lam & Hlam).
  rewrite En in HL. assert (H1 := Forall_inv HL). cbv beta in H1.
  assert (Hpos : 0 < lam) by (apply (conductivity_pos c top lam Hc); [lra|lra|exact Hlam]).
  assert (FX : forall T, 220 <= T <= 330 -> eb_fluxes c wrf g T a B = Ok (ri_fluxes c lam T a B)).
  { intros T HT. apply (eb_fluxes_ri c wrf g T a B top below lam); try assumption.
    apply (forcing_between c a T 330 Hf). lra. }
  assert (RF : root_finder c = true) by (unfold root_finder; rewrite HM; reflexivity).
  assert (OPT : forall T, 220 <= T <= 330 -> eb_optim c wrf g a SWnet B T = Ok (flux_sum SWnet (ri_fluxes c lam T a B))).
  { intros T HT. unfold eb_optim. rewrite FX by exact HT. cbn [bind]. rewrite RF. reflexivity. }
  rewrite HM in Ex. cbn [String.eqb Ascii.eqb Bool.eqb orb] in Ex.
  assert (EM : ('(x, v) <- minimize "SLSQP"%string (eb_optim c wrf g a SWnet B) (Rmin (n_temperature top) 270) 220 330 ;; Ok (x, Some v)) = Ok (x, fn)).
  { destruct (HN (eb_optim c wrf g a SWnet B) (Rmin (n_temperature top) 270)) as [E|[E|(y & E & Hy)]];
      rewrite E in Ex; cbn in Ex; try exact Ex.
    rewrite Rltb_true in Ex by exact Hy. exact Ex. }
  apply bind_ok in EM. destruct EM as ((x0 & v) & E1 & E2). injection E2 as -> _.
  destruct (HMin _ _ _ _ _ _ _ E1) as (y & -> & Hy & Hmin).
  assert (Y : y = 330).
  { destruct (Req_dec y 330) as [|N]; [assumption|exfalso].
    assert (L := Hmin 330 _ _ ltac:(lra) (OPT 330 ltac:(lra)) (OPT y Hy)).
    assert (D := calm_decreasing c a lam B SWnet y 330 Hc Hf Hpos Hu Hr ltac:(lra)). lra. }
  subst y. assert (TZ : Ts = c_zero_temperature c).
  { rewrite ET. unfold py_min_nan. destruct (Rltb_spec 330 (c_zero_temperature c)); lra. }
  split; [exact TZ|]. intros B' T fT EB' HT EfT.
  assert (B' = B) by congruence. subst B'. rewrite FX in EfT by lra. injection EfT as <-.
  rewrite FX in Ef by lra. injection Ef as <-. apply calm_decreasing; try assumption; [|lra].
  apply (forcing_between c a Ts 330 Hf). lra.
Qed.

(** ** C62 *)

(*@ C62 Parameterised incoming longwave radiation: the emissivity of the sky lies between
    that of the clear sky and the overcast value 0.984, for all cloud covers; so the
    radiation is positive. *)
Lemma longwave_emissivity_lem : forall (c : Consts) (a : Atm) (N : R),
  0 <= N <= 1 -> 0 <= a_rH2 a -> 0 < a_T2 a -> a_LWin a = None -> a_N a = Some N -> 0 < c_sigma c ->
  Rmin (sky_emissivity (a_T2 a) (a_rH2 a) 0) 0.984 <= sky_emissivity (a_T2 a) (a_rH2 a) N
    <= Rmax (sky_emissivity (a_T2 a) (a_rH2 a) 0) 0.984 /\
  0 < longwave_in c a.
Proof.
  intros c a N HN Hr HT EL EN Hs. unfold longwave_in. rewrite EL, EN. unfold sky_emissivity.
  assert (0 <= eighth_root (a_rH2 a * sonntag (a_T2 a) / a_T2 a)).
  { unfold eighth_root. destruct (Rlt_dec _ _); [left; apply exp_pos|lra]. }
  set (e := 0.23 + 0.433 * eighth_root (a_rH2 a * sonntag (a_T2 a) / a_T2 a)).
  assert (He : 0.23 <= e) by (unfold e; lra). clearbody e.
  assert (H2 : 0 <= N ^ 2 <= 1) by nra. set (n := N ^ 2) in *. clearbody n.
  replace (e * (1 - 0 ^ 2) + 0.984 * 0 ^ 2) with e by ring.
  assert (Rmin e 0.984 <= e) by apply Rmin_l. assert (Rmin e 0.984 <= 0.984) by apply Rmin_r.
  assert (e <= Rmax e 0.984) by apply Rmax_l. assert (0.984 <= Rmax e 0.984) by apply Rmax_r.
  split; [split; nra|]. apply Rmult_lt_0_compat; [apply Rmult_lt_0_compat; nra|]. apply pow_lt. exact HT.
Qed.

(** ** Non-vacuity *)
Lemma ew_bound T : 0.55 < T <= 330 -> sonntag T < 600.
Proof.
  intros H. apply Rle_lt_trans with (sonntag 330).
  - destruct (Req_dec T 330) as [->|]; [lra|]. left. apply sonntag_mono. lra.
  - unfold sonntag. destruct (Rle_dec 273.16 330); [|lra].
    assert (17.67 * (330 - 273.16) / (330 - 29.66) < 4) by lra.
    assert (exp (17.67 * (330 - 273.16) / (330 - 29.66)) < exp 4) by (apply exp_increasing; lra).
    assert (exp 4 <= 81); [|lra].
    replace 4 with (1 + 1 + 1 + 1) by lra. rewrite !exp_plus. assert (E3 := exp_le_3). assert (EP := exp_pos 1).
    assert (exp 1 * exp 1 <= 9) by nra. nra.
Qed.

(*@ex A concrete forcing and column meet the hypotheses of the flux and surface temperature
    theorems, and the calm one those of the fallback theorem. *)
Lemma surface_case_lem :
  flux_constants_ok default_constants /\ forcing_ok default_constants ex_atm 265 /\
  Forall (fun n => 0 < n_height n) (g_nodes ex_surface_grid) /\
  depth_to (g_nodes ex_surface_grid) 0 <= 0.06 < depth_to (g_nodes ex_surface_grid) 1 /\
  flux_constants_ok default_newton /\ forcing_ok default_newton ex_calm 330 /\
  layers_ok (g_nodes ex_surface_grid) /\ newton_fails (fun _ _ => Err RuntimeError).
Proof.
  assert (F1 : flux_constants_ok default_constants) by (constructor; cbn; try lra; tauto).
  assert (F2 : flux_constants_ok default_newton) by (constructor; cbn; try lra; tauto).
  split; [exact F1|]. split.
  { constructor; cbn; try lra; try (apply ew_bound; lra). left. discriminate. }
  split; [constructor; [cbn; lra|]; constructor; [cbn; lra|]; constructor; [cbn; lra|constructor]|].
  split.
  { unfold depth_to, column_height. cbn [ex_surface_grid g_nodes firstn]. rewrite !total_cons, !total_nil. cbn. lra. }
  split; [exact F2|]. split.
  { constructor; cbn; try lra; try (apply ew_bound; lra). left. discriminate. }
  split; [constructor; [cbn; lra|]; constructor; [cbn; lra|]; constructor; [cbn; lra|constructor]|].
  intros func guess. left. reflexivity.
Qed.
