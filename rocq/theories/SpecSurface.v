(** * Vocabulary for the surface flux properties *)
From Verif Require Import ModelPy ModelConstants ModelNode ModelGrid ModelSurface Spec.

(** admissible forcing at surface temperature [T0] *)
Record forcing_ok (c : Consts) (a : Atm) (T0 : R) : Prop := {
  fo_dt : 0 < a_dt a;
  fo_z : 0 < a_z0 a < a_z a;
  fo_T2 : 0.55 < a_T2 a;
  fo_T0 : 0.55 < T0;
  fo_rH : 0 <= a_rH2 a;
  fo_p2 : sonntag (a_T2 a) < a_p a;
  fo_p0 : sonntag T0 < a_p a;
  fo_u : 0 <= a_u2 a;
  fo_rain : 0 <= a_rain a;
  fo_slope : 0 <= a_slope a <= 90;
  fo_lw : a_LWin a <> None \/ a_N a <> None
}.

(** constants of the surface scheme *)
Record flux_constants_ok (c : Consts) : Prop := {
  fc_z : 0 < c_zlt1 c < c_zlt2 c;
  fc_cond : In (c_thermal_conductivity_method c) ["bulk"; "empirical"]%string;
  fc_air : 0 < c_spec_heat_air c;
  fc_water : 0 < c_spec_heat_water c /\ 0 < c_water_density c;
  fc_lat : 0 < c_lat_heat_vaporize c /\ 0 < c_lat_heat_sublimation c;
  fc_sigma : 0 < c_sigma c /\ 0 < c_surface_emission_coeff c;
  fc_k : 0 < c_k_i c /\ 0 <= c_k_a c /\ 0 <= c_k_w c
}.

Definition longwave_in (c : Consts) (a : Atm) : R :=
  match a_LWin a, a_N a with
  | Some L, _ => L
  | None, Some N => sky_emissivity (a_T2 a) (a_rH2 a) N * c_sigma c * a_T2 a ^ 4
  | None, None => 0
  end.

Definition latent_heat (c : Consts) (T0 : R) : R :=
  if Rle_dec (c_zero_temperature c) T0 then c_lat_heat_vaporize c else c_lat_heat_sublimation c.

Definition air_mixing (a : Atm) : R := mixing_ratio (a_rH2 a) (sonntag (a_T2 a)) (a_p a).
Definition surface_mixing (a : Atm) (T0 : R) : R := mixing_ratio 100 (sonntag T0) (a_p a).
Definition density_of_air (a : Atm) : R :=
  a_p a * 100 / (287.058 * (a_T2 a * (1 + 0.608 * air_mixing a))).
Definition cos_slope (a : Atm) : R := cos (a_slope a * PI / 180).

Definition ri_fluxes (c : Consts) (lam : R) (T0 : R) (a : Atm) (B_Ts : R * R) : Fluxes :=
  let phi := stability_factor (richardson (a_z a) T0 (a_T2 a) (a_u2 a)) in
  let rho := density_of_air a in
  let Ct := bulk_transfer (a_z a) (a_z0 a) (a_z0 a / 100) in
  let Cq := bulk_transfer (a_z a) (a_z0 a) (a_z0 a / 10) in
  mkFluxes (longwave_in c a)
    (- c_surface_emission_coeff c * c_sigma c * T0 ^ 4)
    (phi * (rho * c_spec_heat_air c * Ct * a_u2 a * (a_T2 a - T0) * cos_slope a))
    (phi * (rho * latent_heat c T0 * Cq * a_u2 a * (air_mixing a - surface_mixing a T0) * cos_slope a))
    (lam * (c_zlt1 c / c_zlt2 c * ((snd B_Ts - fst B_Ts) / (c_zlt2 c - c_zlt1 c))
            + (c_zlt2 c - c_zlt1 c) / c_zlt2 c * ((fst B_Ts - T0) / c_zlt1 c)))
    (c_water_density c * c_spec_heat_water c * (a_rain a / 1000 / a_dt a) * (a_T2 a - T0))
    rho (latent_heat c T0) None Ct Cq (surface_mixing a T0) (air_mixing a).

(** depth of the lower boundary of layer [k] *)
Definition depth_to (l : list Node) (k : nat) : R := column_height (firstn (S k) l).

(** scipy's bounded minimiser respects its bounds *)
Definition respects_bounds (minimize : string -> (R -> res R) -> R -> R -> R -> res (number * number)) : Prop :=
  forall m func guess lo hi x v, minimize m func guess lo hi = Ok (x, v) -> exists y, x = Some y /\ lo <= y <= hi.
