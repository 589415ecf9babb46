(** * Stability corrections of Monin and Obukhov

    Theorems only; the proofs are in LemFinObukhov.v and the files it uses. *)

From Verif Require Import ModelPy ModelConstants ModelNode ModelGrid ModelSurface ModelAlbedo Spec SpecSurface.
From Verif Require Import LemFinObukhov.

(** C135.  The stability functions in closed form: the same for momentum and heat in stable air,
   where they are negative and decrease with the height, the two pieces meet at z = L; zero in neutral air;
   in unstable air the function for heat is positive. *)
Theorem stability_functions :
  forall (wrf : bool) (z z' L : R), 0 < z <= z' ->
    phi_m wrf z L = Ok (psi_m wrf z L) /\ phi_tq wrf z L = Ok (psi_h wrf z L) /\
    (0 < L -> psi_h wrf z L = psi_m wrf z L /\ psi_m wrf z' L <= psi_m wrf z L < 0) /\
    (L = 0 -> psi_m wrf z L = 0 /\ psi_h wrf z L = 0) /\
    (L < 0 -> 0 < psi_h wrf z L) /\
    psi_stable wrf 1 = -5 /\ -4 * (1 + ln 1) - 1 = -5.
Proof. exact stability_functions_lem. Qed.
Print Assumptions stability_functions.

(** C135.  One pass of the iteration for the Obukhov length, exactly.  The transfer coefficients follow from the
   logarithmic profile and the stability functions; the roughness lengths of heat and moisture are a hundredth and
   a tenth of that of momentum.  The code subtracts the stability function at the roughness length from the profile
   of the wind, where the integrated profile has its difference. *)
Theorem obukhov_pass_exact :
  forall (c : Consts) (wrf : bool) (a : Atm) (T0 rho Lv q0 q2 cs : R) (s s' : MOstate),
    0 < a_z0 a < a_z a ->
    mo_pass c wrf a T0 rho Lv q0 q2 cs s = Ok s' ->
    let L := mo_L s in
    let wind := ln (a_z a / a_z0 a) - psi_m wrf (a_z a) L - psi_m wrf (a_z0 a) L in
    let heat := psi_h wrf (a_z a) L - psi_h wrf (a_z0 a) L in
    let ust := 0.41 * a_u2 a / (ln (a_z a / a_z0 a) - psi_m wrf (a_z a) L) in
    wind <> 0 /\
    mo_Cs_t s' = 0.41 ^ 2 / (Rabs wind * (ln (100 * (a_z a / a_z0 a)) - heat)) /\
    mo_Cs_q s' = 0.41 ^ 2 / (Rabs wind * (ln (10 * (a_z a / a_z0 a)) - heat)) /\
    mo_H s' = rho * c_spec_heat_air c * mo_Cs_t s' * a_u2 a * (a_T2 a - T0) * cs /\
    mo_LE s' = rho * Lv * mo_Cs_q s' * a_u2 a * (q2 - q0) * cs /\
    (mo_H s' = 0 -> mo_L s' = 0) /\
    (mo_H s' <> 0 -> mo_L s' = rho * c_spec_heat_air c * ust ^ 3 * a_T2 a / (0.41 * 9.81 * mo_H s')).
Proof. exact obukhov_pass_exact_lem. Qed.
Print Assumptions obukhov_pass_exact.

(** C135.  In stable or neutral air the correction only damps: the transfer coefficients of the result are positive
   and at most those of neutral air.  In stable air
   (L > 0 in the last pass) they are below the ones that the integrated profile gives, because the stability function
   at the roughness length is subtracted instead of added. *)
Theorem stable_air_damps :
  forall (c : Consts) (wrf : bool) (a : Atm) (T0 rho Lv q0 q2 cs : R),
    0 < a_z0 a < a_z a ->
    0 <= rho -> 0 <= c_spec_heat_air c -> 0 <= a_u2 a -> 0 < a_T2 a -> T0 <= a_T2 a -> 0 <= cs ->
    exists s before, mo_loop 8 c wrf a T0 rho Lv q0 q2 cs = Ok s /\
      mo_pass c wrf a T0 rho Lv q0 q2 cs before = Ok s /\ 0 <= mo_L before /\
      let lnz := ln (a_z a / a_z0 a) in
      let lnt := ln (100 * (a_z a / a_z0 a)) in
      let lnq := ln (10 * (a_z a / a_z0 a)) in
      0 < mo_Cs_t s <= 0.41 ^ 2 / (lnz * lnt) /\ 0 < mo_Cs_q s <= 0.41 ^ 2 / (lnz * lnq) /\
      (0 < mo_L before ->
        let L := mo_L before in
        let wind := lnz - (psi_m wrf (a_z a) L - psi_m wrf (a_z0 a) L) in
        let heat := psi_h wrf (a_z a) L - psi_h wrf (a_z0 a) L in
        mo_Cs_t s < 0.41 ^ 2 / (wind * (lnt - heat)) /\ mo_Cs_q s < 0.41 ^ 2 / (wind * (lnq - heat))).
Proof. exact stable_air_damps_lem. Qed.
Print Assumptions stable_air_damps.

(** C89.  The irreducible water content: a hyperbola in the ice fraction up to 0.23, a line up to 0.812, nothing
   above. *)
Theorem irreducible_formula :
  forall n : Node,
    (n_ice n <= 0.23 -> n_ice n <> 0 -> layer_irreducible n = Ok (0.0264 + 0.0099 * (1 - n_ice n) / n_ice n)) /\
    (0.23 < n_ice n <= 0.812 -> layer_irreducible n = Ok (0.08 - 0.1023 * (n_ice n - 0.03))) /\
    (0.812 < n_ice n -> layer_irreducible n = Ok 0).
Proof. exact irreducible_formula_lem. Qed.
Print Assumptions irreducible_formula.

(** C31.  The roughness length in metres: on snow it grows linearly with the age of the snow in hours from the value
   of fresh snow and is cut at the value of firn; on ice it is that of ice. *)
Theorem roughness_exact :
  forall (c : Consts) (g : Grid) (top : Node) (below : list Node), g_nodes g = top :: below ->
    (layer_density c top <= c_snow_ice_threshold c ->
       method_Moelg c g = Ok (Rmin (c_roughness_fresh_snow c + c_aging_factor_roughness c * (g_new_snow_timestamp g / 3600))
                                   (c_roughness_firn c) / 1000)) /\
    (c_snow_ice_threshold c < layer_density c top -> method_Moelg c g = Ok (c_roughness_ice c / 1000)).
Proof. exact roughness_exact_lem. Qed.
Print Assumptions roughness_exact.

(** C135 A stable hour at -3 degrees in the air and -10 at the surface. *)
Example stable_air_example :
  exists s, mo_loop 8 default_constants false (mkAtm 3600 2 0.001 270 80 600 3 0 0 (Some 250) None) 263 0.8 2.8e6 0.002 0.003 1 = Ok s /\
    0 < mo_H s.
Proof. exact stable_air_example_lem. Qed.
