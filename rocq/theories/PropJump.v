(** * The melting point and the sum of the fluxes (C126)

    Theorems only; the proofs are in LemFinJump.v and the files it uses. *)

From Verif Require Import ModelPy ModelConstants ModelNode ModelGrid ModelSurface Spec SpecSurface.
From Verif Require Import LemFinJump.

From Coq Require Import Ranalysis5.

(** C126.  At the melting point the latent heat changes from sublimation to evaporation, and the sum of the fluxes jumps. With the Richardson correction and without damping, every colder surface has a sum above the sum at the melting point plus (sublimation / evaporation - 1) times the latent heat flux there, and close to the melting point the sum comes as near to this value as wanted. *)
Theorem melting_jump :
  forall c wrf g a q B top below f b,
  flux_constants_ok c -> c_stability_correction c = "Ri"%string ->
  In (c_sfc_temperature_method c) ["Newton"; "Secant"]%string ->
  g_nodes g = top :: below -> 0 < n_ice top -> 0 <= n_lwc top ->
  c_zero_temperature c <= 273.16 -> forcing_ok c a (c_zero_temperature c) ->
  richardson (a_z a) (c_zero_temperature c) (a_T2 a) (a_u2 a) < 0.01 ->
  eb_fluxes c wrf g (c_zero_temperature c) a B = Ok f -> eb_optim c wrf g a q B (c_zero_temperature c) = Ok b ->
  (forall T, 0.55 < T < c_zero_temperature c -> richardson (a_z a) T (a_T2 a) (a_u2 a) <= 0.01 ->
     exists b', eb_optim c wrf g a q B T = Ok b'
                /\ b + (c_lat_heat_sublimation c / c_lat_heat_vaporize c - 1) * f_LE f < b') /\
  (forall eps, 0 < eps -> exists d, 0 < d /\ forall T, c_zero_temperature c - d < T < c_zero_temperature c ->
     exists b', eb_optim c wrf g a q B T = Ok b'
                /\ b' < b + (c_lat_heat_sublimation c / c_lat_heat_vaporize c - 1) * f_LE f + eps).
Proof. exact melting_jump_lem. Qed.
Print Assumptions melting_jump.

(** C126.  In humid air the sum jumps down at the melting point. If it is negative there, but smaller than the jump, no surface temperature balances the energy: the sum is positive at every colder temperature without damping and negative at every warmer one. *)
Theorem no_balance :
  forall c wrf g a q B top below f b,
  flux_constants_ok c -> c_stability_correction c = "Ri"%string ->
  In (c_sfc_temperature_method c) ["Newton"; "Secant"]%string ->
  g_nodes g = top :: below -> 0 < n_ice top -> 0 <= n_lwc top ->
  c_zero_temperature c <= 273.16 -> forcing_ok c a (c_zero_temperature c) ->
  richardson (a_z a) (c_zero_temperature c) (a_T2 a) (a_u2 a) < 0.01 ->
  eb_fluxes c wrf g (c_zero_temperature c) a B = Ok f -> eb_optim c wrf g a q B (c_zero_temperature c) = Ok b ->
  - ((c_lat_heat_sublimation c / c_lat_heat_vaporize c - 1) * f_LE f) <= b < 0 ->
  (forall T, 0.55 < T < c_zero_temperature c -> richardson (a_z a) T (a_T2 a) (a_u2 a) <= 0.01 ->
     exists b', eb_optim c wrf g a q B T = Ok b' /\ 0 < b') /\
  (forall T, c_zero_temperature c <= T -> forcing_ok c a T ->
     exists b', eb_optim c wrf g a q B T = Ok b' /\ b' < 0).
Proof. exact no_balance_lem. Qed.
Print Assumptions no_balance.

(** C126.  In dry air the sum jumps up at the melting point. If it is positive there, but smaller than the jump, and not negative at some colder temperature without damping, then a frozen surface balances the energy although the melting surface has energy left for melt. *)
Theorem frozen_and_melting :
  forall c wrf g a q B top below f b T1 b1,
  flux_constants_ok c -> c_stability_correction c = "Ri"%string ->
  In (c_sfc_temperature_method c) ["Newton"; "Secant"]%string ->
  g_nodes g = top :: below -> 0 < n_ice top -> 0 <= n_lwc top ->
  c_zero_temperature c <= 273.16 -> forcing_ok c a (c_zero_temperature c) ->
  richardson (a_z a) T1 (a_T2 a) (a_u2 a) <= 0.01 ->
  eb_fluxes c wrf g (c_zero_temperature c) a B = Ok f -> eb_optim c wrf g a q B (c_zero_temperature c) = Ok b ->
  0 < b < - ((c_lat_heat_sublimation c / c_lat_heat_vaporize c - 1) * f_LE f) ->
  0.55 < T1 < c_zero_temperature c -> eb_optim c wrf g a q B T1 = Ok b1 -> 0 <= b1 ->
  exists T, T1 <= T < c_zero_temperature c /\ eb_optim c wrf g a q B T = Ok 0.
Proof. exact frozen_and_melting_lem. Qed.
Print Assumptions frozen_and_melting.

(** C126.  With the shipped constants there is a forcing which no surface temperature from 220 K to 330 K balances: a storm of 30 m/s with saturated air of 273.5 K and incoming longwave radiation between 250 and 320 W/m2 over a column at the melting point. *)
Theorem unbalanced_storm_refuted :
  exists L B, 250 < L < 320 /\ flux_constants_ok default_constants /\ layers_ok (g_nodes melting_column) /\
    forcing_ok default_constants (storm L) 330 /\ interp_subT default_constants melting_column = Ok B /\
    forall wrf T, 220 <= T <= 330 ->
      exists b, eb_optim default_constants wrf melting_column (storm L) 0 B T = Ok b /\ b <> 0.
Proof. exact unbalanced_storm_refuted_lem. Qed.
Print Assumptions unbalanced_storm_refuted.

(** C126.  With the shipped constants there is a day on which a frozen surface balances the energy although at the melting point at least 3 W/m2 are left for melt: air of 272 K and 50 %, wind of 5 m/s, absorbed sunlight of 150 W/m2 and incoming longwave radiation between 200 and 320 W/m2 over a column at the melting point. *)
Theorem frozen_or_melting_refuted :
  exists L B T b, 200 < L < 320 /\ flux_constants_ok default_constants /\ layers_ok (g_nodes melting_column) /\
    forcing_ok default_constants (dry_day L) 273.16 /\ interp_subT default_constants melting_column = Ok B /\
    270 <= T < 273.16 /\ 3 <= b /\
    forall wrf, eb_optim default_constants wrf melting_column (dry_day L) 150 B T = Ok 0 /\
                eb_optim default_constants wrf melting_column (dry_day L) 150 B 273.16 = Ok b.
Proof. exact frozen_or_melting_refuted_lem. Qed.
Print Assumptions frozen_or_melting_refuted.
