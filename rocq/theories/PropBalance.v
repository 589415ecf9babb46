(** * How many surface temperatures balance the energy (C123)

    Theorems only; the proofs are in LemFinBalance.v and the files it uses. *)

From Verif Require Import ModelPy ModelConstants ModelNode ModelGrid ModelSurface Spec SpecSurface.
From Verif Require Import LemFinBalance.

From Coq Require Import Ranalysis5.

(** C123.  With the Richardson correction the sum of the fluxes falls with the surface temperature as long as the damping of turbulence does not set in or is complete and the surface stays on one side of the melting point. Two temperatures of such a range never both balance the energy. *)
Theorem balance_falls :
  forall c wrf g a q B top below T T' b b',
  flux_constants_ok c -> c_stability_correction c = "Ri"%string ->
  In (c_sfc_temperature_method c) ["Newton"; "Secant"]%string ->
  g_nodes g = top :: below -> 0 < n_ice top -> 0 <= n_lwc top ->
  forcing_ok c a T' -> 0.55 < T < T' ->
  (T' < c_zero_temperature c \/ c_zero_temperature c <= T) ->
  (richardson (a_z a) T (a_T2 a) (a_u2 a) <= 0.01 \/ 0.2 < richardson (a_z a) T' (a_T2 a) (a_u2 a)) ->
  eb_optim c wrf g a q B T = Ok b -> eb_optim c wrf g a q B T' = Ok b' -> b' < b.
Proof. exact balance_falls_lem. Qed.
Print Assumptions balance_falls.

(** C123.  Where the damping sets in, two surface temperatures may balance the energy. With the shipped constants and the Richardson correction, in a night with air of 274.68 K, 60 % and 700 hPa, wind of 7 m/s and incoming longwave radiation between 160 and 240 W/m2, over a snow column of 267.82 K, the sum of the fluxes vanishes at 267.82 K and at a second temperature at least 0.01 K below. *)
Theorem two_balances_refuted :
  exists L T B, 160 < L < 240 /\ 220 <= T <= 267.81 /\
    flux_constants_ok default_constants /\ layers_ok (g_nodes cold_column) /\
    forcing_ok default_constants (windy_night L) 273.16 /\
    interp_subT default_constants cold_column = Ok B /\
    forall wrf, eb_optim default_constants wrf cold_column (windy_night L) 0 B 267.82 = Ok 0 /\
                eb_optim default_constants wrf cold_column (windy_night L) 0 B T = Ok 0.
Proof. exact two_balances_refuted_lem. Qed.
Print Assumptions two_balances_refuted.

(** C123 The night and the column meet the hypotheses of the first theorem at 268 K and 270 K. *)
Example balance_case :
  flux_constants_ok default_constants /\ c_stability_correction default_constants = "Ri"%string /\
  In (c_sfc_temperature_method default_constants) ["Newton"; "Secant"]%string /\
  forcing_ok default_constants (windy_night 200) 270 /\
  richardson (a_z (windy_night 200)) 268 (a_T2 (windy_night 200)) (a_u2 (windy_night 200)) <= 0.01.
Proof. exact balance_case_lem. Qed.
