(** * Water, melt and heat in portions (C119-C122)

    Theorems only; the proofs are in LemFinPortion.v and the files it uses. *)

From Verif Require Import ModelPy ModelConstants ModelNode ModelGrid ModelWater ModelHeat Spec.
From Verif Require Import LemFinPortion.

(** C119.  Refreezing freezes in every layer at or below the melting temperature exactly the least of three amounts: the water present, the pore space below close-off, and the water whose latent heat warms the ice alone to the melting temperature.  The fourth limit of the code, with the heat content of the water, never matters. *)
Theorem refreezing_exact :
  forall (c : Consts) (g : Grid),
  constants_ok c -> counted g ->
  Forall (fun n => 0 <= n_height n /\ fractions_ok n /\ 0 < n_ice n /\ cold_ok c n) (g_nodes g) ->
  exists g' refrozen, refreezing c g = Ok (g', refrozen) /\
    Forall2 (fun x x' => exists d, frozen c x x' d) (g_nodes g) (g_nodes g').
Proof. exact refreezing_exact_lem. Qed.
Print Assumptions refreezing_exact.

(** C119.  Water and cold stay side by side: a layer below the melting temperature in which water and pore space remain after refreezing is still below the melting temperature.  The heat that is missing is the one that would warm the water, frozen and not frozen. *)
Theorem refreezing_leaves_cold :
  forall (c : Consts) (g g' : Grid) (refrozen : R),
  constants_ok c -> counted g ->
  Forall (fun n => 0 <= n_height n /\ fractions_ok n /\ 0 < n_ice n /\ cold_ok c n) (g_nodes g) ->
  refreezing c g = Ok (g', refrozen) ->
  Forall2 (fun x x' => n_temperature x < c_zero_temperature c -> 0 < n_lwc x' -> n_ice x' < close_off c ->
      n_temperature x' < c_zero_temperature c /\
      heat_capacity c x' * (c_zero_temperature c - n_temperature x') =
      c_water_density c * (c_spec_heat_ice c * (n_lwc x - n_lwc x') + c_spec_heat_water c * n_lwc x')
      * (c_zero_temperature c - n_temperature x)) (g_nodes g) (g_nodes g').
Proof. exact refreezing_leaves_cold_lem. Qed.
Print Assumptions refreezing_leaves_cold.

(** C119.  Hence refreezing is not finished after one pass: a second pass over such a column would freeze more. *)
Theorem second_pass_freezes :
  forall (c : Consts) (g g' : Grid) (refrozen : R),
  constants_ok c -> counted g ->
  Forall (fun n => 0 <= n_height n /\ fractions_ok n /\ 0 < n_ice n /\ cold_ok c n) (g_nodes g) ->
  refreezing c g = Ok (g', refrozen) -> Forall fractions_ok (g_nodes g') ->
  (exists x x', In (x, x') (combine (g_nodes g) (g_nodes g')) /\ 0 < n_height x /\
     n_temperature x < c_zero_temperature c /\ 0 < n_lwc x' /\ n_ice x' < close_off c) ->
  exists g2 again, refreezing c g' = Ok (g2, again) /\ 0 < again.
Proof. exact second_pass_freezes_lem. Qed.
Print Assumptions second_pass_freezes.

(** C119 A layer of half ice at one degree below melting with five per cent of water: after refreezing it is still below melting with water left, and a second pass freezes more. *)
Example side_by_side_case :
  exists g g' refrozen x x' g2 again,
    constants_ok default_constants /\ counted g /\
    Forall (fun n => 0 <= n_height n /\ fractions_ok n /\ 0 < n_ice n /\ cold_ok default_constants n) (g_nodes g) /\
    refreezing default_constants g = Ok (g', refrozen) /\ 0 < refrozen /\ g_nodes g = [x] /\ g_nodes g' = [x'] /\
    n_temperature x < n_temperature x' < c_zero_temperature default_constants /\ 0.04 < n_lwc x' /\
    Forall fractions_ok (g_nodes g') /\ n_ice x' < close_off default_constants /\
    refreezing default_constants g' = Ok (g2, again) /\ 0 < again.
Proof. exact side_by_side_case_lem. Qed.

(** C120.  Water that is given to the surface in two portions ends exactly where it ends when it is given at once, and the runoff adds up. *)
Theorem percolation_in_portions :
  forall (g : Grid) (first second : R),
  counted g -> column_ok (g_nodes g) -> g_nodes g <> [] -> 0 <= second ->
  exists g1 runoff1 g2 runoff2,
    percolation g first = Ok (g1, runoff1) /\ percolation g1 second = Ok (g2, runoff2) /\
    percolation g (first + second) = Ok (g2, runoff1 + runoff2).
Proof. exact percolation_in_portions_lem. Qed.
Print Assumptions percolation_in_portions.

(** C120.  More water at the surface leaves no layer with less water and never makes the runoff smaller. *)
Theorem percolation_monotone :
  forall (g : Grid) (less more : R),
  counted g -> column_ok (g_nodes g) -> g_nodes g <> [] -> less <= more ->
  exists g1 runoff1 g2 runoff2,
    percolation g less = Ok (g1, runoff1) /\ percolation g more = Ok (g2, runoff2) /\
    Forall2 (fun x y => n_lwc x <= n_lwc y) (g_nodes g1) (g_nodes g2) /\ runoff1 <= runoff2.
Proof. exact percolation_monotone_lem. Qed.
Print Assumptions percolation_monotone.

(** C120 Wet snow over cold firn over ice meets the hypotheses. *)
Example portions_case :
  counted (mkGrid [mkNode 0.1 273.16 0.05 0.4 0; mkNode 0.2 270 0.01 0.5 0; mkNode 1 270 0 1 0] 3 0.1 0 0) /\
  column_ok [mkNode 0.1 273.16 0.05 0.4 0; mkNode 0.2 270 0.01 0.5 0; mkNode 1 270 0 1 0].
Proof. exact portions_case_lem. Qed.

(** C121.  Melt that is removed in two portions leaves exactly the column and the snow clock that one removal leaves, but may return less water of the layers that disappear, never more. *)
Theorem melt_in_portions :
  forall c g first second fuel,
  0 < c_water_density c -> 0 <= first -> 0 <= second -> counted g ->
  Forall (fun n => 0 < n_height n /\ 0 < layer_density c n) (g_nodes g) -> Forall (fun n => 0 <= n_lwc n) (g_nodes g) ->
  (length (g_nodes g) + 2 <= fuel)%nat ->
  exists g1 water1 g2 water2 water,
    remove_melt_weq fuel c g first 0 = Ok (g1, water1) /\ remove_melt_weq fuel c g1 second 0 = Ok (g2, water2) /\
    remove_melt_weq fuel c g (first + second) 0 = Ok (g2, water) /\ water1 + water2 <= water.
Proof. exact melt_in_portions_lem. Qed.
Print Assumptions melt_in_portions.

(** C121.  That the same water is returned is refuted: a wet layer that melts in two halves returns half of its water. *)
Theorem melt_portions_water_refuted :
  exists g g1 g2 half water1 water2 water fuel,
    counted g /\ Forall (fun n => 0 < n_height n /\ 0 < layer_density default_constants n) (g_nodes g) /\ 0 < half /\
    remove_melt_weq fuel default_constants g half 0 = Ok (g1, water1) /\
    remove_melt_weq fuel default_constants g1 half 0 = Ok (g2, water2) /\
    remove_melt_weq fuel default_constants g (half + half) 0 = Ok (g2, water) /\
    0 < water /\ water1 + water2 = water / 2.
Proof. exact melt_portions_water_refuted_lem. Qed.
Print Assumptions melt_portions_water_refuted.

(** C121 Snow over ice meets the hypotheses of the theorem. *)
Example melt_portions_case :
  0 < c_water_density default_constants /\
  counted (mkGrid [mkNode 0.1 273.16 0.05 0.4 0; mkNode 1 270 0 1 0] 2 0.1 0 0) /\
  Forall (fun n => 0 < n_height n /\ 0 < layer_density default_constants n)
    [mkNode 0.1 273.16 0.05 0.4 0; mkNode 1 270 0 1 0].
Proof. exact melt_portions_case_lem. Qed.

(** C122.  Heat conduction is linear: if the temperatures of a column are a combination of those of two others that differ from it only in temperature, plus a constant, they stay this combination. *)
Theorem heat_superposition :
  forall (c : Consts) (g1 g2 g3 : Grid) (a b k dt : R),
  constants_ok c -> counted g1 -> counted g2 -> counted g3 -> conductive c (g_nodes g1) ->
  (3 <= length (g_nodes g1))%nat ->
  Forall2 only_temperature (g_nodes g1) (g_nodes g2) -> Forall2 only_temperature (g_nodes g1) (g_nodes g3) ->
  combined a b k (temperatures (g_nodes g1)) (temperatures (g_nodes g2)) (temperatures (g_nodes g3)) ->
  exists g1' g2' g3' N,
    (forall fuel, (N <= fuel)%nat -> solveHeatEquation fuel c g1 dt = Ok g1' /\
       solveHeatEquation fuel c g2 dt = Ok g2' /\ solveHeatEquation fuel c g3 dt = Ok g3') /\
    combined a b k (temperatures (g_nodes g1')) (temperatures (g_nodes g2')) (temperatures (g_nodes g3')).
Proof. exact heat_superposition_lem. Qed.
Print Assumptions heat_superposition.

(** C122 A column, the same column isothermal, and the mean of the two. *)
Example superposition_case :
  exists g1 g2 g3, constants_ok default_constants /\ counted g1 /\ counted g2 /\ counted g3 /\
    conductive default_constants (g_nodes g1) /\ (3 <= length (g_nodes g1))%nat /\
    Forall2 only_temperature (g_nodes g1) (g_nodes g2) /\ Forall2 only_temperature (g_nodes g1) (g_nodes g3) /\
    combined 0.5 0.5 0 (temperatures (g_nodes g1)) (temperatures (g_nodes g2)) (temperatures (g_nodes g3)) /\
    temperatures (g_nodes g1) <> temperatures (g_nodes g3).
Proof. exact superposition_case_lem. Qed.
