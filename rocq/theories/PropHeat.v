(** * Heat conduction (C22, C23, C57)

    Theorems only; the proofs are in LemFinHeat.v and the files it uses. *)

From Verif Require Import ModelPy ModelConstants ModelNode ModelGrid ModelHeat Spec.
From Verif Require Import LemFinHeat.

(** C22.  With at least three layers heat conduction always finishes, changes nothing but
    temperatures, leaves the first and the last temperature as they are, and keeps all
    temperatures within any bounds that hold before. *)
Theorem heat_maximum_principle :
  forall (c : Consts) (g : Grid) (dt : R),
  constants_ok c -> counted g -> conductive c (g_nodes g) -> (3 <= length (g_nodes g))%nat ->
  exists (g' : Grid) (N : nat),
    (forall fuel, (N <= fuel)%nat -> solveHeatEquation fuel c g dt = Ok g') /\
    Forall2 only_temperature (g_nodes g) (g_nodes g') /\
    (forall lo hi, Forall (fun n => lo <= n_temperature n <= hi) (g_nodes g) ->
       Forall (fun n => lo <= n_temperature n <= hi) (g_nodes g')) /\
    hd_error (temperatures (g_nodes g')) = hd_error (temperatures (g_nodes g)) /\
    last (temperatures (g_nodes g')) 0 = last (temperatures (g_nodes g)) 0 /\
    counted g' /\ g_number_nodes g' = g_number_nodes g /\ same_clock g g'.
Proof. exact heat_maximum_principle_lem. Qed.
Print Assumptions heat_maximum_principle.

(** C22.  A column of one temperature does not change. *)
Theorem heat_isothermal_unchanged :
  forall (c : Consts) (g : Grid) (dt t : R),
  constants_ok c -> counted g -> conductive c (g_nodes g) -> (3 <= length (g_nodes g))%nat ->
  Forall (fun n => n_temperature n = t) (g_nodes g) ->
  exists N, forall fuel, (N <= fuel)%nat -> solveHeatEquation fuel c g dt = Ok g.
Proof. exact heat_isothermal_unchanged_lem. Qed.
Print Assumptions heat_isothermal_unchanged.

(** C22.  The warmer of two columns that differ only in temperature stays the warmer one. *)
Theorem heat_comparison :
  forall (c : Consts) (g1 g2 : Grid) (dt : R),
  constants_ok c -> counted g1 -> counted g2 -> conductive c (g_nodes g1) ->
  (3 <= length (g_nodes g1))%nat ->
  Forall2 (fun x y => only_temperature x y /\ n_temperature x <= n_temperature y)
    (g_nodes g1) (g_nodes g2) ->
  exists g1' g2' N,
    (forall fuel, (N <= fuel)%nat ->
       solveHeatEquation fuel c g1 dt = Ok g1' /\ solveHeatEquation fuel c g2 dt = Ok g2') /\
    Forall2 (fun x y => only_temperature x y /\ n_temperature x <= n_temperature y)
      (g_nodes g1') (g_nodes g2').
Proof. exact heat_comparison_lem. Qed.
Print Assumptions heat_comparison.

(** C23.  The solver advances the discrete heat equation in sub-steps that are positive, sum up
    exactly to the time step, never exceed the stability limit (0.8 times half the
    squared distance over the diffusivity, for every pair of neighbours), and are all as
    long as the limit of the tightest pair allows, except the last. *)
Theorem heat_substeps_cover_time_step :
  forall (c : Consts) (g : Grid) (dt : R),
  constants_ok c -> counted g -> conductive c (g_nodes g) -> (3 <= length (g_nodes g))%nat ->
  exists (g' : Grid) (N : nat) (K taus : list R) (d : R),
    (forall fuel, (N <= fuel)%nat -> solveHeatEquation fuel c g dt = Ok g') /\
    get_thermal_diffusivity c g = Ok K /\
    heat_steps (heights (g_nodes g)) K taus (temperatures (g_nodes g)) (temperatures (g_nodes g')) /\
    sum_list taus = Rmax dt 0 /\
    Forall (fun tau => 0 < tau <= d /\ stable_step (heights (g_nodes g)) K tau) taus /\
    (forall front back, taus = front ++ [back] -> Forall (fun tau => tau = d) front) /\
    (exists i, (i + 1 < length (g_nodes g))%nat /\
       d * (at_layer K i + at_layer K (i + 1)) / 2
       = 0.8 * (((at_layer (heights (g_nodes g)) i + at_layer (heights (g_nodes g)) (i + 1)) / 2) ^ 2 / 2)).
Proof. exact heat_substeps_cover_time_step_lem. Qed.
Print Assumptions heat_substeps_cover_time_step.

(** C23.  With fewer than three layers the solver raises: there is no distance to take the
    minimum of. *)
Theorem heat_needs_three_layers :
  forall (c : Consts) (g : Grid) (dt : R) (fuel : nat),
  constants_ok c -> counted g -> conductive c (g_nodes g) -> (length (g_nodes g) < 3)%nat ->
  solveHeatEquation fuel c g dt = Err ValueError.
Proof. exact heat_needs_three_layers_lem. Qed.
Print Assumptions heat_needs_three_layers.

(** C57.  One sub-step exchanges heat between neighbours without loss if every layer's heat is
    counted over the distance between the midpoints of its two gaps: the sum over the
    layers 1 .. n changes by the fluxes through the two outer gaps. *)
Theorem heat_flux_balance :
  forall (h K T T' : list R) (tau : R) (n : nat),
  heat_advance h K tau T T' -> (n + 1 < length T)%nat ->
  sum_upto (fun i => control_length h (i + 1) * (at_layer T' (i + 1) - at_layer T (i + 1))) n
  = tau * (conductive_flux h K T n - conductive_flux h K T 0).
Proof. exact heat_flux_balance_lem. Qed.
Print Assumptions heat_flux_balance.

(** C57.  Counted over the layers' own thickness, heat is not conserved: in a column of pure ice
    (equal heat capacity everywhere) without temperature gradient at either end, one
    hour of conduction changes the sum of thickness times temperature. *)
Theorem heat_content_conserved_refuted :
  exists (g g' : Grid),
    counted g /\ conductive default_constants (g_nodes g) /\ length (g_nodes g) = 4%nat /\
    Forall (fun n => n_ice n = 1 /\ n_lwc n = 0) (g_nodes g) /\
    at_layer (temperatures (g_nodes g)) 0 = at_layer (temperatures (g_nodes g)) 1 /\
    at_layer (temperatures (g_nodes g)) 2 = at_layer (temperatures (g_nodes g)) 3 /\
    (exists N, forall fuel, (N <= fuel)%nat ->
       solveHeatEquation fuel default_constants g 3600 = Ok g') /\
    column_heat (g_nodes g') < column_heat (g_nodes g).
Proof. exact heat_content_conserved_refuted_lem. Qed.
Print Assumptions heat_content_conserved_refuted.

(** the example column meets the hypotheses *)
Example heat_example :
  constants_ok default_constants /\ counted ex_heat_grid /\
  conductive default_constants (g_nodes ex_heat_grid) /\ (3 <= length (g_nodes ex_heat_grid))%nat /\
  Forall (fun n => 263 <= n_temperature n <= 270) (g_nodes ex_heat_grid).
Proof. exact heat_example_lem. Qed.
