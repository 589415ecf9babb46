(** * The bound on the number of loop passes does not matter (C102)

    Theorems only; the proofs are in LemFinFuel.v and the files it uses. *)

From Verif Require Import ModelPy ModelConstants ModelNode ModelGrid ModelWater ModelHeat ModelDensification ModelRadiation ModelAlbedo ModelSurface ModelInit ModelCore SpecCalm.
From Verif Require Import LemFinFuel.

(** C102.  One time step: whatever it returns or raises with one bound on the number of loop passes,
    it also returns or raises with every larger bound, except for running out of passes. *)
Theorem step_bound_irrelevant :
  forall (fuel fuel' : nat) c sw sv settings d inp t s, (fuel <= fuel')%nat ->
    core_step fuel c sw sv settings d inp t s <> Err OutOfFuel ->
    core_step fuel' c sw sv settings d inp t s = core_step fuel c sw sv settings d inp t s.
Proof. exact step_bound_irrelevant_lem. Qed.
Print Assumptions step_bound_irrelevant.

(** C102.  The same for a complete run of one grid cell: a finished run with one bound is the finished run
    with every other bound that suffices, so nothing that is proved of a run depends on the bound. *)
Theorem cell_bound_irrelevant :
  forall (fuel fuel' : nat) c sw sv d restart,
    cosipy_core fuel c sw sv d restart <> Err OutOfFuel ->
    cosipy_core fuel' c sw sv d restart <> Err OutOfFuel ->
    cosipy_core fuel' c sw sv d restart = cosipy_core fuel c sw sv d restart.
Proof. exact cell_bound_irrelevant_lem. Qed.
Print Assumptions cell_bound_irrelevant.

(** C102.  Remeshing, melt and heat conduction alone. *)
Theorem part_bound_irrelevant :
  forall (fuel fuel' : nat) c g, (fuel <= fuel')%nat ->
    (update_grid fuel c g <> Err OutOfFuel -> update_grid fuel' c g = update_grid fuel c g) /\
    (forall m i, remove_melt_weq fuel c g m i <> Err OutOfFuel -> remove_melt_weq fuel' c g m i = remove_melt_weq fuel c g m i) /\
    (forall dt, solveHeatEquation fuel c g dt <> Err OutOfFuel -> solveHeatEquation fuel' c g dt = solveHeatEquation fuel c g dt).
Proof. exact part_bound_irrelevant_lem. Qed.
Print Assumptions part_bound_irrelevant.

(** C102 A step that does not run out of passes. *)
Example bound_case :
  exists fuel inp,
  select_inputs calm_constants calm_switches calm_data = Ok inp /\
  core_step fuel calm_constants calm_switches calm_solvers calm_settings calm_data inp 0 calm_state <> Err OutOfFuel /\
  core_step 0 calm_constants calm_switches calm_solvers calm_settings calm_data inp 0 calm_state
    <> core_step fuel calm_constants calm_switches calm_solvers calm_settings calm_data inp 0 calm_state.
Proof. exact bound_case_lem. Qed.
