(** * What the files of the stakes hold

    Theorems only; the proofs are in LemFinStake2.v and the files it uses. *)

From Verif Require Import ModelPy ModelConstants ModelNode ModelGrid ModelSurface ModelInit ModelCore ModelConfig ModelIO ModelMain SpecIO SpecCell SpecCalm SpecStake2.
From Verif Require Import LemFinStake2.

From Coq Require Import Permutation.

(** C116.  The file of the simulations at the stakes: the column of a stake whose cell is on the glacier holds, at every time of a measurement, what the column model simulates in this very cell: the sum of the mass balance or the snow height; nothing at a time that is not simulated.  The column of a stake whose cell is not on the glacier holds the measurements, although the file is called that of the simulations. *)
Theorem stake_columns :
  forall fuel cfg c sw sv sd arrivals data restart stakes measured io col ny nx name,
  rc_stake_evaluation cfg = true -> schedule arrivals -> sizes data = Ok (ny, nx) -> NoDup (g_times data) ->
  NoDup (map snd stakes) ->
  run_cosipy cfg c (cell_work fuel cfg c sw sv sd data) arrivals data restart stakes measured io = Ok col ->
  (forall y x, In (y, x, name) stakes -> (0 <= y < ny)%Z -> (0 <= x < nx)%Z -> is_glacier data y x ->
     exists outs sim, column_of fuel cfg c sw sv data restart y x outs /\
       simulated (rc_obs_type cfg) (sd_index sd) (g_times data) outs sim /\
       dict_find (col_val col) name = Some sim) /\
  ((forall y x, In (y, x, name) stakes -> (0 <= y < ny)%Z -> (0 <= x < nx)%Z -> ~ is_glacier data y x) ->
     dict_find (col_val col) name = dict_find measured name).
Proof. exact stake_columns_lem. Qed.
Print Assumptions stake_columns.

(** C116.  The file of the statistics is put together from one part for every glacier cell, in the order in which the cells are finished; the part of a cell has a line for each stake of this cell and for no other one, with the root of the mean squared difference of the measurements of the stake and the simulation of this cell. *)
Theorem stake_rows :
  forall fuel cfg c sw sv sd arrivals data restart stakes measured io col ny nx,
  rc_stake_evaluation cfg = true -> schedule arrivals -> sizes data = Ok (ny, nx) -> NoDup (g_times data) ->
  run_cosipy cfg c (cell_work fuel cfg c sw sv sd data) arrivals data restart stakes measured io = Ok col ->
  exists cells, NoDup cells /\
    (forall y x, In (y, x) cells <-> (0 <= y < ny)%Z /\ (0 <= x < nx)%Z /\ is_glacier data y x) /\
    Forall2 (fun yx row =>
      (forall name, In name (map fst row) <-> In (fst yx, snd yx, name) stakes) /\
      (forall name r, In (name, r) row ->
         exists obs outs sim, dict_find (sd_columns sd) name = Some obs /\
           column_of fuel cfg c sw sv data restart (fst yx) (snd yx) outs /\
           simulated (rc_obs_type cfg) (sd_index sd) (g_times data) outs sim /\ deviation obs sim r))
      cells (col_stat col).
Proof. exact stake_rows_lem. Qed.
Print Assumptions stake_rows.

(** C116.  A run with stake evaluation and without restart, under the conditions on the input and on the names of the output that hold for a run without stakes, completes exactly if the column model completes in every glacier cell, the method of evaluation and the kind of observation are among the known ones, and every stake whose cell is on the glacier has a column of measurements.  So one stake with a misspelt name, or one unknown word in the configuration, stops the whole run. *)
Theorem stake_run_completes :
  forall fuel cfg c sw sv sd arrivals data restart stakes measured io,
  schedule arrivals -> rc_restart cfg = false -> rc_stake_evaluation cfg = true ->
  dimensions_named cfg -> sw_full_field sw = rc_full_field cfg ->
  sizes data = Ok (io_ny io, io_nx io) -> on_grid data (io_ny io) (io_nx io) ->
  ~ (exists y x, (0 <= y < io_ny io)%Z /\ (0 <= x < io_nx io)%Z /\ is_glacier data y x /\ has_nan data y x) ->
  names_known (rc_full_field cfg) io -> (0 <= c_max_layers c)%Z ->
  (forall y x d, reads data y x d -> Z.of_nat (nt d) = io_time io) ->
  ((exists col, run_cosipy cfg c (cell_work fuel cfg c sw sv sd data) arrivals data restart stakes measured io = Ok col) <->
   forall y x, (0 <= y < io_ny io)%Z -> (0 <= x < io_nx io)%Z -> is_glacier data y x ->
     (exists d s outs last, reads data y x d /\ cosipy_core fuel c sw sv d None = Ok (s, outs, Some last)) /\
     rc_eval_method cfg = "rmse"%string /\ In (rc_obs_type cfg) ["mb"; "snowheight"]%string /\
     forall name, In (y, x, name) stakes -> exists obs, dict_find (sd_columns sd) name = Some obs).
Proof. exact stake_run_completes_lem. Qed.
Print Assumptions stake_run_completes.

(** C116 Two stakes, the second one next to the glacier: the run completes; the column of the first stake has the simulated balance, the column of the second one the measurement. *)
Example two_stakes_case :
  exists fuel col outs mb,
  run_cosipy stake_config calm_constants
    (cell_work fuel stake_config calm_constants calm_switches calm_solvers (mkStakeData [0%Z] two_measured) calm_file)
    (@rev Job) calm_file None two_stakes two_measured stake_io = Ok col /\
  column_of fuel stake_config calm_constants calm_switches calm_solvers calm_file None 0 0 outs /\
  map o_MB outs = [mb] /\
  dict_find (col_val col) "A" = Some [Some mb] /\ dict_find (col_val col) "B" = Some [Some 0.7].
Proof. exact two_stakes_case_lem. Qed.

(** C107.  The worker of a cell refuses the cell: a snow height of several numbers, an air temperature that has layers, a slope of several numbers: ValueError; an air temperature that is missing: AttributeError. *)
Theorem cell_refused :
  forall fuel cfg c sw sv sd data j cell, (0 <= j_y j)%Z -> (0 <= j_x j)%Z ->
  isel data (j_y j) (j_x j) = Ok cell ->
  (forall b, entry_at (g_vars data) "SNOWHEIGHT" (j_y j) (j_x j) = Some b -> (forall v, b <> Series [v]) ->
     cell_work fuel cfg c sw sv sd data j = Err ValueError) /\
  (forall v, entry_at (g_vars data) "SNOWHEIGHT" (j_y j) (j_x j) = option_map (fun v => Series [v]) v ->
     (entry_at (g_vars data) "T2" (j_y j) (j_x j) = None -> cell_work fuel cfg c sw sv sd data j = Err AttributeError) /\
     (forall rows, entry_at (g_vars data) "T2" (j_y j) (j_x j) = Some (Layers rows) ->
        cell_work fuel cfg c sw sv sd data j = Err ValueError)) /\
  (forall d l, reads_without_slope data (j_y j) (j_x j) d -> length l <> 1%nat ->
     entry_at (g_vars data) "SLOPE" (j_y j) (j_x j) = Some (all_numbers l) ->
     cell_work fuel cfg c sw sv sd data j = Err ValueError).
Proof. exact cell_refused_lem. Qed.
Print Assumptions cell_refused.
