(** * Input, output and the driver

    Theorems only; the proofs are in LemFinIO.v and the files it uses. *)

From Verif Require Import ModelPy ModelConstants ModelNode ModelGrid ModelSurface ModelInit ModelCore ModelConfig ModelIO ModelMain SpecIO.
From Verif Require Import LemFinIO.

From Coq Require Import Permutation Sorted.

(** C46.  The results in the files do not depend on the order in which the workers finish: for every
   pair of orders a run that succeeds with the first one succeeds with the second one and leaves
   the same arrays and datasets; the rows of the stake statistics are the same up to their order.
   If the run fails with one order it fails with every order. *)
Theorem schedule_independent :
  forall cfg c work arrivals arrivals' data restart stakes measured io,
    answers_for_its_cell work -> schedule arrivals -> schedule arrivals' ->
    NoDup (map fst (io_RESULT io)) -> NoDup (map fst (io_RESTART io)) ->
    match run_cosipy cfg c work arrivals data restart stakes measured io,
          run_cosipy cfg c work arrivals' data restart stakes measured io with
    | Ok col, Ok col' =>
        col_io col' = col_io col /\ Permutation (col_stat col) (col_stat col')
    | Err _, Err _ => True
    | _, _ => False
    end.
Proof. exact schedule_independent_lem. Qed.
Print Assumptions schedule_independent.

(** C46.  The two files that a complete run leaves (name, result variables, restart time, restart
   variables) are the same whatever the order in which the workers finish. *)
Theorem files_schedule_independent :
  forall parse cfg c work arrivals arrivals' file open_restart stakes measured w,
    (forall data, answers_for_its_cell (work data)) -> schedule arrivals -> schedule arrivals' ->
    cosipy_main parse cfg c work arrivals file open_restart stakes measured = Ok w ->
    cosipy_main parse cfg c work arrivals' file open_restart stakes measured = Ok w.
Proof. exact files_schedule_independent_lem. Qed.
Print Assumptions files_schedule_independent.

(** C46,C63.  The worker of the model, cosipy_core with its stake evaluation, answers for its own cell
   with the tuple of cosipy_core, so that the theorems about workers apply to it. *)
Theorem worker_answers :
  forall fuel cfg c sw sv sd data,
    answers_as_core (sw_full_field sw) (c_max_layers c)
      (cell_work fuel cfg c sw sv sd data) /\
    answers_for_its_cell (cell_work fuel cfg c sw sv sd data).
Proof. exact worker_answers_lem. Qed.
Print Assumptions worker_answers.

(** C46,C63.  Every listed variable of the atmosphere holds, in each glacier cell, the series of this
   quantity that the worker of this cell has returned, and NaN in each other cell; its units and
   long name are those of the table. *)
Theorem result_atm :
  forall cfg c work arrivals data restart stakes measured io col name f,
    run_cosipy cfg c work arrivals data restart stakes measured io = Ok col ->
    schedule arrivals -> answers_as_core (rc_full_field cfg) (c_max_layers c) work ->
    sizes data = Ok (io_ny io, io_nx io) -> some_glacier data (io_ny io) (io_nx io) ->
    In name (io_atm io) -> atm_field name = Some f ->
    exists v m, dict_find (io_RESULT (col_io col)) name = Some v /\
      dict_find result_metadata name = Some m /\ v_units v = fst m /\ v_long_name v = snd m /\
      v_dims v = ["time"%string; rc_northing cfg; rc_easting cfg] /\
      filled data (io_ny io) (io_nx io)
        (found cfg (c_max_layers c) work data restart stakes)
        (fun _ outs => Some (Series (map f outs))) (nan_series (io_time io)) (v_data v).
Proof. exact result_atm_lem. Qed.
Print Assumptions result_atm.

(** C46,C63.  The same for the listed internal variables. *)
Theorem result_internal :
  forall cfg c work arrivals data restart stakes measured io col name f,
    run_cosipy cfg c work arrivals data restart stakes measured io = Ok col ->
    schedule arrivals -> answers_as_core (rc_full_field cfg) (c_max_layers c) work ->
    sizes data = Ok (io_ny io, io_nx io) -> some_glacier data (io_ny io) (io_nx io) ->
    In name (io_internal io) -> internal_field name = Some f ->
    exists v m, dict_find (io_RESULT (col_io col)) name = Some v /\
      dict_find result_metadata name = Some m /\ v_units v = fst m /\ v_long_name v = snd m /\
      v_dims v = ["time"%string; rc_northing cfg; rc_easting cfg] /\
      filled data (io_ny io) (io_nx io)
        (found cfg (c_max_layers c) work data restart stakes)
        (fun _ outs => Some (Series (map f outs))) (nan_series (io_time io)) (v_data v).
Proof. exact result_internal_lem. Qed.
Print Assumptions result_internal.

(** C46,C63.  The same for the listed layer variables of a run with full fields: one row of layers per
   step, filled from the top and NaN below the last layer. *)
Theorem result_layers :
  forall cfg c work arrivals data restart stakes measured io col name f,
    run_cosipy cfg c work arrivals data restart stakes measured io = Ok col ->
    schedule arrivals -> answers_as_core (rc_full_field cfg) (c_max_layers c) work ->
    sizes data = Ok (io_ny io, io_nx io) -> some_glacier data (io_ny io) (io_nx io) ->
    rc_full_field cfg = true -> In name (io_full io) -> layer_field name = Some f ->
    exists v m, dict_find (io_RESULT (col_io col)) ("LAYER_" ++ name)%string = Some v /\
      dict_find result_metadata ("LAYER_" ++ name)%string = Some m /\
      v_units v = fst m /\ v_long_name v = snd m /\
      v_dims v = ["time"%string; rc_northing cfg; rc_easting cfg; "layer"%string] /\
      filled data (io_ny io) (io_nx io)
        (found cfg (c_max_layers c) work data restart stakes)
        (fun _ outs => Some (Layers (map (profile_row (c_max_layers c) f) outs)))
        (nan_layers (io_time io) (c_max_layers c)) (v_data v).
Proof. exact result_layers_lem. Qed.
Print Assumptions result_layers.

(** C63.  A listed name that its list does not serve ends as NaN in every cell: a static field such as
   HGT listed under output_atm, an input such as T2 listed under output_internal, or an internal
   quantity listed under output_atm.  The variable of this name that the result dataset held before
   (the copied input) is overwritten. *)
Theorem result_misplaced :
  forall cfg c work arrivals data restart stakes measured io col name,
    run_cosipy cfg c work arrivals data restart stakes measured io = Ok col ->
    schedule arrivals -> answers_as_core (rc_full_field cfg) (c_max_layers c) work ->
    sizes data = Ok (io_ny io, io_nx io) -> some_glacier data (io_ny io) (io_nx io) ->
    (In name (io_atm io) \/ In name (io_internal io)) ->
    (In name (io_atm io) -> atm_field name = None) ->
    (In name (io_internal io) -> internal_field name = None) ->
    prefix "LAYER_" name = false -> prefix "RES_" name = false ->
    exists v, dict_find (io_RESULT (col_io col)) name = Some v /\ all_nan (v_data v) /\
      forall y x, (0 <= y < io_ny io)%Z -> (0 <= x < io_nx io)%Z ->
        cell_at (v_data v) y x = Some (nan_series (io_time io)).
Proof. exact result_misplaced_lem. Qed.
Print Assumptions result_misplaced.

(** C63.  Without a glacier cell no result variable is written at all: the result dataset stays as the
   input left it, and the restart dataset stays empty of variables. *)
Theorem result_no_glacier :
  forall cfg c work arrivals data restart stakes measured io col,
    run_cosipy cfg c work arrivals data restart stakes measured io = Ok col ->
    schedule arrivals ->
    sizes data = Ok (io_ny io, io_nx io) -> ~ some_glacier data (io_ny io) (io_nx io) ->
    io_RESULT (col_io col) = io_RESULT io /\ io_RESTART (col_io col) = io_RESTART io /\
    col_stat col = [] /\ col_val col = measured.
Proof. exact result_no_glacier_lem. Qed.
Print Assumptions result_no_glacier.

(** C68.  The restart file holds in each glacier cell the four numbers and the five layer profiles that
   the worker of this cell has returned, and NaN in each other cell. *)
Theorem restart_written :
  forall cfg c work arrivals data restart stakes measured io col,
    run_cosipy cfg c work arrivals data restart stakes measured io = Ok col ->
    schedule arrivals -> answers_as_core (rc_full_field cfg) (c_max_layers c) work ->
    sizes data = Ok (io_ny io, io_nx io) -> some_glacier data (io_ny io) (io_nx io) ->
    (forall name, In name ["NLAYERS"; "NEWSNOWHEIGHT"; "NEWSNOWTIMESTAMP"; "OLDSNOWTIMESTAMP"]%string ->
       exists v, dict_find (io_RESTART (col_io col)) name = Some v /\
         v_dims v = [rc_northing cfg; rc_easting cfg] /\
         filled data (io_ny io) (io_nx io)
           (found cfg (c_max_layers c) work data restart stakes)
           (fun d _ => restart_variable d name) (nan_series 1) (v_data v)) /\
    (forall name, In name ["LAYER_HEIGHT"; "LAYER_RHO"; "LAYER_T"; "LAYER_LWC"; "LAYER_IF"]%string ->
       exists v, dict_find (io_RESTART (col_io col)) name = Some v /\
         v_dims v = [rc_northing cfg; rc_easting cfg; "layer"%string] /\
         filled data (io_ny io) (io_nx io)
           (found cfg (c_max_layers c) work data restart stakes)
           (fun d _ => restart_variable d name) (nan_series (c_max_layers c)) (v_data v)).
Proof. exact restart_written_lem. Qed.
Print Assumptions restart_written.

(** C47.  The submitted cells are exactly the cells of the grid with mask 1, each once; every one is
   free of NaN, gets the restart data of its own cell, and the stakes of its own cell. *)
Theorem submitted_cells :
  forall cfg data restart stakes ny nx jobs,
    submit cfg data restart stakes ny nx = Ok jobs ->
    NoDup (map job_cell jobs) /\
    (forall y x, In (y, x) (map job_cell jobs) <->
       (0 <= y < ny)%Z /\ (0 <= x < nx)%Z /\ is_glacier data y x) /\
    Forall (proper_job cfg data restart stakes) jobs.
Proof. exact submitted_cells_lem. Qed.
Print Assumptions submitted_cells.

(** C47.  Where the horizontal dimensions carry the names by which the program selects, and without restart, the submission stops the program exactly if some glacier cell of the grid has
   a NaN in one of the input variables, and otherwise submits. *)
Theorem submission_stops_on_nan :
  forall cfg data restart stakes ny nx,
    dimensions_named cfg -> on_grid data ny nx -> rc_restart cfg = false ->
    ((exists y x, (0 <= y < ny)%Z /\ (0 <= x < nx)%Z /\ is_glacier data y x /\ has_nan data y x) ->
       submit cfg data restart stakes ny nx = Err SystemExit) /\
    (~ (exists y x, (0 <= y < ny)%Z /\ (0 <= x < nx)%Z /\ is_glacier data y x /\ has_nan data y x) ->
       exists jobs, submit cfg data restart stakes ny nx = Ok jobs).
Proof. exact submission_stops_on_nan_lem. Qed.
Print Assumptions submission_stops_on_nan.

(** C47,C66.  A stake goes to the worker of its own cell and to no other one. *)
Theorem stakes_of_cell :
  forall stakes y x name, In name (stakes_of stakes y x) <-> In (y, x, name) stakes.
Proof. exact stakes_of_cell_lem. Qed.
Print Assumptions stakes_of_cell.

(** C46,C63.  A run without restart and stake evaluation succeeds, in whatever order the workers
   finish, if the horizontal dimensions carry the names by which the program selects, the input covers the grid and no glacier cell has a NaN, every listed output variable
   has an entry in the table of units, and every worker returns one output per time step, profiles
   that fit into max_layers, and restart data of the right lengths. *)
Theorem run_succeeds :
  forall cfg c work arrivals data restart stakes measured io,
    schedule arrivals -> rc_restart cfg = false -> rc_stake_evaluation cfg = false ->
    dimensions_named cfg -> sizes data = Ok (io_ny io, io_nx io) -> on_grid data (io_ny io) (io_nx io) ->
    ~ (exists y x, (0 <= y < io_ny io)%Z /\ (0 <= x < io_nx io)%Z /\
         is_glacier data y x /\ has_nan data y x) ->
    names_known (rc_full_field cfg) io ->
    (forall y x, (0 <= y < io_ny io)%Z -> (0 <= x < io_nx io)%Z -> is_glacier data y x ->
       exists d outs names stat df,
         work (mkJob y x None None) =
           Ok (core_return (rc_full_field cfg) (c_max_layers c) y x d outs names stat df) /\
         answer_fits (c_max_layers c) (io_time io) d outs) ->
    exists col, run_cosipy cfg c work arrivals data restart stakes measured io = Ok col.
Proof. exact run_succeeds_lem. Qed.
Print Assumptions run_succeeds.

(** two cells, the second one outside of the mask and with a NaN; a list of one variable for each
   of the three kinds; the workers return one step with one layer *)
Example run_case :
  exists cfg work data io o m,
    rc_full_field cfg = true /\ schedule (@rev Job) /\ m = c_max_layers default_constants /\
    answers_as_core true m work /\ sizes data = Ok (io_ny io, io_nx io) /\
    io_ny io = 1%Z /\ io_nx io = 2%Z /\ is_glacier data 0 0 /\ ~ is_glacier data 0 1 /\
    has_nan data 0 1 /\ io_atm io = ["RAIN"%string] /\ io_internal io = ["MB"%string] /\
    io_full io = ["HEIGHT"%string] /\ o_RAIN o = 1 /\ o_MB o = 2 /\
    exists col, run_cosipy cfg default_constants work (@rev Job) data None [] [] io = Ok col /\
      exists v, dict_find (io_RESULT (col_io col)) "RAIN"%string = Some v /\
        cell_at (v_data v) 0 0 = Some (Series [Some 1]) /\ cell_at (v_data v) 0 1 = Some (Series [None]).
Proof. exact run_case_lem. Qed.
