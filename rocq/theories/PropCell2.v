(** * When a gridded run completes, and what its files say

    Theorems only; the proofs are in LemFinCell2.v and the files it uses. *)

From Verif Require Import ModelPy ModelConstants ModelNode ModelGrid ModelSurface ModelInit ModelCore ModelConfig ModelIO ModelMain Spec SpecIO SpecCell SpecCalm.
From Verif Require Import LemFinCell2.

From Coq Require Import Permutation Lra.

(** C107.  A run without restart and stake evaluation, whose dimensions carry the names by which the program selects, whose variables cover the grid without NaN in a glacier cell, and whose listed output variables are known, completes exactly if the column model completes in every glacier cell with the data of the cell; the order in which the workers finish does not matter. *)
Theorem run_completes_iff :
  forall fuel cfg c sw sv sd arrivals data restart stakes measured io,
  schedule arrivals -> rc_restart cfg = false -> rc_stake_evaluation cfg = false ->
  dimensions_named cfg -> sw_full_field sw = rc_full_field cfg ->
  sizes data = Ok (io_ny io, io_nx io) -> on_grid data (io_ny io) (io_nx io) ->
  ~ (exists y x, (0 <= y < io_ny io)%Z /\ (0 <= x < io_nx io)%Z /\ is_glacier data y x /\ has_nan data y x) ->
  names_known (rc_full_field cfg) io -> (0 <= c_max_layers c)%Z ->
  (forall y x d, reads data y x d -> Z.of_nat (nt d) = io_time io) ->
  ((exists col, run_cosipy cfg c (cell_work fuel cfg c sw sv sd data) arrivals data restart stakes measured io = Ok col) <->
   forall y x, (0 <= y < io_ny io)%Z -> (0 <= x < io_nx io)%Z -> is_glacier data y x ->
     exists d s outs last, reads data y x d /\ cosipy_core fuel c sw sv d None = Ok (s, outs, Some last)).
Proof. exact run_completes_iff_lem. Qed.
Print Assumptions run_completes_iff.

(** C107.  The same for the whole program, from the input file to the names of the two files it writes: with periods given as text, times left after the selection of the period, and the tile cut if there is one. *)
Theorem main_completes_iff :
  forall parse fuel cfg c sw sv sd arrivals file open_restart stakes measured whole ms first final ny nx,
  schedule arrivals -> rc_restart cfg = false -> rc_stake_evaluation cfg = false ->
  dimensions_named cfg -> sw_full_field sw = rc_full_field cfg ->
  rc_time_start cfg = VStr first -> rc_time_end cfg = VStr final ->
  init_data_dataset parse cfg file None = Ok (whole, ms) -> g_times whole <> [] ->
  let data := if rc_tile cfg then cut_tile cfg whole else whole in
  sizes data = Ok (ny, nx) -> on_grid data ny nx -> dict_find (g_vars data) "T2" <> None ->
  ~ (exists y x, (0 <= y < ny)%Z /\ (0 <= x < nx)%Z /\ is_glacier data y x /\ has_nan data y x) ->
  names_known (rc_full_field cfg) (io_init cfg) -> (0 <= c_max_layers c)%Z ->
  (forall y x d, reads data y x d -> nt d = length (g_times whole)) ->
  ((exists w, cosipy_main parse cfg c (cell_work fuel cfg c sw sv sd) arrivals file open_restart stakes measured = Ok w) <->
   forall y x, (0 <= y < ny)%Z -> (0 <= x < nx)%Z -> is_glacier data y x ->
     exists d s outs last, reads data y x d /\ cosipy_core fuel c sw sv d None = Ok (s, outs, Some last)).
Proof. exact main_completes_iff_lem. Qed.
Print Assumptions main_completes_iff.

(** C108.  The result file of every completed run keeps the books of each glacier cell at each step: the mass balance is surface plus internal balance, the surface balance is snowfall minus melt plus sublimation, deposition and evaporation, the internal balance is refreezing minus subsurface melt, and melt is melt energy times the time step over the latent heat. *)
Theorem file_balance :
  forall fuel cfg c sw sv sd arrivals data restart stakes measured io col y x k,
  run_cosipy cfg c (cell_work fuel cfg c sw sv sd data) arrivals data restart stakes measured io = Ok col ->
  schedule arrivals -> sw_full_field sw = rc_full_field cfg ->
  sizes data = Ok (io_ny io, io_nx io) -> (0 <= y < io_ny io)%Z -> (0 <= x < io_nx io)%Z -> is_glacier data y x ->
  0 < c_lat_heat_melting c -> 0 <= c_dt c ->
  In "SNOWFALL"%string (io_atm io) ->
  (forall name, In name ["MB"; "surfMB"; "intMB"; "surfM"; "SUBLIMATION"; "DEPOSITION"; "EVAPORATION"; "REFREEZE"; "subM"; "ME"]%string ->
     In name (io_internal io)) ->
  (forall d, reads data y x d -> (k < nt d)%nat) ->
  exists v : string -> R,
    (forall name, In name ["SNOWFALL"; "MB"; "surfMB"; "intMB"; "surfM"; "SUBLIMATION"; "DEPOSITION"; "EVAPORATION"; "REFREEZE"; "subM"; "ME"]%string ->
       file_number (io_RESULT (col_io col)) name y x k (v name)) /\
    v "MB"%string = v "surfMB"%string + v "intMB"%string /\
    v "surfMB"%string = v "SNOWFALL"%string - v "surfM"%string + v "SUBLIMATION"%string + v "DEPOSITION"%string + v "EVAPORATION"%string /\
    v "intMB"%string = v "REFREEZE"%string - v "subM"%string /\
    0 <= v "ME"%string /\ v "surfM"%string * (1000 * c_lat_heat_melting c) = v "ME"%string * c_dt c.
Proof. exact file_balance_lem. Qed.
Print Assumptions file_balance.

(** C109.  Without WRF, a configuration whose horizontal dimensions are not called lat and lon fails at the first cell, although it has a setting for the two names: every run over a grid with at least one cell raises ValueError. *)
Theorem other_dimensions_fail :
  forall cfg c work arrivals data restart stakes measured io ny nx,
  rc_WRF cfg = false -> rc_northing cfg <> "lat"%string \/ rc_easting cfg <> "lon"%string ->
  sizes data = Ok (ny, nx) -> (0 < ny)%Z -> (0 < nx)%Z ->
  run_cosipy cfg c work arrivals data restart stakes measured io = Err ValueError.
Proof. exact other_dimensions_fail_lem. Qed.
Print Assumptions other_dimensions_fail.

(** C109.  With a tile such a run does not even get its data. *)
Theorem other_dimensions_tile :
  forall parse cfg c file open_restart io r,
  rc_tile cfg = true -> create_data_file parse cfg c file open_restart io = Ok r -> dimensions_named cfg.
Proof. exact other_dimensions_tile_lem. Qed.
Print Assumptions other_dimensions_tile.

(** C110.  The restart file is not cut to the tile: the worker of cell (y, x) of a restarted tile gets the input of the cell (ystart + y, xstart + x) of the area, but the snow column of the cell (y, x) of the restart file. *)
Theorem tile_restart_uncut :
  forall parse cfg c raw open_restart io0 io data gr ms stakes ny nx jobs,
  rc_restart cfg = true -> rc_tile cfg = true ->
  (0 <= rc_ystart cfg)%Z -> (0 <= rc_yend cfg)%Z -> (0 <= rc_xstart cfg)%Z -> (0 <= rc_xend cfg)%Z ->
  create_data_file parse cfg c (Some raw) open_restart io0 = Ok (io, data, gr, ms) ->
  submit cfg data gr stakes ny nx = Ok jobs ->
  exists whole r, data = cut_tile cfg whole /\ gr = Some r /\
  forall j, In j jobs ->
    (forall name, (0 <= j_y j < rc_yend cfg - rc_ystart cfg)%Z -> (0 <= j_x j < rc_xend cfg - rc_xstart cfg)%Z ->
       entry_at (g_vars data) name (j_y j) (j_x j) =
       entry_at (g_vars whole) name (rc_ystart cfg + j_y j) (rc_xstart cfg + j_x j)) /\
    exists d, j_restart j = Some d /\ forall name, dict_find d name = entry_at (snd r) name (j_y j) (j_x j).
Proof. exact tile_restart_uncut_lem. Qed.
Print Assumptions tile_restart_uncut.

(** C105,C107,C108 The column model completes on a calm polar night. *)
Example calm_cell :
  exists fuel s o last,
  cosipy_core fuel calm_constants calm_switches calm_solvers calm_data None = Ok (s, [o], Some last) /\
  o_SNOWFALL o = 0.02 * (300 / 1000) /\ o_ME o = 0.
Proof. exact calm_cell_lem. Qed.

(** C105,C106,C107,C108 A whole run over two cells, one of them a glacier, and the same run on the tile of the first cell: both complete, and the books of the first step are those of a night with two centimetres of fresh snow. *)
Example calm_run :
  exists fuel,
  forall sd, exists w w',
  cosipy_main calm_parse (calm_config false) calm_constants
    (cell_work fuel (calm_config false) calm_constants calm_switches calm_solvers sd) (@rev Job)
    (Some calm_file) (fun _ => None) [] [] = Ok w /\
  cosipy_main calm_parse (calm_config true) calm_constants
    (cell_work fuel (calm_config true) calm_constants calm_switches calm_solvers sd) (@rev Job)
    (Some calm_file) (fun _ => None) [] [] = Ok w' /\
  w_name w = "out_20090101-20090101.nc"%string /\
  file_number (w_result w) "SNOWFALL" 0 0 0 (0.02 * (300 / 1000)) /\
  file_number (w_result w') "SNOWFALL" 0 0 0 (0.02 * (300 / 1000)) /\
  file_number (w_result w) "surfM" 0 0 0 0.
Proof. exact calm_run_lem. Qed.

(** C109 A configuration for projected data, with the names of the example: lat and lon are not its dimensions. *)
Example projected_case :
  let cfg := mkRunConfig "" "" "" false false false "y" "x" false 0 0 0 0 false "rmse" "mb" (VStr "") (VStr "") "out" in
  rc_WRF cfg = false /\ (rc_northing cfg <> "lat"%string \/ rc_easting cfg <> "lon"%string) /\
  sizes calm_file = Ok (1, 2)%Z /\ ~ dimensions_named cfg.
Proof. exact projected_case_lem. Qed.

(** C110 Two glacier cells in a row, with different snow in the restart file; the tile is the second cell, but its worker starts from the snow of the first. *)
Example tile_restart_case :
  let cfg := mkRunConfig "" "" "" false true false "lat" "lon" true 1 2 0 1 false "rmse" "mb" (VDate 0) (VDate 7200) "out" in
  let raw := mkGridded [0; 3600; 7200]%Z
    [("MASK", [[Series [Some 1]; Series [Some 1]]]);
     ("T2", [[Series [Some 250; Some 250; Some 250]; Series [Some 260; Some 260; Some 260]]])]%string in
  let r := (0%Z, [("NLAYERS"%string, [[[Some 5]; [Some 9]]])]) in
  exists io data ms j,
    create_data_file (fun _ => None) cfg default_constants (Some raw) (fun _ => Some r) (io_init cfg) = Ok (io, data, Some r, ms) /\
    submit cfg data (Some r) [] 1 1 = Ok [j] /\ j_y j = 0%Z /\ j_x j = 0%Z /\
    entry_at (g_vars data) "T2" 0 0 = Some (Series [Some 260; Some 260]) /\
    j_restart j = Some [("NLAYERS"%string, [Some 5])].
Proof. exact tile_restart_case_lem. Qed.
