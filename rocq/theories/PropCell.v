(** * From the data of a cell to the files

    Theorems only; the proofs are in LemFinCell.v and the files it uses. *)

From Verif Require Import ModelPy ModelConstants ModelNode ModelGrid ModelSurface ModelInit ModelCore ModelConfig ModelIO ModelMain SpecIO SpecCell.
From Verif Require Import LemFinCell.

From Coq Require Import Permutation.

(** C105.  In a run that completes, each glacier cell is computed by the column model from the entries of the input variables in this very cell (and of the restart file in this cell, after a restart), and the files hold in this cell the series, profiles and restart data that this computation has returned. *)
Theorem cell_computed :
  forall fuel cfg c sw sv sd arrivals data restart stakes measured io col y x,
  run_cosipy cfg c (cell_work fuel cfg c sw sv sd data) arrivals data restart stakes measured io = Ok col ->
  schedule arrivals -> sw_full_field sw = rc_full_field cfg ->
  sizes data = Ok (io_ny io, io_nx io) ->
  (0 <= y < io_ny io)%Z -> (0 <= x < io_nx io)%Z -> is_glacier data y x ->
  exists d start s outs last,
    reads data y x d /\ starts_from cfg restart y x start /\
    cosipy_core fuel c sw sv d start = Ok (s, outs, Some last) /\
    files_hold cfg c io (col_io col) y x outs last.
Proof. exact cell_computed_lem. Qed.
Print Assumptions cell_computed.

(** C106.  What the files hold in a glacier cell depends on the data of this cell alone: if two runs of the same settings (whatever their grids, their other cells, their stakes and the order of their workers) have the same times and the same input in a cell of each, and the same restart data there if they restart, then every computed result variable and every restart variable has the same entry in the two cells. *)
Theorem cell_local :
  forall fuel cfg cfg' c sw sv sd sd' arrivals arrivals' data data' restart restart' stakes stakes'
    measured measured' io io' col col' y x y' x',
  run_cosipy cfg c (cell_work fuel cfg c sw sv sd data) arrivals data restart stakes measured io = Ok col ->
  run_cosipy cfg' c (cell_work fuel cfg' c sw sv sd' data') arrivals' data' restart' stakes' measured' io' = Ok col' ->
  schedule arrivals -> schedule arrivals' ->
  sw_full_field sw = rc_full_field cfg -> rc_full_field cfg' = rc_full_field cfg -> rc_restart cfg' = rc_restart cfg ->
  io_atm io' = io_atm io -> io_internal io' = io_internal io -> io_full io' = io_full io ->
  sizes data = Ok (io_ny io, io_nx io) -> sizes data' = Ok (io_ny io', io_nx io') ->
  (0 <= y < io_ny io)%Z -> (0 <= x < io_nx io)%Z -> (0 <= y' < io_ny io')%Z -> (0 <= x' < io_nx io')%Z ->
  is_glacier data y x -> same_cell data y x data' y' x' ->
  (rc_restart cfg = true -> same_start restart y x restart' y' x') ->
  (forall name, computed (rc_full_field cfg) io name ->
     same_result (io_RESULT (col_io col)) y x (io_RESULT (col_io col')) y' x' name) /\
  (forall name, In name restart_names ->
     same_result (io_RESTART (col_io col)) y x (io_RESTART (col_io col')) y' x' name).
Proof. exact cell_local_lem. Qed.
Print Assumptions cell_local.

(** C106.  A run on a tile gives in each glacier cell of the tile what the run on the whole area gives there, in every computed result variable and every restart variable; the two runs also give their files the same names. *)
Theorem tile_same_results :
  forall parse fuel cfg c sw sv sd sd' arrivals arrivals' file open_restart open_restart' stakes stakes'
    measured measured' w w' d ms ny nx y x,
  rc_restart cfg = false -> rc_tile cfg = true -> sw_full_field sw = rc_full_field cfg ->
  schedule arrivals -> schedule arrivals' ->
  cosipy_main parse cfg c (cell_work fuel cfg c sw sv sd) arrivals file open_restart stakes measured = Ok w ->
  cosipy_main parse (untiled cfg) c (cell_work fuel (untiled cfg) c sw sv sd') arrivals' file open_restart'
    stakes' measured' = Ok w' ->
  init_data_dataset parse cfg file None = Ok (d, ms) ->
  (0 <= rc_ystart cfg <= y)%Z -> (y < rc_yend cfg)%Z -> (0 <= rc_xstart cfg <= x)%Z -> (x < rc_xend cfg)%Z ->
  on_grid d ny nx -> is_glacier d y x ->
  w_name w = w_name w' /\ w_restart_time w = w_restart_time w' /\
  (forall name, computed (rc_full_field cfg) (io_init cfg) name ->
     same_result (w_result w) (y - rc_ystart cfg) (x - rc_xstart cfg) (w_result w') y x name) /\
  (forall name, In name restart_names ->
     same_result (w_restart w) (y - rc_ystart cfg) (x - rc_xstart cfg) (w_restart w') y x name).
Proof. exact tile_same_results_lem. Qed.
Print Assumptions tile_same_results.
