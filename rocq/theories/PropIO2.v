(** * Names of the output, refused periods, restarts and tiles

    Theorems only; the proofs are in LemFinIO2.v and the files it uses. *)

From Verif Require Import ModelPy ModelConstants ModelNode ModelGrid ModelSurface ModelInit ModelCore ModelConfig ModelIO ModelMain SpecIO.
From Verif Require Import LemFinIO2.

From Coq Require Import Ascii Permutation.

(** C63.  The names of the output are the parts of the text between its commas, in their order; an empty text is an empty list. Of the surface variables those are left out that the input gives. *)
Theorem output_names :
  forall cfg atm internal full,
  Forall comma_free atm -> Forall comma_free internal -> Forall comma_free full ->
  atm <> [""%string] -> internal <> [""%string] -> full <> [""%string] ->
  rc_output_atm cfg = String.concat "," atm -> rc_output_internal cfg = String.concat "," internal ->
  rc_output_full cfg = String.concat "," full ->
  io_internal (io_init cfg) = internal /\ io_full (io_init cfg) = full /\
  io_atm (io_init cfg) =
    filter (fun name => negb (in_names name ["T2"; "RH2"; "U2"; "RRR"; "N"; "G"; "PRES"]%string)) atm.
Proof. exact output_names_lem. Qed.
Print Assumptions output_names.

(** C63 A list with two input variables. *)
Example output_names_case :
  Forall comma_free ["T2"; "LE"; "PRES"; "H"]%string /\
  String.concat "," ["T2"; "LE"; "PRES"; "H"]%string = "T2,LE,PRES,H"%string /\
  filter (fun name => negb (in_names name ["T2"; "RH2"; "U2"; "RRR"; "N"; "G"; "PRES"]%string)) ["T2"; "LE"; "PRES"; "H"]%string = ["LE"; "H"]%string.
Proof. exact output_names_case_lem. Qed.

(** C49.  A period is refused, with IndexError, exactly if all minutes of the file are before its start or all are after its end (or the file has no times). *)
Theorem period_refused :
  forall parse cfg raw rd start stop,
  reads_as parse (rc_time_start cfg) start -> reads_as parse (rc_time_end cfg) stop ->
  (init_data_dataset parse cfg (Some raw) rd = Err IndexError <->
   (forall t, In t (g_times raw) -> (to_minute t < start)%Z) \/ (forall t, In t (g_times raw) -> (stop < to_minute t)%Z)).
Proof. exact period_refused_lem. Qed.
Print Assumptions period_refused.

(** C64.  The data of a restarted run are the times of the file from the time of the restart file plus the step length on until the end of the period, in ascending order, and every cell can start from this restart file; it was the one of the minute of the start. *)
Theorem restart_data :
  forall parse cfg c raw open_restart io0 io data gr ms,
  rc_restart cfg = true ->
  create_data_file parse cfg c (Some raw) open_restart io0 = Ok (io, data, gr, ms) ->
  exists start r first last, rc_time_start cfg = VDate start /\
    open_restart (to_minute start) = Some r /\ gr = Some r /\
    slice_bounds parse (rc_time_end cfg) = Ok (first, last) /\
    ascending (g_times data) /\ io_time io = Z.of_nat (length (g_times data)) /\
    forall t, In t (g_times data) <-> In t (g_times raw) /\ (fst r + py_int (c_dt c) <= t <= last)%Z.
Proof. exact restart_data_lem. Qed.
Print Assumptions restart_data.

(** C64,C68.  A completed run names the restart file after the last of the times it has computed, which is the latest time of the file in the period. *)
Theorem restart_file_named :
  forall parse cfg c work arrivals raw open_restart stakes measured w,
  cosipy_main parse cfg c work arrivals (Some raw) open_restart stakes measured = Ok w ->
  exists lo hi, period parse cfg None lo hi /\
    In (w_restart_time w) (g_times raw) /\ (lo <= w_restart_time w <= hi)%Z /\
    forall t, In t (g_times raw) -> (lo <= t <= hi)%Z -> (t <= w_restart_time w)%Z.
Proof. exact restart_file_named_lem. Qed.
Print Assumptions restart_file_named.

(** C101.  A tile has the variables of the data and the same times; its cells are those of the data from the start of the tile on and before its end, and no others. *)
Theorem tile_cells :
  forall cfg d,
  (0 <= rc_ystart cfg)%Z -> (0 <= rc_yend cfg)%Z -> (0 <= rc_xstart cfg)%Z -> (0 <= rc_xend cfg)%Z ->
  g_times (cut_tile cfg d) = g_times d /\
  map fst (g_vars (cut_tile cfg d)) = map fst (g_vars d) /\
  forall name whole, dict_find (g_vars d) name = Some whole ->
  exists part, dict_find (g_vars (cut_tile cfg d)) name = Some part /\
    forall y x, (0 <= y)%Z -> (0 <= x)%Z ->
      cell_at part y x =
        if ((y <? rc_yend cfg - rc_ystart cfg) && (x <? rc_xend cfg - rc_xstart cfg))%Z
        then cell_at whole (rc_ystart cfg + y) (rc_xstart cfg + x) else None.
Proof. exact tile_cells_lem. Qed.
Print Assumptions tile_cells.

(** C101.  With a tile the run reads the tile of the data it would read without: the selected period is the same. *)
Theorem tile_read :
  forall parse cfg c file open_restart io0 io data gr ms,
  rc_restart cfg = false -> rc_tile cfg = true ->
  create_data_file parse cfg c file open_restart io0 = Ok (io, data, gr, ms) ->
  exists d, init_data_dataset parse cfg file None = Ok (d, ms) /\ data = cut_tile cfg d /\
    sizes data = Ok (io_ny io, io_nx io).
Proof. exact tile_read_lem. Qed.
Print Assumptions tile_read.

(** C101 The middle and the right cell of the second row of a grid of three by three. *)
Example tile_case :
  let cfg := mkRunConfig "" "" "" false false false "lat" "lon" true 1 3 1 2 false "rmse" "mb" (VStr "a") (VStr "b") "out" in
  let s v := Series [Some v] in
  cut_tile cfg (mkGridded [0%Z] [("HGT"%string, [[s 1; s 2; s 3]; [s 4; s 5; s 6]; [s 7; s 8; s 9]])]) =
  mkGridded [0%Z] [("HGT"%string, [[s 5; s 6]])].
Proof. exact tile_case_lem. Qed.

(** C49,C64 A file with the times 0, 1800, 3600 and 5400: a period from 9000 on is refused; a run restarted from a file of the time 0 with steps of an hour reads the last two. *)
Example restart_data_case :
  let raw := mkGridded [0; 1800; 3600; 5400]%Z [("MASK"%string, [[Series [Some 1]]])] in
  let cfg a b := mkRunConfig "" "" "" false true false "lat" "lon" false 0 0 0 0 false "rmse" "mb" (VDate a) (VDate b) "out" in
  reads_as (fun _ => None) (rc_time_start (cfg 9000 9600)%Z) 9000 /\
  init_data_dataset (fun _ => None) (cfg 9000 9600)%Z (Some raw) None = Err IndexError /\
  exists io data gr ms,
    create_data_file (fun _ => None) (cfg 0 7200)%Z default_constants (Some raw)
      (fun t => if (t =? 0)%Z then Some (0%Z, []) else None)
      (io_init (cfg 0 7200)%Z) = Ok (io, data, gr, ms) /\ g_times data = [3600; 5400]%Z.
Proof. exact restart_data_case_lem. Qed.

(** C49.  A start or an end that is no time stamp stops the program: a text that cannot be read with ValueError, another value than a text or a date with TypeError. *)
Theorem unreadable_period :
  forall parse cfg raw rd, g_times raw <> [] ->
  (forall s, rc_time_start cfg = VStr s -> parse s = None -> init_data_dataset parse cfg (Some raw) rd = Err ValueError) /\
  ((forall s, rc_time_start cfg <> VStr s) -> (forall t, rc_time_start cfg <> VDate t) ->
     init_data_dataset parse cfg (Some raw) rd = Err TypeError) /\
  (forall start s, reads_as parse (rc_time_start cfg) start -> rc_time_end cfg = VStr s -> parse s = None ->
     init_data_dataset parse cfg (Some raw) rd = Err ValueError) /\
  (forall start, reads_as parse (rc_time_start cfg) start ->
     (forall s, rc_time_end cfg <> VStr s) -> (forall t, rc_time_end cfg <> VDate t) ->
     init_data_dataset parse cfg (Some raw) rd = Err TypeError).
Proof. exact unreadable_period_lem. Qed.
Print Assumptions unreadable_period.

(** C49,C64.  Without an input file the program ends. A restarted run ends if the start is a text (AttributeError) and, if the start is a date, without a restart file of its minute, with an end equal to the start and with a period outside of the data (SystemExit in all three cases, although the other run raises IndexError for the last). *)
Theorem start_refused :
  forall parse cfg c open_restart io0,
  (rc_restart cfg = false ->
     create_data_file parse cfg c None open_restart io0 = Err SystemExit) /\
  (forall raw start stop, reads_as parse (rc_time_start cfg) start -> reads_as parse (rc_time_end cfg) stop ->
     rc_restart cfg = false ->
     (forall t, In t (g_times raw) -> (to_minute t < start)%Z) \/ (forall t, In t (g_times raw) -> (stop < to_minute t)%Z) ->
     create_data_file parse cfg c (Some raw) open_restart io0 = Err IndexError) /\
  (forall file stop, rc_restart cfg = true -> reads_as parse (rc_time_end cfg) stop ->
     (forall s t, rc_time_start cfg = VStr s -> reads_as parse (rc_time_start cfg) t ->
        create_data_file parse cfg c file open_restart io0 = Err AttributeError) /\
     (forall start, rc_time_start cfg = VDate start ->
        open_restart (to_minute start) = None \/ start = stop \/ file = None \/
        (exists raw, file = Some raw /\
           ((forall t, In t (g_times raw) -> (to_minute t < start)%Z) \/
            (forall t, In t (g_times raw) -> (stop < to_minute t)%Z))) ->
        create_data_file parse cfg c file open_restart io0 = Err SystemExit)).
Proof. exact start_refused_lem. Qed.
Print Assumptions start_refused.

(** C101.  A tile is cut along the dimensions lat and lon, or south_north and west_east with WRF data; data with other dimensions end the program with ValueError. *)
Theorem tile_names :
  forall parse cfg c file open_restart io0 d ms,
  rc_restart cfg = false -> rc_tile cfg = true ->
  init_data_dataset parse cfg file None = Ok (d, ms) ->
  (rc_northing cfg, rc_easting cfg) <> (if rc_WRF cfg then ("south_north", "west_east") else ("lat", "lon"))%string ->
  create_data_file parse cfg c file open_restart io0 = Err ValueError.
Proof. exact tile_names_lem. Qed.
Print Assumptions tile_names.

(** C101.  Negative bounds of a tile count from the end of the grid, at most to its beginning. *)
Theorem tile_from_the_end :
  forall cfg d name whole ny nx,
  dict_find (g_vars d) name = Some whole ->
  Z.of_nat (length whole) = ny -> Forall (fun row => Z.of_nat (length row) = nx) whole ->
  exists part, dict_find (g_vars (cut_tile cfg d)) name = Some part /\
    forall y x, (0 <= y)%Z -> (0 <= x)%Z ->
      cell_at part y x =
        if ((y <? from_end ny (rc_yend cfg) - from_end ny (rc_ystart cfg)) &&
            (x <? from_end nx (rc_xend cfg) - from_end nx (rc_xstart cfg)))%Z
        then cell_at whole (from_end ny (rc_ystart cfg) + y) (from_end nx (rc_xstart cfg) + x) else None.
Proof. exact tile_from_the_end_lem. Qed.
Print Assumptions tile_from_the_end.

(** C101 All but the last column of all but the first row. *)
Example tile_from_the_end_case :
  let cfg := mkRunConfig "" "" "" false false false "lat" "lon" true 0 (-1) (-2) 3 false "rmse" "mb" (VStr "a") (VStr "b") "out" in
  let s v := Series [Some v] in
  let whole := [[s 1; s 2; s 3]; [s 4; s 5; s 6]; [s 7; s 8; s 9]] in
  Forall (fun row => Z.of_nat (length row) = 3%Z) whole /\
  cut_tile cfg (mkGridded [0%Z] [("HGT"%string, whole)]) =
  mkGridded [0%Z] [("HGT"%string, [[s 4; s 5]; [s 7; s 8]])].
Proof. exact tile_from_the_end_case_lem. Qed.
