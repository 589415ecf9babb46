(** * The input that the result file repeats

    Theorems only; the proofs are in LemFinCopy.v and the files it uses. *)

From Verif Require Import ModelPy ModelConstants ModelNode ModelGrid ModelSurface ModelInit ModelCore ModelConfig ModelIO ModelMain SpecIO SpecCell SpecCalm SpecCopy.
From Verif Require Import LemFinCopy.

From Coq Require Import Permutation Lra.

(** C117.  The result file of a completed run repeats the input: a field of the input that the simulation does not write itself stands in the file with its own numbers, its dimensions, its unit and its long name; a field that the input lacks is not in the file.  Exceptions are precipitation and cloud cover that the input lacks: they stand in the file without a number, and with unit and long name exchanged. *)
Theorem inputs_repeated :
  forall parse cfg c work arrivals file open_restart stakes measured w whole ms,
  (forall data, answers_for_its_cell (work data)) -> schedule arrivals -> rc_restart cfg = false ->
  cosipy_main parse cfg c work arrivals file open_restart stakes measured = Ok w ->
  init_data_dataset parse cfg file None = Ok (whole, ms) ->
  let data := if rc_tile cfg then cut_tile cfg whole else whole in
  (forall name units long, In (name, (units, long)) repeated_static -> ~ listed cfg name ->
     dict_find (w_result w) name =
       option_map (fun a => mkVariable [rc_northing cfg; rc_easting cfg] a units long) (dict_find (g_vars data) name)) /\
  (forall name units long, In (name, (units, long)) repeated_series -> ~ listed cfg name ->
     match dict_find (g_vars data) name with
     | Some a => dict_find (w_result w) name =
         Some (mkVariable ["time"%string; rc_northing cfg; rc_easting cfg] a units long)
     | None =>
         if in_names name ["RRR"; "N"]%string
         then exists v, dict_find (w_result w) name = Some v /\ v_units v = long /\ v_long_name v = units /\
           forall y x b, cell_at (v_data v) y x = Some b -> no_number b
         else dict_find (w_result w) name = None
     end).
Proof. exact inputs_repeated_lem. Qed.
Print Assumptions inputs_repeated.

(** C117.  With the shipped lists of the output the file repeats the four static fields and the seven meteorological ones, and the simulation writes snowfall and incoming longwave radiation. *)
Theorem shipped_repeats :
  forall cfg name,
  rc_output_atm cfg = "T2,RH2,U2,RAIN,SNOWFALL,RRR,PRES,N,G,LWin,LWout,H,LE,B,QRR,Z0,ALBEDO,TS"%string ->
  rc_output_internal cfg =
    "ME,MB,surfMB,intMB,EVAPORATION,SUBLIMATION,CONDENSATION,DEPOSITION,surfM,subM,Q,REFREEZE,SNOWHEIGHT,TOTALHEIGHT,LAYERS"%string ->
  In name (map fst (repeated_static ++ repeated_series)) ->
  (listed cfg name <-> In name ["SNOWFALL"; "LWin"]%string).
Proof. exact shipped_repeats_lem. Qed.
Print Assumptions shipped_repeats.

(** C117 The run of the calm night: the file repeats the air temperature of both cells, and has no cloud cover: unit and long name of the empty field are exchanged. *)
Example repeated_case :
  exists fuel, forall sd, exists w,
  cosipy_main calm_parse (calm_config false) calm_constants
    (cell_work fuel (calm_config false) calm_constants calm_switches calm_solvers sd) (@rev Job)
    (Some calm_file) (fun _ => None) [] [] = Ok w /\
  dict_find (w_result w) "T2" =
    Some (mkVariable ["time"; "lat"; "lon"]%string [[Series [Some 220]; Series [None]]] "K" "Air temperature at 2 m") /\
  exists v, dict_find (w_result w) "N" = Some v /\ v_units v = "Cloud fraction"%string /\ v_long_name v = "-"%string.
Proof. exact repeated_case_lem. Qed.

(** C118.  Every simulated variable in the result file and every variable of the restart file of a run with a glacier cell carries its own unit and long name.  Snowfall that the simulation writes is in metres of water, snowfall that the file repeats (C117) in metres. *)
Theorem units_of_files :
  forall cfg c work arrivals data restart stakes measured io col,
    run_cosipy cfg c work arrivals data restart stakes measured io = Ok col ->
    schedule arrivals -> answers_as_core (rc_full_field cfg) (c_max_layers c) work ->
    sizes data = Ok (io_ny io, io_nx io) -> some_glacier data (io_ny io) (io_nx io) ->
    (forall name units long, In (name, (units, long)) simulated_units ->
       In name (io_atm io) /\ atm_field name <> None \/ In name (io_internal io) /\ internal_field name <> None ->
       exists v, dict_find (io_RESULT (col_io col)) name = Some v /\ v_units v = units /\ v_long_name v = long) /\
    (forall name units long, In (name, (units, long)) layer_units -> rc_full_field cfg = true -> In name (io_full io) ->
       exists v, dict_find (io_RESULT (col_io col)) ("LAYER_" ++ name)%string = Some v /\ v_units v = units /\ v_long_name v = long) /\
    (forall name units long, In (name, (units, long)) restart_units ->
       exists v, dict_find (io_RESTART (col_io col)) name = Some v /\ v_units v = units /\ v_long_name v = long).
Proof. exact units_of_files_lem. Qed.
Print Assumptions units_of_files.

(** C118.  The unit of the liquid water of the layers is wrong: what is stored is the share of the volume, not kilograms per square metre, which would be this share times the height times 1000. *)
Theorem stored_water_unit_refuted :
  exists c m g p h share,
    store_profiles c m g = Ok p /\ map n_height (g_nodes g) = [h] /\ map n_lwc (g_nodes g) = [share] /\
    lf_LWC p = [share] /\ share = 0.02 /\ h * share * 1000 = 2.
Proof. exact stored_water_unit_refuted_lem. Qed.
Print Assumptions stored_water_unit_refuted.
