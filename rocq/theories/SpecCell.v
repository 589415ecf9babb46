(** * Vocabulary for the data of one cell *)
From Verif Require Import ModelPy ModelConstants ModelNode ModelGrid ModelSurface ModelInit
  ModelCore ModelConfig ModelIO ModelMain SpecIO.

(** entry of a variable in a cell; None where the variable is not in the dataset *)
Definition entry_at {A : Type} (vars : dict (cells A)) (name : string) (y x : Z) : option A :=
  match dict_find vars name with Some a => cell_at a y x | None => None end.

(** the numbers of a variable along time *)
Definition all_numbers (l : list R) : block := Series (map Some l).

(** [d] holds the variables of one cell of the dataset: the five that must be there, and the
    optional ones exactly if they are there *)
Definition reads (data : Gridded) (y x : Z) (d : Data) : Prop :=
  entry_at (g_vars data) "T2" y x = Some (all_numbers (d_T2 d)) /\
  entry_at (g_vars data) "RH2" y x = Some (all_numbers (d_RH2 d)) /\
  entry_at (g_vars data) "PRES" y x = Some (all_numbers (d_PRES d)) /\
  entry_at (g_vars data) "G" y x = Some (all_numbers (d_G d)) /\
  entry_at (g_vars data) "U2" y x = Some (all_numbers (d_U2 d)) /\
  entry_at (g_vars data) "SNOWFALL" y x = option_map all_numbers (d_SNOWFALL d) /\
  entry_at (g_vars data) "RRR" y x = option_map all_numbers (d_RRR d) /\
  entry_at (g_vars data) "LWin" y x = option_map all_numbers (d_LWin d) /\
  entry_at (g_vars data) "N" y x = option_map all_numbers (d_N d) /\
  entry_at (g_vars data) "SLOPE" y x = option_map (fun v => all_numbers [v]) (d_SLOPE d) /\
  entry_at (g_vars data) "SNOWHEIGHT" y x = option_map (fun v => Series [v]) (d_SNOWHEIGHT d) /\
  d_coupled d = None.

(** where the column of a cell starts from: the entries of the restart file in this cell, or
    nothing without restart *)
Definition starts_from (cfg : RunConfig) (restart : option restart_file) (y x : Z)
  (start : option dataset) : Prop :=
  if rc_restart cfg
  then exists r d, restart = Some r /\ start = Some d /\
         forall name, dict_find d name = entry_at (snd r) name y x
  else start = None.

(** the files hold, in a cell, what the column model has returned for it: one series per listed
    variable, one profile per step and listed layer variable, and the restart data *)
Definition files_hold (cfg : RunConfig) (c : Consts) (before after : IO) (y x : Z)
  (outs : list Output) (last : dataset) : Prop :=
  (forall name f, In name (io_atm before) -> atm_field name = Some f ->
     exists v, dict_find (io_RESULT after) name = Some v /\
       cell_at (v_data v) y x = Some (Series (map f outs))) /\
  (forall name f, In name (io_internal before) -> internal_field name = Some f ->
     exists v, dict_find (io_RESULT after) name = Some v /\
       cell_at (v_data v) y x = Some (Series (map f outs))) /\
  (forall name f, rc_full_field cfg = true -> In name (io_full before) -> layer_field name = Some f ->
     exists v, dict_find (io_RESULT after) ("LAYER_" ++ name)%string = Some v /\
       cell_at (v_data v) y x = Some (Layers (map (profile_row (c_max_layers c) f) outs))) /\
  (forall name, In name ["NLAYERS"; "NEWSNOWHEIGHT"; "NEWSNOWTIMESTAMP"; "OLDSNOWTIMESTAMP";
                         "LAYER_HEIGHT"; "LAYER_RHO"; "LAYER_T"; "LAYER_LWC"; "LAYER_IF"]%string ->
     exists v b, dict_find (io_RESTART after) name = Some v /\
       restart_variable last name = Some b /\ cell_at (v_data v) y x = Some b).

(** two datasets have the same times and the same entries in two cells *)
Definition same_cell (data : Gridded) (y x : Z) (data' : Gridded) (y' x' : Z) : Prop :=
  g_times data = g_times data' /\
  forall name, entry_at (g_vars data) name y x = entry_at (g_vars data') name y' x'.

(** the same for restart files *)
Definition same_start (restart : option restart_file) (y x : Z) (restart' : option restart_file)
  (y' x' : Z) : Prop :=
  match restart, restart' with
  | Some r, Some r' => forall name, entry_at (snd r) name y x = entry_at (snd r') name y' x'
  | None, None => True
  | _, _ => False
  end.

(** two cells of two results agree in a variable *)
Definition same_result (res : dict variable) (y x : Z) (res' : dict variable) (y' x' : Z)
  (name : string) : Prop :=
  exists v v' b, dict_find res name = Some v /\ dict_find res' name = Some v' /\
    cell_at (v_data v) y x = Some b /\ cell_at (v_data v') y' x' = Some b.

(** the names of the result variables that a run computes *)
Definition computed (full_field : bool) (io : IO) (name : string) : Prop :=
  (In name (io_atm io) /\ atm_field name <> None) \/
  (In name (io_internal io) /\ internal_field name <> None) \/
  (full_field = true /\ exists n, name = ("LAYER_" ++ n)%string /\ In n (io_full io) /\
     layer_field n <> None).

Definition restart_names : list string :=
  ["NLAYERS"; "NEWSNOWHEIGHT"; "NEWSNOWTIMESTAMP"; "OLDSNOWTIMESTAMP";
   "LAYER_HEIGHT"; "LAYER_RHO"; "LAYER_T"; "LAYER_LWC"; "LAYER_IF"]%string.

(** the configuration without its tile *)
Definition untiled (g : RunConfig) : RunConfig :=
  mkRunConfig (rc_output_atm g) (rc_output_internal g) (rc_output_full g) (rc_full_field g)
    (rc_restart g) (rc_WRF g) (rc_northing g) (rc_easting g) false (rc_xstart g) (rc_xend g)
    (rc_ystart g) (rc_yend g) (rc_stake_evaluation g) (rc_eval_method g) (rc_obs_type g)
    (rc_time_start g) (rc_time_end g) (rc_output_prefix g).

(** the number of a variable in a cell at step [k] *)
Definition file_number (ds : dict variable) (name : string) (y x : Z) (k : nat) (v : R) : Prop :=
  exists var l, dict_find ds name = Some var /\ cell_at (v_data var) y x = Some (Series l) /\
    nth_error l k = Some (Some v).

(** ** A concrete area for the examples: two cells, the second outside of the mask and with NaN *)
Definition calm_file : Gridded :=
  mkGridded [0%Z]
    [("MASK", [[Series [Some 1]; Series [Some 0]]]);
     ("T2", [[Series [Some 220]; Series [None]]]);
     ("RH2", [[Series [Some 60]; Series [None]]]);
     ("PRES", [[Series [Some 600]; Series [None]]]);
     ("G", [[Series [Some 0]; Series [None]]]);
     ("U2", [[Series [Some 0]; Series [None]]]);
     ("SNOWFALL", [[Series [Some 0.02]; Series [None]]]);
     ("RRR", [[Series [Some 6]; Series [None]]]);
     ("LWin", [[Series [Some 50]; Series [None]]])]%string.
(** the shipped lists of surface and column variables, one layer variable *)
Definition calm_config (tile : bool) : RunConfig :=
  mkRunConfig "T2,RH2,U2,RAIN,SNOWFALL,RRR,PRES,N,G,LWin,LWout,H,LE,B,QRR,Z0,ALBEDO,TS"
    "ME,MB,surfMB,intMB,EVAPORATION,SUBLIMATION,CONDENSATION,DEPOSITION,surfM,subM,Q,REFREEZE,SNOWHEIGHT,TOTALHEIGHT,LAYERS"
    "HEIGHT" true false false "lat" "lon" tile 0 1 0 1 false "rmse" "mb" (VStr "2009-01-01") (VStr "2009-01-01") "out".
Definition calm_parse : parser := fun _ => Some (0, 86400)%Z.
