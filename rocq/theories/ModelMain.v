(** * The driver of a gridded run (COSIPY.py) and the stake evaluation
    (cosipy/modules/evaluation.py) *)
From Coq Require Import Ascii.
From Verif Require Import ModelPy ModelConstants ModelNode ModelGrid ModelSurface ModelInit
  ModelCore ModelConfig ModelIO.
From Coq Require Import Rtrigo_def Rtrigo_calc.

(** ** Stake evaluation *)

(** stake measurements: their times and one column per stake *)
Record StakeData : Type := mkStakeData { sd_index : list Z; sd_columns : dict (list number) }.

(** value of the last step whose time is [t] *)
Fixpoint value_at (t : Z) (times : list Z) (vals : list R) : number :=
  match times, vals with
  | u :: ts, v :: vs =>
      match value_at t ts vs with
      | Some w => Some w
      | None => if (u =? t)%Z then Some v else None
      end
  | _, _ => None
  end.

(** cosipy_core.py:222-224, 396-402: the frame of simulated values at the times of the stake
    measurements.  MB_cum after each step is the running sum of the mass balance. *)
Definition stake_frame (stake_names : list string) (index times : list Z) (outs : list Output)
  : list number * list number :=
  match stake_names with
  | [] => (map (fun _ => None) index, map (fun _ => None) index)
  | _ => (map (fun t => value_at t times (cumsum (map o_MB outs))) index,
          map (fun t => value_at t times (map o_SNOWHEIGHT outs)) index)
  end.

(** squared differences where both numbers are there *)
Fixpoint squared_differences (obs sim : list number) : list R :=
  match obs, sim with
  | Some a :: o, Some b :: s => (a - b) ^ 2 :: squared_differences o s
  | _ :: o, _ :: s => squared_differences o s
  | _, _ => []
  end.

(** pandas [mean] skips NaN; the mean of nothing is NaN *)
Definition mean (l : list R) : number :=
  match l with [] => None | _ => Some (sum_list l / INR (length l)) end.

(** evaluation.py:28-50 [rmse], one number per stake *)
Definition rmse (cfg : RunConfig) (stake_names : list string) (sd : StakeData)
  (df : list number * list number) : res (dict number) :=
  sim <- (if String.eqb (rc_obs_type cfg) "mb" then Ok (fst df)
          else if String.eqb (rc_obs_type cfg) "snowheight" then Ok (snd df)
          else Err NotImplementedError) ;;
  map_res (fun name =>
             obs <- dict_get (sd_columns sd) name ;;
             Ok (name, option_map sqrt (mean (squared_differences obs sim)))) stake_names.

(** evaluation.py:4-25 [evaluate] *)
Definition evaluate (cfg : RunConfig) (stake_names : list string) (sd : StakeData)
  (df : list number * list number) : res pyval :=
  if String.eqb (rc_eval_method cfg) "rmse"
  then s <- rmse cfg stake_names sd df ;; Ok (PStat s)
  else Ok PNone.

(** ** What a worker returns *)

Definition series (f : Output -> R) (outs : list Output) : pyval :=
  PBlock (Series (map (fun o => Some (f o)) outs)).

(** a row of [init_nan_array_2d] filled from the left (cosipy_core.py:438-446) *)
Definition pad (m : Z) (l : list R) : list number :=
  map Some l ++ repeat None (Z.to_nat m - length l).

Definition layer_series (full_field : bool) (m : Z) (f : LayerFields -> list R)
  (outs : list Output) : pyval :=
  if full_field
  then PBlock (Layers (map (fun o => match o_profiles o with
                                     | Some p => pad m (f p)
                                     | None => repeat None (Z.to_nat m)
                                     end) outs))
  else PNone.

(** cosipy_core.py:506-511: the tuple, in its order *)
Definition core_return (full_field : bool) (m y x : Z) (restart : dataset) (outs : list Output)
  (stake_names stat df : pyval) : list pyval :=
  [PIdx y; PIdx x; PRestart restart; series o_RAIN outs; series o_SNOWFALL outs;
   series o_LWin outs; series o_LWout outs; series o_H outs; series o_LE outs; series o_B outs;
   series o_QRR outs;
   series o_MB outs; series o_surfMB outs; series o_Q outs; series o_SNOWHEIGHT outs;
   series o_TOTALHEIGHT outs; series o_TS outs; series o_ALBEDO outs;
   series (fun o => IZR (o_NLAYERS o)) outs;
   series o_ME outs; series o_intMB outs; series o_EVAPORATION outs; series o_SUBLIMATION outs;
   series o_CONDENSATION outs; series o_DEPOSITION outs; series o_REFREEZE outs;
   series o_subM outs; series o_Z0 outs; series o_surfM outs; series o_new_snow_height outs;
   series o_new_snow_timestamp outs; series o_old_snow_timestamp outs;
   PBlock (Series (map o_MOL outs));
   layer_series full_field m lf_HEIGHT outs; layer_series full_field m lf_RHO outs;
   layer_series full_field m lf_T outs; layer_series full_field m lf_LWC outs;
   layer_series full_field m lf_CC outs; layer_series full_field m lf_POROSITY outs;
   layer_series full_field m lf_ICE_FRACTION outs;
   layer_series full_field m lf_IRREDUCIBLE_WATER outs;
   layer_series full_field m lf_REFREEZE outs; stake_names; stat; df].

(** ** Submitting the cells *)

(** one call of cosipy_core *)
Record Job : Type := mkJob {
  j_y : Z; j_x : Z; j_restart : option dataset; j_stakes : option (list string)
}.

(** COSIPY.py:428-430 [check_for_nan] on the variables of one cell *)
Definition check_for_nan (data : Gridded) (y x : Z) : res unit :=
  blocks <- map_res (fun nv => cell_get (snd nv) y x) (g_vars data) ;;
  if existsb (fun b => existsb (fun v => match v with None => true | Some _ => false end)
                         (block_values b)) blocks
  then Err SystemExit else Ok tt.

(** COSIPY.py:219-221: the stakes of one cell *)
Definition stakes_of (stakes : list (Z * Z * string)) (y x : Z) : list string :=
  map snd (filter (fun s => ((y =? fst (fst s)) && (x =? snd (fst s)))%Z%bool) stakes).

(** [IO.create_grid_restart().isel(lat=y, lon=x)] *)
Definition restart_cell (r : restart_file) (y x : Z) : res dataset :=
  map_res (fun nv => v <- cell_get (snd nv) y x ;; Ok (fst nv, v)) (snd r).

(** COSIPY.py:215-267, one cell.  With WRF the code selects by label ([sel]); the input has no
    labels along south_north and west_east, and xarray then selects by position. *)
Definition submit_cell (cfg : RunConfig) (data : Gridded) (restart : option restart_file)
  (stakes : list (Z * Z * string)) (y x : Z) : res (list Job) :=
  let names := if rc_stake_evaluation cfg then Some (stakes_of stakes y x) else None in
  masks <- attr_get (g_vars data) "MASK"%string ;;
  check_dimensions cfg ;;
  m <- cell_get masks y x ;;
  glacier <- (match m with
              | Series [Some v] => Ok (Reqb v 1)
              | Series [None] => Ok false
              | _ => Err ValueError
              end) ;;
  if glacier then
    check_for_nan data y x ;;
    if rc_restart cfg then
      match restart with
      | None => Err AttributeError
      | Some r => d <- restart_cell r y x ;; Ok [mkJob y x (Some d) names]
      end
    else Ok [mkJob y x None names]
  else Ok [].

(** [product(range(ny), range(nx))] *)
Definition product_range (ny nx : Z) : list (Z * Z) :=
  flat_map (fun y => map (fun x => (y, x)) (zrange 0 nx)) (zrange 0 ny).

Definition submit (cfg : RunConfig) (data : Gridded) (restart : option restart_file)
  (stakes : list (Z * Z * string)) (ny nx : Z) : res (list Job) :=
  jobs <- map_res (fun yx => submit_cell cfg data restart stakes (fst yx) (snd yx))
            (product_range ny nx) ;;
  Ok (concat jobs).

(** ** Assembling the results *)

(** COSIPY.py:289-295: the names on the left of [= future.result()] *)
Definition unpack_names : list string :=
  ["indY"; "indX"; "local_restart"; "RAIN"; "SNOWFALL"; "LWin"; "LWout"; "H"; "LE"; "B";
   "QRR"; "MB"; "surfMB"; "Q"; "SNOWHEIGHT"; "TOTALHEIGHT"; "TS"; "ALBEDO";
   "NLAYERS"; "ME"; "intMB"; "EVAPORATION"; "SUBLIMATION"; "CONDENSATION";
   "DEPOSITION"; "REFREEZE"; "subM"; "Z0"; "surfM"; "new_snow_height"; "new_snow_timestamp";
   "old_snow_timestamp"; "MOL"; "LAYER_HEIGHT";
   "LAYER_RHO"; "LAYER_T"; "LAYER_LWC"; "LAYER_CC"; "LAYER_POROSITY";
   "LAYER_ICE_FRACTION"; "LAYER_IRREDUCIBLE_WATER"; "LAYER_REFREEZE";
   "stake_names"; "stat"; "df_eval"]%string.

(** COSIPY.py:297-302: the arguments of [IO.copy_local_to_global] *)
Definition call_arguments : list string :=
  ["indY"; "indX"; "RAIN"; "SNOWFALL"; "LWin"; "LWout"; "H"; "LE"; "B"; "QRR"; "MB"; "surfMB";
   "Q"; "SNOWHEIGHT"; "TOTALHEIGHT"; "TS"; "ALBEDO"; "NLAYERS"; "ME"; "intMB"; "EVAPORATION";
   "SUBLIMATION"; "CONDENSATION"; "DEPOSITION"; "REFREEZE"; "subM"; "Z0"; "surfM"; "MOL";
   "LAYER_HEIGHT"; "LAYER_RHO"; "LAYER_T"; "LAYER_LWC"; "LAYER_CC"; "LAYER_POROSITY";
   "LAYER_ICE_FRACTION"; "LAYER_IRREDUCIBLE_WATER"; "LAYER_REFREEZE"]%string.

(** what the main process holds: the IO object, df_stat and df_val *)
Record Collected : Type := mkCollected {
  col_io : IO; col_stat : list (dict number); col_val : dict (list number)
}.

(** COSIPY.py:312-321 *)
Definition store_stakes (cfg : RunConfig) (env : environment) (stat : list (dict number))
  (vals : dict (list number)) : res (list (dict number) * dict (list number)) :=
  if rc_stake_evaluation cfg then
    s <- dict_get env "stat"%string ;;
    names <- dict_get env "stake_names"%string ;;
    df <- dict_get env "df_eval"%string ;;
    match s, names, df with
    | PStat row, PNames l, PFrame mb sh =>
        let put v i :=
          let v1 := if String.eqb (rc_obs_type cfg) "mb" then dict_set v i mb else v in
          if String.eqb (rc_obs_type cfg) "snowheight" then dict_set v1 i sh else v1 in
        Ok (stat ++ [row], fold_left put l vals)
    | PNone, _, _ => Err AttributeError
    | _, _, _ => Err TypeError
    end
  else Ok (stat, vals).

(** COSIPY.py:286-321, one finished worker *)
Definition store_result (cfg : RunConfig) (r : list pyval) (acc : Collected) : res Collected :=
  if negb (length r =? length unpack_names)%nat then Err ValueError
  else
    let env := combine unpack_names r in
    args <- map_res (dict_get env) call_arguments ;;
    io1 <- copy_local_to_global cfg args (col_io acc) ;;
    vy <- dict_get env "indY"%string ;; y <- index_of vy ;;
    vx <- dict_get env "indX"%string ;; x <- index_of vx ;;
    rs <- dict_get env "local_restart"%string ;;
    d <- (match rs with PRestart d => Ok d | _ => Err AttributeError end) ;;
    io2 <- copy_local_restart_to_global y x d io1 ;;
    io3 <- write_results_to_file cfg io2 ;;
    io4 <- write_restart_to_file cfg io3 ;;
    '(stat, vals) <- store_stakes cfg env (col_stat acc) (col_val acc) ;;
    Ok (mkCollected io4 stat vals).

(** COSIPY.py:286: the loop over the finished workers, in the order in which they finish;
    [future.result()] raises what the worker raised *)
Fixpoint collect (cfg : RunConfig) (work : Job -> res (list pyval)) (finished : list Job)
  (acc : Collected) : res Collected :=
  match finished with
  | [] => Ok acc
  | j :: rest => r <- work j ;; acc' <- store_result cfg r acc ;; collect cfg work rest acc'
  end.

(** COSIPY.py:152-331 [run_cosipy] without the cluster and the files of the stakes.
    [work] runs one job; [arrivals] is the order in which dask finishes the jobs. *)
Definition run_cosipy (cfg : RunConfig) (c : Consts) (work : Job -> res (list pyval))
  (arrivals : list Job -> list Job) (data : Gridded) (restart : option restart_file)
  (stakes : list (Z * Z * string)) (measured : dict (list number)) (io : IO)
  : res Collected :=
  '(ny, nx) <- sizes data ;;
  jobs <- submit cfg data restart stakes ny nx ;;
  let io1 := create_global_result_arrays cfg c io in
  let io2 := create_global_restart_arrays c io1 in
  collect cfg work (arrivals jobs) (mkCollected io2 [] measured).

(** ** The data of one cell *)

(** [DATA.isel(lat=y, lon=x)]: the variables of one cell *)
Definition isel (data : Gridded) (y x : Z) : res (dict block) :=
  map_res (fun nv => b <- cell_get (snd nv) y x ;; Ok (fst nv, b)) (g_vars data).

(** [DATA.T2.values]: the numbers of a variable along time.  COSIPY.py stops at a NaN before, so
    NaN is outside of the model here; a variable with layers has the wrong shape. *)
Definition read_values (d : dict block) (name : string) : res (list R) :=
  b <- attr_get d name ;;
  match b with
  | Series l => map_res (fun v => match v with Some r => Ok r | None => Err NotReal end) l
  | Layers _ => Err ValueError
  end.

(** the same for a variable that may be missing: [if 'RRR' in DATA] *)
Definition read_optional (d : dict block) (name : string) : res (option (list R)) :=
  if dict_mem d name then l <- read_values d name ;; Ok (Some l) else Ok None.

(** a variable without time axis that may be missing (SLOPE).  One with a time axis makes arrays
    of what the code uses as numbers. *)
Definition read_scalar (d : dict block) (name : string) : res (option R) :=
  l <- read_optional d name ;;
  match l with
  | None => Ok None
  | Some [v] => Ok (Some v)
  | Some _ => Err ValueError
  end.

(** init.py:28-31: the initial snow height, which may be NaN; [np.isnan] of several numbers in a
    condition raises *)
Definition read_snowheight (d : dict block) : res (option number) :=
  match dict_find d "SNOWHEIGHT"%string with
  | None => Ok None
  | Some (Series [v]) => Ok (Some v)
  | Some _ => Err ValueError
  end.

(** cosipy_core.py:169-211 and init.py:28-34: what is read from the data of one cell.  All of it
    is read before anything else happens, while the code reads the snow height first (and not at
    all after a restart) and the meteorological variables after the initial snowpack is built. *)
Definition read_cell (d : dict block) : res Data :=
  snowheight <- read_snowheight d ;;
  T2 <- read_values d "T2"%string ;;
  RH2 <- read_values d "RH2"%string ;;
  PRES <- read_values d "PRES"%string ;;
  G <- read_values d "G"%string ;;
  U2 <- read_values d "U2"%string ;;
  SNOWFALL <- read_optional d "SNOWFALL"%string ;;
  RRR <- read_optional d "RRR"%string ;;
  LWin <- read_optional d "LWin"%string ;;
  N <- read_optional d "N"%string ;;
  SLOPE <- read_scalar d "SLOPE"%string ;;
  Ok (mkData T2 RH2 PRES G U2 SNOWFALL RRR LWin N SLOPE snowheight None).

(** the worker: cosipy_core on the data of its cell, with its stake evaluation.  A coupled run is
    not driven by COSIPY.py and not followed here. *)
Definition cell_work (fuel : nat) (cfg : RunConfig) (c : Consts) (sw : Switches) (sv : Solvers)
  (sd : StakeData) (data : Gridded) (j : Job) : res (list pyval) :=
  cell <- isel data (j_y j) (j_x j) ;;
  d <- read_cell cell ;;
  '(s, outs, r) <- cosipy_core fuel c sw sv d (j_restart j) ;;
  match r with
  | None => Err NotReal
  | Some d =>
      '(names, stat, df) <-
        (match j_stakes j with
         | None => Ok (PNone, PNone, PNone)
         | Some l =>
             let df := stake_frame l (sd_index sd) (g_times data) outs in
             st <- evaluate cfg l sd df ;; Ok (PNames l, st, PFrame (fst df) (snd df))
         end) ;;
      Ok (core_return (sw_full_field sw) (c_max_layers c) (j_y j) (j_x j) d outs names stat df)
  end.

(** ** File names *)

(** [s.replace("-", "")] *)
Fixpoint remove_hyphens (s : string) : string :=
  match s with
  | EmptyString => EmptyString
  | String ch rest =>
      if Ascii.eqb ch "-"%char then remove_hyphens rest else String ch (remove_hyphens rest)
  end.

(** COSIPY.py:346-355 [get_timestamp_label]; a date from the TOML file cannot be indexed *)
Definition get_timestamp_label (v : value) : res string :=
  match v with
  | VStr s => Ok (remove_hyphens (substring 0 10 s))
  | _ => Err TypeError
  end.

(** COSIPY.py:358-368 [set_output_netcdf_path] *)
Definition set_output_netcdf_path (cfg : RunConfig) : res string :=
  a <- get_timestamp_label (rc_time_start cfg) ;;
  b <- get_timestamp_label (rc_time_end cfg) ;;
  Ok (rc_output_prefix cfg ++ "_" ++ a ++ "-" ++ b ++ ".nc")%string.

(** what a run leaves on the disk: the result file with its name, and the restart file, whose
    name is the time of the last step *)
Record Written : Type := mkWritten {
  w_name : string; w_result : dict variable; w_restart_time : Z; w_restart : dict variable
}.

(** COSIPY.py:49-149 [main] without cluster, logging and timing *)
Definition cosipy_main (parse : parser) (cfg : RunConfig) (c : Consts)
  (work : Gridded -> Job -> res (list pyval)) (arrivals : list Job -> list Job)
  (file : option Gridded) (open_restart : Z -> option restart_file)
  (stakes : list (Z * Z * string)) (measured : dict (list number)) : res Written :=
  '(io, data, grid_restart, messages) <-
    create_data_file parse cfg c file open_restart (io_init cfg) ;;
  io1 <- init_result_dataset cfg data io ;;
  last <- py_get (g_times data) (-1) ;;
  col <- run_cosipy cfg c (work data) arrivals data grid_restart stakes measured io1 ;;
  name <- set_output_netcdf_path cfg ;;
  Ok (mkWritten name (io_RESULT (col_io col)) last (io_RESTART (col_io col))).

(** ** Small functions of the driver *)

(** COSIPY.py:385-407 [transform_coordinates], one point; degrees in, kilometres out *)
Definition transform_coordinates (lat lon : R) : R * R * R :=
  let A := 6378.137 in
  let E2 := 0.00669437999014 in
  let lat_rad := lat * PI / 180 in
  let lon_rad := lon * PI / 180 in
  let r_n := A / sqrt (1 - E2 * (sin lat_rad) ^ 2) in
  (r_n * cos lat_rad * cos lon_rad, r_n * cos lat_rad * sin lon_rad,
   r_n * (1 - E2) * sin lat_rad).

(** COSIPY.py:410-415 [compute_scale_and_offset]; [n] bits *)
Definition compute_scale_and_offset (mn mx : R) (n : nat) : res (R * R) :=
  s <- fdiv (mx - mn) (2 ^ n - 1) ;;
  Ok (s, mn + 2 ^ (n - 1) * s).
