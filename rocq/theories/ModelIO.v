(** * Input and output of a gridded run (cosipy/cpkernel/io.py) *)
From Coq Require Import Ascii.
From Verif Require Import ModelPy ModelConstants ModelNode ModelGrid ModelSurface ModelInit
  ModelCore ModelConfig.

(** ** Gridded arrays *)

(** An array with two horizontal axes, [northing] first.  The axes that numpy puts before or
    after them (time, layer) are kept inside the cell: [A[:, y, x]] of the code is the entry
    of cell [(y, x)]. *)
Definition cells (A : Type) : Type := list (list A).

Definition tabulate {A : Type} (ny nx : Z) (f : Z -> Z -> A) : cells A :=
  map (fun y => map (f y) (zrange 0 nx)) (zrange 0 ny).

(** [A[.., y, x, ..]] *)
Definition cell_get {A : Type} (a : cells A) (y x : Z) : res A := row <- py_get a y ;; py_get row x.

(** [A[.., y, x, ..] = v] *)
Definition cell_set {A : Type} (a : cells A) (y x : Z) (v : A) : res (cells A) :=
  row <- py_get a y ;;
  row' <- py_update row x (fun _ => v) ;;
  py_update a y (fun _ => row').

(** the entry of one cell: a series (over time, or over layers; a number is a series of
    length one), or one series of layers per time *)
Inductive block : Type :=
| Series (l : list number)
| Layers (l : list (list number)).

Definition nan_block (b : block) : block :=
  match b with
  | Series l => Series (map (fun _ => None) l)
  | Layers l => Layers (map (map (fun _ => None)) l)
  end.

Definition nan_series (n : Z) : block := Series (repeat None (Z.to_nat n)).
Definition nan_layers (n m : Z) : block :=
  Layers (repeat (repeat None (Z.to_nat m)) (Z.to_nat n)).

Fixpoint same_shape (a b : list (list number)) : bool :=
  match a, b with
  | [], [] => true
  | r :: a', s :: b' => ((length r =? length s)%nat && same_shape a' b')%bool
  | _, _ => false
  end.

(** the values handed from a worker to the main process *)
Inductive pyval : Type :=
| PIdx (z : Z)
| PBlock (b : block)
| PRestart (d : dataset)
| PNames (l : list string)
| PStat (s : dict number)
| PFrame (mb snowheight : list number)
| PNone.

(** [A[:, y, x] = v] and [A[:, y, x, :] = v] inside the cell.  None becomes NaN in an array of
    floats.  numpy's broadcasting of axes of length one is not modelled: a value of another
    shape raises. *)
Definition assign (old : block) (v : pyval) : res block :=
  match v, old with
  | PNone, _ => Ok (nan_block old)
  | PBlock (Series n), Series o =>
      if (length n =? length o)%nat then Ok (Series n) else Err ValueError
  | PBlock (Layers n), Layers o => if same_shape n o then Ok (Layers n) else Err ValueError
  | PBlock _, _ => Err ValueError
  | _, _ => Err TypeError
  end.

(** ** Configuration read here *)
Record RunConfig : Type := mkRunConfig {
  rc_output_atm : string; rc_output_internal : string; rc_output_full : string;
  rc_full_field : bool; rc_restart : bool; rc_WRF : bool;
  rc_northing : string; rc_easting : string;
  rc_tile : bool; rc_xstart : Z; rc_xend : Z; rc_ystart : Z; rc_yend : Z;
  rc_stake_evaluation : bool; rc_eval_method : string; rc_obs_type : string;
  rc_time_start : value; rc_time_end : value;
  rc_output_prefix : string
}.

(** ** Names of the output variables *)

(** [s.split(",")] *)
Fixpoint split_comma (s : string) : list string :=
  match s with
  | EmptyString => [EmptyString]
  | String ch rest =>
      if Ascii.eqb ch ","%char then EmptyString :: split_comma rest
      else match split_comma rest with
           | w :: ws => String ch w :: ws
           | [] => [String ch EmptyString]
           end
  end.

(** io.py:44-50 [get_output_variables] *)
Definition get_output_variables (s : string) : list string :=
  if String.eqb s EmptyString then [] else split_comma s.

(** [name in list] *)
Definition in_names (name : string) (l : list string) : bool := existsb (String.eqb name) l.

(** io.py:29 *)
Definition input_names : list string := ["T2"; "RH2"; "U2"; "RRR"; "N"; "G"; "PRES"]%string.

(** one variable of an xarray dataset *)
Record variable : Type := mkVariable {
  v_dims : list string; v_data : cells block; v_units : string; v_long_name : string
}.

(** the IO object: the attributes made with setattr are in [io_arrays], the datasets RESULT
    and RESTART are dictionaries of variables (their coordinates and global attributes are
    left out). *)
Record IO : Type := mkIO {
  io_atm : list string; io_internal : list string; io_full : list string;
  io_ny : Z; io_nx : Z; io_time : Z;
  io_arrays : dict (cells block);
  io_RESULT : dict variable; io_RESTART : dict variable
}.

Definition with_arrays (io : IO) (a : dict (cells block)) : IO :=
  mkIO (io_atm io) (io_internal io) (io_full io) (io_ny io) (io_nx io) (io_time io) a
    (io_RESULT io) (io_RESTART io).
Definition with_RESULT (io : IO) (d : dict variable) : IO :=
  mkIO (io_atm io) (io_internal io) (io_full io) (io_ny io) (io_nx io) (io_time io)
    (io_arrays io) d (io_RESTART io).
Definition with_RESTART (io : IO) (d : dict variable) : IO :=
  mkIO (io_atm io) (io_internal io) (io_full io) (io_ny io) (io_nx io) (io_time io)
    (io_arrays io) (io_RESULT io) d.

(** io.py:18-42 [__init__], before any data is read *)
Definition io_init (cfg : RunConfig) : IO :=
  mkIO
    (fold_left (fun atm name => filter (fun v => negb (String.eqb v name)) atm) input_names
       (get_output_variables (rc_output_atm cfg)))
    (get_output_variables (rc_output_internal cfg))
    (get_output_variables (rc_output_full cfg)) 0 0 0 [] [] [].

(** ** Writing variables into a dataset (io.py:918-1088) *)

(** io.py:957-974 *)
Definition add_variable_along_latlon (cfg : RunConfig) (ds : dict variable) (var : cells block)
  (name units long_name : string) : dict variable :=
  dict_set ds name (mkVariable [rc_northing cfg; rc_easting cfg] var units long_name).

(** io.py:995-1012 *)
Definition add_variable_along_latlontime (cfg : RunConfig) (ds : dict variable)
  (var : cells block) (name units long_name : string) : dict variable :=
  dict_set ds name
    (mkVariable ["time"%string; rc_northing cfg; rc_easting cfg] var units long_name).

(** io.py:1014-1031 *)
Definition add_variable_along_latlonlayertime (cfg : RunConfig) (ds : dict variable)
  (var : cells block) (name units long_name : string) : dict variable :=
  dict_set ds name
    (mkVariable ["time"%string; rc_northing cfg; rc_easting cfg; "layer"%string]
       var units long_name).

(** io.py:1033-1050 *)
Definition add_variable_along_latlonlayer (cfg : RunConfig) (ds : dict variable)
  (var : cells block) (name units long_name : string) : dict variable :=
  dict_set ds name
    (mkVariable [rc_northing cfg; rc_easting cfg; "layer"%string] var units long_name).

(** ** Metadata (units, long name).  The superscripts of the units are written in ASCII. *)
Definition metadata : Type := dict (string * string).

(** io.py:338-343 *)
Definition metadata_spatial : metadata :=
  [("HGT", ("m", "Elevation")); ("MASK", ("boolean", "Glacier mask"));
   ("SLOPE", ("degrees", "Terrain slope")); ("ASPECT", ("degrees", "Aspect of slope"))]%string.

(** io.py:344-354 *)
Definition metadata_spatiotemporal : metadata :=
  [("T2", ("K", "Air temperature at 2 m")); ("RH2", ("%", "Relative humidity at 2 m"));
   ("U2", ("m s-1", "Wind velocity at 2 m")); ("PRES", ("hPa", "Atmospheric pressure"));
   ("G", ("W m-2", "Incoming shortwave radiation")); ("RRR", ("mm", "Total precipitation"));
   ("SNOWFALL", ("m", "Snowfall")); ("N", ("-", "Cloud fraction"));
   ("LWin", ("W m-2", "Incoming longwave radiation"))]%string.

(** io.py:365-376 [get_full_field_metadata] *)
Definition full_field_metadata : metadata :=
  [("LAYER_HEIGHT", ("m", "Layer height")); ("LAYER_RHO", ("kg m^-3", "Layer density"));
   ("LAYER_T", ("K", "Layer temperature"));
   ("LAYER_LWC", ("kg m^-2", "layer liquid water content"));
   ("LAYER_CC", ("J m^-2", "Cold content")); ("LAYER_POROSITY", ("-", "Porosity"));
   ("LAYER_ICE_FRACTION", ("-", "Layer ice fraction"));
   ("LAYER_IF", ("-", "Layer ice fraction"));
   ("LAYER_IRREDUCIBLE_WATER", ("-", "Irreducible water"));
   ("LAYER_REFREEZE", ("m w.e.", "Refreezing"))]%string.

(** io.py:380-394 [get_restart_metadata] *)
Definition restart_metadata : metadata :=
  dict_union
    [("new_snow_height", ("m .w.e", "New snow height"));
     ("new_snow_timestamp", ("s", "New snow timestamp"));
     ("old_snow_timestamp", ("s", "Old snow timestamp"));
     ("NLAYERS", ("-", "Number of layers")); ("NEWSNOWHEIGHT", ("m .w.e", "New snow height"));
     ("NEWSNOWTIMESTAMP", ("s", "New snow timestamp"));
     ("OLDSNOWTIMESTAMP", ("s", "Old snow timestamp"))]%string
    full_field_metadata.

(** io.py:405-433 *)
Definition metadata_result : metadata :=
  [("RAIN", ("mm", "Liquid precipitation")); ("SNOWFALL", ("m w.e.", "Snowfall"));
   ("LWin", ("W m-2", "Incoming longwave radiation"));
   ("LWout", ("W m-2", "Outgoing longwave radiation")); ("H", ("W m-2", "Sensible heat flux"));
   ("LE", ("W m-2", "Latent heat flux")); ("B", ("W m-2", "Ground heat flux"));
   ("QRR", ("W m-2", "Rain heat flux")); ("surfMB", ("m w.e.", "Surface mass balance"));
   ("MB", ("m w.e.", "Mass balance")); ("Q", ("m w.e.", "Runoff"));
   ("SNOWHEIGHT", ("m", "Snowheight")); ("TOTALHEIGHT", ("m", "Total domain height"));
   ("TS", ("K", "Surface temperature")); ("ALBEDO", ("-", "Albedo"));
   ("LAYERS", ("-", "Number of layers")); ("ME", ("W m-2", "Available melt energy"));
   ("intMB", ("m w.e.", "Internal mass balance")); ("EVAPORATION", ("m w.e.", "Evaporation"));
   ("SUBLIMATION", ("m w.e.", "Sublimation")); ("CONDENSATION", ("m w.e.", "Condensation"));
   ("DEPOSITION", ("m w.e.", "Deposition")); ("REFREEZE", ("m w.e.", "Refreezing"));
   ("subM", ("m w.e.", "Subsurface melt")); ("Z0", ("m", "Roughness length"));
   ("surfM", ("m w.e.", "Surface melt")); ("MOL", ("m", "Monin Obukhov length"))]%string.

(** io.py:396-439 [get_result_metadata] *)
Definition result_metadata : metadata :=
  dict_union (dict_union (dict_union metadata_spatial metadata_spatiotemporal)
    full_field_metadata) metadata_result.

(** ** The result dataset *)

(** the input dataset: time labels and variables; a variable without time axis has a series of
    length one in each cell *)
Record Gridded : Type := mkGridded { g_times : list Z; g_vars : dict (cells block) }.

(** io.py:535-561, the variables of [init_result_dataset].  For RRR and N that are missing the
    code hands long name and units over in the wrong order. *)
Definition init_result_dataset (cfg : RunConfig) (data : Gridded) (io : IO) : res IO :=
  let r1 :=
    fold_left
      (fun ds m => match dict_find (g_vars data) (fst m) with
                   | Some v => add_variable_along_latlon cfg ds v (fst m)
                                 (fst (snd m)) (snd (snd m))
                   | None => ds
                   end) metadata_spatial [] in
  let r2 :=
    fold_left
      (fun ds m => match dict_find (g_vars data) (fst m) with
                   | Some v => add_variable_along_latlontime cfg ds v (fst m)
                                 (fst (snd m)) (snd (snd m))
                   | None => ds
                   end) metadata_spatiotemporal r1 in
  let fill_missing name ds :=
    if dict_mem (g_vars data) name then Ok ds
    else T2 <- attr_get (g_vars data) "T2"%string ;;
         m <- dict_get metadata_spatiotemporal name ;;
         Ok (add_variable_along_latlontime cfg ds (map (map nan_block) T2) name
               (snd m) (fst m)) in
  r3 <- fill_missing "RRR"%string r2 ;;
  r4 <- fill_missing "N"%string r3 ;;
  Ok (with_RESULT io r4).

(** io.py:567-586 [create_global_result_arrays] *)
Definition create_global_result_arrays (cfg : RunConfig) (c : Consts) (io : IO) : IO :=
  let nan_array := tabulate (io_ny io) (io_nx io) (fun _ _ => nan_series (io_time io)) in
  let nan_3d :=
    tabulate (io_ny io) (io_nx io) (fun _ _ => nan_layers (io_time io) (c_max_layers c)) in
  let a1 := fold_left (fun a name => dict_set a name nan_array) (io_atm io) (io_arrays io) in
  let a2 := fold_left (fun a name => dict_set a name nan_array) (io_internal io) a1 in
  let a3 :=
    if rc_full_field cfg
    then fold_left (fun a name => dict_set a ("LAYER_" ++ name)%string nan_3d) (io_full io) a2
    else a2 in
  with_arrays io a3.

(** names of the restart variables (io.py:745-753, 770-784, 805-813, 822-836) *)
Definition restart_scalars : list string :=
  ["NLAYERS"; "NEWSNOWHEIGHT"; "NEWSNOWTIMESTAMP"; "OLDSNOWTIMESTAMP"]%string.
Definition restart_layers : list string := ["HEIGHT"; "RHO"; "T"; "LWC"; "IF"]%string.

(** io.py:735-758 [create_global_restart_arrays] *)
Definition create_global_restart_arrays (c : Consts) (io : IO) : IO :=
  let scalar := tabulate (io_ny io) (io_nx io) (fun _ _ => nan_series 1) in
  let layer := tabulate (io_ny io) (io_nx io) (fun _ _ => nan_series (c_max_layers c)) in
  let a1 := fold_left (fun a name => dict_set a ("RES_" ++ name)%string scalar)
              restart_scalars (io_arrays io) in
  let a2 := fold_left (fun a name => dict_set a ("RES_LAYER_" ++ name)%string layer)
              restart_layers a1 in
  with_arrays io a2.

(** ** Copying the result of one worker *)

(** [getattr(self, attr)[:, y, x] = value] *)
Definition set_cell (attr : string) (y x : Z) (v : pyval) (io : IO) : res IO :=
  arr <- attr_get (io_arrays io) attr ;;
  old <- cell_get arr y x ;;
  new <- assign old v ;;
  arr' <- cell_set arr y x new ;;
  Ok (with_arrays io (dict_set (io_arrays io) attr arr')).

(** io.py:67-101: [set_atm_attribute], [set_internal_attribute], [set_full_field_attribute] *)
Definition set_atm_attribute (name : string) (v : pyval) (x y : Z) (io : IO) : res IO :=
  if in_names name (io_atm io) then set_cell name y x v io else Ok io.
Definition set_internal_attribute (name : string) (v : pyval) (x y : Z) (io : IO) : res IO :=
  if in_names name (io_internal io) then set_cell name y x v io else Ok io.
Definition set_full_field_attribute (name : string) (v : pyval) (x y : Z) (io : IO) : res IO :=
  if in_names name (io_full io) then set_cell ("LAYER_" ++ name)%string y x v io else Ok io.

(** io.py:588-628: the parameters of [copy_local_to_global] *)
Definition copy_parameters : list string :=
  ["y"; "x"; "local_RAIN"; "local_SNOWFALL"; "local_LWin"; "local_LWout"; "local_H"; "local_LE";
   "local_B"; "local_QRR"; "local_MB"; "local_surfMB"; "local_Q"; "local_SNOWHEIGHT";
   "local_TOTALHEIGHT"; "local_TS"; "local_ALBEDO"; "local_LAYERS"; "local_ME"; "local_intMB";
   "local_EVAPORATION"; "local_SUBLIMATION"; "local_CONDENSATION"; "local_DEPOSITION";
   "local_REFREEZE"; "local_subM"; "local_Z0"; "local_surfM"; "local_MOL"; "local_LAYER_HEIGHT";
   "local_LAYER_RHO"; "local_LAYER_T"; "local_LAYER_LWC"; "local_LAYER_CC";
   "local_LAYER_POROSITY"; "local_LAYER_ICE_FRACTION"; "local_LAYER_IRREDUCIBLE_WATER";
   "local_LAYER_REFREEZE"]%string.

(** io.py:631-673: attribute and parameter of each call, in order *)
Definition atm_calls : list (string * string) :=
  [("RAIN", "local_RAIN"); ("SNOWFALL", "local_SNOWFALL"); ("LWin", "local_LWin");
   ("LWout", "local_LWout"); ("H", "local_H"); ("LE", "local_LE"); ("B", "local_B");
   ("QRR", "local_QRR"); ("TS", "local_TS"); ("ALBEDO", "local_ALBEDO");
   ("Z0", "local_Z0")]%string.
Definition internal_calls : list (string * string) :=
  [("surfMB", "local_surfMB"); ("MB", "local_MB"); ("Q", "local_Q");
   ("SNOWHEIGHT", "local_SNOWHEIGHT"); ("TOTALHEIGHT", "local_TOTALHEIGHT");
   ("LAYERS", "local_LAYERS"); ("ME", "local_ME"); ("intMB", "local_intMB");
   ("EVAPORATION", "local_EVAPORATION"); ("SUBLIMATION", "local_SUBLIMATION");
   ("CONDENSATION", "local_CONDENSATION"); ("DEPOSITION", "local_DEPOSITION");
   ("REFREEZE", "local_REFREEZE"); ("subM", "local_subM"); ("surfM", "local_surfM");
   ("MOL", "local_MOL")]%string.
Definition full_field_calls : list (string * string) :=
  [("HEIGHT", "local_LAYER_HEIGHT"); ("RHO", "local_LAYER_RHO"); ("T", "local_LAYER_T");
   ("LWC", "local_LAYER_LWC"); ("CC", "local_LAYER_CC"); ("POROSITY", "local_LAYER_POROSITY");
   ("ICE_FRACTION", "local_LAYER_ICE_FRACTION");
   ("IRREDUCIBLE_WATER", "local_LAYER_IRREDUCIBLE_WATER");
   ("REFREEZE", "local_LAYER_REFREEZE")]%string.

(** names bound to values: an unknown name raises NameError, which Python never reaches here;
    KeyError stands for it *)
Definition environment : Type := dict pyval.

Definition run_calls (set : string -> pyval -> IO -> res IO) (env : environment)
  (calls : list (string * string)) (io : IO) : res IO :=
  fold_left (fun acc call =>
               s <- acc ;; v <- dict_get env (snd call) ;; set (fst call) v s) calls (Ok io).

(** an index argument *)
Definition index_of (v : pyval) : res Z := match v with PIdx z => Ok z | _ => Err IndexError end.

(** io.py:588-673 [copy_local_to_global], called with positional arguments *)
Definition copy_local_to_global (cfg : RunConfig) (args : list pyval) (io : IO) : res IO :=
  if negb (length args =? length copy_parameters)%nat then Err TypeError
  else
    let env := combine copy_parameters args in
    vy <- dict_get env "y"%string ;; y <- index_of vy ;;
    vx <- dict_get env "x"%string ;; x <- index_of vx ;;
    io1 <- run_calls (fun name v => set_atm_attribute name v x y) env atm_calls io ;;
    io2 <- run_calls (fun name v => set_internal_attribute name v x y) env internal_calls io1 ;;
    if rc_full_field cfg
    then run_calls (fun name v => set_full_field_attribute name v x y) env full_field_calls io2
    else Ok io2.

(** io.py:796-816 [copy_local_restart_to_global] *)
Definition copy_local_restart_to_global (y x : Z) (r : dataset) (io : IO) : res IO :=
  let put prefix_g prefix_l acc name :=
    s <- acc ;;
    v <- ds_get r (prefix_l ++ name)%string ;;
    set_cell (prefix_g ++ name)%string y x (PBlock (Series v)) s in
  io1 <- fold_left (put "RES_"%string ""%string) restart_scalars (Ok io) ;;
  fold_left (put "RES_LAYER_"%string "LAYER_"%string) restart_layers (Ok io1).

(** ** Writing the global arrays into the datasets *)

(** io.py:675-708 [write_results_to_file] *)
Definition write_results_to_file (cfg : RunConfig) (io : IO) : res IO :=
  let put add prefix acc name :=
    ds <- acc ;;
    arr <- attr_get (io_arrays io) (prefix ++ name)%string ;;
    m <- dict_get result_metadata (prefix ++ name)%string ;;
    Ok (add ds arr (prefix ++ name)%string (fst m) (snd m)) in
  r1 <- fold_left (put (add_variable_along_latlontime cfg) ""%string) (io_atm io)
          (Ok (io_RESULT io)) ;;
  r2 <- fold_left (put (add_variable_along_latlontime cfg) ""%string) (io_internal io) (Ok r1) ;;
  r3 <- (if rc_full_field cfg
         then fold_left (put (add_variable_along_latlonlayertime cfg) "LAYER_"%string)
                (io_full io) (Ok r2)
         else Ok r2) ;;
  Ok (with_RESULT io r3).

(** io.py:818-844 [write_restart_to_file] *)
Definition write_restart_to_file (cfg : RunConfig) (io : IO) : res IO :=
  let put add prefix_g prefix_l acc name :=
    ds <- acc ;;
    arr <- attr_get (io_arrays io) (prefix_g ++ name)%string ;;
    m <- dict_get restart_metadata (prefix_l ++ name)%string ;;
    Ok (add ds arr (prefix_l ++ name)%string (fst m) (snd m)) in
  r1 <- fold_left (put (add_variable_along_latlon cfg) "RES_"%string ""%string) restart_scalars
          (Ok (io_RESTART io)) ;;
  r2 <- fold_left (put (add_variable_along_latlonlayer cfg) "RES_LAYER_"%string "LAYER_"%string)
          restart_layers (Ok r1) ;;
  Ok (with_RESTART io r2).

(** ** Reading the input *)

(** io.py:284 [np.sort] on the time labels, in seconds *)
Fixpoint insert_time (t : Z) (l : list Z) : list Z :=
  match l with
  | [] => [t]
  | u :: r => if (t <=? u)%Z then t :: l else u :: insert_time t r
  end.
Fixpoint sort_times (l : list Z) : list Z :=
  match l with [] => [] | t :: r => insert_time t (sort_times r) end.

(** numpy's reading of a time stamp in text: its first second and the number of seconds that
    its last field stands for (a minute for YYYY-MM-DDThh:mm); None: not a time stamp *)
Definition parser : Type := string -> option (Z * Z).

(** io.py:103-123 [get_datetime] with [use_np]; [inl]: a numpy time, which has no strftime,
    [inr]: a date from the TOML file *)
Definition get_datetime (parse : parser) (v : value) : res (Z + Z) :=
  match v with
  | VStr s => match parse s with Some (t, _) => Ok (inl t) | None => Err ValueError end
  | VDate t => Ok (inr t)
  | _ => Err TypeError
  end.

Definition seconds (d : Z + Z) : Z := match d with inl t => t | inr t => t end.

(** the bounds of [slice(time_start, time_end)] in [DataArray.sel]: pandas reads a text as the
    whole period it names *)
Definition slice_bounds (parse : parser) (v : value) : res (Z * Z) :=
  match v with
  | VStr s => match parse s with Some (t, w) => Ok (t, t + w - 1)%Z | None => Err ValueError end
  | VDate t => Ok (t, t)
  | _ => Err TypeError
  end.

(** positions of a label list that lie in [lo, hi] *)
Definition in_period (lo hi t : Z) : bool := ((lo <=? t) && (t <=? hi))%Z%bool.

Fixpoint pick {A : Type} (keep : list bool) (l : list A) : list A :=
  match keep, l with
  | true :: k, a :: t => a :: pick k t
  | false :: k, _ :: t => pick k t
  | _, _ => []
  end.

(** [.sel(time=...)] on one cell: variables without time axis are left alone.  [timed] says
    whether the variable has a time axis. *)
Definition pick_block (keep : list bool) (b : block) : block :=
  match b with Series l => Series (pick keep l) | Layers l => Layers (pick keep l) end.

(** names of the variables without time axis (io.py:338-343 and the coordinates) *)
Definition static_names : list string := ["HGT"; "MASK"; "SLOPE"; "ASPECT"]%string.

Definition select_time (keep : list bool) (d : Gridded) : Gridded :=
  mkGridded (pick keep (g_times d))
    (map (fun nv => if in_names (fst nv) static_names then nv
                    else (fst nv, map (map (pick_block keep)) (snd nv))) (g_vars d)).

(** *** Validity check *)

Definition block_values (b : block) : list number :=
  match b with Series l => l | Layers l => concat l end.
Definition array_values (a : cells block) : list number := flat_map (flat_map block_values) a.

Fixpoint reals_of (l : list number) : list R :=
  match l with [] => [] | Some x :: t => x :: reals_of t | None :: t => reals_of t end.

Definition max_list (x : R) (l : list R) : R := fold_left Rmax l x.
Definition min_list (x : R) (l : list R) : R := fold_left Rmin l x.

(** io.py:226-236 [check_field]: true if the field is accepted.  nanmax of an empty array
    raises; of an array of NaNs it is NaN, which compares false. *)
Definition check_field (field : list number) (_max _min : R) : res bool :=
  match field with
  | [] => Err ValueError
  | _ => match reals_of field with
         | [] => Ok true
         | x :: l => Ok (negb (Rltb _max (max_list x l) || Rltb (min_list x l) _min))
         end
  end.

(** io.py:242-253 *)
Definition data_bounds : dict (R * R) :=
  [("T2"%string, (313.16, 243.16)); ("RH2"%string, (100.0, 0.0)); ("G"%string, (1600.0, 0.0));
   ("U2"%string, (50.0, 0.0)); ("RRR"%string, (20.0, 0.0)); ("N"%string, (1.0, 0.0));
   ("PRES"%string, (1080.0, 400.0)); ("LWin"%string, (400.0, 200.0));
   ("SNOWFALL"%string, (0.1, 0.0)); ("SLOPE"%string, (0.0, 90.0))].

(** io.py:238-260 [check_input_data]: the messages, true for "ok" and false for a warning; the
    returned value is always True *)
Definition check_input_data (d : Gridded) : res (list (string * bool)) :=
  fold_left
    (fun acc kb =>
       l <- acc ;;
       match dict_find (g_vars d) (fst kb) with
       | None => Ok l
       | Some a => ok <- check_field (array_values a) (fst (snd kb)) (snd (snd kb)) ;;
                   Ok (l ++ [(fst kb, ok)])
       end) data_bounds (Ok []).

(** *** Selecting the period *)

(** [str(t)[0:16]]: the minute of a time *)
Definition to_minute (t : Z) : Z := (60 * (t / 60))%Z.

(** io.py:262-329 [init_data_dataset]; [file] is the content of the input file, if it exists.
    Warnings are left out; the answer is the selected data and the messages of the check. *)
Definition init_data_dataset (parse : parser) (cfg : RunConfig) (file : option Gridded)
  (restart_date : option Z) : res (Gridded * list (string * bool)) :=
  match file with
  | None => Err SystemExit
  | Some raw =>
      let times := sort_times (g_times raw) in
      let data := mkGridded times (g_vars raw) in
      first <- py_get times 0 ;;
      last <- py_get times (-1) ;;
      let start_interval := to_minute first in
      let end_interval := to_minute last in
      ts <- get_datetime parse (rc_time_start cfg) ;;
      te <- get_datetime parse (rc_time_end cfg) ;;
      if ((end_interval <? seconds ts) || (seconds te <? start_interval))%Z%bool
      then Err IndexError
      else
        te_bounds <- slice_bounds parse (rc_time_end cfg) ;;
        lo <- (match restart_date with
               | None => b <- slice_bounds parse (rc_time_start cfg) ;; Ok (fst b)
               | Some r => if (r =? seconds te)%Z then Err SystemExit else Ok r
               end) ;;
        let sel := select_time (map (in_period lo (snd te_bounds)) times) data in
        messages <- check_input_data sel ;;
        Ok (sel, messages)
  end.

(** [l[a:b]] *)
Definition slice_index (n : nat) (i : Z) : nat :=
  let i' := if (i <? 0)%Z then (i + Z.of_nat n)%Z else i in Nat.min n (Z.to_nat i').
Definition py_slice {A : Type} (l : list A) (a b : Z) : list A :=
  let i := slice_index (length l) a in
  firstn (slice_index (length l) b - i) (skipn i l).

(** io.py:169-179: the tile *)
Definition cut_tile (cfg : RunConfig) (d : Gridded) : Gridded :=
  mkGridded (g_times d)
    (map (fun nv => (fst nv, map (fun row => py_slice row (rc_xstart cfg) (rc_xend cfg))
                               (py_slice (snd nv) (rc_ystart cfg) (rc_yend cfg)))) (g_vars d)).

(** The selections of io.py:170-179 and COSIPY.py:226-262 name the horizontal dimensions; the
    data have the dimensions that the configuration names ([sizes] fails otherwise).  Selecting
    along a dimension that the data do not have raises: KeyError in [sel], ValueError in
    [isel]. *)
Definition check_dimensions (cfg : RunConfig) : res unit :=
  if rc_WRF cfg
  then if (String.eqb (rc_northing cfg) "south_north" && String.eqb (rc_easting cfg) "west_east")%bool
       then Ok tt else Err KeyError
  else if (String.eqb (rc_northing cfg) "lat" && String.eqb (rc_easting cfg) "lon")%bool
       then Ok tt else Err ValueError.

(** the tile is cut with [isel] in both cases *)
Definition tile_dimensions (cfg : RunConfig) : res unit :=
  match check_dimensions cfg with Ok u => Ok u | Err _ => Err ValueError end.

(** a restart file: its time and its gridded variables *)
Definition restart_file : Type := Z * dict (cells (list number)).

(** sizes of the horizontal dimensions, taken from the mask *)
Definition sizes (d : Gridded) : res (Z * Z) :=
  m <- attr_get (g_vars d) "MASK"%string ;;
  Ok (Z.of_nat (length m), match m with [] => 0%Z | row :: _ => Z.of_nat (length row) end).

(** except IndexError of io.py:162 *)
Definition catch_index_error {A : Type} (m : res A) : res A :=
  match m with Err IndexError => Err SystemExit | _ => m end.

(** io.py:125-185 [create_data_file].  [open_restart]: the restart file of a time, if there is
    one (the name of the file is the time in minutes).  The answer: IO object, data, restart
    grid, messages. *)
Definition create_data_file (parse : parser) (cfg : RunConfig) (c : Consts)
  (file : option Gridded) (open_restart : Z -> option restart_file) (io : IO)
  : res (IO * Gridded * option restart_file * list (string * bool)) :=
  '(data, grid_restart, messages) <-
    (if rc_restart cfg then
       ts <- get_datetime parse (rc_time_start cfg) ;;
       te <- get_datetime parse (rc_time_end cfg) ;;
       match ts with
       | inl _ => Err AttributeError
       | inr t =>
           match open_restart (to_minute t) with
           | None => Err SystemExit
           | Some r =>
               catch_index_error
                 (if (t =? seconds te)%Z then Err IndexError
                  else '(d, m) <- init_data_dataset parse cfg file
                                    (Some (fst r + py_int (c_dt c))%Z) ;;
                       Ok (d, Some r, m))
           end
       end
     else '(d, m) <- init_data_dataset parse cfg file None ;; Ok (d, None, m)) ;;
  (if rc_tile cfg then tile_dimensions cfg else Ok tt) ;;
  let data' := if rc_tile cfg then cut_tile cfg data else data in
  '(ny, nx) <- sizes data' ;;
  Ok (mkIO (io_atm io) (io_internal io) (io_full io) ny nx (Z.of_nat (length (g_times data')))
        (io_arrays io) (io_RESULT io) (io_RESTART io),
      data', grid_restart, messages).
