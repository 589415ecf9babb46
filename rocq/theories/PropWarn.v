(** * Conversion of weather station data: warnings, units and refusals

    Theorems only; the proofs are in LemFinWarn.v and the files it uses. *)

From Verif Require Import ModelPy ModelConstants ModelNode ModelGrid ModelHeat ModelSurface ModelInit ModelCore ModelConfig ModelIO ModelMain ModelRadCor SpecIO SpecRadCor ModelAws SpecAws SpecWarn.
From Verif Require Import LemFinWarn.

(** C113.  The conversion, for a point or for a grid, checks the five variables temperature, humidity, wind, radiation and pressure and each of precipitation, snowfall, longwave radiation and clouds that the file has.  A warning on a variable is printed if and only if one of its numbers is out of its range. *)
Theorem conversion_warnings :
  forall parse vapour doy (cfg : AwsConfig) (csv : frame) static lut sd ed xl xr yl yu f ws,
    (forall st, static = Some st -> plain_static st) ->
    aws_main parse vapour doy cfg csv static lut sd ed xl xr yl yu = Ok (f, ws) ->
    map fst ws = ["T2"; "RH2"; "U2"; "G"; "PRES"]%string ++
      filter (fun n => match dict_find (nf_vars f) n with Some _ => true | None => false end)
        ["RRR"; "SNOWFALL"; "LWin"; "N"]%string /\
    Forall (warns_rightly f) ws.
Proof. exact conversion_warnings_lem. Qed.
Print Assumptions conversion_warnings.

(** C113.  Each of the thirteen variables of a converted file has its own dimensions, unit and description; nine of them have a time. *)
Theorem file_units :
  forall parse vapour doy (cfg : AwsConfig) (csv : frame) static lut sd ed xl xr yl yu f ws n v u long,
    (forall st, static = Some st -> plain_static st) ->
    aws_main parse vapour doy cfg csv static lut sd ed xl xr yl yu = Ok (f, ws) ->
    dict_find (nf_vars f) n = Some v -> In (n, (u, long)) input_units ->
    v_units v = u /\ v_long_name v = long /\
    v_dims v = if in_dec string_dec n ["HGT"; "ASPECT"; "SLOPE"; "MASK"]%string then file_dims cfg
               else "time"%string :: file_dims cfg.
Proof. exact file_units_lem. Qed.
Print Assumptions file_units.

(** C113.  What the conversion refuses, and with which exception: missing values in the data of a point, or in a glacier cell of a grid, and a temperature out of range or no temperature at all with ValueError; data with neither longwave radiation nor clouds with ValueError; a static file without coordinates with KeyError; a grid without a static file with ValueError. *)
Theorem conversion_refusals :
  (forall vars,
     ((exists n v, In (n, v) vars /\ In None (array_values (v_data v))) -> check_for_nan_point vars = Err ValueError) /\
     ((forall n v, In (n, v) vars -> ~ In None (array_values (v_data v))) -> check_for_nan_point vars = Ok tt)) /\
  (forall vars masks y x, (0 <= y)%Z -> (0 <= x)%Z ->
     dict_find vars "MASK"%string = Some masks -> cell_at (v_data masks) y x = Some (Series [Some 1]) ->
     (forall n v, In (n, v) vars -> cell_at (v_data v) y x <> None) ->
     (exists n v b, In (n, v) vars /\ cell_at (v_data v) y x = Some b /\ In None (block_values b)) ->
     check_for_nan_cell vars y x = Err ValueError) /\
  (forall l : list number, (l = [] \/ exists x, In (Some x) l /\ (x < 173.16 \/ 373.16 < x)) ->
     check_temperature_bounds l = Err ValueError) /\
  (forall cfg b df, (forall n, In n [aw_T2 cfg; aw_RH2 cfg; aw_U2 cfg; aw_G cfg; aw_PRES cfg] -> column df n <> None) ->
     column df (aw_LWin cfg) = None -> column df (aw_N cfg) = None -> set_order_and_type cfg b df = Err ValueError) /\
  (forall cfg b df, (exists n, In n [aw_T2 cfg; aw_RH2 cfg; aw_U2 cfg; aw_G cfg; aw_PRES cfg] /\ column df n = None) ->
     set_order_and_type cfg b df = Err KeyError) /\
  (forall cfg st, aw_WRF cfg = false -> st_lats st = [] \/ st_lons st = [] ->
     point_coordinates cfg (Some st) = Err KeyError) /\
  (forall parse vapour doy cfg csv lut sd ed xl xr yl yu, aw_point_model cfg = false ->
     aws_main parse vapour doy cfg csv None lut sd ed xl xr yl yu = Err ValueError).
Proof. exact conversion_refusals_lem. Qed.
Print Assumptions conversion_refusals.

(** C113 A file with warnings: the wind of 60 m/s is too strong, the temperatures are accepted. *)
Example warning_example :
  forall parse vapour doy lut, exists f ws,
    aws_main parse vapour doy windy_config
      windy_station None lut None None None None None None = Ok (f, ws) /\
    map fst ws = ["T2"; "RH2"; "U2"; "G"; "PRES"; "RRR"; "LWin"]%string /\
    In ("U2"%string, true) ws /\ In ("T2"%string, false) ws.
Proof. exact warning_example_lem. Qed.
