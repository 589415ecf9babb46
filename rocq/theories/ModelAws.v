(** * Conversion of weather station data (cosipy/utilities/aws2cosipy/aws2cosipy.py)

    The csv file is a frame of numbers (NaN is [None]) with time stamps in seconds; [pd.to_numeric]
    is therefore the identity.  Progress messages are left out.  The arrays with the axes time, lat,
    lon are kept as a grid of time series, as in ModelIO.  Static fields are numbers, only the mask
    may be NaN. *)
From Verif Require Import ModelPy ModelConstants ModelNode ModelGrid ModelHeat ModelSurface ModelInit
  ModelCore ModelConfig ModelIO ModelMain ModelRadCor.

(** ** Configuration: the section aws2cosipy of utilities_config.toml *)
Record AwsConfig : Type := mkAwsConfig {
  aw_PRES : string; aw_T2 : string; aw_RH2 : string; aw_G : string; aw_RRR : string;
  aw_U2 : string; aw_LWin : string; aw_SNOWFALL : string; aw_N : string;
  aw_in_K : bool;
  aw_WRF : bool; aw_aggregate : bool;
  aw_step : Z;                                  (* aggregation_step in seconds *)
  aw_radiation : option string; aw_LUT : bool;
  aw_dtstep : R; aw_tcart : R; aw_timezone_lon : R; aw_zeni_thld : R;
  aw_point_model : bool; aw_plon : R; aw_plat : R; aw_hgt : R;
  aw_stationAlt : R; aw_stationLat : R;
  aw_lapse_T : R; aw_lapse_RH : R; aw_lapse_RRR : R; aw_lapse_SNOWFALL : R
}.

(** ** Frames *)
Record frame : Type := mkFrame { f_index : list Z; f_cols : dict (list number) }.

(** [df.fillna(method="ffill")] *)
Fixpoint ffill (last : number) (l : list number) : list number :=
  match l with
  | [] => []
  | Some x :: t => Some x :: ffill (Some x) t
  | None :: t => last :: ffill last t
  end.
Definition ffill_frame (df : frame) : frame :=
  mkFrame (f_index df) (map (fun nc => (fst nc, ffill None (snd nc))) (f_cols df)).

(** [if name not in df: df[name] = np.nan] *)
Definition add_missing (name : string) (df : frame) : frame :=
  if dict_mem (f_cols df) name then df
  else mkFrame (f_index df) (f_cols df ++ [(name, map (fun _ => None) (f_index df))]).

(** [df[names]] *)
Definition select_columns (names : list string) (df : frame) : res frame :=
  cols <- map_res (fun n => c <- dict_get (f_cols df) n ;; Ok (n, c)) names ;;
  Ok (mkFrame (f_index df) cols).

(** *** Resampling *)

Inductive agg : Type := Mean | Sum | NanSum.

(** aws2cosipy.py:906-911 *)
Definition nansumwrapper (l : list number) : number :=
  match reals_of l with [] => None | x => Some (sum_list x) end.
(** pandas' "mean" and "sum" skip NaN *)
Definition aggregate (a : agg) (l : list number) : number :=
  match a with
  | Mean => mean (reals_of l)
  | Sum => Some (sum_list (reals_of l))
  | NanSum => nansumwrapper l
  end.

(** start of the bin of [t]: bins of [step] seconds, counted from [origin] *)
Definition bin (origin step t : Z) : Z := (origin + step * ((t - origin) / step))%Z.

(** midnight of the first day (pandas: origin="start_day") *)
Definition bin_origin (index : list Z) : Z :=
  match index with
  | [] => 0%Z
  | t :: ts => (86400 * (fold_left Z.min ts t / 86400))%Z
  end.

(** all bins from the first to the last time stamp *)
Definition bins (step : Z) (index : list Z) : list Z :=
  match index with
  | [] => []
  | t :: ts =>
      let o := bin_origin index in
      let a := bin o step (fold_left Z.min ts t) in
      let b := bin o step (fold_left Z.max ts t) in
      map (fun k => (a + k * step)%Z) (zrange 0 ((b - a) / step + 1))
  end.

(** [df.resample(step).agg(kinds)] *)
Definition resample (step : Z) (kinds : dict agg) (df : frame) : res frame :=
  let o := bin_origin (f_index df) in
  let bs := bins step (f_index df) in
  cols <- map_res (fun nk =>
            c <- dict_get (f_cols df) (fst nk) ;;
            Ok (fst nk, map (fun b => aggregate (snd nk)
                                        (pick (map (fun t => (bin o step t =? b)%Z) (f_index df)) c)) bs))
          kinds ;;
  Ok (mkFrame bs cols).

Definition is_number (v : number) : bool := match v with Some _ => true | None => false end.

(** [df.dropna(axis=1, how="all")] *)
Definition dropna_columns (df : frame) : frame :=
  mkFrame (f_index df) (filter (fun nc => existsb is_number (snd nc)) (f_cols df)).

(** aws2cosipy.py:153-156; the index is taken to be ascending *)
Definition get_time_slice (parse : parser) (df : frame) (start_date end_date : option string)
  : res frame :=
  match start_date, end_date with
  | Some a, Some b =>
      lo <- slice_bounds parse (VStr a) ;;
      hi <- slice_bounds parse (VStr b) ;;
      let keep := map (in_period (fst lo) (snd hi)) (f_index df) in
      Ok (mkFrame (pick keep (f_index df)) (map (fun nc => (fst nc, pick keep (snd nc))) (f_cols df)))
  | _, _ => Ok df
  end.

(** aws2cosipy.py:86-132 *)
Definition set_order_and_type (cfg : AwsConfig) (replace_pressure : bool) (df : frame) : res frame :=
  map_res (dict_get (f_cols df)) [aw_T2 cfg; aw_RH2 cfg; aw_U2 cfg; aw_G cfg; aw_PRES cfg] ;;
  let df := if replace_pressure && negb (dict_mem (f_cols df) (aw_PRES cfg))
            then mkFrame (f_index df)
                   (dict_set (f_cols df) (aw_PRES cfg) (map (fun _ => Some 660.00) (f_index df)))
            else df in
  if negb (dict_mem (f_cols df) (aw_LWin cfg)) && negb (dict_mem (f_cols df) (aw_N cfg))
  then Err ValueError
  else Ok df.

(** ** Corrections *)

(** aws2cosipy.py:159-178; [lapse] is the entry of the configuration *)
Definition set_bias (lapse altitude : R) (limit : bool) (data : number) : number :=
  match data with
  | None => None
  | Some d => let b := d + altitude * lapse in Some (if limit then Rmax b 0 else b)
  end.

(** [np.power(x, y)] for positive y *)
Definition np_power (x y : R) : number :=
  if Rlt_dec 0 x then Some (Rpower x y) else if Req_EM_T x 0 then Some 0 else None.

(** [data / np.power(1 - 0.0065 * alt / 288.15, 5.255) * np.power(1 - 0.0065 * height / 288.15, e)] *)
Definition barometric (alt e height : R) (data : number) : number :=
  match data, np_power (1 - 0.0065 * alt / 288.15) 5.255, np_power (1 - 0.0065 * height / 288.15) e with
  | Some d, Some a, Some b => if Req_EM_T a 0 then None else Some (d / a * b)
  | _, _, _ => None
  end.

(** aws2cosipy.py:232-238 *)
Definition get_pressure_bias (cfg : AwsConfig) (height : R) (data : number) : number :=
  barometric (aw_stationAlt cfg) 5.22 height data.

(** aws2cosipy.py:885-890 *)
Definition set_relative_humidity_bounds (v : number) : number :=
  match v with
  | None => None
  | Some h =>
      let h := if Rltb 100.0 h then 100.0 else h in
      Some (if Rltb h 0.0 then 0.1 else h)
  end.

(** aws2cosipy.py:869-882 *)
Definition check_temperature_bounds (temperature : list number) : res unit :=
  match temperature with
  | [] => Err ValueError
  | _ => match reals_of temperature with
         | [] => Ok tt
         | x :: l =>
             if Rltb 373.16 (max_list x l) then Err ValueError
             else if Rltb (min_list x l) 173.16 then Err ValueError
             else Ok tt
         end
  end.

(** aws2cosipy.py:344-357, 518-521 *)
Definition to_kelvin (cfg : AwsConfig) (v : number) : number :=
  if aw_in_K cfg then v else option_map (fun t => t + 273.16) v.

(** ** Files *)

Record static_file : Type := mkStatic {
  st_lats : list R; st_lons : list R;
  st_HGT : raster R; st_SLOPE : raster R; st_ASPECT : raster R; st_MASK : raster number;
  st_other : dict (raster number)
}.

(** coordinates along one or two dimensions *)
Inductive coordinate : Type := Along (dim : string) (l : list R) | Mesh (r : raster R).

Record ncfile : Type := mkFile {
  nf_time : list Z; nf_lat : coordinate; nf_lon : coordinate; nf_vars : dict variable
}.

(** what the model sees when it opens the file *)
Definition gridded (f : ncfile) : Gridded :=
  mkGridded (nf_time f) (map (fun nv => (fst nv, v_data (snd nv))) (nf_vars f)).

(** [np.meshgrid(x, y)] *)
Definition meshgrid_x (x y : list R) : raster R := map (fun _ => x) y.
Definition meshgrid_y (x y : list R) : raster R := map (fun v => map (fun _ => v) x) y.

(** aws2cosipy.py:181-199 *)
Definition variable_metadata : metadata :=
  [("HGT", ("m", "Elevation")); ("ASPECT", ("degrees", "Aspect of slope"));
   ("SLOPE", ("degrees", "Terrain slope")); ("MASK", ("boolean", "Glacier mask"));
   ("T2", ("K", "Temperature at 2 m")); ("RH2", ("%", "Relative humidity at 2 m"));
   ("U2", ("m s⁻¹", "Wind velocity at 2 m")); ("G", ("W m⁻²", "Incoming shortwave radiation"));
   ("PRES", ("hPa", "Atmospheric Pressure")); ("RRR", ("mm", "Total precipitation (liquid+solid)"));
   ("SNOWFALL", ("m", "Snowfall")); ("LWin", ("W m⁻²", "Incoming longwave radiation"));
   ("N", ("%", "Cloud cover fraction"))]%string.

(** aws2cosipy.py:202-211 and the functions [add_variable_along_...] of lines 792-828 *)
Definition add_variable (dims : list string) (name : string) (a : cells block) (vars : dict variable)
  : res (dict variable) :=
  m <- dict_get variable_metadata name ;;
  Ok (dict_set vars name (mkVariable dims a (fst m) (snd m))).

(** add the variables that are there *)
Definition add_variables (dims : list string) (l : list (string * option (cells block)))
  (vars : dict variable) : res (dict variable) :=
  for_each l (fun nv vars => match snd nv with
                             | Some a => add_variable dims (fst nv) a vars
                             | None => Ok vars
                             end) vars.

(** *** Checks *)

(** aws2cosipy.py:831-838: true if a warning is printed *)
Definition check (field : list number) (max_bound min_bound : R) : res bool :=
  ok <- check_field field max_bound min_bound ;; Ok (negb ok).

(** aws2cosipy.py:135-150 *)
Definition check_data (cfg : AwsConfig) (vars : dict variable) (df : frame)
  : res (list (string * bool)) :=
  let here n := dict_mem (f_cols df) n in
  for_each
    (filter snd
       [(("T2", (316.16, 223.16)), true); (("RH2", (100.0, 0.0)), true); (("U2", (50.0, 0.0)), true);
        (("G", (1600.0, 0.0)), true); (("PRES", (1080.0, 200.0)), true);
        (("RRR", (20.0, 0.0)), here (aw_RRR cfg)); (("SNOWFALL", (0.05, 0.0)), here (aw_SNOWFALL cfg));
        (("LWin", (400, 0.0)), here (aw_LWin cfg)); (("N", (1.0, 0.0)), here (aw_N cfg))]%string)
    (fun nb ws =>
       let '(n, (mx, mn)) := fst nb in
       v <- attr_get vars n ;;
       w <- check (array_values (v_data v)) mx mn ;;
       Ok (ws ++ [(n, w)])) [].

Definition has_none (l : list number) : bool := existsb (fun v => negb (is_number v)) l.

(** aws2cosipy.py:893-895 *)
Definition check_for_nan_point (vars : dict variable) : res unit :=
  if existsb (fun nv => has_none (array_values (v_data (snd nv)))) vars then Err ValueError else Ok tt.

(** aws2cosipy.py:841-866 *)
Definition check_for_nan_cell (vars : dict variable) (y x : Z) : res unit :=
  masks <- attr_get vars "MASK"%string ;;
  m <- cell_get (v_data masks) y x ;;
  if match m with Series [v] => num_eqb v 1 | _ => false end then
    blocks <- map_res (fun nv => cell_get (v_data (snd nv)) y x) vars ;;
    if existsb (fun b => has_none (block_values b)) blocks then Err ValueError else Ok tt
  else Ok tt.
Definition check_for_nan_2D (vars : dict variable) (ny nx : Z) : res unit :=
  for_each (product_range ny nx) (fun yx _ => check_for_nan_cell vars (fst yx) (snd yx)) tt.

(** ** Point input *)

(** position and value of the entry next to [p], the larger one of two *)
Fixpoint nearest_from (p : R) (best : nat * R) (i : nat) (l : list R) : nat * R :=
  match l with
  | [] => best
  | v :: t =>
      let d := Rabs (v - p) in
      let d0 := Rabs (snd best - p) in
      nearest_from p (if Rltb d d0 || (Reqb d d0 && Rltb (snd best) v) then (i, v) else best) (S i) t
  end.
Definition nearest (l : list R) (p : R) : res (nat * R) :=
  match l with [] => Err KeyError | v :: t => Ok (nearest_from p (0%nat, v) 1 t) end.

Definition point (v : number) : cells block := [[Series [v]]].
Definition point_series (l : list number) : cells block := [[Series l]].

(** a scalar of the static file *)
Definition scalar_variable (v : number) : variable := mkVariable [] (point v) "" "".

(** aws2cosipy.py:265-298: fill gaps, choose columns, hourly values *)
Definition hourly (cfg : AwsConfig) (df : frame) : res frame :=
  let df := ffill_frame df in
  let df := add_missing (aw_LWin cfg) df in
  let df := add_missing (aw_N cfg) df in
  let df := add_missing (aw_SNOWFALL cfg) df in
  df <- select_columns [aw_T2 cfg; aw_RH2 cfg; aw_U2 cfg; aw_G cfg; aw_RRR cfg; aw_PRES cfg;
                        aw_LWin cfg; aw_N cfg; aw_SNOWFALL cfg] df ;;
  df <- resample 3600
          (dict_union []
             [(aw_T2 cfg, Mean); (aw_RH2 cfg, Mean); (aw_U2 cfg, Mean); (aw_G cfg, Mean);
              (aw_PRES cfg, Mean); (aw_RRR cfg, NanSum); (aw_LWin cfg, Mean); (aw_N cfg, Mean);
              (aw_SNOWFALL cfg, NanSum)]) df ;;
  Ok (dropna_columns df).

(** aws2cosipy.py:304-335: coordinates and the cell of the static file *)
Definition point_coordinates (cfg : AwsConfig) (static : option static_file)
  : res (coordinate * coordinate * dict variable) :=
  if aw_WRF cfg then
    let lon := meshgrid_x [aw_plon cfg] [aw_plat cfg] in
    let lat := meshgrid_y [aw_plon cfg] [aw_plat cfg] in
    Ok (Mesh lon, Mesh lat, [])
  else
    match static with
    | Some st =>
        iy <- nearest (st_lats st) (aw_plat cfg) ;;
        ix <- nearest (st_lons st) (aw_plon cfg) ;;
        let y := Z.of_nat (fst iy) in
        let x := Z.of_nat (fst ix) in
        h <- raster_get (st_HGT st) y x ;;
        s <- raster_get (st_SLOPE st) y x ;;
        a <- raster_get (st_ASPECT st) y x ;;
        m <- raster_get (st_MASK st) y x ;;
        other <- map_res (fun nr => v <- raster_get (snd nr) y x ;; Ok (fst nr, scalar_variable v))
                         (st_other st) ;;
        Ok (Along "lat" [aw_plat cfg], Along "lon" [snd ix],
            dict_union other
              [("HGT", scalar_variable (Some h)); ("SLOPE", scalar_variable (Some s));
               ("ASPECT", scalar_variable (Some a)); ("MASK", scalar_variable m)]%string)
    | None => Ok (Along "lat" [aw_plat cfg], Along "lon" [aw_plon cfg], [])
    end.

(** the only number of a scalar *)
Definition scalar_of (v : variable) : number :=
  match v_data v with [[Series [x]]] => x | _ => None end.

(** aws2cosipy.py:397-409: aspect, slope and mask *)
Definition point_terrain (static : option static_file) (vars : dict variable)
  : res (number * number * number) :=
  match static with
  | Some _ =>
      a <- dict_get vars "ASPECT"%string ;;
      m <- attr_get vars "MASK"%string ;;
      s <- attr_get vars "SLOPE"%string ;;
      Ok (option_map (fun a => a - 180.0) (scalar_of a), scalar_of s, scalar_of m)
  | None => Ok (Some 0, Some 0, Some 1)
  end.

(** [if name in df: f(df[name].values)] *)
Definition if_column (df : frame) (name : string) (f : list number -> cells block)
  : option (cells block) := option_map f (dict_find (f_cols df) name).

(** aws2cosipy.py:246-439: the file and the warnings printed after writing it *)
Definition create_1D_input (parse : parser) (cfg : AwsConfig) (csv : frame) (static : option static_file)
  (start_date end_date : option string) : res (ncfile * list (string * bool)) :=
  df <- hourly cfg csv ;;
  df <- get_time_slice parse df start_date end_date ;;
  '(lat, lon, vars) <- point_coordinates cfg static ;;
  df <- set_order_and_type cfg true df ;;
  let sensor_height := aw_hgt cfg - aw_stationAlt cfg in
  T2 <- dict_get (f_cols df) (aw_T2 cfg) ;;
  let T2 := map (fun v => set_bias (aw_lapse_T cfg) sensor_height false (to_kelvin cfg v)) T2 in
  check_temperature_bounds T2 ;;
  RH2 <- dict_get (f_cols df) (aw_RH2 cfg) ;;
  let RH2 := map (set_bias (aw_lapse_RH cfg) sensor_height false) RH2 in
  U2 <- dict_get (f_cols df) (aw_U2 cfg) ;;
  G <- dict_get (f_cols df) (aw_G cfg) ;;
  PRES <- dict_get (f_cols df) (aw_PRES cfg) ;;
  let PRES := map (get_pressure_bias cfg (aw_hgt cfg)) PRES in
  let RRR := if_column df (aw_RRR cfg)
               (fun l => point_series (map (set_bias (aw_lapse_RRR cfg) sensor_height true) l)) in
  let SNOWFALL := if_column df (aw_SNOWFALL cfg)
                    (fun l => point_series (map (set_bias (aw_lapse_SNOWFALL cfg) sensor_height true) l)) in
  let LW := if_column df (aw_LWin cfg) point_series in
  let N := if_column df (aw_N cfg) point_series in
  '(aspect, slope, mask) <- point_terrain static vars ;;
  let RH2 := map set_relative_humidity_bounds RH2 in
  vars <- add_variables ["lat"; "lon"]%string
            [("HGT", Some (point (Some (aw_hgt cfg)))); ("ASPECT", Some (point aspect));
             ("SLOPE", Some (point slope)); ("MASK", Some (point mask))]%string vars ;;
  vars <- add_variables ["time"; "lat"; "lon"]%string
            [("T2", Some (point_series T2)); ("RH2", Some (point_series RH2));
             ("U2", Some (point_series U2)); ("G", Some (point_series G));
             ("PRES", Some (point_series PRES)); ("RRR", RRR); ("SNOWFALL", SNOWFALL); ("LWin", LW);
             ("N", N)]%string vars ;;
  check_for_nan_point vars ;;
  warnings <- check_data cfg vars df ;;
  Ok (mkFile (f_index df) lat lon vars, warnings).

(** ** Gridded input *)

Definition ascending_values (l : list R) : bool :=
  forallb (fun ab => Rleb (fst ab) (snd ab)) (combine l (tl l)).

Definition in_bounds (lo hi : option R) (v : R) : bool :=
  match lo with Some a => Rleb a v | None => true end
  && match hi with Some b => Rleb v b | None => true end.

(** the entries that [sel(slice(a, b))] keeps; the coordinate is taken to be ascending or
    descending *)
Definition label_slice (l : list R) (a b : option R) : list bool :=
  if ascending_values l then map (in_bounds a b) l else map (in_bounds b a) l.

Definition pick_raster {A : Type} (ky kx : list bool) (a : raster A) : raster A :=
  map (pick kx) (pick ky a).

(** aws2cosipy.py:496 *)
Definition subset (st : static_file) (x0 x1 y0 y1 : option R) : static_file :=
  let ky := label_slice (st_lats st) y0 y1 in
  let kx := label_slice (st_lons st) x0 x1 in
  mkStatic (pick ky (st_lats st)) (pick kx (st_lons st)) (pick_raster ky kx (st_HGT st))
    (pick_raster ky kx (st_SLOPE st)) (pick_raster ky kx (st_ASPECT st))
    (pick_raster ky kx (st_MASK st))
    (map (fun nr => (fst nr, pick_raster ky kx (snd nr))) (st_other st)).

(** aws2cosipy.py:471-489 *)
Definition aggregates (cfg : AwsConfig) (df : frame) : dict agg :=
  let extra_vars := filter (dict_mem (f_cols df)) [aw_N cfg; aw_RRR cfg; aw_LWin cfg; aw_SNOWFALL cfg] in
  dict_union []
    ([(aw_PRES cfg, Mean); (aw_T2 cfg, Mean); (aw_RH2 cfg, Mean); (aw_G cfg, Mean); (aw_U2 cfg, Mean)]
     ++ map (fun n => (n, if in_names n [aw_N cfg; aw_LWin cfg] then Mean else Sum)) extra_vars).

Definition aggregate_frame (cfg : AwsConfig) (df : frame) : res frame :=
  if aw_aggregate cfg then resample (aw_step cfg) (aggregates cfg df) df else Ok df.

(** an array filled in a loop over the time, as a grid of series *)
Definition interpolate (heights : raster R) (f : R -> number -> number) (l : list number) : cells block :=
  map (map (fun h => Series (map (f h) l))) heights.
Definition constant_field (heights : raster R) (l : list number) : cells block :=
  interpolate heights (fun _ v => v) l.
(** the same array at one time *)
Definition slab (heights : raster R) (f : R -> number -> number) (v : number) : raster number :=
  map (map (fun h => f h v)) heights.

Definition entry (r : raster number) (y x : Z) : number :=
  match raster_get r y x with Ok v => v | Err _ => None end.
(** slabs put together to an array *)
Definition stack (ny nx : Z) (slabs : list (raster number)) : cells block :=
  tabulate ny nx (fun y x => Series (map (fun r => entry r y x) slabs)).

(** [Timestamp.hour] *)
Definition hour_of (t : Z) : Z := ((t / 3600) mod 24)%Z.

(** [np.maximum(0.0, v)] *)
Definition max_zero (v : number) : number := option_map (Rmax 0.0) v.

(** aws2cosipy.py:612-748: radiation for every time; [doy] is [Timestamp.dayofyear].  The look-up
    tables written by lines 694-715 are left out; [lut] is the file read if LUT is set. *)
Definition radiation (vapour : R -> R -> R -> number) (doy : Z -> Z) (cfg : AwsConfig)
  (st : static_file) (lut : list (raster number) * raster number)
  (T P H : R -> number -> number) (times : list Z) (T2 PRES RH2 : list number) (N : option (list number))
  (sw : list number) : res (list (raster number)) :=
  let module := aw_radiation cfg in
  if match module with
     | None => true
     | Some s => in_names s ["Wohlfahrt2016"; "none"]%string
     end then
    let aspect := map (map (fun a => a - 180.0)) (st_ASPECT st) in
    map_res (fun ts =>
      let '(t, g) := ts in
      raster_map (fun i j m =>
        if num_eqb m 1 then
          if match module with Some s => String.eqb s "Wohlfahrt2016" | None => false end then
            lat <- py_get (st_lats st) i ;;
            lon <- py_get (st_lons st) j ;;
            s <- raster_get (st_SLOPE st) i j ;;
            a <- raster_get aspect i j ;;
            match g with
            | None => Ok None
            | Some g =>
                r <- correctRadiation lat lon (aw_timezone_lon cfg) (IZR (doy t)) (IZR (hour_of t)) s a g
                       (aw_zeni_thld cfg) ;;
                Ok (max_zero (Some r))
            end
          else Ok g
        else Ok None) (st_MASK st)) (combine times sw)
  else if match module with Some s => String.eqb s "Moelg2009" | None => false end then
    pars <- solpars (aw_stationLat cfg) ;;
    let '(solPars, timeCorr) := pars in
    tables <-
      (if aw_LUT cfg then Ok lut
       else
         svf <- LUTsvf (rev (st_HGT st)) (rev (st_MASK st)) (rev (st_SLOPE st)) (rev (st_ASPECT st))
                  (rev (st_lats st)) (st_lons st) ;;
         shad1yr <- LUTshad solPars timeCorr (aw_stationLat cfg) (rev (st_HGT st)) (rev (st_MASK st))
                      (rev (st_lats st)) (st_lons st) (aw_dtstep cfg) (aw_tcart cfg) ;;
         Ok (shad1yr, svf)) ;;
    map_res (fun k =>
      t <- py_get times k ;;
      temp <- py_get T2 k ;;
      p <- py_get PRES k ;;
      rh <- py_get RH2 k ;;
      n <- match N with None => Err UnboundLocalError | Some l => py_get l k end ;;
      calcRad vapour solPars timeCorr (doy t) (IZR (hour_of t)) (aw_stationLat cfg)
        (rev (slab (st_HGT st) T temp)) (rev (slab (st_HGT st) P p)) (rev (slab (st_HGT st) H rh))
        (rev (slab (st_HGT st) (fun _ v => v) n))
        (rev (st_HGT st)) (rev (st_MASK st)) (rev (st_SLOPE st)) (rev (st_ASPECT st))
        (fst tables) (snd tables) (aw_dtstep cfg) (aw_tcart cfg))
      (zrange 0 (Z.of_nat (length times)))
  else Err ValueError.

Definition one_number (v : number) : block := Series [v].
Definition flat_field (r : raster R) : cells block := map (map (fun v => one_number (Some v))) r.

(** aws2cosipy.py:442-789 *)
Definition create_2D_input (parse : parser) (vapour : R -> R -> R -> number) (doy : Z -> Z)
  (cfg : AwsConfig) (csv : frame) (static : static_file) (lut : list (raster number) * raster number)
  (start_date end_date : option string) (x0 x1 y0 y1 : option R)
  : res (ncfile * list (string * bool)) :=
  df <- get_time_slice parse csv start_date end_date ;;
  df <- aggregate_frame cfg df ;;
  let ds := subset static x0 x1 y0 y1 in
  let '(lat, lon, dims, vars) :=
    if aw_WRF cfg then
      (Mesh (meshgrid_y (st_lons ds) (st_lats ds)), Mesh (meshgrid_x (st_lons ds) (st_lats ds)),
       ["south_north"; "west_east"]%string, [])
    else
      (Along "lat" (st_lats ds), Along "lon" (st_lons ds), ["lat"; "lon"]%string,
       map (fun nr => (fst nr, mkVariable ["lat"; "lon"]%string (map (map one_number) (snd nr)) "" ""))
           (st_other ds)) in
  df <- set_order_and_type cfg false df ;;
  RH2 <- dict_get (f_cols df) (aw_RH2 cfg) ;;
  U2 <- dict_get (f_cols df) (aw_U2 cfg) ;;
  G <- dict_get (f_cols df) (aw_G cfg) ;;
  PRES <- dict_get (f_cols df) (aw_PRES cfg) ;;
  T2 <- dict_get (f_cols df) (aw_T2 cfg) ;;
  let T2 := map (to_kelvin cfg) T2 in
  check_temperature_bounds T2 ;;
  let alt := aw_stationAlt cfg in
  let T h := set_bias (aw_lapse_T cfg) (h - alt) false in
  let H h := set_bias (aw_lapse_RH cfg) (h - alt) false in
  let P h := barometric alt 5.255 h in
  let heights := st_HGT ds in
  let RRR := if_column df (aw_RRR cfg)
               (interpolate heights (fun h => set_bias (aw_lapse_RRR cfg) (h - alt) true)) in
  let SNOWFALL := if_column df (aw_SNOWFALL cfg)
                    (interpolate heights (fun h => set_bias (aw_lapse_SNOWFALL cfg) (h - alt) true)) in
  let LW := if_column df (aw_LWin cfg) (constant_field heights) in
  let N := if_column df (aw_N cfg) (constant_field heights) in
  g <- radiation vapour doy cfg ds lut T P H (f_index df) T2 PRES RH2 (dict_find (f_cols df) (aw_N cfg)) G ;;
  let ny := Z.of_nat (length (st_lats ds)) in
  let nx := Z.of_nat (length (st_lons ds)) in
  let aspect := map (map (fun a => a - 180.0)) (st_ASPECT ds) in
  vars <- add_variables dims
            [("HGT", Some (flat_field heights)); ("ASPECT", Some (flat_field aspect));
             ("SLOPE", Some (flat_field (st_SLOPE ds)));
             ("MASK", Some (map (map one_number) (st_MASK ds)))]%string vars ;;
  vars <- add_variables ("time" :: dims)%string
            [("T2", Some (interpolate heights T T2));
             ("RH2", Some (interpolate heights (fun h v => set_relative_humidity_bounds (H h v)) RH2));
             ("U2", Some (constant_field heights U2)); ("G", Some (stack ny nx g));
             ("PRES", Some (interpolate heights P PRES)); ("RRR", RRR); ("SNOWFALL", SNOWFALL);
             ("LWin", LW); ("N", N)]%string vars ;;
  check_for_nan_2D vars ny nx ;;
  warnings <- check_data cfg vars df ;;
  Ok (mkFile (f_index df) lat lon vars, warnings).

(** aws2cosipy.py:1024-1048; without a static file the gridded conversion fails when it opens it *)
Definition aws_main (parse : parser) (vapour : R -> R -> R -> number) (doy : Z -> Z) (cfg : AwsConfig)
  (csv : frame) (static : option static_file) (lut : list (raster number) * raster number)
  (start_date end_date : option string) (xl xr yl yu : option R)
  : res (ncfile * list (string * bool)) :=
  if aw_point_model cfg then create_1D_input parse cfg csv static start_date end_date
  else match static with
       | None => Err ValueError
       | Some st => create_2D_input parse vapour doy cfg csv st lut start_date end_date xl xr yl yu
       end.
