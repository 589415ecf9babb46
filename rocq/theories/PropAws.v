(** * Conversion of weather station data

    Theorems only; the proofs are in LemFinAws.v and the files it uses. *)

From Verif Require Import ModelPy ModelConstants ModelNode ModelGrid ModelHeat ModelSurface ModelInit ModelCore ModelConfig ModelIO ModelMain ModelRadCor SpecIO SpecRadCor ModelAws SpecAws.
From Verif Require Import LemFinAws.

From Coq Require Import Sorted.

(** C51.  The humidity written to the input file: values in [0, 100] are kept, larger ones become 100, negative ones 0.1; doing it twice changes nothing. *)
Theorem humidity_bounds :
  forall h : R, exists h' : R,
    set_relative_humidity_bounds (Some h) = Some h' /\ 0 <= h' <= 100 /\
    (0 <= h <= 100 -> h' = h) /\ (100 < h -> h' = 100) /\ (h < 0 -> h' = 0.1) /\
    set_relative_humidity_bounds (Some h') = Some h'.
Proof. exact humidity_bounds_lem. Qed.
Print Assumptions humidity_bounds.

(** C51.  The correction does not keep the order: a value below zero ends above a small positive one. *)
Theorem humidity_order_refuted :
  exists a b a' b' : R, a < b /\ set_relative_humidity_bounds (Some a) = Some a' /\
    set_relative_humidity_bounds (Some b) = Some b' /\ b' < a'.
Proof. exact humidity_order_refuted_lem. Qed.
Print Assumptions humidity_order_refuted.

(** C51.  The altitude correction adds lapse rate times height difference; with the limit no value is negative. *)
Theorem lapse_correction :
  forall lapse dz v : R,
    set_bias lapse dz false (Some v) = Some (v + dz * lapse) /\
    set_bias lapse 0 false (Some v) = Some v /\
    exists b : R, set_bias lapse dz true (Some v) = Some b /\ 0 <= b /\
      (0 <= v + dz * lapse -> b = v + dz * lapse) /\ (v + dz * lapse <= 0 -> b = 0).
Proof. exact lapse_correction_lem. Qed.
Print Assumptions lapse_correction.

(** C52.  Gridded conversion: a cell at the altitude of the station gets the pressure of the station. *)
Theorem grid_pressure_at_station :
  forall alt p : R, 0 < standard_atmosphere alt -> barometric alt 5.255 alt (Some p) = Some p.
Proof. exact grid_pressure_at_station_lem. Qed.
Print Assumptions grid_pressure_at_station.

(** C52.  Point conversion: the exponents differ, so a point at the altitude of the station gets the pressure of the station times a factor above 1, unless the altitude is zero. *)
Theorem point_pressure_at_station :
  forall (cfg : AwsConfig) (p : R), 0 < standard_atmosphere (aw_stationAlt cfg) ->
    exists q : R, get_pressure_bias cfg (aw_stationAlt cfg) (Some p) = Some q /\
      q = p * Rpower (standard_atmosphere (aw_stationAlt cfg)) (Ropp 0.035) /\
      (0 < p -> 0 < aw_stationAlt cfg -> p < q) /\ (aw_stationAlt cfg = 0 -> q = p).
Proof. exact point_pressure_at_station_lem. Qed.
Print Assumptions point_pressure_at_station.

(** C52.  So the point conversion is not the identity at the station: 700 hPa measured at 3000 m become more than 700 hPa. *)
Theorem point_pressure_identity_refuted :
  exists (cfg : AwsConfig) (q : R), aw_hgt cfg = aw_stationAlt cfg /\
    get_pressure_bias cfg (aw_hgt cfg) (Some 700) = Some q /\ 700 < q.
Proof. exact point_pressure_identity_refuted_lem. Qed.
Print Assumptions point_pressure_identity_refuted.

(** C52.  Both conversions: the pressure is positive, proportional to the pressure of the station and falls with height. *)
Theorem pressure_falls_with_height :
  forall (e alt h1 h2 p : R), e = 5.22 \/ e = 5.255 -> 0 < p ->
    0 < standard_atmosphere alt -> h1 < h2 -> 0 < standard_atmosphere h2 ->
    exists p1 p2 : R, barometric alt e h1 (Some p) = Some p1 /\ barometric alt e h2 (Some p) = Some p2 /\
      0 < p2 < p1 /\ (forall k : R, barometric alt e h1 (Some (k * p)) = Some (k * p1)).
Proof. exact pressure_falls_with_height_lem. Qed.
Print Assumptions pressure_falls_with_height.

(** C76.  Times of the file written for a point: the full hours from the hour of the first row to the hour of the last row of the station file, each once and in order, that lie between the two dates if both are given. *)
Theorem point_file_times :
  forall parse (cfg : AwsConfig) (csv : frame) static sd ed f w,
    NoDup (column_names cfg) ->
    create_1D_input parse cfg csv static sd ed = Ok (f, w) ->
    StronglySorted Z.lt (nf_time f) /\ nf_time f <> [] /\
    forall b : Z, In b (nf_time f) <-> hour_in_file parse csv sd ed b.
Proof. exact point_file_times_lem. Qed.
Print Assumptions point_file_times.

(** C76.  Content of the file written for a point.  Temperature, humidity, wind, radiation and pressure of an hour are the means of the rows of that hour, precipitation and snowfall the sums, after gaps have been filled with the last known value; the altitude correction is made once, with the height difference between point and station.  An optional column without any number is left out. *)
Theorem point_file_content :
  forall parse (cfg : AwsConfig) (csv : frame) static sd ed f w,
    NoDup (column_names cfg) -> rectangular csv ->
    (forall st, static = Some st -> plain_static st) ->
    create_1D_input parse cfg csv static sd ed = Ok (f, w) ->
    let dz := aw_hgt cfg - aw_stationAlt cfg in
    let holds name value := file_series f name 0 0 = Some (map value (nf_time f)) in
    let optional column name value :=
      (has_number csv column -> holds name value) /\
      (~ has_number csv column -> dict_find (nf_vars f) name = None) in
    holds "T2"%string (fun b => option_map (fun v => kelvin cfg v + dz * aw_lapse_T cfg)
                                           (hourly_mean csv (aw_T2 cfg) b)) /\
    holds "RH2"%string (fun b => option_map (fun v => humidity_range (v + dz * aw_lapse_RH cfg))
                                            (hourly_mean csv (aw_RH2 cfg) b)) /\
    holds "U2"%string (hourly_mean csv (aw_U2 cfg)) /\
    holds "G"%string (hourly_mean csv (aw_G cfg)) /\
    (0 < standard_atmosphere (aw_stationAlt cfg) -> 0 < standard_atmosphere (aw_hgt cfg) ->
     holds "PRES"%string (fun b => option_map (lapsed_pressure 5.255 5.22 (aw_stationAlt cfg) (aw_hgt cfg))
                                              (hourly_mean csv (aw_PRES cfg) b))) /\
    optional (aw_RRR cfg) "RRR"%string
      (fun b => option_map (fun v => Rmax (v + dz * aw_lapse_RRR cfg) 0) (hourly_total csv (aw_RRR cfg) b)) /\
    optional (aw_SNOWFALL cfg) "SNOWFALL"%string
      (fun b => option_map (fun v => Rmax (v + dz * aw_lapse_SNOWFALL cfg) 0)
                           (hourly_total csv (aw_SNOWFALL cfg) b)) /\
    optional (aw_LWin cfg) "LWin"%string (hourly_mean csv (aw_LWin cfg)) /\
    optional (aw_N cfg) "N"%string (hourly_mean csv (aw_N cfg)).
Proof. exact point_file_content_lem. Qed.
Print Assumptions point_file_content.

(** C78.  The file written for a point has no missing value, and the check that the model makes before it simulates the point accepts it. *)
Theorem point_file_complete :
  forall parse (cfg : AwsConfig) (csv : frame) static sd ed f w,
    NoDup (column_names cfg) ->
    create_1D_input parse cfg csv static sd ed = Ok (f, w) ->
    (forall n v, In (n, v) (nf_vars f) -> ~ In None (array_values (v_data v))) /\
    check_for_nan (gridded f) 0 0 = Ok tt.
Proof. exact point_file_complete_lem. Qed.
Print Assumptions point_file_complete.

(** C78.  A station file with an hour without rows is not converted: every hour of the file has at least one row of the station file, with numbers for all five required columns known by then. *)
Theorem point_hours_have_rows :
  forall parse (cfg : AwsConfig) (csv : frame) static sd ed f w,
    NoDup (column_names cfg) -> rectangular csv ->
    (forall st, static = Some st -> plain_static st) ->
    create_1D_input parse cfg csv static sd ed = Ok (f, w) ->
    forall b : Z, hour_in_file parse csv sd ed b ->
      (exists t : Z, In t (f_index csv) /\ (b <= t < b + 3600)%Z) /\
      forall n, In n [aw_T2 cfg; aw_RH2 cfg; aw_U2 cfg; aw_G cfg; aw_PRES cfg] -> hourly_mean csv n b <> None.
Proof. exact point_hours_have_rows_lem. Qed.
Print Assumptions point_hours_have_rows.

(** C79.  Every temperature written for a point lies between 173.16 K and 373.16 K. *)
Theorem point_temperature_range :
  forall parse (cfg : AwsConfig) (csv : frame) static sd ed f w l,
    NoDup (column_names cfg) ->
    create_1D_input parse cfg csv static sd ed = Ok (f, w) -> file_series f "T2"%string 0 0 = Some l ->
    forall v, In v l -> exists x : R, v = Some x /\ 173.16 <= x <= 373.16.
Proof. exact point_temperature_range_lem. Qed.
Print Assumptions point_temperature_range.

(** C79.  Degrees declared as Kelvin, or Kelvin declared as degrees, are rejected: with natural temperatures (between 180 K and 330 K at the point) only the right setting of in_K is converted. *)
Theorem temperature_unit_detected :
  forall parse (cfg : AwsConfig) (csv : frame) static sd ed f w,
    NoDup (column_names cfg) -> rectangular csv ->
    (forall st, static = Some st -> plain_static st) ->
    create_1D_input parse cfg csv static sd ed = Ok (f, w) ->
    let dz := aw_hgt cfg - aw_stationAlt cfg in
    forall b v, hour_in_file parse csv sd ed b -> hourly_mean csv (aw_T2 cfg) b = Some v ->
      (180 <= v + dz * aw_lapse_T cfg <= 330 -> aw_in_K cfg = true) /\
      (180 <= v + 273.16 + dz * aw_lapse_T cfg <= 330 -> aw_in_K cfg = false).
Proof. exact temperature_unit_detected_lem. Qed.
Print Assumptions temperature_unit_detected.

(** C77.  Adding up precipitation to longer steps loses and invents nothing: the sum of the new column is the sum of the old one, for both ways of summing. *)
Theorem resampling_conserves_sum :
  forall (w : Z) (kinds : dict agg) (df df' : frame) (n : string) (k : agg) (c : list number),
    (0 < w)%Z -> NoDup (map fst kinds) -> rectangular df ->
    resample w kinds df = Ok df' -> dict_find kinds n = Some k -> k <> Mean ->
    column df n = Some c ->
    exists c' : list number, column df' n = Some c' /\ length c' = length (f_index df') /\ sum_of c' = sum_of c.
Proof. exact resampling_conserves_sum_lem. Qed.
Print Assumptions resampling_conserves_sum.

(** C77.  A mean lies between the smallest and the largest of the values it is made of, and it is missing only if all of them are. *)
Theorem hourly_mean_between :
  forall (l : list number) (a b : R), (forall x, In (Some x) l -> a <= x <= b) ->
    (forall m, aggregate Mean l = Some m -> a <= m <= b) /\
    (aggregate Mean l = None <-> forall x, ~ In (Some x) l).
Proof. exact hourly_mean_between_lem. Qed.
Print Assumptions hourly_mean_between.

(** C84.  Without one of the six required columns no file is written for a point. *)
Theorem point_required_columns :
  forall parse (cfg : AwsConfig) (csv : frame) static sd ed n,
    NoDup (column_names cfg) -> In n (required_columns cfg) -> column csv n = None ->
    forall r, create_1D_input parse cfg csv static sd ed <> Ok r.
Proof. exact point_required_columns_lem. Qed.
Print Assumptions point_required_columns.

(** C84.  So the pressure of 660 hPa is never filled in for a missing column: the columns are asked for before it. *)
Theorem pressure_never_replaced :
  forall (cfg : AwsConfig) (df : frame), dict_mem (f_cols df) (aw_PRES cfg) = false ->
    set_order_and_type cfg true df = Err KeyError.
Proof. exact pressure_never_replaced_lem. Qed.
Print Assumptions pressure_never_replaced.

(** C84.  Without any longwave radiation and any cloud cover no file is written, neither for a point nor for a grid. *)
Theorem longwave_or_clouds :
  forall parse vapour doy (cfg : AwsConfig) (csv : frame) static st lut sd ed x0 x1 y0 y1,
    NoDup (column_names cfg) -> rectangular csv -> (aw_aggregate cfg = true -> 0 < aw_step cfg)%Z ->
    (~ has_number csv (aw_LWin cfg) -> ~ has_number csv (aw_N cfg) ->
     forall r, create_1D_input parse cfg csv static sd ed <> Ok r) /\
    (column csv (aw_LWin cfg) = None -> column csv (aw_N cfg) = None ->
     forall r, create_2D_input parse vapour doy cfg csv st lut sd ed x0 x1 y0 y1 <> Ok r).
Proof. exact longwave_or_clouds_lem. Qed.
Print Assumptions longwave_or_clouds.

(** C84.  One date alone has no effect. *)
Theorem one_date_ignored :
  forall parse vapour doy (cfg : AwsConfig) (csv : frame) static lut xl xr yl yu (d : string),
    aws_main parse vapour doy cfg csv static lut (Some d) None xl xr yl yu =
    aws_main parse vapour doy cfg csv static lut None None xl xr yl yu /\
    aws_main parse vapour doy cfg csv static lut None (Some d) xl xr yl yu =
    aws_main parse vapour doy cfg csv static lut None None xl xr yl yu.
Proof. exact one_date_ignored_lem. Qed.
Print Assumptions one_date_ignored.

(** C82.  With WRF coordinates the file for a point holds the longitude under lat and the latitude under lon. *)
Theorem wrf_point_coordinates :
  forall parse (cfg : AwsConfig) (csv : frame) static sd ed f w,
    NoDup (column_names cfg) -> aw_WRF cfg = true ->
    create_1D_input parse cfg csv static sd ed = Ok (f, w) ->
    nf_lat f = Mesh [[aw_plon cfg]] /\ nf_lon f = Mesh [[aw_plat cfg]].
Proof. exact wrf_point_coordinates_lem. Qed.
Print Assumptions wrf_point_coordinates.

(** C82.  ... and a static file cannot be used: the aspect is looked up in a dataset without variables. *)
Theorem wrf_point_static :
  forall parse (cfg : AwsConfig) (csv : frame) st sd ed,
    NoDup (column_names cfg) -> aw_WRF cfg = true ->
    forall r, create_1D_input parse cfg csv (Some st) sd ed <> Ok r.
Proof. exact wrf_point_static_lem. Qed.
Print Assumptions wrf_point_static.

(** C83.  A point without static file: the coordinates of the configuration, horizontal ground, glacier. *)
Theorem point_terrain_default :
  forall parse (cfg : AwsConfig) (csv : frame) sd ed f w,
    NoDup (column_names cfg) -> create_1D_input parse cfg csv None sd ed = Ok (f, w) ->
    (aw_WRF cfg = false -> nf_lat f = Along "lat" [aw_plat cfg] /\ nf_lon f = Along "lon" [aw_plon cfg]) /\
    file_series f "HGT"%string 0 0 = Some [Some (aw_hgt cfg)] /\
    file_series f "SLOPE"%string 0 0 = Some [Some 0] /\ file_series f "ASPECT"%string 0 0 = Some [Some 0] /\
    file_series f "MASK"%string 0 0 = Some [Some 1] /\ is_glacier (gridded f) 0 0.
Proof. exact point_terrain_default_lem. Qed.
Print Assumptions point_terrain_default.

(** C83.  A point with static file: slope, aspect (turned by 180 degrees) and mask come from the grid point next to the coordinates of the configuration, the height from the configuration.  The longitude in the file is the one of the grid point, the latitude the one of the configuration. *)
Theorem point_terrain_static :
  forall parse (cfg : AwsConfig) (csv : frame) st sd ed f w,
    NoDup (column_names cfg) -> create_1D_input parse cfg csv (Some st) sd ed = Ok (f, w) ->
    exists (iy ix : nat) (lat lon slope aspect : R) (mask : number),
      nth_error (st_lats st) iy = Some lat /\ nth_error (st_lons st) ix = Some lon /\
      (forall l, In l (st_lats st) -> Rabs (lat - aw_plat cfg) <= Rabs (l - aw_plat cfg)) /\
      (forall l, In l (st_lons st) -> Rabs (lon - aw_plon cfg) <= Rabs (l - aw_plon cfg)) /\
      cell_at (st_SLOPE st) (Z.of_nat iy) (Z.of_nat ix) = Some slope /\
      cell_at (st_ASPECT st) (Z.of_nat iy) (Z.of_nat ix) = Some aspect /\
      cell_at (st_MASK st) (Z.of_nat iy) (Z.of_nat ix) = Some mask /\
      nf_lat f = Along "lat" [aw_plat cfg] /\ nf_lon f = Along "lon" [lon] /\
      file_series f "HGT"%string 0 0 = Some [Some (aw_hgt cfg)] /\
      file_series f "SLOPE"%string 0 0 = Some [Some slope] /\
      file_series f "ASPECT"%string 0 0 = Some [Some (aspect - 180)] /\
      file_series f "MASK"%string 0 0 = Some [mask].
Proof. exact point_terrain_static_lem. Qed.
Print Assumptions point_terrain_static.
