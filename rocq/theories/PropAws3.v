(** * Conversion of weather station data to a grid

    Theorems only; the proofs are in LemFinAws3.v and the files it uses. *)

From Verif Require Import ModelPy ModelConstants ModelNode ModelGrid ModelHeat ModelSurface ModelInit ModelCore ModelConfig ModelIO ModelMain ModelRadCor SpecIO SpecRadCor ModelAws SpecAws.
From Verif Require Import LemFinAws3.

From Coq Require Import Sorted.

(** C85.  The window keeps the rows and columns whose coordinates lie inside the bounds, in their order, with all their fields.  For descending coordinates the first bound is the upper one. *)
Theorem window_selects :
  forall st x0 x1 y0 y1, static_shape st ->
    let ds := subset st x0 x1 y0 y1 in
    exists ry rx : list nat,
      StronglySorted lt ry /\ StronglySorted lt rx /\
      (StronglySorted Rlt (st_lats st) ->
         forall i, In i ry <-> (i < length (st_lats st))%nat /\ within y0 y1 (nth i (st_lats st) 0)) /\
      (StronglySorted Rgt (st_lats st) -> (2 <= length (st_lats st))%nat ->
         forall i, In i ry <-> (i < length (st_lats st))%nat /\ within y1 y0 (nth i (st_lats st) 0)) /\
      (StronglySorted Rlt (st_lons st) ->
         forall j, In j rx <-> (j < length (st_lons st))%nat /\ within x0 x1 (nth j (st_lons st) 0)) /\
      st_lats ds = map (fun i => nth i (st_lats st) 0) ry /\
      st_lons ds = map (fun j => nth j (st_lons st) 0) rx /\
      static_shape ds /\
      (forall y x i j, nth_error ry y = Some i -> nth_error rx x = Some j ->
         cell_at (st_HGT ds) (Z.of_nat y) (Z.of_nat x) = cell_at (st_HGT st) (Z.of_nat i) (Z.of_nat j) /\
         cell_at (st_SLOPE ds) (Z.of_nat y) (Z.of_nat x) = cell_at (st_SLOPE st) (Z.of_nat i) (Z.of_nat j) /\
         cell_at (st_ASPECT ds) (Z.of_nat y) (Z.of_nat x) = cell_at (st_ASPECT st) (Z.of_nat i) (Z.of_nat j) /\
         cell_at (st_MASK ds) (Z.of_nat y) (Z.of_nat x) = cell_at (st_MASK st) (Z.of_nat i) (Z.of_nat j) /\
         forall n, match dict_find (st_other st) n, dict_find (st_other ds) n with
                   | Some r, Some r' => cell_at r' (Z.of_nat y) (Z.of_nat x) = cell_at r (Z.of_nat i) (Z.of_nat j)
                   | None, None => True
                   | _, _ => False
                   end).
Proof. exact window_selects_lem. Qed.
Print Assumptions window_selects.

(** C85.  Without bounds everything is kept. *)
Theorem window_all :
  forall st, static_shape st -> subset st None None None None = st.
Proof. exact window_all_lem. Qed.
Print Assumptions window_all.

(** C85.  Latitudes from north to south and bounds from south to north: nothing is kept and the conversion fails. *)
Theorem window_order :
  forall parse vapour doy (cfg : AwsConfig) (csv : frame) st lut sd ed x0 x1 (a b : R),
    static_shape st -> StronglySorted Rgt (st_lats st) -> (2 <= length (st_lats st))%nat -> a < b ->
    st_lats (subset st x0 x1 (Some a) (Some b)) = [] /\
    forall r, create_2D_input parse vapour doy cfg csv st lut sd ed x0 x1 (Some a) (Some b) <> Ok r.
Proof. exact window_order_lem. Qed.
Print Assumptions window_order.

(** C80.  Content of a cell of the gridded file: the values of the station, averaged (precipitation and snowfall: added up) over the aggregation steps, with one altitude correction by the height difference between cell and station.  A column that the station file does not have is not in the file. *)
Theorem grid_file_content :
  forall parse vapour doy (cfg : AwsConfig) (csv : frame) st lut sd ed x0 x1 y0 y1 f w,
    NoDup (column_names cfg) -> rectangular csv -> (aw_aggregate cfg = true -> 0 < aw_step cfg)%Z ->
    plain_static st ->
    create_2D_input parse vapour doy cfg csv st lut sd ed x0 x1 y0 y1 = Ok (f, w) ->
    forall y x h, cell_at (st_HGT (subset st x0 x1 y0 y1)) y x = Some h ->
    let dz := h - aw_stationAlt cfg in
    let means name := mean_column parse cfg csv sd ed name in
    let sums name := sum_column parse cfg csv sd ed name in
    let holds name (column : option (list number)) (value : R -> R) :=
      file_series f name y x = option_map (map (option_map value)) column in
    nf_time f = used_times parse cfg csv sd ed /\
    holds "T2"%string (means (aw_T2 cfg)) (fun v => kelvin cfg v + dz * aw_lapse_T cfg) /\
    holds "RH2"%string (means (aw_RH2 cfg)) (fun v => humidity_range (v + dz * aw_lapse_RH cfg)) /\
    holds "U2"%string (means (aw_U2 cfg)) (fun v => v) /\
    (0 < standard_atmosphere (aw_stationAlt cfg) -> 0 < standard_atmosphere h ->
     holds "PRES"%string (means (aw_PRES cfg)) (lapsed_pressure 5.255 5.255 (aw_stationAlt cfg) h)) /\
    holds "RRR"%string (sums (aw_RRR cfg)) (fun v => Rmax (v + dz * aw_lapse_RRR cfg) 0) /\
    holds "SNOWFALL"%string (sums (aw_SNOWFALL cfg)) (fun v => Rmax (v + dz * aw_lapse_SNOWFALL cfg) 0) /\
    holds "LWin"%string (means (aw_LWin cfg)) (fun v => v) /\
    holds "N"%string (means (aw_N cfg)) (fun v => v).
Proof. exact grid_file_content_lem. Qed.
Print Assumptions grid_file_content.

(** C80.  Static fields of the gridded file: height, slope and mask of the static file, the aspect minus 180 degrees. *)
Theorem grid_static_fields :
  forall parse vapour doy (cfg : AwsConfig) (csv : frame) st lut sd ed x0 x1 y0 y1 f w,
    NoDup (column_names cfg) -> rectangular csv -> (aw_aggregate cfg = true -> 0 < aw_step cfg)%Z ->
    create_2D_input parse vapour doy cfg csv st lut sd ed x0 x1 y0 y1 = Ok (f, w) ->
    let ds := subset st x0 x1 y0 y1 in
    forall y x,
    (forall h, cell_at (st_HGT ds) y x = Some h -> file_series f "HGT"%string y x = Some [Some h]) /\
    (forall s, cell_at (st_SLOPE ds) y x = Some s -> file_series f "SLOPE"%string y x = Some [Some s]) /\
    (forall a, cell_at (st_ASPECT ds) y x = Some a -> file_series f "ASPECT"%string y x = Some [Some (a - 180)]) /\
    (forall m, cell_at (st_MASK ds) y x = Some m -> file_series f "MASK"%string y x = Some [m]).
Proof. exact grid_static_fields_lem. Qed.
Print Assumptions grid_static_fields.

(** C80.  A cell at the altitude of the station gets the values of the station. *)
Theorem grid_cell_at_station :
  forall parse vapour doy (cfg : AwsConfig) (csv : frame) st lut sd ed x0 x1 y0 y1 f w,
    NoDup (column_names cfg) -> rectangular csv -> (aw_aggregate cfg = true -> 0 < aw_step cfg)%Z ->
    plain_static st ->
    create_2D_input parse vapour doy cfg csv st lut sd ed x0 x1 y0 y1 = Ok (f, w) ->
    forall y x, cell_at (st_HGT (subset st x0 x1 y0 y1)) y x = Some (aw_stationAlt cfg) ->
    0 < standard_atmosphere (aw_stationAlt cfg) ->
    file_series f "T2"%string y x =
      option_map (map (option_map (kelvin cfg))) (mean_column parse cfg csv sd ed (aw_T2 cfg)) /\
    file_series f "PRES"%string y x = mean_column parse cfg csv sd ed (aw_PRES cfg) /\
    file_series f "RH2"%string y x =
      option_map (map (option_map humidity_range)) (mean_column parse cfg csv sd ed (aw_RH2 cfg)) /\
    file_series f "RRR"%string y x =
      option_map (map (option_map (fun v => Rmax v 0))) (sum_column parse cfg csv sd ed (aw_RRR cfg)).
Proof. exact grid_cell_at_station_lem. Qed.
Print Assumptions grid_cell_at_station.

(** C51.  The humidity in a gridded or point file lies between 0 and 100, precipitation and snowfall are not negative. *)
Theorem file_ranges :
  forall parse vapour doy (cfg : AwsConfig) (csv : frame) static lut sd ed x0 x1 y0 y1 f w,
    NoDup (column_names cfg) -> rectangular csv -> (aw_aggregate cfg = true -> 0 < aw_step cfg)%Z ->
    (forall st, static = Some st -> plain_static st /\ static_shape st) ->
    aws_main parse vapour doy cfg csv static lut sd ed x0 x1 y0 y1 = Ok (f, w) ->
    forall y x,
    (forall l v, file_series f "RH2"%string y x = Some l -> In (Some v) l -> 0 <= v <= 100) /\
    (forall n l v, n = "RRR"%string \/ n = "SNOWFALL"%string -> file_series f n y x = Some l -> In (Some v) l -> 0 <= v).
Proof. exact file_ranges_lem. Qed.
Print Assumptions file_ranges.
