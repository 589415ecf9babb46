(** * Conversion of weather station data to a grid: missing values, radiation, coordinates

    Theorems only; the proofs are in LemFinAws4.v and the files it uses. *)

From Verif Require Import ModelPy ModelConstants ModelNode ModelGrid ModelHeat ModelSurface ModelInit ModelCore ModelConfig ModelIO ModelMain ModelRadCor SpecIO SpecRadCor ModelAws SpecAws.
From Verif Require Import LemFinAws4.

From Coq Require Import Sorted.

(** C78.  The glacier cells of a gridded file have no missing value: the check that the model makes before it simulates a cell accepts each of them. *)
Theorem grid_file_complete :
  forall parse vapour doy (cfg : AwsConfig) (csv : frame) st lut sd ed x0 x1 y0 y1 f w,
    NoDup (column_names cfg) -> rectangular csv -> (aw_aggregate cfg = true -> 0 < aw_step cfg)%Z ->
    static_shape st ->
    create_2D_input parse vapour doy cfg csv st lut sd ed x0 x1 y0 y1 = Ok (f, w) ->
    forall y x, cell_at (st_MASK (subset st x0 x1 y0 y1)) y x = Some (Some 1) ->
      check_for_nan (gridded f) y x = Ok tt /\
      forall n l, file_series f n y x = Some l -> ~ In None l.
Proof. exact grid_file_complete_lem. Qed.
Print Assumptions grid_file_complete.

(** C79.  Gridded conversion: the temperatures of the station lie between 173.16 K and 373.16 K; this is asked of the station values, not of the cells. *)
Theorem grid_temperature_range :
  forall parse vapour doy (cfg : AwsConfig) (csv : frame) st lut sd ed x0 x1 y0 y1 f w,
    NoDup (column_names cfg) -> rectangular csv -> (aw_aggregate cfg = true -> 0 < aw_step cfg)%Z ->
    create_2D_input parse vapour doy cfg csv st lut sd ed x0 x1 y0 y1 = Ok (f, w) ->
    exists l, mean_column parse cfg csv sd ed (aw_T2 cfg) = Some l /\ l <> [] /\
      forall v, In (Some v) l -> 173.16 <= kelvin cfg v <= 373.16.
Proof. exact grid_temperature_range_lem. Qed.
Print Assumptions grid_temperature_range.

(** C82.  With WRF coordinates the gridded file holds the latitude and longitude of each cell; otherwise those of the static file. *)
Theorem grid_coordinates :
  forall parse vapour doy (cfg : AwsConfig) (csv : frame) st lut sd ed x0 x1 y0 y1 f w,
    NoDup (column_names cfg) -> rectangular csv -> (aw_aggregate cfg = true -> 0 < aw_step cfg)%Z ->
    create_2D_input parse vapour doy cfg csv st lut sd ed x0 x1 y0 y1 = Ok (f, w) ->
    let ds := subset st x0 x1 y0 y1 in
    (aw_WRF cfg = false -> nf_lat f = Along "lat" (st_lats ds) /\ nf_lon f = Along "lon" (st_lons ds)) /\
    (aw_WRF cfg = true -> exists lats lons : raster R, nf_lat f = Mesh lats /\ nf_lon f = Mesh lons /\
       forall (y x : nat) a b, nth_error (st_lats ds) y = Some a -> nth_error (st_lons ds) x = Some b ->
         cell_at lats (Z.of_nat y) (Z.of_nat x) = Some a /\ cell_at lons (Z.of_nat y) (Z.of_nat x) = Some b).
Proof. exact grid_coordinates_lem. Qed.
Print Assumptions grid_coordinates.

(** C81.  Without correction every glacier cell gets the measured radiation and every other cell none. *)
Theorem radiation_uncorrected :
  forall parse vapour doy (cfg : AwsConfig) (csv : frame) st lut sd ed x0 x1 y0 y1 f w,
    NoDup (column_names cfg) -> rectangular csv -> (aw_aggregate cfg = true -> 0 < aw_step cfg)%Z ->
    static_shape st -> aw_radiation cfg = None \/ aw_radiation cfg = Some "none"%string ->
    create_2D_input parse vapour doy cfg csv st lut sd ed x0 x1 y0 y1 = Ok (f, w) ->
    forall y x m, cell_at (st_MASK (subset st x0 x1 y0 y1)) y x = Some m ->
      (m = Some 1 -> file_series f "G"%string y x = mean_column parse cfg csv sd ed (aw_G cfg)) /\
      (m <> Some 1 -> file_series f "G"%string y x = Some (map (fun _ => None) (nf_time f))).
Proof. exact radiation_uncorrected_lem. Qed.
Print Assumptions radiation_uncorrected.

(** C81.  With the correction of Wohlfahrt a glacier cell gets, at each time, the larger of zero and the measured radiation corrected for its coordinates, slope and aspect, day and hour.  So the radiation is not negative. *)
Theorem radiation_wohlfahrt :
  forall parse vapour doy (cfg : AwsConfig) (csv : frame) st lut sd ed x0 x1 y0 y1 f w,
    NoDup (column_names cfg) -> rectangular csv -> (aw_aggregate cfg = true -> 0 < aw_step cfg)%Z ->
    static_shape st -> aw_radiation cfg = Some "Wohlfahrt2016"%string ->
    create_2D_input parse vapour doy cfg csv st lut sd ed x0 x1 y0 y1 = Ok (f, w) ->
    let ds := subset st x0 x1 y0 y1 in
    forall y x, cell_at (st_MASK ds) y x = Some (Some 1) ->
    exists lat lon s a l G,
      nth_error (st_lats ds) (Z.to_nat y) = Some lat /\ nth_error (st_lons ds) (Z.to_nat x) = Some lon /\
      cell_at (st_SLOPE ds) y x = Some s /\ cell_at (st_ASPECT ds) y x = Some a /\
      mean_column parse cfg csv sd ed (aw_G cfg) = Some G /\
      file_series f "G"%string y x = Some l /\ length l = length (nf_time f) /\
      forall (k : nat) t, nth_error (nf_time f) k = Some t -> exists g r,
        nth_error G k = Some (Some g) /\
        correctRadiation lat lon (aw_timezone_lon cfg) (IZR (doy t)) (IZR ((t / 3600) mod 24)) s (a - 180) g
          (aw_zeni_thld cfg) = Ok r /\
        nth_error l k = Some (Some (Rmax 0 r)).
Proof. exact radiation_wohlfahrt_lem. Qed.
Print Assumptions radiation_wohlfahrt.

(** C81.  An unknown radiation module is refused, and the model of Moelg cannot be used without cloud cover. *)
Theorem radiation_refused :
  forall parse vapour doy (cfg : AwsConfig) (csv : frame) st lut sd ed x0 x1 y0 y1 s,
    NoDup (column_names cfg) -> rectangular csv -> (aw_aggregate cfg = true -> 0 < aw_step cfg)%Z ->
    aw_radiation cfg = Some s ->
    (~ In s ["Wohlfahrt2016"; "none"; "Moelg2009"]%string ->
     forall r, create_2D_input parse vapour doy cfg csv st lut sd ed x0 x1 y0 y1 <> Ok r) /\
    (s = "Moelg2009"%string -> column csv (aw_N cfg) = None ->
     forall r, create_2D_input parse vapour doy cfg csv st lut sd ed x0 x1 y0 y1 <> Ok r).
Proof. exact radiation_refused_lem. Qed.
Print Assumptions radiation_refused.
