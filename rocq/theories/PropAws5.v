(** * Conversion of weather station data to a grid: when it succeeds

    Theorems only; the proofs are in LemFinAws5.v and the files it uses. *)

From Verif Require Import ModelPy ModelConstants ModelNode ModelGrid ModelHeat ModelSurface ModelInit ModelCore ModelConfig ModelIO ModelMain ModelRadCor SpecIO SpecRadCor ModelAws SpecAws.
From Verif Require Import LemFinAws5.

From Coq Require Import Sorted.

(** C80.  Times of the gridded file.  Without aggregation those of the rows between the dates; with aggregation equally spaced steps, each row falling into exactly one. *)
Theorem grid_file_times :
  forall parse vapour doy (cfg : AwsConfig) (csv : frame) st lut sd ed x0 x1 y0 y1 f w,
    NoDup (column_names cfg) -> rectangular csv -> (aw_aggregate cfg = true -> 0 < aw_step cfg)%Z ->
    create_2D_input parse vapour doy cfg csv st lut sd ed x0 x1 y0 y1 = Ok (f, w) ->
    (aw_aggregate cfg = false -> nf_time f = filter (in_slice parse sd ed) (f_index csv)) /\
    (aw_aggregate cfg = true ->
       StronglySorted Z.lt (nf_time f) /\
       (forall k a b, nth_error (nf_time f) k = Some a -> nth_error (nf_time f) (S k) = Some b -> b = a + aw_step cfg)%Z /\
       forall t, In t (f_index csv) -> in_slice parse sd ed t = true ->
         exists b, In b (nf_time f) /\ (b <= t < b + aw_step cfg)%Z /\
           forall b', In b' (nf_time f) -> (b' <= t < b' + aw_step cfg)%Z -> b' = b).
Proof. exact grid_file_times_lem. Qed.
Print Assumptions grid_file_times.

(** C80.  The meteorological values of a cell depend on its height only, apart from the radiation: cells of the same height have the same values, also in two files made with different static files, windows and radiation tables. *)
Theorem grid_cell_by_height :
  forall parse vapour doy (cfg : AwsConfig) (csv : frame) st lut x0 x1 y0 y1 f w st' lut' x0' x1' y0' y1' f' w' sd ed,
    NoDup (column_names cfg) -> rectangular csv -> (aw_aggregate cfg = true -> 0 < aw_step cfg)%Z ->
    create_2D_input parse vapour doy cfg csv st lut sd ed x0 x1 y0 y1 = Ok (f, w) ->
    create_2D_input parse vapour doy cfg csv st' lut' sd ed x0' x1' y0' y1' = Ok (f', w') ->
    forall y x y' x' h,
      cell_at (st_HGT (subset st x0 x1 y0 y1)) y x = Some h ->
      cell_at (st_HGT (subset st' x0' x1' y0' y1')) y' x' = Some h ->
      nf_time f = nf_time f' /\
      forall n, In n ["T2"; "RH2"; "U2"; "PRES"]%string -> file_series f n y x = file_series f' n y' x'.
Proof. exact grid_cell_by_height_lem. Qed.
Print Assumptions grid_cell_by_height.

(** C78.  When the gridded conversion without radiation correction succeeds: the columns have no gaps in the chosen period, the temperatures are possible, longwave radiation or cloud cover is given, the dates can be read, and the static file is complete on the glacier. *)
Theorem grid_conversion_succeeds :
  forall parse vapour doy (cfg : AwsConfig) (csv : frame) st lut sd ed,
    NoDup (column_names cfg) -> rectangular csv -> (aw_aggregate cfg = true -> 0 < aw_step cfg)%Z ->
    sd = None \/ ed = None \/ (exists a b p q, sd = Some a /\ ed = Some b /\ parse a = Some p /\ parse b = Some q) ->
    static_shape st -> st_lats st <> [] -> st_lons st <> [] ->
    (forall n r y x, In (n, r) (st_other st) -> cell_at (st_MASK st) y x = Some (Some 1) -> cell_at r y x <> Some None) ->
    aw_radiation cfg = None \/ aw_radiation cfg = Some "none"%string ->
    0 < standard_atmosphere (aw_stationAlt cfg) ->
    (forall y x h, cell_at (st_HGT st) y x = Some h -> 0 < standard_atmosphere h) ->
    used_times parse cfg csv sd ed <> [] ->
    (forall n, In n [aw_T2 cfg; aw_RH2 cfg; aw_U2 cfg; aw_G cfg; aw_PRES cfg] ->
       exists l, mean_column parse cfg csv sd ed n = Some l /\ ~ In None l) ->
    (forall n l, In n [aw_LWin cfg; aw_N cfg] -> mean_column parse cfg csv sd ed n = Some l -> ~ In None l) ->
    (forall n l, In n [aw_RRR cfg; aw_SNOWFALL cfg] -> sum_column parse cfg csv sd ed n = Some l -> ~ In None l) ->
    column csv (aw_LWin cfg) <> None \/ column csv (aw_N cfg) <> None ->
    (forall l v, mean_column parse cfg csv sd ed (aw_T2 cfg) = Some l -> In (Some v) l ->
       173.16 <= kelvin cfg v <= 373.16) ->
    exists f w, create_2D_input parse vapour doy cfg csv st lut sd ed None None None None = Ok (f, w).
Proof. exact grid_conversion_succeeds_lem. Qed.
Print Assumptions grid_conversion_succeeds.

(** A station file converted to a grid of two cells with hourly means; the upper cell is not glacier. *)
Example grid_file_example :
  forall parse vapour doy lut, exists f w,
    create_2D_input parse vapour doy b_config b_station b_static lut None None None None None None = Ok (f, w) /\
    nf_time f = [0; 3600]%Z /\
    file_series f "T2"%string 0 0 = Some [Some 271; Some 274] /\
    file_series f "T2"%string 1 0 = Some [Some 268; Some 271] /\
    file_series f "RRR"%string 0 0 = Some [Some 1; Some 0] /\
    file_series f "G"%string 0 0 = Some [Some 50; Some 200] /\
    file_series f "G"%string 1 0 = Some [None; None].
Proof. exact grid_file_example_lem. Qed.
