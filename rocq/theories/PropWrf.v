(** * Conversion of WRF output

    Theorems only; the proofs are in LemFinWrf.v and the files it uses. *)

From Verif Require Import ModelPy ModelConstants ModelNode ModelGrid ModelHeat ModelSurface ModelInit ModelCore ModelConfig ModelIO ModelMain ModelRadCor SpecIO SpecRadCor ModelAws ModelWrf SpecWrf.
From Verif Require Import LemFinWrf.

From Coq Require Import Ascii.

(** C53.  Precipitation of a cell: zero in the first step, then the increments of the accumulated precipitation, so that the sum over any steps is the difference of the accumulations at their ends. *)
Theorem wrf_precipitation_telescopes :
  forall c cfg slope aspect w sd ed f chk,
    create_input c cfg slope aspect w sd ed = Ok (f, chk) ->
    let ds := select_period sd ed w in
    forall n y x (A : nat -> R),
      n = length (w_Time ds) -> at_time (w_T2 ds) 0 y x <> None ->
      (forall k, (k < n)%nat -> exists a b,
         at_time (w_RAINNC ds) k y x = Some a /\ at_time (w_RAINC ds) k y x = Some b /\ A k = a + b) ->
      exists r : nat -> R,
        (forall k, (k < n)%nat -> written f "RRR"%string k y x = Some (Some (r k))) /\
        r 0%nat = 0 /\
        forall i m, (i + m < n)%nat -> sum_steps r (S i) m = A (i + m)%nat - A i.
Proof. exact wrf_precipitation_telescopes_lem. Qed.
Print Assumptions wrf_precipitation_telescopes.

(** C53.  Humidity, pressure, temperature and radiation of every cell and step. *)
Theorem wrf_atmosphere :
  forall c cfg slope aspect w sd ed f chk,
    create_input c cfg slope aspect w sd ed = Ok (f, chk) ->
    let ds := select_period sd ed w in
    cf_time f = map strftime (w_Time ds) /\
    forall k y x,
      (forall t, at_time (w_T2 ds) k y x = Some t ->
         written f "T2"%string k y x = Some (Some t) /\
         exists q p, at_time (w_Q2 ds) k y x = Some q /\ at_time (w_PSFC ds) k y x = Some p /\
           (p <> 0 -> t <> 35.86 -> written f "RH2"%string k y x = Some (Some (humidity_percent t q p)))) /\
      (forall h, written f "RH2"%string k y x = Some (Some h) -> 0 <= h <= 100) /\
      (forall p, at_time (w_PSFC ds) k y x = Some p -> written f "PRES"%string k y x = Some (Some (p / 100))) /\
      (forall g, at_time (w_SWDOWN ds) k y x = Some g -> written f "G"%string k y x = Some (Some g)) /\
      (forall l, at_time (w_GLW ds) k y x = Some l -> written f "LWin"%string k y x = Some (Some l)).
Proof. exact wrf_atmosphere_lem. Qed.
Print Assumptions wrf_atmosphere.

(** C53.  The mask is 1 for the land use class of glaciers and 0 elsewhere; the land use itself is kept.  If the class is 0, every cell becomes glacier. *)
Theorem wrf_mask_zero_one :
  forall c cfg slope aspect w sd ed f chk lu y x v,
    create_input c cfg slope aspect w sd ed = Ok (f, chk) ->
    dict_find cfg "lu_class"%string = Some lu ->
    at_time (w_LU_INDEX (select_period sd ed w)) 0 y x = Some v ->
    written_once f "LU_INDEX"%string y x = Some (Some v) /\
    exists m, written_once f "MASK"%string y x = Some (Some m) /\
      (lu <> 0 -> m = if Req_EM_T v lu then 1 else 0) /\ (lu = 0 -> m = 1).
Proof. exact wrf_mask_zero_one_lem. Qed.
Print Assumptions wrf_mask_zero_one.

(** C86.  Wind at 2 m: the speed of the wind at 10 m times ln(500)/ln(2500), never negative and never more than the wind at 10 m. *)
Theorem wrf_wind_speed :
  forall c cfg slope aspect w sd ed f chk k y x u v,
    create_input c cfg slope aspect w sd ed = Ok (f, chk) ->
    let ds := select_period sd ed w in
    at_time (w_U10 ds) k y x = Some u -> at_time (w_V10 ds) k y x = Some v ->
    written f "U2"%string k y x = Some (Some (log_wind u v)) /\
    0 <= log_wind u v <= sqrt (u * u + v * v) /\
    (log_wind u v = 0 <-> u = 0 /\ v = 0).
Proof. exact wrf_wind_speed_lem. Qed.
Print Assumptions wrf_wind_speed.

(** C86.  Snowfall: its mass is the increment of the accumulated snowfall, with the same density of fresh snow that the model uses for the temperature and wind of the file; rain and snow computed by the model add up to the precipitation. *)
Theorem wrf_snow_mass :
  forall c cfg slope aspect w sd ed f chk,
    create_input c cfg slope aspect w sd ed = Ok (f, chk) -> c_water_density c <> 0 ->
    let ds := select_period sd ed w in
    forall k y x t u v (now before p : R),
      (0 < k < length (w_Time ds))%nat ->
      at_time (w_T2 ds) k y x = Some t -> at_time (w_U10 ds) k y x = Some u -> at_time (w_V10 ds) k y x = Some v ->
      at_time (w_SNOWNC ds) k y x = Some now -> at_time (w_SNOWNC ds) (k - 1) y x = Some before ->
      written f "RRR"%string k y x = Some (Some p) ->
      exists s rho,
        written f "SNOWFALL"%string k y x = Some (Some s) /\
        fresh_snow_density c t (log_wind u v) = Ok rho /\
        s * rho = (now - before) / 1000 * c_water_density c /\
        snow_and_rain c rho t (Some s) (Some p) = Ok (s, Some (p - (now - before))).
Proof. exact wrf_snow_mass_lem. Qed.
Print Assumptions wrf_snow_mass.

(** C86.  The height of the wind measurement in the configuration has no effect. *)
Theorem wrf_wind_height_unused :
  forall c cfg slope aspect w sd ed (h h' : R),
    dict_find cfg "hu"%string = Some h ->
    create_input c (dict_set cfg "hu"%string h') slope aspect w sd ed = create_input c cfg slope aspect w sd ed.
Proof. exact wrf_wind_height_unused_lem. Qed.
Print Assumptions wrf_wind_height_unused.

(** C86.  The conversion succeeds for every regular file with at least one time in the period, grid spacing, and both settings. *)
Theorem wrf_conversion_succeeds :
  forall c (cfg : dict R) slope aspect w sd ed n ny nx,
    wrf_shape n ny nx (select_period sd ed w) -> (0 < n)%nat ->
    dict_find cfg "hu"%string <> None -> dict_find cfg "lu_class"%string <> None ->
    w_DX w <> None -> w_DY w <> None ->
    c_densification_method c <> "constant"%string \/ c_constant_density c <> 0 ->
    exists f chk, create_input c cfg slope aspect w sd ed = Ok (f, chk).
Proof. exact wrf_conversion_succeeds_lem. Qed.
Print Assumptions wrf_conversion_succeeds.

(** C86.  Without grid spacing or without any time in the period there is no file. *)
Theorem wrf_conversion_fails :
  forall c (cfg : dict R) slope aspect w sd ed,
    w_DX w = None \/ w_DY w = None \/ w_XLAT (select_period sd ed w) = [] ->
    forall r, create_input c cfg slope aspect w sd ed <> Ok r.
Proof. exact wrf_conversion_fails_lem. Qed.
Print Assumptions wrf_conversion_fails.

(** C87.  Dates written as the usage text asks, yyyymmdd: the times of whole years are kept, from the year after the first date to the year of the last date. *)
Theorem wrf_dates_compact :
  forall w y m d y' m' d',
    (0 <= y <= 9999)%Z -> (0 <= y' <= 9999)%Z -> Forall proper_stamp (w_Time w) ->
    w_Time (select_period (Some (yyyymmdd y m d)) (Some (yyyymmdd y' m' d')) w) =
    filter (fun t => ((y <? s_year t) && (s_year t <=? y'))%Z%bool) (w_Time w).
Proof. exact wrf_dates_compact_lem. Qed.
Print Assumptions wrf_dates_compact.

(** C87.  Two such dates in one year: no time is kept and the conversion fails. *)
Theorem wrf_dates_one_year :
  forall c cfg slope aspect w n ny nx y m d m' d',
    (0 <= y <= 9999)%Z -> Forall proper_stamp (w_Time w) -> wrf_shape n ny nx w ->
    forall r, create_input c cfg slope aspect w (Some (yyyymmdd y m d)) (Some (yyyymmdd y m' d')) <> Ok r.
Proof. exact wrf_dates_one_year_lem. Qed.
Print Assumptions wrf_dates_one_year.

(** C87.  Dates with hyphens: the times from the first day on are kept, and those before the last day; the last day is left out. *)
Theorem wrf_dates_hyphens :
  forall w y m d y' m' d',
    (0 <= y <= 9999)%Z -> (0 <= y' <= 9999)%Z -> (0 <= m <= 99)%Z -> (0 <= m' <= 99)%Z -> (0 <= d <= 99)%Z -> (0 <= d' <= 99)%Z ->
    Forall proper_stamp (w_Time w) ->
    forall t, In t (w_Time (select_period (Some (iso_date y m d)) (Some (iso_date y' m' d')) w)) <->
      In t (w_Time w) /\ ~ day_before (s_year t) (s_month t) (s_day t) y m d /\ day_before (s_year t) (s_month t) (s_day t) y' m' d'.
Proof. exact wrf_dates_hyphens_lem. Qed.
Print Assumptions wrf_dates_hyphens.

(** C87.  A single date is ignored. *)
Theorem wrf_single_date :
  forall c cfg slope aspect w a,
    create_input c cfg slope aspect w (Some a) None = create_input c cfg slope aspect w None None /\
    create_input c cfg slope aspect w None (Some a) = create_input c cfg slope aspect w None None.
Proof. exact wrf_single_date_lem. Qed.
Print Assumptions wrf_single_date.

(** C53.  Accumulated precipitation that WRF has reset to zero gives negative precipitation, which is written unchanged and not reported. *)
Theorem wrf_reset_refuted :
  exists c cfg slope aspect w f chk,
    create_input c cfg slope aspect w None None = Ok (f, chk) /\
    written f "RRR"%string 1 0 0 = Some (Some (Ropp 98)) /\
    forall ws, chk = Ok ws -> ~ In "RRR"%string ws.
Proof. exact wrf_reset_refuted_lem. Qed.
Print Assumptions wrf_reset_refuted.

(** A file of two steps and one cell: wind of 5 m/s at 10 m, snowfall of 2 mm. *)
Example wrf_example :
  forall slope aspect, exists f chk,
    create_input default_constants a_wrf_config slope aspect a_wrf None None = Ok (f, chk) /\
    cf_time f = ["2009-06-01T00-00"; "2009-06-01T01-00"]%string /\
    written_once f "MASK"%string 0 0 = Some (Some 1) /\
    written f "U2"%string 0 0 0 = Some (Some (5 * (ln 500 / ln 2500))) /\
    written f "PRES"%string 1 0 0 = Some (Some 700.1) /\
    exists s rho, written f "SNOWFALL"%string 1 0 0 = Some (Some s) /\ s * rho = 2.
Proof. exact wrf_example_lem. Qed.
