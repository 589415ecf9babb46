(** * Shading table, solar parameters and modelled radiation

    Theorems only; the proofs are in LemFinRad.v and the files it uses. *)

From Verif Require Import ModelPy ModelConstants ModelNode ModelGrid ModelHeat ModelSurface ModelInit ModelCore ModelConfig ModelIO ModelMain ModelRadCor Spec SpecIO SpecRadCor.
From Verif Require Import LemFinRad.

(** C73.  The table of a year is read where it was written.  For a time step of a whole number of hours that
   divides the day, the slot that the radiation model reads for a day and an hour of the time step holds the
   shading of the sun position of that day and hour: the shading in glacier cells while the sun is up, -1
   there while it is not, missing elsewhere.  No slot is overwritten by another day or hour. *)
Theorem shading_table :
  forall solparam timecorr lat dem mask lats lons TCART k table doy hod,
    (1 <= k)%Z -> (k | 24)%Z ->
    LUTshad solparam timecorr lat dem mask lats lons (3600 * IZR k) TCART = Ok table ->
    (0 <= doy < 366)%Z -> (0 <= hod < 24)%Z -> (k | hod)%Z ->
    exists soldec tcorr sin_h h a slot,
      raster_get solparam doy 3 = Ok soldec /\ raster_get timecorr doy 3 = Ok tcorr /\
      shad_sun lat soldec tcorr TCART (IZR hod) = Ok (sin_h, h, a) /\
      py_get table (rad_slot (doy + 1) (IZR hod) (3600 * IZR k)) = Ok slot /\
      (0.01 < sin_h -> exists illu, relshad dem mask lats lons h a = Ok illu /\
         forall y x, (0 <= y < Z.of_nat (length lats))%Z -> (0 <= x < Z.of_nat (length lons))%Z ->
         exists b, cell_at mask y x = Some b /\
           (b = Some 1 -> cell_at slot y x <> None /\ cell_at slot y x = cell_at illu y x) /\
           (b <> Some 1 -> cell_at slot y x = Some None)) /\
      (~ 0.01 < sin_h ->
         forall y x, (0 <= y < Z.of_nat (length lats))%Z -> (0 <= x < Z.of_nat (length lons))%Z ->
         exists b, cell_at mask y x = Some b /\
           (b = Some 1 -> cell_at slot y x = Some (Some (-1))) /\
           (b <> Some 1 -> cell_at slot y x = Some None)).
Proof. exact shading_table_lem. Qed.
Print Assumptions shading_table.

(** C73.  Time steps below one hour are not supported: no table can be computed for them. *)
Theorem subhourly_table :
  forall solparam timecorr lat dem mask lats lons STEP TCART,
    0 < STEP < 3600 ->
    exists e, LUTshad solparam timecorr lat dem mask lats lons STEP TCART = Err e /\
      (raster_get solparam 0 3 <> Err e -> raster_get timecorr 0 3 <> Err e -> e = ZeroDivisionError).
Proof. exact subhourly_table_lem. Qed.
Print Assumptions subhourly_table.

(** C73.  The table is built for another time than the one it is read for, unless the time step is one hour:
   the table places the sun in the middle of the hour, the radiation model in the middle of the time step.
   The two solar elevations agree for all inputs exactly if the time correction makes up for the difference,
   7.5 degrees of hour angle for every hour by which the time step exceeds one hour. *)
Theorem table_time :
  forall lat soldec tcorr TCART hod k s,
    shad_sun lat soldec tcorr TCART (IZR hod) = Ok s ->
    fst (fst s) = rad_sin_h lat soldec (rad_stime 3600 (IZR hod) tcorr TCART) /\
    rad_stime (3600 * k) (IZR hod) tcorr TCART
      = rad_stime 3600 (IZR hod) tcorr TCART + 15 / 2 * (k - 1).
Proof. exact table_time_lem. Qed.
Print Assumptions table_time.

(** C73.  So with the shipped three-hourly time step the two disagree: the table may hold "sun below the
   horizon" for a time at which the radiation model has the sun up. *)
Theorem table_time_refuted :
  exists lat soldec tcorr TCART hod sin_h h a,
    shad_sun lat soldec tcorr TCART (IZR hod) = Ok (sin_h, h, a) /\ sin_h <= 0.01 /\
    0.01 < rad_sin_h lat soldec (rad_stime (3600 * 3) (IZR hod) tcorr TCART).
Proof. exact table_time_refuted_lem. Qed.
Print Assumptions table_time_refuted.

(** C75.  Beyond 67.5 degrees north or south no solar parameters can be computed: on the first day of the year
   there is no sunrise or no sunset, and the arccosine of the day length raises ValueError. *)
Theorem polar_solar_parameters :
  forall lat, 67.5 <= Rabs lat < 90 -> solpars lat = Err ValueError.
Proof. exact polar_solar_parameters_lem. Qed.
Print Assumptions polar_solar_parameters.

(** C75.  Up to 60 degrees the parameters of all 366 days are computed.  The declination stays within half a
   radian, the eccentricity factor within ten percent of one, and the hour angle of sunset is the one at
   which the sun of that declination touches the horizon; day 366 repeats day 365. *)
Theorem solar_parameters :
  forall lat, Rabs lat <= 60 -> exists pars times,
    solpars lat = Ok (pars, times) /\ length pars = 366%nat /\ length times = 366%nat /\
    nth_error pars 365 = nth_error pars 364 /\ nth_error times 365 = nth_error times 364 /\
    forall doy, (0 <= doy < 366)%Z -> exists ecc dec h,
      raster_get pars doy 2 = Ok ecc /\ raster_get pars doy 3 = Ok dec /\ raster_get pars doy 5 = Ok h /\
      -1/2 < dec < 1/2 /\ 0.9 < ecc < 1.1 /\ 0 <= h <= 180 /\
      sin (radians lat) * sin dec + cos (radians lat) * cos dec * cos (radians h) = 0.
Proof. exact solar_parameters_lem. Qed.
Print Assumptions solar_parameters.

(** C74.  The sun of the shading table: away from the poles, between midnight and midnight of the solar day,
   and unless the sun stands in the zenith or nadir, elevation and azimuth (clockwise from north) of the
   table are the direction of the sun. *)
Theorem table_sun :
  forall lat dec tcorr TCART hod,
    let stime := 180 + 15 / 2 - hod * 15 - tcorr + TCART in
    -90 < lat < 90 -> - PI / 2 <= dec <= PI / 2 -> -180 <= stime <= 180 ->
    -1 < sin (radians lat) * sin dec + cos (radians lat) * cos dec * cos (radians stime) < 1 ->
    exists h a, shad_sun lat dec tcorr TCART hod = Ok (sin (radians h), h, a) /\ -90 < h < 90 /\
      direction (radians h) (radians a) = sun (radians lat) dec (radians stime).
Proof. exact table_sun_lem. Qed.
Print Assumptions table_sun.

(** C74.  While the sun is less than 0.01 (sine of the elevation) above the horizon the radiation is zero in
   glacier cells and missing in all others.  The rows of the result are in reverse order. *)
Theorem night_radiation :
  forall vapour pars times doy hour lat T p rh cld dem mask slopes aspects table svf STEP TCART out
    dec tcorr y x z,
    calcRad vapour pars times doy hour lat T p rh cld dem mask slopes aspects table svf STEP TCART = Ok out ->
    raster_get pars (doy - 1) 3 = Ok dec -> raster_get times (doy - 1) 3 = Ok tcorr ->
    let stime := 180 + STEP / 3600 * 15 / 2 - hour * 15 - tcorr + TCART in
    sin (radians lat) * sin dec + cos (radians lat) * cos dec * cos (radians stime) <= 0.01 ->
    cell_at dem y x = Some z ->
    exists b, cell_at mask y x = Some b /\
      (b = Some 1 -> cell_at out (Z.of_nat (length dem) - 1 - y) x = Some (Some 0)) /\
      (b <> Some 1 -> cell_at out (Z.of_nat (length dem) - 1 - y) x = Some None).
Proof. exact night_radiation_lem. Qed.
Print Assumptions night_radiation.

(** C74.  By day: the radiation of a cell is the direct radiation, reduced by the cloud cover, and the diffuse
   radiation of the visible part of the sky.  Direct radiation only reaches a cell that is not shaded by the
   terrain and does not face away from the sun; it is proportional to the cosine of the angle between the sun
   and the normal of the slope.  Under clouds the diffuse part is 4.6 percent of the clear-sky global
   radiation for no clouds, growing to 35 percent under a closed cover; for a clear sky it is the clear-sky
   diffuse radiation.  [tau], [direct] and [diffuse] are transmissivity and radiation of a clear sky on a
   horizontal surface. *)
Theorem day_radiation :
  forall vapour pars times doy hour lat T p rh cld dem mask slopes aspects table svf STEP TCART out
    ecc dec tcorr y x z t q u vp c v tau direct diffuse,
    calcRad vapour pars times doy hour lat T p rh cld dem mask slopes aspects table svf STEP TCART = Ok out ->
    raster_get pars (doy - 1) 2 = Ok ecc ->
    raster_get pars (doy - 1) 3 = Ok dec -> raster_get times (doy - 1) 3 = Ok tcorr ->
    let stime := 180 + STEP / 3600 * 15 / 2 - hour * 15 - tcorr + TCART in
    let up := sin (radians lat) * sin dec + cos (radians lat) * cos dec * cos (radians stime) in
    0.01 < up ->
    cell_at dem y x = Some z ->
    cell_at T y x = Some (Some t) -> cell_at p y x = Some (Some q) -> cell_at rh y x = Some (Some u) ->
    cell_at cld y x = Some (Some c) -> cell_at svf y x = Some (Some v) -> 0 <= c ->
    vapour u t q = Some vp ->
    clear_sky ecc up (35 * / sqrt (1224 * up ^ 2 + 1)) q t z vp = Ok (tau, direct, diffuse) ->
    exists slot i slope aspect,
      py_get table (rad_slot doy hour STEP) = Ok slot /\ cell_at slot y x = Some i /\
      cell_at slopes y x = Some slope /\ cell_at aspects y x = Some aspect /\
      let cosine := dot (sun (radians lat) dec (radians stime)) (normal (radians slope) (radians aspect)) in
      -1 <= cosine <= 1 /\
      exists beam sky,
        cell_at out (Z.of_nat (length dem) - 1 - y) x = Some (Some (beam * (1 - c) + sky * v)) /\
        (i = Some 0 \/ cosine < 0 -> beam = 0) /\
        (i <> Some 0 -> 0 <= cosine -> beam = 1367 * ecc * cosine * tau) /\
        (c = 0 -> sky = diffuse) /\
        (0 < c -> sky = (direct + diffuse) * (0.304 * c + 0.046)).
Proof. exact day_radiation_lem. Qed.
Print Assumptions day_radiation.

(** C74.  The clear-sky transmissivity is not negative for air above zero kelvin with a vapour pressure that is
   not negative, and the direct radiation on a horizontal surface is the solar constant times eccentricity
   factor, sine of the elevation and transmissivity. *)
Theorem clear_sky_transmissivity :
  forall ecc up q t z vp tau direct diffuse,
    0 < t -> 0 <= vp -> 0.01 < up ->
    clear_sky ecc up (35 * / sqrt (1224 * up ^ 2 + 1)) q t z vp = Ok (tau, direct, diffuse) ->
    0 <= tau /\ direct = 1367 * ecc * up * tau.
Proof. exact clear_sky_transmissivity_lem. Qed.
Print Assumptions clear_sky_transmissivity.

(** C74.  Shade never brightens: of two runs that differ only in the shading table, a cell
   that is in shade in the second receives at most the radiation of the first.  Under a closed cloud cover
   both receive 35 percent of the clear-sky global radiation, times the sky view factor. *)
Theorem shade_darkens :
  forall vapour pars times doy hour lat T p rh cld dem mask slopes aspects table table' svf STEP TCART out out'
    ecc dec tcorr y x z t q u vp c v tau direct diffuse slot',
    calcRad vapour pars times doy hour lat T p rh cld dem mask slopes aspects table svf STEP TCART = Ok out ->
    calcRad vapour pars times doy hour lat T p rh cld dem mask slopes aspects table' svf STEP TCART = Ok out' ->
    raster_get pars (doy - 1) 2 = Ok ecc -> 0 <= ecc ->
    raster_get pars (doy - 1) 3 = Ok dec -> raster_get times (doy - 1) 3 = Ok tcorr ->
    let stime := 180 + STEP / 3600 * 15 / 2 - hour * 15 - tcorr + TCART in
    let up := sin (radians lat) * sin dec + cos (radians lat) * cos dec * cos (radians stime) in
    0.01 < up ->
    cell_at dem y x = Some z ->
    cell_at T y x = Some (Some t) -> cell_at p y x = Some (Some q) -> cell_at rh y x = Some (Some u) ->
    cell_at cld y x = Some (Some c) -> cell_at svf y x = Some (Some v) -> 0 <= c <= 1 ->
    0 < t -> vapour u t q = Some vp -> 0 <= vp ->
    clear_sky ecc up (35 * / sqrt (1224 * up ^ 2 + 1)) q t z vp = Ok (tau, direct, diffuse) ->
    py_get table' (rad_slot doy hour STEP) = Ok slot' -> cell_at slot' y x = Some (Some 0) ->
    exists g g',
      cell_at out (Z.of_nat (length dem) - 1 - y) x = Some (Some g) /\
      cell_at out' (Z.of_nat (length dem) - 1 - y) x = Some (Some g') /\ g' <= g /\
      (c = 1 -> g' = g /\ g = 0.35 * (direct + diffuse) * v).
Proof. exact shade_darkens_lem. Qed.
Print Assumptions shade_darkens.
