(** * Modelled radiation between zero and the top of the atmosphere

    Theorems only; the proofs are in LemFinSolar.v and the files it uses. *)

From Verif Require Import ModelPy ModelConstants ModelNode ModelGrid ModelHeat ModelSurface ModelInit ModelCore ModelConfig ModelIO ModelMain ModelRadCor Spec SpecIO SpecRadCor.
From Verif Require Import LemFinSolar.

(** C134.  Without clouds, direct and diffuse radiation on a horizontal surface exist, are not negative and
   together not more than the radiation on a horizontal surface at the top of the atmosphere: for air above zero
   kelvin with a vapour pressure that is not negative, at any elevation above -35 km, if the pressure is at most
   835 hPa, or at most 1020 hPa and the sun stands higher than 1.15 degrees.  The transmissivity of the beam is
   between 0 and 1. *)
Theorem clear_sky_within_top_of_atmosphere :
  forall ecc up q t z vp,
    0 < ecc -> 0.01 < up -> 0 < t -> 0 <= vp -> -35000 <= z ->
    0 <= q -> q <= 835 \/ q <= 1020 /\ 0.02 <= up ->
    exists tau direct diffuse,
      clear_sky ecc up (35 * / sqrt (1224 * up ^ 2 + 1)) q t z vp = Ok (tau, direct, diffuse) /\
      0 <= tau <= 1 /\ 0 <= direct /\ 0 <= diffuse /\ direct + diffuse <= 1367 * ecc * up.
Proof. exact clear_sky_within_top_of_atmosphere_lem. Qed.
Print Assumptions clear_sky_within_top_of_atmosphere.

(** C134.  Beyond these limits the formula fails: just above the horizon and at the pressure of sea level the
   Rayleigh transmissivity exceeds one, and where the aerosol factor reaches its limit of one the modelled beam
   is stronger than the radiation at the top of the atmosphere. *)
Theorem beam_exceeds_top_of_atmosphere_refuted :
  exists up q t z vp tau direct diffuse,
    0.01 < up < 0.0101 /\ 1010 < q < 1013.25 /\ 0 < t /\ 0 <= vp /\ -35000 <= z /\
    clear_sky 1 up (35 * / sqrt (1224 * up ^ 2 + 1)) q t z vp = Ok (tau, direct, diffuse) /\
    1 < tau /\ 1367 * 1 * up < direct.
Proof. exact beam_exceeds_top_of_atmosphere_refuted_lem. Qed.
Print Assumptions beam_exceeds_top_of_atmosphere_refuted.

(** C134.  The radiation of a cell by day is not negative and not more than the solar constant times eccentricity
   factor and one plus the sine of the elevation of the sun; on a flat cell it exceeds the radiation at the top of
   the atmosphere by at most 4.6 percent, and not at all under a clear sky.  Cloud fraction and sky view factor
   are between 0 and 1. *)
Theorem day_radiation_bounded :
  forall vapour pars times doy hour lat T p rh cld dem mask slopes aspects table svf STEP TCART out
    ecc dec tcorr y x z t q u vp c v,
    calcRad vapour pars times doy hour lat T p rh cld dem mask slopes aspects table svf STEP TCART = Ok out ->
    raster_get pars (doy - 1) 2 = Ok ecc ->
    raster_get pars (doy - 1) 3 = Ok dec -> raster_get times (doy - 1) 3 = Ok tcorr ->
    let stime := 180 + STEP / 3600 * 15 / 2 - hour * 15 - tcorr + TCART in
    let up := sin (radians lat) * sin dec + cos (radians lat) * cos dec * cos (radians stime) in
    0.01 < up -> 0 < ecc ->
    cell_at dem y x = Some z -> -35000 <= z ->
    cell_at T y x = Some (Some t) -> 0 < t -> cell_at rh y x = Some (Some u) ->
    cell_at p y x = Some (Some q) -> 0 <= q -> q <= 835 \/ q <= 1020 /\ 0.02 <= up ->
    cell_at cld y x = Some (Some c) -> 0 <= c <= 1 -> cell_at svf y x = Some (Some v) -> 0 <= v <= 1 ->
    vapour u t q = Some vp -> 0 <= vp ->
    exists r, cell_at out (Z.of_nat (length dem) - 1 - y) x = Some (Some r) /\
      0 <= r <= 1367 * ecc * (1 + up) /\
      (cell_at slopes y x = Some 0 -> r <= 1.046 * (1367 * ecc * up) /\ (c = 0 -> r <= 1367 * ecc * up)).
Proof. exact day_radiation_bounded_lem. Qed.
Print Assumptions day_radiation_bounded.

(** C75.  Day angle, eccentricity factor and declination of a day are those of the Fourier series in the day
   angle, the hour angle of sunset and the day length belong to that declination, and the time correction is the
   equation of time in degrees, at most 4.4 degrees; day 366 is treated as day 365. *)
Theorem solar_parameters_of_day :
  forall lat pars times day,
    Rabs lat < 90 -> solpars lat = Ok (pars, times) -> (1 <= day <= 366)%Z ->
    let d := IZR (Z.min day 365) in
    let tau := 2 * PI * (d - 1) / 365 in
    let ecc := 1.00011 + 0.034221 * cos tau + 0.00128 * sin tau + 0.000719 * cos (2 * tau) + 0.000077 * sin (2 * tau) in
    let dec := 0.006918 - 0.399912 * cos tau + 0.070257 * sin tau - 0.006758 * cos (2 * tau)
               + 0.000907 * sin (2 * tau) - 0.002697 * cos (3 * tau) + 0.00148 * sin (3 * tau) in
    let anomaly := radians (0.9856 * d - 2.72) in
    let minutes := - (7.66 * sin anomaly + 9.87 * sin (2 * anomaly + radians 24.99 + radians 3.83 * sin anomaly)) in
    raster_get pars (day - 1) 0 = Ok tau /\ raster_get pars (day - 1) 2 = Ok ecc /\
    raster_get pars (day - 1) 3 = Ok dec /\
    (exists h, raster_get pars (day - 1) 5 = Ok h /\ raster_get pars (day - 1) 6 = Ok (h * 2 / 15) /\
       0 <= h <= 180 /\ cos (radians h) = - tan (radians lat) * tan dec) /\
    raster_get times (day - 1) 0 = Ok d /\ raster_get times (day - 1) 2 = Ok minutes /\
    raster_get times (day - 1) 3 = Ok (minutes / 4) /\ -4.4 <= minutes / 4 <= 4.4.
Proof. exact solar_parameters_of_day_lem. Qed.
Print Assumptions solar_parameters_of_day.

(** C75.  The parameters exist exactly if the sun rises and sets on every day, that is if the product of the
   tangents of latitude and declination is between -1 and 1 for all 365 days; otherwise solpars raises
   ValueError. *)
Theorem solar_parameters_exist_iff :
  forall lat, Rabs lat < 90 ->
    let dec := fun day => let tau := 2 * PI * (IZR day - 1) / 365 in
      0.006918 - 0.399912 * cos tau + 0.070257 * sin tau - 0.006758 * cos (2 * tau)
      + 0.000907 * sin (2 * tau) - 0.002697 * cos (3 * tau) + 0.00148 * sin (3 * tau) in
    ((exists pars times, solpars lat = Ok (pars, times)) <->
     forall day, (1 <= day <= 365)%Z -> -1 <= tan (radians lat) * tan (dec day) <= 1) /\
    ((exists pars times, solpars lat = Ok (pars, times)) \/ solpars lat = Err ValueError).
Proof. exact solar_parameters_exist_iff_lem. Qed.
Print Assumptions solar_parameters_exist_iff.

(** C134 At 600 hPa in 4000 m and at a solar elevation of 30 degrees. *)
Example clear_sky_example :
  exists tau direct diffuse,
    clear_sky 1.03 0.5 (35 * / sqrt (1224 * 0.5 ^ 2 + 1)) 600 268 4000 3 = Ok (tau, direct, diffuse) /\
    direct + diffuse <= 1367 * 1.03 * 0.5.
Proof. exact clear_sky_example_lem. Qed.
