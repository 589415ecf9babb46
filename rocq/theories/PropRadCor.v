(** * Terrain correction of radiation: sun position, slopes, distances

    Theorems only; the proofs are in LemFinRadCor.v and the files it uses. *)

From Verif Require Import ModelPy ModelConstants ModelNode ModelGrid ModelHeat ModelSurface ModelInit ModelRadCor SpecRadCor.
From Verif Require Import LemFinRadCor.

(** C54.  The distance of any two points is defined and is the great-circle distance on a sphere of radius
   6371 km: its cosine, as an angle, is the inner product of the two points of the unit sphere, and it
   lies between 0 and half the circumference. *)
Theorem great_circle :
  forall lat1 lon1 lat2 lon2, exists d,
    haversine lat1 lon1 lat2 lon2 = Ok d /\
    0 <= d <= PI * 6371000 /\
    cos (d / 6371000) = dot (on_sphere lat1 lon1) (on_sphere lat2 lon2).
Proof. exact great_circle_lem. Qed.
Print Assumptions great_circle.

(** C54.  The distance is symmetric. *)
Theorem haversine_sym :
  forall lat1 lon1 lat2 lon2, haversine lat1 lon1 lat2 lon2 = haversine lat2 lon2 lat1 lon1.
Proof. exact haversine_sym_lem. Qed.
Print Assumptions haversine_sym.

(** C54.  The distance is zero exactly between coordinates of the same point of the sphere. *)
Theorem haversine_zero :
  forall lat1 lon1 lat2 lon2,
    haversine lat1 lon1 lat2 lon2 = Ok 0 <-> on_sphere lat1 lon1 = on_sphere lat2 lon2.
Proof. exact haversine_zero_lem. Qed.
Print Assumptions haversine_zero.

(** C54.  Unless the sun is exactly on the horizon there is a diffuse fraction; it is at least 0.2465 and
   below 1, and with the sun above the horizon brighter skies never have a larger one. *)
Theorem diffuse_fraction :
  forall doy zeni, cos zeni <> 0 ->
    (forall Rg, exists F, Fdif_Neustift doy zeni Rg = Ok F /\ 0.2465 <= F < 1) /\
    (0 < cos zeni -> forall Rg Rg' F F', Rg <= Rg' ->
       Fdif_Neustift doy zeni Rg = Ok F -> Fdif_Neustift doy zeni Rg' = Ok F' -> F' <= F).
Proof. exact diffuse_fraction_lem. Qed.
Print Assumptions diffuse_fraction.

(** C54.  On a horizontal surface the corrected radiation is the measured radiation, whatever the position of
   the sun, the azimuth, the day and the threshold. *)
Theorem flat_uncorrected :
  forall doy zeni azi azislo Rm thld, cos zeni <> 0 ->
    radCor2D doy zeni azi 0 azislo Rm thld = Ok Rm.
Proof. exact flat_uncorrected_lem. Qed.
Print Assumptions flat_uncorrected.

(** C54.  With the sun below the threshold the measured radiation is kept on every surface. *)
Theorem low_sun_uncorrected :
  forall doy zeni azi angslo azislo Rm thld, cos zeni <> 0 -> radians thld < zeni ->
    radCor2D doy zeni azi angslo azislo Rm thld = Ok Rm.
Proof. exact low_sun_uncorrected_lem. Qed.
Print Assumptions low_sun_uncorrected.

(** C54.  With the sun above the threshold the diffuse part of the measurement is kept and the direct part is
   multiplied by the ratio of the incidence on the surface, which is the inner product of the direction of
   the sun and the normal of the surface, to the incidence on a horizontal surface. *)
Theorem beam_correction :
  forall doy zeni azi angslo azislo Rm thld F, zeni <= radians thld ->
    Fdif_Neustift doy zeni Rm = Ok F ->
    radCor2D doy zeni azi angslo azislo Rm thld
    = Ok (F * Rm + (1 - F) * Rm
            * (dot (direction (PI / 2 - zeni) azi) (normal (radians angslo) (radians azislo))
               / dot (direction (PI / 2 - zeni) azi) (normal 0 0))).
Proof. exact beam_correction_lem. Qed.
Print Assumptions beam_correction.

(** C54.  The corrected radiation is at most the measurement divided by the cosine of the zenith angle. *)
Theorem correction_bounded :
  forall doy zeni azi angslo azislo Rm thld, 0 < cos zeni -> 0 <= Rm ->
    exists Rc, radCor2D doy zeni azi angslo azislo Rm thld = Ok Rc /\ Rabs Rc <= Rm / cos zeni.
Proof. exact correction_bounded_lem. Qed.
Print Assumptions correction_bounded.

(** C54.  The correction itself does not keep radiation non-negative: a steep slope facing away from the sun
   gets a negative value.  (The caller cuts it off at zero.) *)
Theorem correction_negative_refuted :
  exists doy zeni azi angslo azislo Rm thld Rc,
    0 < cos zeni /\ 0 < Rm /\ 0 <= angslo <= 90 /\
    radCor2D doy zeni azi angslo azislo Rm thld = Ok Rc /\ Rc < 0.
Proof. exact correction_negative_refuted_lem. Qed.
Print Assumptions correction_negative_refuted.

(** the sun at 60 degrees from the zenith in the south, a slope of 30 degrees facing south: a
   diffuse fraction exists *)
Example beam_correction_example :
  PI / 3 <= radians 85 /\ (exists F, Fdif_Neustift 183 (PI / 3) 800 = Ok F) /\
  dot (direction (PI / 2 - PI / 3) 0) (normal (radians 30) (radians 0)) = sqrt 3 / 2.
Proof. exact beam_correction_example_lem. Qed.

(** C70.  The position of the sun is defined for every day, hour and latitude except the poles, where the
   function divides by zero.  The elevation is the elevation of the sun for the declination of the day and
   the hour angle of the clock time: 15 degrees per hour from clock noon.  The zenith angle is its
   complement. *)
Theorem sun_elevation :
  forall lat lon tz day hour,
    (cos (radians lat) = 0 -> solarFParallel lat lon tz day hour = Err ZeroDivisionError) /\
    (cos (radians lat) <> 0 -> exists beta azi dec,
       solarFParallel lat lon tz day hour = Ok (beta, PI / 2 - beta, azi) /\
       - PI / 2 <= beta <= PI / 2 /\ - PI / 2 <= dec <= PI / 2 /\ sin dec = sin_declination day /\
       sin beta = sin (radians lat) * sin dec
                  + cos (radians lat) * cos dec * cos (radians (15 * (hour - 12)))).
Proof. exact sun_elevation_lem. Qed.
Print Assumptions sun_elevation.

(** C70.  The longitude of the site and of its time zone do not enter: the longitude correction and the
   equation of time are subtracted from the solar time and from solar noon alike and cancel. *)
Theorem sun_ignores_longitude :
  forall lat lon lon' tz tz' day hour,
    solarFParallel lat lon tz day hour = solarFParallel lat lon' tz' day hour.
Proof. exact sun_ignores_longitude_lem. Qed.
Print Assumptions sun_ignores_longitude.

(** C70.  So the corrected radiation of two sites of the same latitude is the same at the same clock time,
   however far apart they are. *)
Theorem correction_ignores_longitude :
  forall lat lon lon' tz tz' doy hour angslo azislo Rm thld,
    correctRadiation lat lon tz doy hour angslo azislo Rm thld
    = correctRadiation lat lon' tz' doy hour angslo azislo Rm thld.
Proof. exact correction_ignores_longitude_lem. Qed.
Print Assumptions correction_ignores_longitude.

(** C70.  The elevation is the same at the same distance before and after clock noon, and the azimuth
   changes its sign. *)
Theorem sun_symmetric :
  forall lat lon tz day h beta zeni azi, 0 < h ->
    solarFParallel lat lon tz day (12 + h) = Ok (beta, zeni, azi) ->
    solarFParallel lat lon tz day (12 - h) = Ok (beta, zeni, - azi).
Proof. exact sun_symmetric_lem. Qed.
Print Assumptions sun_symmetric.

(** C70.  The azimuth is wrong.  North of the declination of the day the sun stands due south at noon, which
   is azimuth zero; the function returns a positive azimuth at every such latitude, on every day. *)
Theorem noon_azimuth_wrong :
  forall lat lon tz day, 0 < lat < 90 -> 0.39785 < sin (radians lat) ->
    exists beta zeni azi, solarFParallel lat lon tz day 12 = Ok (beta, zeni, azi) /\ 0 < azi.
Proof. exact noon_azimuth_wrong_lem. Qed.
Print Assumptions noon_azimuth_wrong.

(** latitude 47 degrees north *)
Example noon_azimuth_example :
  0 < 47 < 90 /\ 0.39785 < sin (radians 47).
Proof. exact noon_azimuth_example_lem. Qed.
