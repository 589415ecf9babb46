(** * Exact formulas: diffuse fraction, azimuth of the sun, pressure at a height

    Theorems only; the proofs are in LemFinExact.v and the files it uses. *)

From Verif Require Import ModelPy ModelConstants ModelNode ModelGrid ModelHeat ModelSurface ModelInit ModelCore ModelConfig ModelIO ModelMain ModelRadCor SpecIO SpecRadCor ModelAws SpecAws.
From Verif Require Import LemFinExact.

(** C54.  The diffuse fraction is the calibrated function of the clearness index, that is, of the ratio of
   the measured radiation to the radiation on a horizontal surface at the top of the atmosphere: 0.2465 if
   the index is above 50, and 0.2465 + 0.7535 exp (- exp (9.4758 index - 4.6929)) otherwise.  With the sun
   exactly at the horizon there is no index. *)
Theorem diffuse_fraction_formula :
  forall doy zeni Rg : R,
    let top := 1367 * (1 + 0.033 * cos (2 * PI * doy / 366)) * cos zeni in
    (cos zeni = 0 -> Fdif_Neustift doy zeni Rg = Err ZeroDivisionError) /\
    (cos zeni <> 0 -> 50 < Rg / top -> Fdif_Neustift doy zeni Rg = Ok 0.2465) /\
    (cos zeni <> 0 -> Rg / top <= 50 ->
       Fdif_Neustift doy zeni Rg = Ok (0.2465 + 0.7535 * exp (- exp (9.4758 * (Rg / top) - 4.6929)))).
Proof. exact diffuse_fraction_formula_lem. Qed.
Print Assumptions diffuse_fraction_formula.

(** C70.  The azimuth that the function returns.  At a latitude other than the poles it is, up to the sign,
   the arc cosine of (sine of the latitude times sine of the elevation minus sine of the declination),
   times the cosine of the elevation, over the cosine of the latitude; before clock noon it is negative. *)
Theorem sun_azimuth_formula :
  forall lat lon tz day hour : R, cos (radians lat) <> 0 ->
    exists beta azi : R,
      solarFParallel lat lon tz day hour = Ok (beta, PI / 2 - beta, azi) /\
      let a := acos (sin (radians lat) * sin beta - sin_declination day)
               * cos beta / cos (radians lat) in
      (12 <= hour -> azi = a) /\ (hour < 12 -> azi = - a).
Proof. exact sun_azimuth_formula_lem. Qed.
Print Assumptions sun_azimuth_formula.

(** C70.  The division by the cosine of the latitude comes after the arc cosine and is not bounded: at every
   latitude whose cosine is at most a tenth (beyond 84.3 degrees) the azimuth at six in the evening of
   every day is more than a full turn. *)
Theorem azimuth_beyond_full_turn :
  forall lat lon tz day : R, 0 < cos (radians lat) <= 0.1 ->
    exists beta zeni azi : R,
      solarFParallel lat lon tz day 18 = Ok (beta, zeni, azi) /\ 2 * PI < azi.
Proof. exact azimuth_beyond_full_turn_lem. Qed.
Print Assumptions azimuth_beyond_full_turn.

(** C70 latitude 87 degrees *)
Example azimuth_full_turn_example :
  0 < cos (radians 87) <= 0.1.
Proof. exact azimuth_full_turn_example_lem. Qed.

(** C52.  The pressure of the gridded and of the point conversion at any height: the station value is
   reduced to sea level with the exponent 5.255 and brought to the height with the exponent 5.255 in the
   gridded and 5.22 in the point conversion.  Missing values stay missing. *)
Theorem pressure_formula :
  forall (cfg : AwsConfig) (h p : R),
    let alt := aw_stationAlt cfg in
    0 < 1 - 0.0065 * alt / 288.15 -> 0 < 1 - 0.0065 * h / 288.15 ->
    let sea := p / Rpower (1 - 0.0065 * alt / 288.15) 5.255 in
    barometric alt 5.255 h (Some p) = Some (sea * Rpower (1 - 0.0065 * h / 288.15) 5.255) /\
    get_pressure_bias cfg h (Some p) = Some (sea * Rpower (1 - 0.0065 * h / 288.15) 5.22) /\
    barometric alt 5.255 h None = None /\ get_pressure_bias cfg h None = None.
Proof. exact pressure_formula_lem. Qed.
Print Assumptions pressure_formula.

(** C33.  The arguments that the solver refuses, whatever the function: no iterations or a tolerance that is not
   positive fail the assertions; two equal starting points are a ValueError. *)
Theorem secant_refuses :
  forall (func : R -> res R) (x0 tol rtol : R) (maxiter : nat) (x1 : option R),
    (maxiter = 0%nat \/ tol <= 0 -> secant func x0 tol maxiter x1 rtol = Err AssertionError) /\
    ((0 < maxiter)%nat -> 0 < tol -> secant func x0 tol maxiter (Some x0) rtol = Err ValueError).
Proof. exact secant_refuses_lem. Qed.
Print Assumptions secant_refuses.

(** C49.  The minute to which the times of a file are cut is the last full minute that is not after the time.
   Therefore, against a bound that is a full minute, the cut time is before it exactly if the time itself is,
   and after it exactly if the time is at least one minute after it. *)
Theorem minute_of_time :
  forall t : Z,
    ((60 | to_minute t) /\ to_minute t <= t < to_minute t + 60)%Z /\
    (forall bound : Z, (60 | bound)%Z ->
       ((to_minute t < bound)%Z <-> (t < bound)%Z) /\ ((bound < to_minute t)%Z <-> (bound + 60 <= t)%Z)).
Proof. exact minute_of_time_lem. Qed.
Print Assumptions minute_of_time.
