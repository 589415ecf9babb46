(** * Terrain correction of radiation: sun position, slopes, distances *)
From Verif Require Import ModelPy ModelConstants ModelNode ModelGrid ModelHeat ModelSurface ModelInit
  ModelRadCor SpecRadCor LemPy LemRadCor.

(** ** Distances *)

(*@ C54 The distance of any two points is defined and is the great-circle distance on a sphere of radius
   6371 km: its cosine, as an angle, is the inner product of the two points of the unit sphere, and it
   lies between 0 and half the circumference. *)
Lemma great_circle_lem :
  forall lat1 lon1 lat2 lon2, exists d,
    haversine lat1 lon1 lat2 lon2 = Ok d /\
    0 <= d <= PI * 6371000 /\
    cos (d / 6371000) = dot (on_sphere lat1 lon1) (on_sphere lat2 lon2).
Proof.
  intros. eexists. split; [apply haversine_exact|]. pose proof (asin_chord_range lat1 lon1 lat2 lon2).
  split; [lra|]. rewrite <- cos_haversine. f_equal. field.
Qed.

(*@ C54 The distance is symmetric. *)
Lemma haversine_sym_lem :
  forall lat1 lon1 lat2 lon2, haversine lat1 lon1 lat2 lon2 = haversine lat2 lon2 lat1 lon1.
Proof. intros. rewrite !haversine_exact. unfold chord. rewrite dot_sym. reflexivity. Qed.

(*@ C54 The distance is zero exactly between coordinates of the same point of the sphere. *)
Lemma haversine_zero_lem :
  forall lat1 lon1 lat2 lon2,
    haversine lat1 lon1 lat2 lon2 = Ok 0 <-> on_sphere lat1 lon1 = on_sphere lat2 lon2.
Proof.
  intros. rewrite haversine_exact. split.
  - intros H. injection H as H. assert (A: asin (chord lat1 lon1 lat2 lon2) = 0) by lra.
    apply dot_one; try apply on_sphere_unit. rewrite <- cos_haversine, A, Rmult_0_r. apply cos_0.
  - intros E. f_equal. unfold chord. rewrite E, on_sphere_unit.
    replace ((1 - 1) / 2) with 0 by field. rewrite sqrt_0, asin_0. ring.
Qed.

(** ** Diffuse fraction *)

Lemma ecc_pos doy : 0 < 1367 * (1 + 0.033 * cos (2 * PI * doy / 366)).
Proof. pose proof (COS_bound (2 * PI * doy / 366)). lra. Qed.

Definition fdif_of (CI : R) : R :=
  if Rltb 50 CI then 0.2465
  else exp (- exp (0.1001 - (4.7930 - 9.4758 * CI))) * (1 - 0.2465) + 0.2465.

Lemma fdif_exact doy zeni Rg : cos zeni <> 0 ->
  Fdif_Neustift doy zeni Rg
  = Ok (fdif_of (Rg / (1367 * (1 + 0.033 * cos (2 * PI * doy / 366)) * cos zeni))).
Proof.
  intros H. unfold Fdif_Neustift, fdif_of. cbv zeta. rewrite fdiv_ok; [reflexivity|].
  pose proof (ecc_pos doy). apply Rmult_integral_contrapositive. split; [lra|exact H].
Qed.

Lemma exp_neg_lt1 x : 0 < exp (- exp x) < 1.
Proof.
  split; [apply exp_pos|]. rewrite <- exp_0. apply exp_increasing. pose proof (exp_pos x). lra.
Qed.

Lemma fdif_of_bounds CI : 0.2465 <= fdif_of CI < 1.
Proof.
  unfold fdif_of. destruct (Rltb 50 CI); [lra|].
  pose proof (exp_neg_lt1 (0.1001 - (4.7930 - 9.4758 * CI))). nra.
Qed.

Lemma fdif_of_antitone a b : a <= b -> fdif_of b <= fdif_of a.
Proof.
  intros H. pose proof (fdif_of_bounds a) as B. unfold fdif_of at 1.
  destruct (Rltb_spec 50 b); [lra|]. unfold fdif_of.
  destruct (Rltb_spec 50 a); [lra|].
  assert (exp (- exp (0.1001 - (4.7930 - 9.4758 * b))) <= exp (- exp (0.1001 - (4.7930 - 9.4758 * a)))).
  { destruct (Req_dec a b) as [->|N]; [lra|]. left. apply exp_increasing. apply Ropp_lt_contravar.
    apply exp_increasing. lra. }
  nra.
Qed.

Lemma fdif_inv doy zeni Rg F : Fdif_Neustift doy zeni Rg = Ok F -> cos zeni <> 0.
Proof.
  unfold Fdif_Neustift. cbv zeta. intros H E. rewrite E, Rmult_0_r in H. unfold fdiv in H.
  destruct (Req_EM_T 0 0); [discriminate|contradiction].
Qed.

(*@ C54 Unless the sun is exactly on the horizon there is a diffuse fraction; it is at least 0.2465 and
   below 1, and with the sun above the horizon brighter skies never have a larger one. *)
Lemma diffuse_fraction_lem :
  forall doy zeni, cos zeni <> 0 ->
    (forall Rg, exists F, Fdif_Neustift doy zeni Rg = Ok F /\ 0.2465 <= F < 1) /\
    (0 < cos zeni -> forall Rg Rg' F F', Rg <= Rg' ->
       Fdif_Neustift doy zeni Rg = Ok F -> Fdif_Neustift doy zeni Rg' = Ok F' -> F' <= F).
Proof.
  intros doy zeni H. split.
  - intros Rg. eexists. split; [apply fdif_exact, H|]. apply fdif_of_bounds.
  - intros P Rg Rg' F F' L. rewrite !fdif_exact by exact H. intros E1 E2.
    injection E1 as <-. injection E2 as <-. apply fdif_of_antitone.
    pose proof (ecc_pos doy). apply Rmult_le_compat_r; [|exact L].
    left. apply Rinv_0_lt_compat. apply Rmult_lt_0_compat; assumption.
Qed.

(** ** Slope correction *)

Lemma radcor_unfold doy zeni azi angslo azislo Rm thld F :
  Fdif_Neustift doy zeni Rm = Ok F ->
  radCor2D doy zeni azi angslo azislo Rm thld
  = Ok (Rm * (1 - (if Rltb (radians thld) zeni then 1 else F))
        * ((cos zeni * cos (radians angslo) + sin zeni * sin (radians angslo) * cos (azi - radians azislo))
           / cos zeni)
        + Rm * (if Rltb (radians thld) zeni then 1 else F)).
Proof.
  intros H. pose proof (fdif_inv _ _ _ _ H) as C. unfold radCor2D. cbv zeta. rewrite H. cbn [bind].
  rewrite fdiv_ok by exact C. cbn [bind]. unfold radians, Rdiv. rewrite !Rmult_assoc. reflexivity.
Qed.

(*@ C54 On a horizontal surface the corrected radiation is the measured radiation, whatever the position of
   the sun, the azimuth, the day and the threshold. *)
Lemma flat_uncorrected_lem :
  forall doy zeni azi azislo Rm thld, cos zeni <> 0 ->
    radCor2D doy zeni azi 0 azislo Rm thld = Ok Rm.
Proof.
  intros. rewrite (radcor_unfold _ _ _ _ _ _ _ _ (fdif_exact _ _ _ H)).
  f_equal. replace (radians 0) with 0 by (unfold radians; field). rewrite cos_0, sin_0.
  destruct (Rltb _ _); field; exact H.
Qed.

(*@ C54 With the sun below the threshold the measured radiation is kept on every surface. *)
Lemma low_sun_uncorrected_lem :
  forall doy zeni azi angslo azislo Rm thld, cos zeni <> 0 -> radians thld < zeni ->
    radCor2D doy zeni azi angslo azislo Rm thld = Ok Rm.
Proof.
  intros. rewrite (radcor_unfold _ _ _ _ _ _ _ _ (fdif_exact _ _ _ H)).
  destruct (Rltb_spec (radians thld) zeni); [|lra]. f_equal. ring.
Qed.

(*@ C54 With the sun above the threshold the diffuse part of the measurement is kept and the direct part is
   multiplied by the ratio of the incidence on the surface, which is the inner product of the direction of
   the sun and the normal of the surface, to the incidence on a horizontal surface. *)
Lemma beam_correction_lem :
  forall doy zeni azi angslo azislo Rm thld F, zeni <= radians thld ->
    Fdif_Neustift doy zeni Rm = Ok F ->
    radCor2D doy zeni azi angslo azislo Rm thld
    = Ok (F * Rm + (1 - F) * Rm
            * (dot (direction (PI / 2 - zeni) azi) (normal (radians angslo) (radians azislo))
               / dot (direction (PI / 2 - zeni) azi) (normal 0 0))).
Proof.
  intros doy zeni azi angslo azislo Rm thld F H E. pose proof (fdif_inv _ _ _ _ E) as C.
  rewrite (radcor_unfold _ _ _ _ _ _ _ _ E). destruct (Rltb_spec (radians thld) zeni); [lra|].
  f_equal. unfold dot, direction, normal. rewrite cos_shift, sin_shift, sin_0, cos_0, cos_minus.
  rewrite !Rmult_0_l, !Rmult_0_r, Rmult_1_r, !Rplus_0_l. field. exact C.
Qed.

(*@ C54 The corrected radiation is at most the measurement divided by the cosine of the zenith angle. *)
Lemma correction_bounded_lem :
  forall doy zeni azi angslo azislo Rm thld, 0 < cos zeni -> 0 <= Rm ->
    exists Rc, radCor2D doy zeni azi angslo azislo Rm thld = Ok Rc /\ Rabs Rc <= Rm / cos zeni.
Proof.
  intros doy zeni azi angslo azislo Rm thld C P.
  assert (C': cos zeni <> 0) by lra.
  eexists. split; [apply (radcor_unfold _ _ _ _ _ _ _ _ (fdif_exact _ _ _ C'))|].
  set (F := if Rltb _ _ then 1 else _).
  assert (BF: 0.2465 <= F <= 1). { unfold F. destruct (Rltb _ _); [lra|]. pose proof (fdif_of_bounds (Rm / (1367 * (1 + 0.033 * cos (2 * PI * doy / 366)) * cos zeni))). lra. }
  set (k := cos zeni * cos (radians angslo) + _).
  assert (B: -1 <= k <= 1).
  { replace k with (dot (direction (PI/2 - zeni) azi) (normal (radians angslo) (radians azislo))).
    - apply dot_bound.
      + unfold dot, direction. pose proof (trig1 (PI/2 - zeni)). pose proof (trig1 azi).
        replace (cos (PI / 2 - zeni) * sin azi * (cos (PI / 2 - zeni) * sin azi) + cos (PI / 2 - zeni) * cos azi * (cos (PI / 2 - zeni) * cos azi))
          with (cos (PI / 2 - zeni) * cos (PI / 2 - zeni) * (sin azi * sin azi + cos azi * cos azi)) by ring.
        rewrite H0. lra.
      + unfold dot, normal. pose proof (trig1 (radians angslo)). pose proof (trig1 (radians azislo)).
        replace (sin (radians angslo) * sin (radians azislo) * (sin (radians angslo) * sin (radians azislo)) + sin (radians angslo) * cos (radians azislo) * (sin (radians angslo) * cos (radians azislo)))
          with (sin (radians angslo) * sin (radians angslo) * (sin (radians azislo) * sin (radians azislo) + cos (radians azislo) * cos (radians azislo))) by ring.
        rewrite H0. lra.
    - unfold k, dot, direction, normal. rewrite cos_shift, sin_shift, cos_minus. ring. }
  pose proof (COS_bound zeni) as [_ C1].
  replace (Rm * (1 - F) * (k / cos zeni) + Rm * F) with ((Rm / cos zeni) * ((1 - F) * k + F * cos zeni))
    by (field; exact C').
  rewrite Rabs_mult. assert (0 <= Rm / cos zeni).
  { apply Rmult_le_pos; [exact P|]. left. apply Rinv_0_lt_compat. exact C. }
  rewrite (Rabs_right (Rm / cos zeni)) by lra.
  rewrite <- (Rmult_1_r (Rm / cos zeni)) at 2. apply Rmult_le_compat_l; [assumption|].
  apply Rabs_le. split; nra.
Qed.

(*@ C54 The correction itself does not keep radiation non-negative: a steep slope facing away from the sun
   gets a negative value.  (The caller cuts it off at zero.) *)
Lemma correction_negative_refuted_lem :
  exists doy zeni azi angslo azislo Rm thld Rc,
    0 < cos zeni /\ 0 < Rm /\ 0 <= angslo <= 90 /\
    radCor2D doy zeni azi angslo azislo Rm thld = Ok Rc /\ Rc < 0.
Proof.
  exists 183, (PI/3), PI, 90, 0, 800, 85.
  assert (C: cos (PI/3) <> 0) by (rewrite cos_PI3; lra).
  eexists. split; [rewrite cos_PI3; lra|]. split; [lra|]. split; [lra|].
  split; [apply (radcor_unfold _ _ _ _ _ _ _ _ (fdif_exact _ _ _ C))|].
  assert (L: radians 85 > PI/3) by (unfold radians; pose proof PI_RGT_0; lra).
  destruct (Rltb_spec (radians 85) (PI/3)); [lra|].
  replace (2 * PI * 183 / 366) with PI by field. rewrite cos_PI, cos_PI3, sin_PI3.
  replace (radians 90) with (PI/2) by (unfold radians; field). rewrite cos_PI2, sin_PI2.
  replace (radians 0) with 0 by (unfold radians; field). rewrite Rminus_0_r, cos_PI.
  set (F := fdif_of _).
  assert (F < 0.5).
  { unfold F, fdif_of. destruct (Rltb_spec 50 (800 / (1367 * (1 + 0.033 * -1) * (1 / 2)))); [lra|].
    set (X := 0.1001 - _). assert (HX: 6 <= X).
    { unfold X. assert (1.2 <= 800 / (1367 * (1 + 0.033 * -1) * (1 / 2))).
      { set (D := 1367 * (1 + 0.033 * -1) * (1 / 2)). assert (DP: 0 < D <= 661) by (unfold D; lra).
        apply Rmult_le_reg_r with D; [lra|]. replace (800 / D * D) with 800 by (field; lra). lra. }
      lra. }
    assert (E: 7 <= exp X). { pose proof (exp_ineq1_le X). lra. }
    assert (exp (- exp X) <= 1/8).
    { rewrite exp_Ropp. unfold Rdiv. rewrite Rmult_1_l. apply Rinv_le_contravar; [lra|].
      pose proof (exp_ineq1_le (exp X)). lra. }
    lra. }
  assert (0.2465 <= F) by apply fdif_of_bounds.
  assert (S3: 1 < sqrt 3). { rewrite <- sqrt_1 at 1. apply sqrt_lt_1; lra. }
  replace (800 * (1 - F) * ((1 / 2 * 0 + sqrt 3 / 2 * 1 * -1) / (1 / 2)) + 800 * F)
    with (800 * (F - (1 - F) * sqrt 3)) by field.
  nra.
Qed.

(*@ex the sun at 60 degrees from the zenith in the south, a slope of 30 degrees facing south: a
   diffuse fraction exists *)
Lemma beam_correction_example_lem :
  PI / 3 <= radians 85 /\ (exists F, Fdif_Neustift 183 (PI / 3) 800 = Ok F) /\
  dot (direction (PI / 2 - PI / 3) 0) (normal (radians 30) (radians 0)) = sqrt 3 / 2.
Proof.
  split; [unfold radians; pose proof PI_RGT_0; lra|]. split.
  - eexists. apply fdif_exact. rewrite cos_PI3. lra.
  - unfold dot, direction, normal. rewrite cos_shift, sin_shift, cos_PI3, sin_PI3, sin_0, cos_0.
    replace (radians 0) with 0 by (unfold radians; field). rewrite sin_0, cos_0.
    replace (radians 30) with (PI/6) by (unfold radians; field). rewrite sin_PI6, cos_PI6. field.
Qed.

(** ** Position of the sun *)

(*@ C70 The position of the sun is defined for every day, hour and latitude except the poles, where the
   function divides by zero.  The elevation is the elevation of the sun for the declination of the day and
   the hour angle of the clock time: 15 degrees per hour from clock noon.  The zenith angle is its
   complement. *)
Lemma sun_elevation_lem :
  forall lat lon tz day hour,
    (cos (radians lat) = 0 -> solarFParallel lat lon tz day hour = Err ZeroDivisionError) /\
    (cos (radians lat) <> 0 -> exists beta azi dec,
       solarFParallel lat lon tz day hour = Ok (beta, PI / 2 - beta, azi) /\
       - PI / 2 <= beta <= PI / 2 /\ - PI / 2 <= dec <= PI / 2 /\ sin dec = sin_declination day /\
       sin beta = sin (radians lat) * sin dec
                  + cos (radians lat) * cos dec * cos (radians (15 * (hour - 12)))).
Proof.
  intros lat lon tz day hour. rewrite solarF_exact. cbv zeta. split; intros C.
  - unfold fdiv. destruct (Req_EM_T _ 0); [reflexivity|contradiction].
  - rewrite fdiv_ok by exact C. cbn [bind]. eexists _, _, (declination day).
    split; [reflexivity|]. pose proof (asin_bound (true_sin_h lat day hour)).
    pose proof (asin_bound (sin_declination day)). unfold declination at 1 2.
    split; [lra|]. split; [lra|]. split; [apply sin_decl|].
    rewrite sin_asin by apply sin_h_bound. reflexivity.
Qed.

(*@ C70 The longitude of the site and of its time zone do not enter: the longitude correction and the
   equation of time are subtracted from the solar time and from solar noon alike and cancel. *)
Lemma sun_ignores_longitude_lem :
  forall lat lon lon' tz tz' day hour,
    solarFParallel lat lon tz day hour = solarFParallel lat lon' tz' day hour.
Proof. intros. rewrite !solarF_exact. reflexivity. Qed.

(*@ C70 So the corrected radiation of two sites of the same latitude is the same at the same clock time,
   however far apart they are. *)
Lemma correction_ignores_longitude_lem :
  forall lat lon lon' tz tz' doy hour angslo azislo Rm thld,
    correctRadiation lat lon tz doy hour angslo azislo Rm thld
    = correctRadiation lat lon' tz' doy hour angslo azislo Rm thld.
Proof.
  intros. unfold correctRadiation. rewrite (sun_ignores_longitude_lem lat lon lon' tz tz'). reflexivity.
Qed.

(*@ C70 The elevation is the same at the same distance before and after clock noon, and the azimuth
   changes its sign. *)
Lemma sun_symmetric_lem :
  forall lat lon tz day h beta zeni azi, 0 < h ->
    solarFParallel lat lon tz day (12 + h) = Ok (beta, zeni, azi) ->
    solarFParallel lat lon tz day (12 - h) = Ok (beta, zeni, - azi).
Proof.
  intros lat lon tz day h beta zeni azi P. rewrite !solarF_exact. cbv zeta.
  replace (true_sin_h lat day (12 - h)) with (true_sin_h lat day (12 + h)).
  2:{ unfold true_sin_h. do 2 f_equal. rewrite <- cos_neg. f_equal. unfold radians. field. }
  destruct (fdiv _ _) as [q|]; cbn [bind]; [|discriminate]. intros H; injection H as <- <- <-.
  destruct (Rltb_spec (12 - h) 12); [|lra]. destruct (Rltb_spec (12 + h) 12); [lra|].
  do 3 f_equal. ring.
Qed.

(*@ C70 The azimuth is wrong.  North of the declination of the day the sun stands due south at noon, which
   is azimuth zero; the function returns a positive azimuth at every such latitude, on every day. *)
Lemma noon_azimuth_wrong_lem :
  forall lat lon tz day, 0 < lat < 90 -> 0.39785 < sin (radians lat) ->
    exists beta zeni azi, solarFParallel lat lon tz day 12 = Ok (beta, zeni, azi) /\ 0 < azi.
Proof.
  intros lat lon tz day Hl Hs. pose proof PI_RGT_0 as PP.
  set (f := radians lat). assert (Hf: 0 < f < PI/2) by (unfold f, radians; split; nra).
  assert (Cf: 0 < cos f) by (apply cos_gt_0; lra).
  rewrite solarF_exact. cbv zeta. fold f. rewrite fdiv_ok by lra. cbn [bind].
  eexists _, _, _. split; [reflexivity|]. destruct (Rltb_spec 12 12); [lra|].
  set (d := declination day).
  assert (Sd: sin d <= 0.39785).
  { unfold d. rewrite sin_decl. unfold sin_declination. set (s := sin _).
    assert (-1 <= s <= 1) by apply SIN_bound. lra. }
  pose proof (asin_bound (sin_declination day)) as Bd. fold (declination day) in Bd. fold d in Bd.
  assert (Hd: d < f). { apply sin_increasing_0; try lra. fold f in Hs. lra. }
  assert (Hsd: 0 < sin (f - d)) by (apply sin_gt_0; lra).
  assert (T: true_sin_h lat day 12 = cos (f - d)).
  { unfold true_sin_h. fold f d. replace (radians (15 * (12 - 12))) with 0 by (unfold radians; field).
    rewrite cos_0, cos_minus. ring. }
  rewrite T, sin_shift, cos_asin by apply COS_bound.
  assert (S: sqrt (1 - (cos (f - d))²) = sin (f - d)).
  { replace (1 - (cos (f - d))²) with (Rsqr (sin (f - d))) by (pose proof (sin2_cos2 (f - d)); lra).
    apply sqrt_Rsqr. lra. }
  rewrite S. apply Rmult_lt_0_compat; [|exact Hsd]. apply Rmult_lt_0_compat; [|apply Rinv_0_lt_compat; exact Cf].
  assert (A: sin f * cos (f - d) - sin d = cos f * sin (f - d)).
  { replace (sin d) with (sin (f - (f - d))) by (f_equal; ring). rewrite sin_minus. ring. }
  rewrite A. pose proof (acos_bound (cos f * sin (f - d))) as [L _].
  destruct L as [L|L]; [exact L|exfalso].
  assert (B: cos f * sin (f - d) < 1).
  { assert (cos f < 1). { rewrite <- cos_0. apply cos_decreasing_1; lra. }
    pose proof (SIN_bound (f - d)). nra. }
  assert (cos (acos (cos f * sin (f - d))) = 1) by (rewrite <- L; apply cos_0).
  rewrite cos_acos in H; [lra|]. split; [|lra]. nra.
Qed.

(*@ex latitude 47 degrees north *)
Lemma noon_azimuth_example_lem :
  0 < 47 < 90 /\ 0.39785 < sin (radians 47).
Proof.
  split; [lra|]. apply Rlt_trans with (sin (PI/6)); [rewrite sin_PI6; lra|].
  pose proof PI_RGT_0. unfold radians. apply sin_increasing_1; lra.
Qed.
