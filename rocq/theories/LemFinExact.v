(** * Exact formulas: diffuse fraction, azimuth of the sun, pressure at a height *)
From Verif Require Import ModelPy ModelConstants ModelNode ModelGrid ModelHeat ModelSurface ModelInit
  ModelCore ModelConfig ModelIO ModelMain ModelRadCor SpecIO SpecRadCor ModelAws SpecAws.
From Verif Require Import LemPy LemRadCor LemFinRadCor LemFinAws.

(*@ C54 The diffuse fraction is the calibrated function of the clearness index, that is, of the ratio of
   the measured radiation to the radiation on a horizontal surface at the top of the atmosphere: 0.2465 if
   the index is above 50, and 0.2465 + 0.7535 exp (- exp (9.4758 index - 4.6929)) otherwise.  With the sun
   exactly at the horizon there is no index. *)
Lemma diffuse_fraction_formula_lem :
  forall doy zeni Rg : R,
    let top := 1367 * (1 + 0.033 * cos (2 * PI * doy / 366)) * cos zeni in
    (cos zeni = 0 -> Fdif_Neustift doy zeni Rg = Err ZeroDivisionError) /\
    (cos zeni <> 0 -> 50 < Rg / top -> Fdif_Neustift doy zeni Rg = Ok 0.2465) /\
    (cos zeni <> 0 -> Rg / top <= 50 ->
       Fdif_Neustift doy zeni Rg = Ok (0.2465 + 0.7535 * exp (- exp (9.4758 * (Rg / top) - 4.6929)))).
Proof.
  intros doy zeni Rg top. split; [|split].
  - intros C. unfold Fdif_Neustift. cbv zeta. rewrite C, Rmult_0_r. unfold fdiv.
    destruct (Req_EM_T 0 0); [reflexivity|contradiction].
  - intros C L. rewrite fdif_exact by exact C. fold top. unfold fdif_of.
    destruct (Rltb_spec 50 (Rg / top)); [reflexivity|lra].
  - intros C L. rewrite fdif_exact by exact C. fold top. unfold fdif_of.
    destruct (Rltb_spec 50 (Rg / top)); [lra|]. f_equal.
    replace (0.1001 - (4.7930 - 9.4758 * (Rg / top))) with (9.4758 * (Rg / top) - 4.6929) by lra.
    lra.
Qed.

(*@ C70 The azimuth that the function returns.  At a latitude other than the poles it is, up to the sign,
   the arc cosine of (sine of the latitude times sine of the elevation minus sine of the declination),
   times the cosine of the elevation, over the cosine of the latitude; before clock noon it is negative. *)
Lemma sun_azimuth_formula_lem :
  forall lat lon tz day hour : R, cos (radians lat) <> 0 ->
    exists beta azi : R,
      solarFParallel lat lon tz day hour = Ok (beta, PI / 2 - beta, azi) /\
      let a := acos (sin (radians lat) * sin beta - sin_declination day)
               * cos beta / cos (radians lat) in
      (12 <= hour -> azi = a) /\ (hour < 12 -> azi = - a).
Proof.
  intros lat lon tz day hour C. rewrite solarF_exact. cbv zeta. rewrite fdiv_ok by exact C. cbn [bind].
  eexists _, _. split; [reflexivity|]. rewrite sin_shift, sin_asin by apply sin_h_bound.
  rewrite sin_decl. destruct (Rltb_spec hour 12); split; intros H; try lra; field; exact C.
Qed.

Lemma acos_ge_third x : -1 <= x <= 1/2 -> PI/3 <= acos x.
Proof.
  intros H. destruct (Rle_or_lt (PI/3) (acos x)) as [L|L]; [exact L|exfalso].
  pose proof (acos_bound x). pose proof PI_RGT_0.
  assert (A: cos (PI/3) < cos (acos x)) by (apply cos_decreasing_1; lra).
  rewrite cos_PI3, cos_acos in A by lra. lra.
Qed.

(*@ C70 The division by the cosine of the latitude comes after the arc cosine and is not bounded: at every
   latitude whose cosine is at most a tenth (beyond 84.3 degrees) the azimuth at six in the evening of
   every day is more than a full turn. *)
Lemma azimuth_beyond_full_turn_lem :
  forall lat lon tz day : R, 0 < cos (radians lat) <= 0.1 ->
    exists beta zeni azi : R,
      solarFParallel lat lon tz day 18 = Ok (beta, zeni, azi) /\ 2 * PI < azi.
Proof.
  intros lat lon tz day C. assert (C0: cos (radians lat) <> 0) by lra.
  rewrite solarF_exact. cbv zeta. rewrite fdiv_ok by exact C0. cbn [bind].
  eexists _, _, _. split; [reflexivity|]. destruct (Rltb_spec 18 12); [lra|].
  assert (T: true_sin_h lat day 18 = sin (radians lat) * sin_declination day).
  { unfold true_sin_h. rewrite sin_decl.
    replace (radians (15 * (18 - 12))) with (PI/2) by (unfold radians; field). rewrite cos_PI2. ring. }
  rewrite sin_shift, cos_asin by apply sin_h_bound. rewrite T, sin_decl.
  set (s := sin_declination day). set (l := radians lat) in *.
  assert (Hs: -0.39785 <= s <= 0.39785).
  { unfold s, sin_declination. set (w := sin _). assert (-1 <= w <= 1) by apply SIN_bound. lra. }
  pose proof (SIN_bound l) as Bl. pose proof (sin2_cos2 l) as P. unfold Rsqr in P.
  assert (S2: 0 <= sin l * sin l <= 1) by nra.
  assert (Q2: 0 <= s * s <= 0.16) by nra.
  assert (N: Rabs (sin l * (sin l * s) - s) <= 0.1).
  { replace (sin l * (sin l * s) - s) with (- (cos l * cos l) * s) by nra.
    assert (0 <= cos l * cos l <= 0.01) by nra.
    apply Rabs_le. split; nra. }
  assert (N': -0.1 <= sin l * (sin l * s) - s <= 0.1).
  { unfold Rabs in N. destruct (Rcase_abs _) in N; lra. }
  pose proof (acos_ge_third (sin l * (sin l * s) - s)) as A.
  assert (A': PI/3 <= acos (sin l * (sin l * s) - s)) by (apply A; lra). clear A.
  assert (D: 0.84 <= 1 - Rsqr (sin l * s)).
  { unfold Rsqr. replace (sin l * s * (sin l * s)) with ((sin l * sin l) * (s * s)) by ring. nra. }
  assert (R9: 0.9 <= sqrt (1 - Rsqr (sin l * s))).
  { rewrite <- (sqrt_square 0.9) by lra. apply sqrt_le_1; lra. }
  assert (I: 10 <= / cos l).
  { replace 10 with (/ 0.1) by lra. apply Rinv_le_contravar; lra. }
  pose proof PI_RGT_0 as PP. apply Rlt_le_trans with (PI/3 * 10 * 0.9); [lra|].
  apply Rmult_le_compat; try lra. unfold Rdiv at 2. apply Rmult_le_compat; lra.
Qed.

(*@ex C70 latitude 87 degrees *)
Lemma azimuth_full_turn_example_lem :
  0 < cos (radians 87) <= 0.1.
Proof.
  pose proof PI_RGT_0. pose proof PI_4. replace (radians 87) with (PI/2 - PI/60) by (unfold radians; field).
  rewrite cos_shift. split; [apply sin_gt_0; lra|].
  pose proof (sin_lt_x (PI/60)). lra.
Qed.

(*@ C52 The pressure of the gridded and of the point conversion at any height: the station value is
   reduced to sea level with the exponent 5.255 and brought to the height with the exponent 5.255 in the
   gridded and 5.22 in the point conversion.  Missing values stay missing. *)
Lemma pressure_formula_lem :
  forall (cfg : AwsConfig) (h p : R),
    let alt := aw_stationAlt cfg in
    0 < 1 - 0.0065 * alt / 288.15 -> 0 < 1 - 0.0065 * h / 288.15 ->
    let sea := p / Rpower (1 - 0.0065 * alt / 288.15) 5.255 in
    barometric alt 5.255 h (Some p) = Some (sea * Rpower (1 - 0.0065 * h / 288.15) 5.255) /\
    get_pressure_bias cfg h (Some p) = Some (sea * Rpower (1 - 0.0065 * h / 288.15) 5.22) /\
    barometric alt 5.255 h None = None /\ get_pressure_bias cfg h None = None.
Proof.
  intros cfg h p alt A B sea. unfold get_pressure_bias. fold alt.
  rewrite !barometric_formula by (unfold standard_atmosphere; assumption).
  repeat split; reflexivity.
Qed.

(*@ C33 The arguments that the solver refuses, whatever the function: no iterations or a tolerance that is not
   positive fail the assertions; two equal starting points are a ValueError. *)
Lemma secant_refuses_lem :
  forall (func : R -> res R) (x0 tol rtol : R) (maxiter : nat) (x1 : option R),
    (maxiter = 0%nat \/ tol <= 0 -> secant func x0 tol maxiter x1 rtol = Err AssertionError) /\
    ((0 < maxiter)%nat -> 0 < tol -> secant func x0 tol maxiter (Some x0) rtol = Err ValueError).
Proof.
  intros func x0 tol rtol n x1. unfold secant. split.
  - intros H. destruct (n =? 0)%nat eqn:E; [reflexivity|]. apply Nat.eqb_neq in E.
    destruct (Rleb_spec tol 0); [reflexivity|]. exfalso. destruct H as [H|H]; [contradiction|lra].
  - intros Hn Ht. destruct (n =? 0)%nat eqn:E; [apply Nat.eqb_eq in E; lia|].
    destruct (Rleb_spec tol 0); [lra|]. destruct (Reqb_spec x0 x0) as [Q|Q]; [reflexivity|contradiction].
Qed.

(*@ C49 The minute to which the times of a file are cut is the last full minute that is not after the time.
   Therefore, against a bound that is a full minute, the cut time is before it exactly if the time itself is,
   and after it exactly if the time is at least one minute after it. *)
Lemma minute_of_time_lem :
  forall t : Z,
    ((60 | to_minute t) /\ to_minute t <= t < to_minute t + 60)%Z /\
    (forall bound : Z, (60 | bound)%Z ->
       ((to_minute t < bound)%Z <-> (t < bound)%Z) /\ ((bound < to_minute t)%Z <-> (bound + 60 <= t)%Z)).
Proof.
  intros t. unfold to_minute.
  pose proof (Z.div_mod t 60 ltac:(lia)) as D. pose proof (Z.mod_pos_bound t 60 ltac:(lia)) as B.
  split; [split; [exists (t / 60)%Z; lia|lia]|].
  intros bound [k ->]. split; lia.
Qed.
