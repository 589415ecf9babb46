(** * Shading table, solar parameters and modelled radiation *)
From Verif Require Import ModelPy ModelConstants ModelNode ModelGrid ModelHeat ModelSurface ModelInit
  ModelCore ModelConfig ModelIO ModelMain ModelRadCor Spec SpecIO SpecRadCor LemPy LemGridBase LemDict
  LemIO LemIO5 LemSim LemHeat LemSurface LemRadCor LemShad LemShad2 LemShad3 LemShad4 LemShad5 LemShad6
  LemFinShade.

(** ** The table *)

(*@ C73 The table of a year is read where it was written.  For a time step of a whole number of hours that
   divides the day, the slot that the radiation model reads for a day and an hour of the time step holds the
   shading of the sun position of that day and hour: the shading in glacier cells while the sun is up, -1
   there while it is not, missing elsewhere.  No slot is overwritten by another day or hour. *)
Lemma shading_table_lem :
  forall solparam timecorr lat dem mask lats lons TCART k table doy hod,
    (1 <= k)%Z -> (k | 24)%Z ->
    LUTshad solparam timecorr lat dem mask lats lons (3600 * IZR k) TCART = Ok table ->
    (0 <= doy < 366)%Z -> (0 <= hod < 24)%Z -> (k | hod)%Z ->
    exists soldec tcorr sin_h h a slot,
      raster_get solparam doy 3 = Ok soldec /\ raster_get timecorr doy 3 = Ok tcorr /\
      shad_sun lat soldec tcorr TCART (IZR hod) = Ok (sin_h, h, a) /\
      py_get table (rad_slot (doy + 1) (IZR hod) (3600 * IZR k)) = Ok slot /\
      (0.01 < sin_h -> exists illu, relshad dem mask lats lons h a = Ok illu /\
         forall y x, (0 <= y < Z.of_nat (length lats))%Z -> (0 <= x < Z.of_nat (length lons))%Z ->
         exists b, cell_at mask y x = Some b /\
           (b = Some 1 -> cell_at slot y x <> None /\ cell_at slot y x = cell_at illu y x) /\
           (b <> Some 1 -> cell_at slot y x = Some None)) /\
      (~ 0.01 < sin_h ->
         forall y x, (0 <= y < Z.of_nat (length lats))%Z -> (0 <= x < Z.of_nat (length lons))%Z ->
         exists b, cell_at mask y x = Some b /\
           (b = Some 1 -> cell_at slot y x = Some (Some (-1))) /\
           (b <> Some 1 -> cell_at slot y x = Some None)).
Proof.
  intros solparam timecorr lat dem mask lats lons TCART k table doy hod Hk (m & Em) H Hd Hh (i & Ei).
  assert (Hm: (k * m = 24)%Z) by lia. subst hod.
  destruct (table_all solparam timecorr lat dem mask lats lons TCART k m Hk Hm table H) as (T1 & T2 & _).
  assert (Hi: (0 <= i < m)%Z) by nia.
  destruct (T2 doy i Hd Hi) as (slot & N & F). { unfold total. nia. }
  destruct F as (soldec & tcorr & sh & h & a & F1 & F2 & F3 & F4 & F5).
  exists soldec, tcorr, sh, h, a, slot. split; [exact F1|]. split; [exact F2|]. split; [exact F3|].
  split; [|split; assumption].
  rewrite (slot_lookup k m Hk Hm) by lia. rewrite py_get_nonneg by nia. rewrite N. reflexivity.
Qed.

Lemma for_loop_S {T} n i (body : Z -> T -> res T) s :
  for_loop (S n) i body s = (s' <- body i s ;; for_loop n (i + 1)%Z body s').
Proof. reflexivity. Qed.

(*@ C73 Time steps below one hour are not supported: no table can be computed for them. *)
Lemma subhourly_table_lem :
  forall solparam timecorr lat dem mask lats lons STEP TCART,
    0 < STEP < 3600 ->
    exists e, LUTshad solparam timecorr lat dem mask lats lons STEP TCART = Err e /\
      (raster_get solparam 0 3 <> Err e -> raster_get timecorr 0 3 <> Err e -> e = ZeroDivisionError).
Proof.
  intros solparam timecorr lat dem mask lats lons STEP TCART Hs. unfold LUTshad. rewrite fdiv_ok by lra. cbn [bind].
  destruct (Z.ltb_spec (py_int (366 * (3600 / STEP) * 24)) 0) as [L|L].
  { exfalso. assert (0 <= 366 * (3600 / STEP) * 24).
    { assert (0 < 3600 / STEP) by (apply Rdiv_lt_0_compat; lra). lra. }
    apply LemFinInit.py_int_spec in H. lia. }
  unfold for_range. change (Z.to_nat (366 - 0)) with (S 365). rewrite for_loop_S.
  destruct (raster_get solparam 0 3) as [sd|e]; cbn [bind]; [|exists e; split; [reflexivity|]; intros N; exfalso; apply N; reflexivity].
  destruct (raster_get timecorr 0 3) as [tc|e]; cbn [bind]; [|exists e; split; [reflexivity|]; intros _ N; exfalso; apply N; reflexivity].
  assert (E: py_int (STEP / 3600) = 0%Z).
  { assert (B: 0 <= STEP / 3600 < 1) by (split; apply (Rmult_le_reg_r 3600) || apply (Rmult_lt_reg_r 3600); try lra; field_simplify; lra).
    destruct (LemFinInit.py_int_spec (STEP / 3600)) as [P1 P2]; [lra|].
    assert (IZR (py_int (STEP / 3600)) < IZR 1) by lra. apply lt_IZR in H. lia. }
  rewrite E. cbn [hours_of_day Z.eqb bind]. exists ZeroDivisionError. split; [reflexivity|auto].
Qed.

(*@ C73 The table is built for another time than the one it is read for, unless the time step is one hour:
   the table places the sun in the middle of the hour, the radiation model in the middle of the time step.
   The two solar elevations agree for all inputs exactly if the time correction makes up for the difference,
   7.5 degrees of hour angle for every hour by which the time step exceeds one hour. *)
Lemma table_time_lem :
  forall lat soldec tcorr TCART hod k s,
    shad_sun lat soldec tcorr TCART (IZR hod) = Ok s ->
    fst (fst s) = rad_sin_h lat soldec (rad_stime 3600 (IZR hod) tcorr TCART) /\
    rad_stime (3600 * k) (IZR hod) tcorr TCART
      = rad_stime 3600 (IZR hod) tcorr TCART + 15 / 2 * (k - 1).
Proof.
  intros lat soldec tcorr TCART hod k s H. split; [|unfold rad_stime; field].
  rewrite shad_sun_exact in H. destruct (Req_EM_T _ 0); [discriminate|]. destruct (Req_EM_T _ 0); [discriminate|].
  injection H as <-. cbn [fst]. unfold rad_sin_h, rad_stime.
  replace (3600 / 3600 * 15 / 2) with (15 / 2) by field. unfold radians. ring.
Qed.

(*@ C73 So with the shipped three-hourly time step the two disagree: the table may hold "sun below the
   horizon" for a time at which the radiation model has the sun up. *)
Lemma table_time_refuted_lem :
  exists lat soldec tcorr TCART hod sin_h h a,
    shad_sun lat soldec tcorr TCART (IZR hod) = Ok (sin_h, h, a) /\ sin_h <= 0.01 /\
    0.01 < rad_sin_h lat soldec (rad_stime (3600 * 3) (IZR hod) tcorr TCART).
Proof.
  set (d := (-15/2)).
  assert (A0: asin 0 = 0) by (rewrite <- sin_0 at 1; apply asin_sin; pose proof PI_RGT_0; lra).
  assert (R0: radians 0 = 0) by (unfold radians; field).
  assert (E1: 180 + 15 / 2 - IZR 18 * 15 - 0 + d = -90) by (unfold d; field).
  assert (C90: cos (radians (-90)) = 0).
  { replace (radians (-90)) with (- (PI / 2)) by (unfold radians; field). rewrite cos_neg. apply cos_PI2. }
  exists 0, 0, 0, d, 18%Z. eexists _, _, _. rewrite shad_sun_exact. rewrite E1, R0, C90, sin_0, cos_0.
  replace (0 * 0 + 1 * 1 * 0) with 0 by ring. rewrite A0, cos_0.
  destruct (Req_EM_T 1 0); [lra|]. split; [reflexivity|]. split; [lra|].
  unfold rad_sin_h. rewrite sin_0, cos_0. replace (0 * PI / 180) with 0 by field. rewrite sin_0, cos_0.
  unfold rad_stime. replace ((180 + 3600 * 3 / 3600 * 15 / 2 - IZR 18 * 15 - 0 + d) * PI / 180) with (- (PI / 2 - PI / 12)) by (unfold d; field).
  rewrite cos_neg, cos_shift. pose proof PI_RGT_0.
  assert (S6: 2 * sin (PI / 12) * cos (PI / 12) = 1 / 2).
  { rewrite <- sin_2a. replace (2 * (PI / 12)) with (PI / 6) by field. apply sin_PI6. }
  assert (0 < sin (PI / 12)) by (apply sin_gt_0; lra). pose proof (COS_bound (PI / 12)). nra.
Qed.

(** ** Solar parameters *)

Lemma dec0_tan : tan 0.402449 > 0.4255.
Proof.
  set (x := 0.402449). pose proof PI_RGT_0 as PP. pose proof PI2_3_2.
  destruct (sin_bound x 0) as [S1 _]; [unfold x; lra|unfold x; lra|].
  destruct (cos_bound x 0) as [_ C1]; [unfold x; lra|unfold x; lra|].
  unfold sin_approx, cos_approx, sin_term, cos_term in S1, C1. cbn in S1, C1.
  assert (Cp: 0 < cos x) by (apply cos_gt_0; unfold x; lra).
  assert (S2: x - x ^ 3 / 6 <= sin x) by (cbn; lra).
  assert (C2: cos x <= 1 - x ^ 2 / 2 + x ^ 4 / 24) by (cbn; lra).
  unfold tan. apply Rlt_gt, (Rmult_lt_reg_r (cos x)); [exact Cp|]. replace (sin x / cos x * cos x) with (sin x) by (field; lra).
  assert (Q1: 0.4255 * (1 - x ^ 2 / 2 + x ^ 4 / 24) < x - x ^ 3 / 6) by (unfold x; lra). nra.
Qed.

Lemma tan_3PI8 : tan (3 * PI / 8) = 1 + sqrt 2.
Proof.
  pose proof PI_RGT_0 as PP. set (x := 3 * PI / 8).
  assert (Sx: 0 < sin x) by (apply sin_gt_0; unfold x; lra).
  assert (Cx: 0 < cos x) by (apply cos_gt_0; unfold x; lra).
  assert (S2: 2 * sin x * cos x = 1 / sqrt 2).
  { rewrite <- sin_2a, <- sin_3PI4. f_equal. unfold x. field. }
  assert (C2: 1 - 2 * sin x * sin x = -1 / sqrt 2).
  { rewrite <- cos_2a_sin, <- cos_3PI4. f_equal. unfold x. field. }
  pose proof sqrt2_bounds as B. pose proof (sqrt_sqrt 2 ltac:(lra)) as Q.
  assert (E: 2 * sin x * sin x = (1 + sqrt 2) * (2 * sin x * cos x)).
  { rewrite S2. replace (2 * sin x * sin x) with (1 - -1 / sqrt 2) by (rewrite <- C2; ring). field. lra. }
  unfold tan. apply (Rmult_eq_reg_r (cos x)); [|lra]. replace (sin x / cos x * cos x) with (sin x) by (field; lra). nra.
Qed.

Lemma polar_tan lat : 67.5 <= lat < 90 -> 2.414 < tan (radians lat).
Proof.
  intros H. pose proof PI_RGT_0 as PP. pose proof sqrt2_bounds. pose proof tan_3PI8.
  assert (3 * PI / 8 <= radians lat) by (unfold radians; nra).
  destruct H2 as [L|E]; [|rewrite <- E; lra].
  assert (tan (3 * PI / 8) < tan (radians lat)); [|lra]. apply tan_increasing; [lra|exact L|]. unfold radians. nra.
Qed.

(*@ C75 Beyond 67.5 degrees north or south no solar parameters can be computed: on the first day of the year
   there is no sunrise or no sunset, and the arccosine of the day length raises ValueError. *)
Lemma polar_solar_parameters_lem :
  forall lat, 67.5 <= Rabs lat < 90 -> solpars lat = Err ValueError.
Proof.
  intros lat H. unfold solpars. change (zrange 0 365) with (0%Z :: zrange 1 365). cbn [map_res].
  assert (E: solparam_row lat 0 = Err ValueError); [|rewrite E; reflexivity].
  unfold solparam_row. cbv zeta. replace (2 * PI * IZR 0 / 365) with 0 by (cbn; field).
  rewrite !Rmult_0_r, sin_0, cos_0.
  match goal with |- context [tan ?x] => match x with context [0.006918] =>
    replace x with (Ropp 0.402449) by lra end end.
  rewrite tan_neg. change (lat * PI / 180) with (radians lat). pose proof dec0_tan as D.
  rewrite py_acos_err; [reflexivity|].
  unfold Rabs in H. destruct (Rcase_abs lat) as [N|N].
  - pose proof (polar_tan (- lat) H) as T. replace (radians (- lat)) with (- radians lat) in T by (unfold radians; field).
    rewrite tan_neg in T. rewrite Rabs_left by nra. nra.
  - pose proof (polar_tan lat H) as T. rewrite Rabs_right by nra. nra.
Qed.

Lemma decl_bound tau :
  -1/2 < 0.006918 - 0.399912 * cos tau + 0.070257 * sin tau - 0.006758 * cos (2 * tau)
             + 0.000907 * sin (2 * tau) - 0.002697 * cos (3 * tau) + 0.00148 * sin (3 * tau) < 1/2.
Proof.
  pose proof (COS_bound tau). pose proof (SIN_bound tau). pose proof (COS_bound (2 * tau)). pose proof (SIN_bound (2 * tau)).
  pose proof (COS_bound (3 * tau)). pose proof (SIN_bound (3 * tau)). lra.
Qed.

Lemma tan_abs_bound a b : 0 < b < PI/2 -> - b <= a <= b -> Rabs (tan a) <= tan b.
Proof.
  intros Hb Ha. assert (L: tan a <= tan b).
  { destruct (proj2 Ha) as [L|E]; [left; apply tan_increasing; lra|rewrite E; lra]. }
  assert (M: - tan b <= tan a).
  { rewrite <- tan_neg. destruct (proj1 Ha) as [L'|E]; [left; apply tan_increasing; lra|rewrite E; lra]. }
  apply Rabs_le. lra.
Qed.

Lemma solparam_ok lat j : Rabs lat <= 60 -> exists tau ecc dec h,
  solparam_row lat j = Ok [tau; tau * 180 / PI; ecc; dec; dec * 180 / PI; h; 2 / 15 * h] /\
  -1/2 < dec < 1/2 /\ 0.9 < ecc < 1.1 /\ 0 <= h <= 180 /\
  cos (radians h) = - tan (radians lat) * tan dec.
Proof.
  intros Hl. pose proof PI_RGT_0 as PP. unfold solparam_row. cbv zeta. set (tau := 2 * PI * IZR j / 365).
  pose proof (decl_bound tau) as B. set (dec := 0.006918 - _ + _ - _ + _ - _ + _) in *.
  change (lat * PI / 180) with (radians lat).
  assert (T1: Rabs (tan (radians lat)) <= sqrt 3).
  { rewrite <- tan_PI3. apply tan_abs_bound; [lra|]. apply abs_inv in Hl. unfold radians. split; nra. }
  assert (T2: Rabs (tan dec) <= 1 / sqrt 3).
  { rewrite <- tan_PI6. apply tan_abs_bound; [lra|]. pose proof PI2_3_2. lra. }
  assert (S3: 0 < sqrt 3) by (apply sqrt_lt_R0; lra).
  assert (P: Rabs (- tan (radians lat) * tan dec) <= 1).
  { rewrite Rabs_mult, Rabs_Ropp. replace 1 with (sqrt 3 * (1 / sqrt 3)) by (field; lra).
    apply Rmult_le_compat; try apply Rabs_pos; assumption. }
  apply abs_inv in P. rewrite py_acos_ok by exact P. cbn [bind].
  eexists tau, _, dec, _. split; [reflexivity|]. split; [exact B|].
  split.
  { pose proof (COS_bound tau). pose proof (SIN_bound tau). pose proof (COS_bound (2 * tau)). pose proof (SIN_bound (2 * tau)). lra. }
  split.
  { pose proof (acos_bound (- tan (radians lat) * tan dec)) as [A1 A2]. set (w := acos _) in *.
    assert (E: w * 180 / PI * PI = w * 180) by (field; lra).
    split; apply (Rmult_le_reg_r PI); try lra. }
  unfold radians at 1. replace (acos (- tan (radians lat) * tan dec) * 180 / PI * PI / 180) with (acos (- tan (radians lat) * tan dec)) by (field; lra).
  apply cos_acos. exact P.
Qed.

(*@ C75 Up to 60 degrees the parameters of all 366 days are computed.  The declination stays within half a
   radian, the eccentricity factor within ten percent of one, and the hour angle of sunset is the one at
   which the sun of that declination touches the horizon; day 366 repeats day 365. *)
Lemma solar_parameters_lem :
  forall lat, Rabs lat <= 60 -> exists pars times,
    solpars lat = Ok (pars, times) /\ length pars = 366%nat /\ length times = 366%nat /\
    nth_error pars 365 = nth_error pars 364 /\ nth_error times 365 = nth_error times 364 /\
    forall doy, (0 <= doy < 366)%Z -> exists ecc dec h,
      raster_get pars doy 2 = Ok ecc /\ raster_get pars doy 3 = Ok dec /\ raster_get pars doy 5 = Ok h /\
      -1/2 < dec < 1/2 /\ 0.9 < ecc < 1.1 /\ 0 <= h <= 180 /\
      sin (radians lat) * sin dec + cos (radians lat) * cos dec * cos (radians h) = 0.
Proof.
  intros lat Hl. unfold solpars.
  destruct (map_res_progress (solparam_row lat) (zrange 0 365)) as (rows & ER).
  { intros j _. destruct (solparam_ok lat j Hl) as (tau & ecc & dec & h & -> & _). eauto. }
  rewrite ER. cbn [bind].
  assert (LR: length rows = 365%nat) by (rewrite (map_res_length _ _ _ ER); reflexivity).
  assert (LT: length (map timecorr_row (zrange 0 365)) = 365%nat) by (rewrite map_length; reflexivity).
  set (times := map timecorr_row (zrange 0 365)) in *.
  destruct (nth_error rows 364) as [last|] eqn:E1; [|apply nth_error_None in E1; lia].
  destruct (nth_error times 364) as [tlast|] eqn:E2; [|apply nth_error_None in E2; lia].
  rewrite !py_get_nonneg by lia. change (Z.to_nat 364) with 364%nat. rewrite E1, E2. cbn [bind].
  eexists _, _. split; [reflexivity|]. rewrite !app_length, LR, LT. split; [reflexivity|]. split; [reflexivity|].
  rewrite (nth_error_app2 rows) by lia. rewrite (nth_error_app2 times) by lia. rewrite LR, LT.
  rewrite (nth_error_app1 rows) by lia. rewrite (nth_error_app1 times) by lia. rewrite E1, E2.
  split; [reflexivity|]. split; [reflexivity|]. intros doy Hd.
  assert (ROW: forall row, nth_error (rows ++ [last]) (Z.to_nat doy) = Some row -> exists j, solparam_row lat j = Ok row).
  { intros row Er. assert (In row (rows ++ [last])) by (eapply nth_error_In; exact Er).
    apply in_app_iff in H as [I|[<-|[]]].
    - apply map_res_forall2 in ER. destruct (forall2_right _ _ _ _ ER I) as (j & _ & Ej). eauto.
    - apply nth_error_In in E1. apply map_res_forall2 in ER. destruct (forall2_right _ _ _ _ ER E1) as (j & _ & Ej). eauto. }
  destruct (nth_error (rows ++ [last]) (Z.to_nat doy)) as [row|] eqn:Er.
  2:{ apply nth_error_None in Er. rewrite app_length, LR in Er. cbn in Er. lia. }
  destruct (ROW row eq_refl) as (j & Ej). destruct (solparam_ok lat j Hl) as (tau & ecc & dec & h & Es & Bd & Be & Bh & Ch).
  rewrite Es in Ej. injection Ej as <-. exists ecc, dec, h.
  unfold raster_get. rewrite py_get_nonneg by lia. rewrite Er. cbn [bind].
  split; [reflexivity|]. split; [reflexivity|]. split; [reflexivity|]. split; [exact Bd|]. split; [exact Be|]. split; [exact Bh|].
  rewrite Ch. pose proof PI2_3_2. pose proof PI_RGT_0. apply abs_inv in Hl.
  assert (0 < cos (radians lat)) by (apply cos_gt_0; unfold radians; nra).
  assert (0 < cos dec) by (apply cos_gt_0; lra). unfold tan. field. lra.
Qed.

(** ** Modelled radiation *)

(*@ C74 The sun of the shading table: away from the poles, between midnight and midnight of the solar day,
   and unless the sun stands in the zenith or nadir, elevation and azimuth (clockwise from north) of the
   table are the direction of the sun. *)
Lemma table_sun_lem :
  forall lat dec tcorr TCART hod,
    let stime := 180 + 15 / 2 - hod * 15 - tcorr + TCART in
    -90 < lat < 90 -> - PI / 2 <= dec <= PI / 2 -> -180 <= stime <= 180 ->
    -1 < sin (radians lat) * sin dec + cos (radians lat) * cos dec * cos (radians stime) < 1 ->
    exists h a, shad_sun lat dec tcorr TCART hod = Ok (sin (radians h), h, a) /\ -90 < h < 90 /\
      direction (radians h) (radians a) = sun (radians lat) dec (radians stime).
Proof. intros. apply shad_sun_direction; assumption. Qed.

Lemma cell_rev {A} (a : raster A) y x : (0 <= y < Z.of_nat (length a))%Z ->
  cell_at (rev a) (Z.of_nat (length a) - 1 - y) x = cell_at a y x.
Proof.
  intros H. unfold cell_at. destruct (Z.leb_spec 0 (Z.of_nat (length a) - 1 - y)); [|lia]. destruct (Z.leb_spec 0 y); [|lia].
  cbn [andb]. destruct (0 <=? x)%Z; [|reflexivity].
  replace (nth_error (rev a) (Z.to_nat (Z.of_nat (length a) - 1 - y))) with (nth_error a (Z.to_nat y)); [reflexivity|].
  set (n := Z.to_nat y). replace (Z.to_nat (Z.of_nat (length a) - 1 - y)) with (length a - S n)%nat by lia.
  assert (L: (n < length a)%nat) by lia. clearbody n. clear -L.
  revert n L. induction a as [|r a IH]; intros n L; cbn in L; [lia|].
  cbn [rev length]. destruct n as [|n].
  - rewrite nth_error_app2 by (rewrite rev_length; lia). rewrite rev_length.
    replace (S (length a) - 1 - length a)%nat with O by lia. reflexivity.
  - cbn [nth_error]. rewrite nth_error_app1 by (rewrite rev_length; lia). rewrite (IH n) by lia. reflexivity.
Qed.

Lemma row_range {A} (a : raster A) y x v : cell_at a y x = Some v -> (0 <= y < Z.of_nat (length a))%Z /\ (0 <= x)%Z.
Proof.
  intros E. pose proof (cell_at_nonneg _ _ _ _ E) as [Py Px]. split; [|exact Px]. unfold cell_at in E.
  destruct (Z.leb_spec 0 y); [|lia]. destruct (Z.leb_spec 0 x); [|lia]. cbn [andb] in E.
  destruct (nth_error a (Z.to_nat y)) eqn:Er; [|discriminate].
  assert (Z.to_nat y < length a)%nat by (apply nth_error_Some; congruence). lia.
Qed.

Lemma raster_map_length {A B} (f : Z -> Z -> A -> res B) a b : raster_map f a = Ok b -> length b = length a.
Proof. intros H. eapply mapi_res_length; exact H. Qed.

Definition sun_up (lat dec stime : R) : R :=
  sin (radians lat) * sin dec + cos (radians lat) * cos dec * cos (radians stime).

Lemma rad_sin_up lat dec stime : rad_sin_h lat dec stime = sun_up lat dec stime.
Proof. unfold rad_sin_h, sun_up, radians. ring. Qed.

(*@ C74 While the sun is less than 0.01 (sine of the elevation) above the horizon the radiation is zero in
   glacier cells and missing in all others.  The rows of the result are in reverse order. *)
Lemma night_radiation_lem :
  forall vapour pars times doy hour lat T p rh cld dem mask slopes aspects table svf STEP TCART out
    dec tcorr y x z,
    calcRad vapour pars times doy hour lat T p rh cld dem mask slopes aspects table svf STEP TCART = Ok out ->
    raster_get pars (doy - 1) 3 = Ok dec -> raster_get times (doy - 1) 3 = Ok tcorr ->
    let stime := 180 + STEP / 3600 * 15 / 2 - hour * 15 - tcorr + TCART in
    sin (radians lat) * sin dec + cos (radians lat) * cos dec * cos (radians stime) <= 0.01 ->
    cell_at dem y x = Some z ->
    exists b, cell_at mask y x = Some b /\
      (b = Some 1 -> cell_at out (Z.of_nat (length dem) - 1 - y) x = Some (Some 0)) /\
      (b <> Some 1 -> cell_at out (Z.of_nat (length dem) - 1 - y) x = Some None).
Proof.
  intros vapour pars times doy hour lat T p rh cld dem mask slopes aspects table svf STEP TCART out dec tcorr y x z
    H Ed Et stime Hn Ez. unfold calcRad in H. rewrite Ed, Et in H. cbn [bind] in H.
  apply bind_ok in H as (ecc & Ee & H). fold (rad_stime STEP hour tcorr TCART) in stime.
  change (rad_stime STEP hour tcorr TCART) with stime in H. rewrite rad_sin_up in H. fold (sun_up lat dec stime) in Hn.
  destruct (Rltb_spec 0.01 (sun_up lat dec stime)) as [L|L]; [lra|].
  apply bind_ok in H as (sw & Es & H). injection H as <-.
  destruct (row_range _ _ _ _ Ez) as [Ry Px].
  rewrite <- (raster_map_length _ _ _ Es), cell_rev by (rewrite (raster_map_length _ _ _ Es); exact Ry).
  pose proof (raster_map_at _ _ _ y x Es) as M. rewrite Ez in M. destruct M as (w & M1 & M2).
  apply bind_ok in M1 as (b & Eb & M1). apply raster_get_ok in Eb; [|lia|lia]. exists b. split; [exact Eb|].
  injection M1 as <-. rewrite M2. destruct (num_eqb b 1) eqn:E.
  - apply num_eqb_spec in E. split; [|contradiction]. intros _. do 2 f_equal. ring.
  - split; [|reflexivity]. intros ->. cbn in E. destruct (Reqb_spec 1 1); [discriminate|congruence].
Qed.

(*@ C74 By day: the radiation of a cell is the direct radiation, reduced by the cloud cover, and the diffuse
   radiation of the visible part of the sky.  Direct radiation only reaches a cell that is not shaded by the
   terrain and does not face away from the sun; it is proportional to the cosine of the angle between the sun
   and the normal of the slope.  Under clouds the diffuse part is 4.6 percent of the clear-sky global
   radiation for no clouds, growing to 35 percent under a closed cover; for a clear sky it is the clear-sky
   diffuse radiation.  [tau], [direct] and [diffuse] are transmissivity and radiation of a clear sky on a
   horizontal surface. *)
Lemma day_radiation_lem :
  forall vapour pars times doy hour lat T p rh cld dem mask slopes aspects table svf STEP TCART out
    ecc dec tcorr y x z t q u vp c v tau direct diffuse,
    calcRad vapour pars times doy hour lat T p rh cld dem mask slopes aspects table svf STEP TCART = Ok out ->
    raster_get pars (doy - 1) 2 = Ok ecc ->
    raster_get pars (doy - 1) 3 = Ok dec -> raster_get times (doy - 1) 3 = Ok tcorr ->
    let stime := 180 + STEP / 3600 * 15 / 2 - hour * 15 - tcorr + TCART in
    let up := sin (radians lat) * sin dec + cos (radians lat) * cos dec * cos (radians stime) in
    0.01 < up ->
    cell_at dem y x = Some z ->
    cell_at T y x = Some (Some t) -> cell_at p y x = Some (Some q) -> cell_at rh y x = Some (Some u) ->
    cell_at cld y x = Some (Some c) -> cell_at svf y x = Some (Some v) -> 0 <= c ->
    vapour u t q = Some vp ->
    clear_sky ecc up (35 * / sqrt (1224 * up ^ 2 + 1)) q t z vp = Ok (tau, direct, diffuse) ->
    exists slot i slope aspect,
      py_get table (rad_slot doy hour STEP) = Ok slot /\ cell_at slot y x = Some i /\
      cell_at slopes y x = Some slope /\ cell_at aspects y x = Some aspect /\
      let cosine := dot (sun (radians lat) dec (radians stime)) (normal (radians slope) (radians aspect)) in
      -1 <= cosine <= 1 /\
      exists beam sky,
        cell_at out (Z.of_nat (length dem) - 1 - y) x = Some (Some (beam * (1 - c) + sky * v)) /\
        (i = Some 0 \/ cosine < 0 -> beam = 0) /\
        (i <> Some 0 -> 0 <= cosine -> beam = 1367 * ecc * cosine * tau) /\
        (c = 0 -> sky = diffuse) /\
        (0 < c -> sky = (direct + diffuse) * (0.304 * c + 0.046)).
Proof.
  intros vapour pars times doy hour lat T p rh cld dem mask slopes aspects table svf STEP TCART out
    ecc dec tcorr y x z t q u vp c v tau direct diffuse H Ee Ed Et stime up Hup Ez ET Ep Eu Ec Ev Hc Evp Ecs.
  unfold calcRad in H. rewrite Ed, Et, Ee in H. cbn [bind] in H.
  change (rad_stime STEP hour tcorr TCART) with stime in H. rewrite rad_sin_up in H. change (sun_up lat dec stime) with up in H.
  destruct (Rltb_spec 0.01 up) as [L|L]; [|contradiction].
  apply bind_ok in H as (sw & Es & H). injection H as <-. apply bind_ok in Es as (slot & Esl & Es).
  destruct (row_range _ _ _ _ Ez) as [Ry Px].
  rewrite <- (raster_map_length _ _ _ Es), cell_rev by (rewrite (raster_map_length _ _ _ Es); exact Ry).
  pose proof (raster_map_at _ _ _ y x Es) as M. rewrite Ez in M. destruct M as (w & M1 & M2).
  assert (Py: (0 <= y)%Z) by lia.
  apply raster_get_ok in ET, Ep, Eu, Ec, Ev; try assumption. rewrite ET, Ep, Eu in M1. cbn [bind] in M1.
  apply bind_ok in M1 as (slope & Eslo & M1). apply bind_ok in M1 as (aspect & Easp & M1).
  apply bind_ok in M1 as (i & Ei & M1). rewrite Ec, Ev in M1. cbn [bind] in M1. rewrite Evp in M1.
  change (rad_mopt up) with (35 * / sqrt (1224 * up ^ 2 + 1)) in M1. rewrite Ecs in M1.
  apply raster_get_ok in Eslo, Easp, Ei; try assumption.
  exists slot, i, slope, aspect. split; [exact Esl|]. split; [exact Ei|]. split; [exact Eslo|]. split; [exact Easp|].
  intros cosine. rewrite cos_zetap_dot in M1. change (dot _ _) with cosine in M1.
  split; [apply dot_bound; [apply sun_unit|apply normal_unit]|].
  unfold all_sky in M1. cbv zeta in M1.
  set (beam := if num_eqb i 0 then 0 else if Rltb cosine 0 then 0 else 1367 * ecc * cosine * tau) in *.
  exists beam, (if Rltb 0 c then (direct + diffuse) * (0.304 * c + 0.046) else diffuse).
  assert (BM: (i = Some 0 \/ cosine < 0 -> beam = 0) /\ (i <> Some 0 -> 0 <= cosine -> beam = 1367 * ecc * cosine * tau)).
  { unfold beam. destruct (num_eqb i 0) eqn:E.
    - apply num_eqb_spec in E. split; [reflexivity|]. contradiction.
    - destruct (Rltb_spec cosine 0) as [N|N]; split; intros; try reflexivity; try lra. destruct H as [->|H]; [|contradiction].
      cbn in E. destruct (Reqb_spec 0 0); [discriminate|congruence]. }
  destruct BM as [B1 B2].
  destruct (Rltb_spec 0 c) as [P|P].
  - injection M1 as <-. split.
    { rewrite M2. replace ((100 - 0.65 * 100 - 4.6) / 100 * c + 4.6 / 100) with (0.304 * c + 0.046) by lra.
      do 2 f_equal. ring. }
    split; [exact B1|]. split; [exact B2|]. split; intros; [lra|reflexivity].
  - assert (c = 0) by lra. subst c. destruct (Reqb_spec 0 0) as [_|N]; [|congruence]. injection M1 as <-.
    split; [rewrite M2; do 2 f_equal; ring|]. split; [exact B1|]. split; [exact B2|]. split; intros; [reflexivity|lra].
Qed.

Lemma np_power_nonneg x y r : np_power x y = Ok r -> 0 <= r.
Proof.
  unfold np_power. destruct (Rlt_dec 0 x); [|destruct (Req_EM_T x 0); [|discriminate]]; intros H; injection H as <-.
  - left. apply exp_pos.
  - lra.
Qed.

(*@ C74 The clear-sky transmissivity is not negative for air above zero kelvin with a vapour pressure that is
   not negative, and the direct radiation on a horizontal surface is the solar constant times eccentricity
   factor, sine of the elevation and transmissivity. *)
Lemma clear_sky_transmissivity_lem :
  forall ecc up q t z vp tau direct diffuse,
    0 < t -> 0 <= vp -> 0.01 < up ->
    clear_sky ecc up (35 * / sqrt (1224 * up ^ 2 + 1)) q t z vp = Ok (tau, direct, diffuse) ->
    0 <= tau /\ direct = 1367 * ecc * up * tau.
Proof.
  intros ecc up q t z vp tau direct diffuse Ht Hv Hu H. unfold clear_sky in H. cbv zeta in H.
  set (mo := 35 * / sqrt (1224 * up ^ 2 + 1)) in *.
  assert (Mp: 0 < mo).
  { unfold mo. apply Rmult_lt_0_compat; [lra|]. apply Rinv_0_lt_compat, sqrt_lt_R0. nra. }
  repeat (let v := fresh "v" in let E := fresh "E" in apply bind_ok in H as (v & E & H)).
  injection H as <- <- <-. split; [|reflexivity].
  repeat match goal with K : adiv _ _ = Ok _ |- _ => unfold adiv in K; destruct (Req_EM_T _ 0); [discriminate|]; injection K as <- end.
  repeat match goal with K : np_power _ _ = Ok _ |- _ => apply np_power_nonneg in K end.
  set (w := 46.5 * vp / t) in *.
  assert (W: 0 <= w) by (unfold w; apply Rmult_le_pos; [lra|]; left; apply Rinv_0_lt_compat, Ht).
  set (den := v5 + 6.385 * mo * w) in *.
  assert (D: 0 < den). { assert (0 <= mo * w) by (apply Rmult_le_pos; lra). unfold den in *. destruct (Rtotal_order (v5 + 6.385 * mo * w) 0) as [L|[L|L]]; nra. }
  apply Rmult_le_pos; [apply Rmult_le_pos; [apply Rmult_le_pos; left; apply exp_pos|assumption]|].
  apply (Rmult_le_reg_r den); [exact D|]. replace ((1 - 2.4959 * mo * w / den) * den) with (den - 2.4959 * mo * w) by (field; lra).
  assert (0 <= mo * w) by (apply Rmult_le_pos; lra). unfold den. lra.
Qed.

(*@ C74 Shade never brightens: of two runs that differ only in the shading table, a cell
   that is in shade in the second receives at most the radiation of the first.  Under a closed cloud cover
   both receive 35 percent of the clear-sky global radiation, times the sky view factor. *)
Lemma shade_darkens_lem :
  forall vapour pars times doy hour lat T p rh cld dem mask slopes aspects table table' svf STEP TCART out out'
    ecc dec tcorr y x z t q u vp c v tau direct diffuse slot',
    calcRad vapour pars times doy hour lat T p rh cld dem mask slopes aspects table svf STEP TCART = Ok out ->
    calcRad vapour pars times doy hour lat T p rh cld dem mask slopes aspects table' svf STEP TCART = Ok out' ->
    raster_get pars (doy - 1) 2 = Ok ecc -> 0 <= ecc ->
    raster_get pars (doy - 1) 3 = Ok dec -> raster_get times (doy - 1) 3 = Ok tcorr ->
    let stime := 180 + STEP / 3600 * 15 / 2 - hour * 15 - tcorr + TCART in
    let up := sin (radians lat) * sin dec + cos (radians lat) * cos dec * cos (radians stime) in
    0.01 < up ->
    cell_at dem y x = Some z ->
    cell_at T y x = Some (Some t) -> cell_at p y x = Some (Some q) -> cell_at rh y x = Some (Some u) ->
    cell_at cld y x = Some (Some c) -> cell_at svf y x = Some (Some v) -> 0 <= c <= 1 ->
    0 < t -> vapour u t q = Some vp -> 0 <= vp ->
    clear_sky ecc up (35 * / sqrt (1224 * up ^ 2 + 1)) q t z vp = Ok (tau, direct, diffuse) ->
    py_get table' (rad_slot doy hour STEP) = Ok slot' -> cell_at slot' y x = Some (Some 0) ->
    exists g g',
      cell_at out (Z.of_nat (length dem) - 1 - y) x = Some (Some g) /\
      cell_at out' (Z.of_nat (length dem) - 1 - y) x = Some (Some g') /\ g' <= g /\
      (c = 1 -> g' = g /\ g = 0.35 * (direct + diffuse) * v).
Proof.
  intros vapour pars times doy hour lat T p rh cld dem mask slopes aspects table table' svf STEP TCART out out'
    ecc dec tcorr y x z t q u vp c v tau direct diffuse slot' H H' Ee He Ed Et stime up Hup Ez ET Ep Eu Ec Ev Hc Ht Evp Hvp Ecs Esl Esh.
  destruct (clear_sky_transmissivity_lem _ _ _ _ _ _ _ _ _ Ht Hvp Hup Ecs) as [Tp _].
  destruct (day_radiation_lem vapour pars times doy hour lat T p rh cld dem mask slopes aspects table svf STEP TCART out
    ecc dec tcorr y x z t q u vp c v tau direct diffuse) as (sl & i & slo & asp & _ & Ei & _ & _ & CB & beam & sky & O & B1 & B2 & K1 & K2); try assumption; try apply Hc.
  destruct (day_radiation_lem vapour pars times doy hour lat T p rh cld dem mask slopes aspects table' svf STEP TCART out'
    ecc dec tcorr y x z t q u vp c v tau direct diffuse) as (sl' & i' & slo' & asp' & Esl2 & Ei' & _ & _ & _ & beam' & sky' & O' & B1' & _ & K1' & K2'); try assumption; try apply Hc.
  rewrite Esl in Esl2. injection Esl2 as <-. rewrite Esh in Ei'. injection Ei' as <-.
  specialize (B1' (or_introl eq_refl)). subst beam'.
  assert (SK: sky' = sky).
  { destruct (Rlt_dec 0 c) as [P|P]; [rewrite (K2 P), (K2' P); reflexivity|]. assert (c = 0) by lra. rewrite (K1 H0), (K1' H0). reflexivity. }
  subst sky'. eexists _, _. split; [exact O|]. split; [exact O'|]. split.
  - assert (0 <= beam); [|nra].
    set (cosine := dot _ _) in *. destruct (Rlt_dec cosine 0) as [N|N]; [rewrite B1 by (right; exact N); lra|].
    destruct (Classical_Prop.classic (i = Some 0)) as [E|E]; [rewrite B1 by (left; exact E); lra|].
    rewrite B2 by (assumption || lra). apply Rmult_le_pos; [|exact Tp]. apply Rmult_le_pos; [|lra]. lra.
  - intros ->. rewrite (K2 ltac:(lra)). split; [ring|]. lra.
Qed.
