(** * Lemmas on the terrain correction of radiation: sun position and distances *)
From Verif Require Import ModelPy ModelConstants ModelNode ModelGrid ModelHeat ModelSurface ModelInit
  ModelRadCor SpecRadCor LemPy.

Lemma py_asin_ok x : -1 <= x <= 1 -> py_asin x = Ok (asin x).
Proof. intros H. unfold py_asin. destruct (Rle_dec (Rabs x) 1) as [_|N]; [reflexivity|].
  exfalso; apply N. apply Rabs_le. exact H. Qed.

Lemma py_acos_ok x : -1 <= x <= 1 -> py_acos x = Ok (acos x).
Proof. intros H. unfold py_acos. destruct (Rle_dec (Rabs x) 1) as [_|N]; [reflexivity|].
  exfalso; apply N. apply Rabs_le. exact H. Qed.

Lemma py_acos_err x : 1 < Rabs x -> py_acos x = Err ValueError.
Proof. intros H. unfold py_acos. destruct (Rle_dec (Rabs x) 1); [lra|reflexivity]. Qed.

Lemma py_asin_inv x v : py_asin x = Ok v -> -1 <= x <= 1 /\ v = asin x.
Proof. unfold py_asin. destruct (Rle_dec (Rabs x) 1) as [H|]; [|discriminate].
  intros E; injection E as <-. split; [|reflexivity]. revert H. unfold Rabs. destruct (Rcase_abs x); lra. Qed.

Lemma trig1 x : sin x * sin x + cos x * cos x = 1.
Proof. pose proof (sin2_cos2 x) as H. unfold Rsqr in H. exact H. Qed.

Lemma sq_le1 x : x * x <= 1 -> -1 <= x <= 1.
Proof. intros. nra. Qed.

Lemma cos_sq1 x : cos x * cos x <= 1.
Proof. pose proof (trig1 x). nra. Qed.
Lemma sin_sq1 x : sin x * sin x <= 1.
Proof. pose proof (trig1 x). nra. Qed.

(** the length of the vector to the sun *)
Lemma elevation_bound l d w :
  -1 <= sin l * sin d + cos l * cos d * cos w <= 1.
Proof.
  apply sq_le1. pose proof (trig1 l). pose proof (trig1 d). pose proof (cos_sq1 w).
  set (a := sin l) in *. set (b := cos l) in *. set (c := sin d) in *. set (e := cos d) in *.
  set (k := cos w) in *.
  assert (0 <= (a * (e * k) - b * c) * (a * (e * k) - b * c)) by apply Rle_0_sqr.
  assert ((a * c + b * e * k) * (a * c + b * e * k)
          = (a*a+b*b) * (c*c + e*e*(k*k)) - (a * (e * k) - b * c) * (a * (e * k) - b * c)) by ring.
  rewrite H3, H. assert (e*e*(k*k) <= e*e) by nra. lra.
Qed.

Lemma north_bound l d w :
  -1 <= cos l * sin d - sin l * cos d * cos w <= 1.
Proof.
  pose proof (elevation_bound (PI/2 + l) d w) as H.
  replace (sin (PI/2 + l)) with (cos l) in H by (rewrite <- sin_shift; rewrite <- (sin_PI_x); f_equal; lra).
  replace (cos (PI/2 + l)) with (- sin l) in H.
  2:{ rewrite cos_plus, cos_PI2, sin_PI2. ring. }
  lra.
Qed.

Lemma azimuth_argument l d w :
  sin l * (sin l * sin d + cos l * cos d * cos w) - sin d
  = - cos l * (cos l * sin d - sin l * cos d * cos w).
Proof.
  pose proof (trig1 l). replace (sin d) with ((sin l * sin l + cos l * cos l) * sin d) at 2.
  - ring.
  - rewrite H. ring.
Qed.

Lemma azimuth_argument_bound l d w :
  -1 <= sin l * (sin l * sin d + cos l * cos d * cos w) - sin d <= 1.
Proof.
  rewrite azimuth_argument. pose proof (north_bound l d w). pose proof (cos_sq1 l).
  apply sq_le1. set (n := cos l * sin d - sin l * cos d * cos w) in *.
  replace (- cos l * n * (- cos l * n)) with ((cos l * cos l) * (n * n)) by ring.
  assert (n * n <= 1) by nra. assert (0 <= cos l * cos l) by apply Rle_0_sqr.
  assert (0 <= n * n) by apply Rle_0_sqr. nra.
Qed.

Lemma declination_bound day : -1 <= sin_declination day <= 1.
Proof.
  unfold sin_declination. set (s := sin _). assert (-1 <= s <= 1) by apply SIN_bound. lra.
Qed.

Lemma dec_argument day :
  0.39785 * sin ((278.97 + 0.9856 * day + 1.9165 * sin ((356.6 + 0.9856 * day) * (PI/180))) * (PI/180))
  = sin_declination day.
Proof.
  unfold sin_declination, radians. f_equal. f_equal. unfold Rdiv. rewrite !Rmult_assoc. reflexivity.
Qed.

Definition declination (day : R) : R := asin (sin_declination day).
Lemma sin_decl day : sin (declination day) = sin_declination day.
Proof. apply sin_asin. apply declination_bound. Qed.

Definition true_sin_h (lat day hour : R) : R :=
  sin (radians lat) * sin (declination day)
  + cos (radians lat) * cos (declination day) * cos (radians (15 * (hour - 12))).

Lemma sin_h_bound lat day hour : -1 <= true_sin_h lat day hour <= 1.
Proof. apply elevation_bound. Qed.

Lemma solarF_exact lat lon tz day hour :
  solarFParallel lat lon tz day hour =
  (let beta := asin (true_sin_h lat day hour) in
   q <- fdiv (acos (sin (radians lat) * true_sin_h lat day hour - sin (declination day)))
             (cos (radians lat)) ;;
   Ok (beta, PI/2 - beta,
       if Rltb hour 12 then q * sin (PI/2 - beta) * - (1) else q * sin (PI/2 - beta))).
Proof.
  unfold solarFParallel. cbv zeta. rewrite dec_argument.
  rewrite py_asin_ok by apply declination_bound. cbn [bind].
  fold (declination day). set (teta := (279.575 + 0.9856 * day) * (PI / 180)).
  set (tq := (- 104.7 * sin teta + 596.2 * sin (2 * teta) + 4.3 * sin (3 * teta)
                 - 12.7 * sin (4 * teta) - 429.3 * cos teta - 2 * cos (2 * teta)
                 + 19.3 * cos (3 * teta)) / 3600).
  set (LC := (tz - lon) / 15).
  replace (15 * (PI / 180) * (hour - LC - tq - (12 - LC - tq))) with (radians (15 * (hour - 12)))
    by (unfold radians; field).
  replace (lat * (PI / 180)) with (radians lat) by (unfold radians; field).
  fold (true_sin_h lat day hour). rewrite py_asin_ok by apply sin_h_bound. cbn [bind].
  rewrite cos_shift. rewrite sin_asin by apply sin_h_bound.
  rewrite py_acos_ok by apply azimuth_argument_bound. cbn [bind].
  destruct (fdiv _ _) as [q|e]; cbn [bind]; [|reflexivity].
  replace (Rltb (hour - LC - tq) (12 - LC - tq)) with (Rltb hour 12); [reflexivity|].
  destruct (Rltb_spec hour 12), (Rltb_spec (hour - LC - tq) (12 - LC - tq)); try reflexivity; lra.
Qed.

Lemma fdiv_ok a b : b <> 0 -> fdiv a b = Ok (a / b).
Proof. intros H. unfold fdiv. destruct (Req_EM_T b 0); [contradiction|reflexivity]. Qed.

Lemma fdiv_inv a b v : fdiv a b = Ok v -> b <> 0 /\ v = a / b.
Proof. unfold fdiv. destruct (Req_EM_T b 0); [discriminate|]. intros H; injection H as <-. auto. Qed.

(** ** haversine *)

Lemma half_angle x : sin (x / 2) ^ 2 = (1 - cos x) / 2.
Proof.
  replace (cos x) with (cos (2 * (x / 2))) by (f_equal; field). rewrite cos_2a_sin. field.
Qed.

Lemma haversine_argument lat1 lon1 lat2 lon2 :
  sin ((radians lat2 - radians lat1) / 2) ^ 2
  + cos (radians lat1) * cos (radians lat2) * sin ((radians lon2 - radians lon1) / 2) ^ 2
  = (1 - dot (on_sphere lat1 lon1) (on_sphere lat2 lon2)) / 2.
Proof.
  rewrite !half_angle. unfold dot, on_sphere. rewrite !cos_minus. field.
Qed.

Lemma on_sphere_unit lat lon : dot (on_sphere lat lon) (on_sphere lat lon) = 1.
Proof.
  unfold dot, on_sphere. pose proof (trig1 (radians lat)). pose proof (trig1 (radians lon)).
  replace (cos (radians lat) * cos (radians lon) * (cos (radians lat) * cos (radians lon))
    + cos (radians lat) * sin (radians lon) * (cos (radians lat) * sin (radians lon)))
    with (cos (radians lat) * cos (radians lat) * (sin (radians lon) * sin (radians lon) + cos (radians lon) * cos (radians lon)))
    by ring.
  rewrite H0. lra.
Qed.

Lemma dot_bound u v : dot u u = 1 -> dot v v = 1 -> -1 <= dot u v <= 1.
Proof.
  destruct u as [[a b] c], v as [[x y] z]. cbn [dot]. intros H1 H2.
  assert (0 <= (a + x) * (a + x)) by apply Rle_0_sqr. assert (0 <= (b + y) * (b + y)) by apply Rle_0_sqr.
  assert (0 <= (c + z) * (c + z)) by apply Rle_0_sqr.
  assert (0 <= (a - x) * (a - x)) by apply Rle_0_sqr. assert (0 <= (b - y) * (b - y)) by apply Rle_0_sqr.
  assert (0 <= (c - z) * (c - z)) by apply Rle_0_sqr. lra.
Qed.

Lemma dot_sym u v : dot u v = dot v u.
Proof. destruct u as [[a b] c], v as [[x y] z]. cbn [dot]. ring. Qed.

(** equality case *)
Lemma dot_one u v : dot u u = 1 -> dot v v = 1 -> dot u v = 1 -> u = v.
Proof.
  destruct u as [[a b] c], v as [[x y] z]. cbn [dot]. intros H1 H2 H3.
  assert (Q: (a - x) * (a - x) + (b - y) * (b - y) + (c - z) * (c - z) = 0) by lra.
  assert (0 <= (a - x) * (a - x)) by apply Rle_0_sqr. assert (0 <= (b - y) * (b - y)) by apply Rle_0_sqr.
  assert (0 <= (c - z) * (c - z)) by apply Rle_0_sqr.
  assert (a - x = 0) by (apply Rsqr_eq_0; unfold Rsqr; lra).
  assert (b - y = 0) by (apply Rsqr_eq_0; unfold Rsqr; lra).
  assert (c - z = 0) by (apply Rsqr_eq_0; unfold Rsqr; lra).
  f_equal; [f_equal|]; lra.
Qed.

Definition chord (lat1 lon1 lat2 lon2 : R) : R :=
  sqrt ((1 - dot (on_sphere lat1 lon1) (on_sphere lat2 lon2)) / 2).

Lemma sphere_dot_bound lat1 lon1 lat2 lon2 :
  -1 <= dot (on_sphere lat1 lon1) (on_sphere lat2 lon2) <= 1.
Proof. apply dot_bound; apply on_sphere_unit. Qed.

Lemma chord_bound lat1 lon1 lat2 lon2 : 0 <= chord lat1 lon1 lat2 lon2 <= 1.
Proof.
  unfold chord. pose proof (sphere_dot_bound lat1 lon1 lat2 lon2). split; [apply sqrt_pos|].
  apply Rle_trans with (sqrt 1); [apply sqrt_le_1_alt; lra|rewrite sqrt_1; lra].
Qed.

Lemma haversine_exact lat1 lon1 lat2 lon2 :
  haversine lat1 lon1 lat2 lon2 = Ok (2 * 6371000 * asin (chord lat1 lon1 lat2 lon2)).
Proof.
  unfold haversine. cbv zeta. rewrite haversine_argument. unfold py_root.
  pose proof (sphere_dot_bound lat1 lon1 lat2 lon2) as B.
  destruct (Rle_dec 0 _) as [_|N]; [|exfalso; apply N; lra]. cbn [bind]. fold (chord lat1 lon1 lat2 lon2).
  rewrite py_asin_ok; [reflexivity|]. pose proof (chord_bound lat1 lon1 lat2 lon2). lra.
Qed.

Lemma asin_chord_range lat1 lon1 lat2 lon2 : 0 <= asin (chord lat1 lon1 lat2 lon2) <= PI/2.
Proof.
  pose proof (chord_bound lat1 lon1 lat2 lon2) as B. pose proof (asin_bound (chord lat1 lon1 lat2 lon2)) as [L U].
  split; [|exact U]. destruct (Rle_dec 0 (asin (chord lat1 lon1 lat2 lon2))) as [H|N]; [exact H|exfalso].
  apply Rnot_le_lt in N. pose proof (sin_asin (chord lat1 lon1 lat2 lon2)) as E.
  pose proof PI_RGT_0.
  assert (sin (asin (chord lat1 lon1 lat2 lon2)) < 0) by (apply sin_lt_0_var; lra).
  rewrite E in H0; lra.
Qed.

Lemma cos_haversine lat1 lon1 lat2 lon2 :
  cos (2 * asin (chord lat1 lon1 lat2 lon2)) = dot (on_sphere lat1 lon1) (on_sphere lat2 lon2).
Proof.
  pose proof (chord_bound lat1 lon1 lat2 lon2) as B. pose proof (sphere_dot_bound lat1 lon1 lat2 lon2).
  rewrite cos_2a_sin, sin_asin by lra. unfold chord.
  rewrite Rmult_assoc, sqrt_sqrt by lra. field.
Qed.
