(** * Conversion of weather station data *)
From Verif Require Import ModelPy ModelConstants ModelNode ModelGrid ModelHeat ModelSurface ModelInit
  ModelCore ModelConfig ModelIO ModelMain ModelRadCor SpecIO SpecRadCor ModelAws SpecAws.
From Verif Require Import LemPy LemDict LemIO LemIO4 LemIO5 LemShad LemShad5 LemAws LemAws2 LemAws3 LemAws4 LemFinInput.
From Coq Require Import Sorted.

(** ** Corrections *)
Lemma bounds_range h : set_relative_humidity_bounds (Some h) = Some (humidity_range h).
Proof.
  unfold set_relative_humidity_bounds, humidity_range, Rltb.
  destruct (Rlt_dec 100.0 h), (Rlt_dec 100 h); try lra.
  - destruct (Rlt_dec 100.0 0.0); try lra. f_equal. lra.
  - destruct (Rlt_dec h 0.0), (Rlt_dec h 0); try lra; reflexivity.
Qed.

(*@ C51 The humidity written to the input file: values in [0, 100] are kept, larger ones become 100, negative ones 0.1; doing it twice changes nothing. *)
Lemma humidity_bounds_lem :
  forall h : R, exists h' : R,
    set_relative_humidity_bounds (Some h) = Some h' /\ 0 <= h' <= 100 /\
    (0 <= h <= 100 -> h' = h) /\ (100 < h -> h' = 100) /\ (h < 0 -> h' = 0.1) /\
    set_relative_humidity_bounds (Some h') = Some h'.
Proof.
  intros h. exists (humidity_range h). rewrite !bounds_range. unfold humidity_range.
  destruct (Rlt_dec 100 h), (Rlt_dec h 0); repeat split; intros; try lra; f_equal;
    repeat match goal with |- context [Rlt_dec ?a ?b] => destruct (Rlt_dec a b) end; lra.
Qed.

(*@ C51 The correction does not keep the order: a value below zero ends above a small positive one. *)
Lemma humidity_order_refuted_lem :
  exists a b a' b' : R, a < b /\ set_relative_humidity_bounds (Some a) = Some a' /\
    set_relative_humidity_bounds (Some b) = Some b' /\ b' < a'.
Proof.
  exists (-1), 0.05, (humidity_range (-1)), (humidity_range 0.05). rewrite !bounds_range.
  split; [lra|]. split; auto. split; auto. unfold humidity_range.
  repeat match goal with |- context [Rlt_dec ?a ?b] => destruct (Rlt_dec a b) end; lra.
Qed.

(*@ C51 The altitude correction adds lapse rate times height difference; with the limit no value is negative. *)
Lemma lapse_correction_lem :
  forall lapse dz v : R,
    set_bias lapse dz false (Some v) = Some (v + dz * lapse) /\
    set_bias lapse 0 false (Some v) = Some v /\
    exists b : R, set_bias lapse dz true (Some v) = Some b /\ 0 <= b /\
      (0 <= v + dz * lapse -> b = v + dz * lapse) /\ (v + dz * lapse <= 0 -> b = 0).
Proof.
  intros l z v. split; [reflexivity|]. split; [cbn; f_equal; ring|].
  exists (Rmax (v + z * l) 0). split; [reflexivity|]. split; [apply Rmax_r|].
  split; intros H; [apply Rmax_left|apply Rmax_right]; lra.
Qed.

Lemma np_power_pos x y : 0 < x -> np_power x y = Some (Rpower x y).
Proof. intros H. unfold np_power. destruct (Rlt_dec 0 x); [reflexivity|lra]. Qed.

Lemma barometric_formula alt e h p : 0 < standard_atmosphere alt -> 0 < standard_atmosphere h ->
  barometric alt e h (Some p) = Some (lapsed_pressure 5.255 e alt h p).
Proof.
  unfold standard_atmosphere. intros A B. unfold barometric. rewrite !np_power_pos by auto.
  assert (X := exp_pos (5.255 * ln (1 - 0.0065 * alt / 288.15))).
  destruct (Req_EM_T _ 0) as [E|E]; [unfold Rpower in E; lra|]. reflexivity.
Qed.

(*@ C52 Gridded conversion: a cell at the altitude of the station gets the pressure of the station. *)
Lemma grid_pressure_at_station_lem :
  forall alt p : R, 0 < standard_atmosphere alt -> barometric alt 5.255 alt (Some p) = Some p.
Proof.
  intros alt p A. rewrite barometric_formula by auto. unfold lapsed_pressure. f_equal.
  assert (X := exp_pos (5.255 * ln (standard_atmosphere alt))).
  field. unfold Rpower. lra.
Qed.

(*@ C52 Point conversion: the exponents differ, so a point at the altitude of the station gets the pressure of the station times a factor above 1, unless the altitude is zero. *)
Lemma point_pressure_at_station_lem :
  forall (cfg : AwsConfig) (p : R), 0 < standard_atmosphere (aw_stationAlt cfg) ->
    exists q : R, get_pressure_bias cfg (aw_stationAlt cfg) (Some p) = Some q /\
      q = p * Rpower (standard_atmosphere (aw_stationAlt cfg)) (Ropp 0.035) /\
      (0 < p -> 0 < aw_stationAlt cfg -> p < q) /\ (aw_stationAlt cfg = 0 -> q = p).
Proof.
  intros cfg p A. unfold get_pressure_bias. rewrite barometric_formula by auto. eexists. split; [reflexivity|].
  assert (E : lapsed_pressure 5.255 5.22 (aw_stationAlt cfg) (aw_stationAlt cfg) p =
    p * Rpower (standard_atmosphere (aw_stationAlt cfg)) (Ropp 0.035)).
  { unfold lapsed_pressure. unfold Rdiv. rewrite <- Rpower_Ropp. rewrite Rmult_assoc, <- Rpower_plus. f_equal. f_equal. lra. }
  rewrite E. split; [reflexivity|]. set (s := standard_atmosphere (aw_stationAlt cfg)) in *. split.
  - intros Hp Ha. assert (S1 : s < 1) by (unfold s, standard_atmosphere; lra).
    assert (1 < Rpower s (Ropp 0.035)).
    { unfold Rpower. rewrite <- exp_0 at 1. apply exp_increasing. assert (ln s < 0) by (rewrite <- ln_1; apply ln_increasing; lra). nra. }
    nra.
  - intros Ha. assert (s = 1) by (unfold s, standard_atmosphere; rewrite Ha; lra). rewrite H.
    unfold Rpower. rewrite ln_1, Rmult_0_r, exp_0. ring.
Qed.

(*@ C52 So the point conversion is not the identity at the station: 700 hPa measured at 3000 m become more than 700 hPa. *)
Lemma point_pressure_identity_refuted_lem :
  exists (cfg : AwsConfig) (q : R), aw_hgt cfg = aw_stationAlt cfg /\
    get_pressure_bias cfg (aw_hgt cfg) (Some 700) = Some q /\ 700 < q.
Proof.
  set (cfg := mkAwsConfig "" "" "" "" "" "" "" "" "" true false false 0%Z None false 0 0 0 0 true 0 0 3000 3000 0 0 0 0 0).
  assert (A : 0 < standard_atmosphere (aw_stationAlt cfg)) by (cbn; unfold standard_atmosphere; lra).
  destruct (point_pressure_at_station_lem cfg 700 A) as (q & E & _ & L & _). exists cfg, q. split; [reflexivity|].
  split; [exact E|]. apply L; cbn; lra.
Qed.

Lemma rpower_mono_base a b e : 0 < a -> a < b -> 0 < e -> Rpower a e < Rpower b e.
Proof.
  intros A B E. unfold Rpower. apply exp_increasing. apply Rmult_lt_compat_l; auto. apply ln_increasing; auto.
Qed.

(*@ C52 Both conversions: the pressure is positive, proportional to the pressure of the station and falls with height. *)
Lemma pressure_falls_with_height_lem :
  forall (e alt h1 h2 p : R), e = 5.22 \/ e = 5.255 -> 0 < p ->
    0 < standard_atmosphere alt -> h1 < h2 -> 0 < standard_atmosphere h2 ->
    exists p1 p2 : R, barometric alt e h1 (Some p) = Some p1 /\ barometric alt e h2 (Some p) = Some p2 /\
      0 < p2 < p1 /\ (forall k : R, barometric alt e h1 (Some (k * p)) = Some (k * p1)).
Proof.
  intros e alt h1 h2 p He Hp A L B.
  assert (C : 0 < standard_atmosphere h1) by (unfold standard_atmosphere in *; lra).
  assert (D : standard_atmosphere h2 < standard_atmosphere h1) by (unfold standard_atmosphere in *; lra).
  rewrite !barometric_formula by auto. do 2 eexists. split; [reflexivity|]. split; [reflexivity|].
  unfold lapsed_pressure. assert (X := exp_pos (5.255 * ln (standard_atmosphere alt))).
  fold (Rpower (standard_atmosphere alt) 5.255) in X.
  assert (Y : 0 < p / Rpower (standard_atmosphere alt) 5.255) by (apply Rdiv_lt_0_compat; auto).
  assert (Ee : 0 < e) by (destruct He; lra).
  pose proof (rpower_mono_base _ _ _ B D Ee) as Z.
  assert (W := exp_pos (e * ln (standard_atmosphere h2))). fold (Rpower (standard_atmosphere h2) e) in W.
  split; [split; [apply Rmult_lt_0_compat; auto|apply Rmult_lt_compat_l; auto]|].
  intros k. rewrite barometric_formula by auto. unfold lapsed_pressure. f_equal. field. lra.
Qed.

(** ** Point input *)
Lemma slice_nonempty (l : list number) : check_temperature_bounds l = Ok tt -> l <> [].
Proof. intros H E. subst. discriminate. Qed.

(*@ C76 Times of the file written for a point: the full hours from the hour of the first row to the hour of the last row of the station file, each once and in order, that lie between the two dates if both are given. *)
Lemma point_file_times_lem :
  forall parse (cfg : AwsConfig) (csv : frame) static sd ed f w,
    NoDup (column_names cfg) ->
    create_1D_input parse cfg csv static sd ed = Ok (f, w) ->
    StronglySorted Z.lt (nf_time f) /\ nf_time f <> [] /\
    forall b : Z, In b (nf_time f) <-> hour_in_file parse csv sd ed b.
Proof.
  intros parse cfg csv static sd ed f w ND H. destruct (point_ok _ _ _ _ _ _ _ _ ND H) as (_ & HT & _ & _ & CT & _).
  split; [rewrite HT; apply sorted_filter, sorted_bins; lia|]. split.
  - apply slice_nonempty in CT. intros E. rewrite E in CT. apply CT. reflexivity.
  - intros b. rewrite HT, filter_In, in_hours. unfold hour_in_file. tauto.
Qed.

Lemma point_find f n dims l u : dict_find (nf_vars f) n = Some (mkVariable dims (point_series l) (fst u) (snd u)) ->
  file_series f n 0 0 = Some l.
Proof. intros H. unfold file_series. rewrite H. reflexivity. Qed.
Lemma point_find1 f n dims v u : dict_find (nf_vars f) n = Some (mkVariable dims (point v) (fst u) (snd u)) ->
  file_series f n 0 0 = Some [v].
Proof. intros H. unfold file_series. rewrite H. reflexivity. Qed.

Lemma kelvin_bias cfg l z v : set_bias l z false (to_kelvin cfg v) = option_map (fun x => kelvin cfg x + z * l) v.
Proof. unfold to_kelvin, kelvin. destruct (aw_in_K cfg), v; reflexivity. Qed.
Lemma humid_bias l z v : set_relative_humidity_bounds (set_bias l z false v) = option_map (fun x => humidity_range (x + z * l)) v.
Proof. destruct v; [|reflexivity]. cbn [set_bias option_map]. apply bounds_range. Qed.
Lemma limit_bias l z v : set_bias l z true v = option_map (fun x => Rmax (x + z * l) 0) v.
Proof. destruct v; reflexivity. Qed.
Lemma press_bias cfg h v : 0 < standard_atmosphere (aw_stationAlt cfg) -> 0 < standard_atmosphere h ->
  get_pressure_bias cfg h v = option_map (lapsed_pressure 5.255 5.22 (aw_stationAlt cfg) h) v.
Proof. intros A B. destruct v; [apply barometric_formula; auto|reflexivity]. Qed.

(*@ C76 Content of the file written for a point.  Temperature, humidity, wind, radiation and pressure of an hour are the means of the rows of that hour, precipitation and snowfall the sums, after gaps have been filled with the last known value; the altitude correction is made once, with the height difference between point and station.  An optional column without any number is left out. *)
Lemma point_file_content_lem :
  forall parse (cfg : AwsConfig) (csv : frame) static sd ed f w,
    NoDup (column_names cfg) -> rectangular csv ->
    (forall st, static = Some st -> plain_static st) ->
    create_1D_input parse cfg csv static sd ed = Ok (f, w) ->
    let dz := aw_hgt cfg - aw_stationAlt cfg in
    let holds name value := file_series f name 0 0 = Some (map value (nf_time f)) in
    let optional column name value :=
      (has_number csv column -> holds name value) /\
      (~ has_number csv column -> dict_find (nf_vars f) name = None) in
    holds "T2"%string (fun b => option_map (fun v => kelvin cfg v + dz * aw_lapse_T cfg)
                                           (hourly_mean csv (aw_T2 cfg) b)) /\
    holds "RH2"%string (fun b => option_map (fun v => humidity_range (v + dz * aw_lapse_RH cfg))
                                            (hourly_mean csv (aw_RH2 cfg) b)) /\
    holds "U2"%string (hourly_mean csv (aw_U2 cfg)) /\
    holds "G"%string (hourly_mean csv (aw_G cfg)) /\
    (0 < standard_atmosphere (aw_stationAlt cfg) -> 0 < standard_atmosphere (aw_hgt cfg) ->
     holds "PRES"%string (fun b => option_map (lapsed_pressure 5.255 5.22 (aw_stationAlt cfg) (aw_hgt cfg))
                                              (hourly_mean csv (aw_PRES cfg) b))) /\
    optional (aw_RRR cfg) "RRR"%string
      (fun b => option_map (fun v => Rmax (v + dz * aw_lapse_RRR cfg) 0) (hourly_total csv (aw_RRR cfg) b)) /\
    optional (aw_SNOWFALL cfg) "SNOWFALL"%string
      (fun b => option_map (fun v => Rmax (v + dz * aw_lapse_SNOWFALL cfg) 0)
                           (hourly_total csv (aw_SNOWFALL cfg) b)) /\
    optional (aw_LWin cfg) "LWin"%string (hourly_mean csv (aw_LWin cfg)) /\
    optional (aw_N cfg) "N"%string (hourly_mean csv (aw_N cfg)).
Proof.
  intros parse cfg csv static sd ed f w ND RE PS H dz holds optional.
  destruct (point_ok _ _ _ _ _ _ _ _ ND H) as (_ & _ & _ & _ & _ & _ & vars0 & a0 & s0 & m0 & HC & _ & _ & _ & _ & _ & VN & VS).
  assert (REQ : forall n l, dict_find (point_vars cfg csv (nf_time f)) n = Some (Some (point_series l)) -> file_series f n 0 0 = Some l).
  { intros n l E. destruct (VS n _ E) as (u & _ & F). eapply point_find. exact F. }
  assert (NUM : forall n k, k <> Sum -> (existsb is_number (hour_column csv k n) = true <-> has_number csv n)).
  { intros n k NE. rewrite hour_column_number by auto. apply has_number_iff. }
  assert (MX : forall n b, aggregate Mean (during b 3600 (f_index csv) (carried (column_or_nan csv n))) = hourly_mean csv n b)
    by (intros; apply mean_mean_of).
  assert (TX : forall n b, aggregate NanSum (during b 3600 (f_index csv) (carried (column_or_nan csv n))) = hourly_total csv n b)
    by (intros; apply nansum_total).
  assert (OPT : forall c n k g value, k <> Sum ->
    dict_find (point_vars cfg csv (nf_time f)) n = Some (if existsb is_number (hour_column csv k c)
      then Some (point_series (map (fun b => g (aggregate k (during b 3600 (f_index csv) (carried (column_or_nan csv c))))) (nf_time f))) else None) ->
    (forall b, g (aggregate k (during b 3600 (f_index csv) (carried (column_or_nan csv c)))) = value b) ->
    dict_find variable_metadata n <> None -> ~ In n ["HGT"; "SLOPE"; "ASPECT"; "MASK"]%string -> optional c n value).
  { intros c n k g value NE E EV MD NI. pose proof (NUM c k NE) as NU. split; intros HN.
    - unfold holds. apply NU in HN. rewrite HN in E. rewrite <- (map_ext _ _ EV). apply REQ. exact E.
    - destruct (existsb is_number (hour_column csv k c)); [exfalso; tauto|].
      rewrite (VN n E). eapply coordinates_plain; eauto. }
  split; [unfold holds; erewrite map_ext; [apply (REQ "T2"%string); reflexivity|intros b; symmetry; apply kelvin_bias]|].
  split; [unfold holds; erewrite map_ext; [apply (REQ "RH2"%string); reflexivity|intros b; symmetry; apply humid_bias]|].
  split; [apply (REQ "U2"%string); reflexivity|]. split; [apply (REQ "G"%string); reflexivity|].
  split; [intros A B; unfold holds; erewrite map_ext; [apply (REQ "PRES"%string); reflexivity|intros b; symmetry; apply press_bias; auto]|].
  split; [apply (OPT (aw_RRR cfg) "RRR"%string NanSum (set_bias (aw_lapse_RRR cfg) (aw_hgt cfg - aw_stationAlt cfg) true)); [discriminate|reflexivity|intros b; rewrite TX; apply limit_bias|discriminate|cbn; intuition discriminate]|].
  split; [apply (OPT (aw_SNOWFALL cfg) "SNOWFALL"%string NanSum (set_bias (aw_lapse_SNOWFALL cfg) (aw_hgt cfg - aw_stationAlt cfg) true)); [discriminate|reflexivity|intros b; rewrite TX; apply limit_bias|discriminate|cbn; intuition discriminate]|].
  split; [apply (OPT (aw_LWin cfg) "LWin"%string Mean (fun v => v)); [discriminate|reflexivity|intros b; apply MX|discriminate|cbn; intuition discriminate]|].
  apply (OPT (aw_N cfg) "N"%string Mean (fun v => v)); [discriminate|reflexivity|intros b; apply MX|discriminate|cbn; intuition discriminate].
Qed.

(** ** Missing values *)
Lemma find_values f n v l : dict_find (nf_vars f) n = Some v -> cell_at (v_data v) 0 0 = Some (Series l) ->
  forall x, In x l -> In x (array_values (v_data v)).
Proof.
  intros _ H x HI. unfold cell_at in H. cbn in H. destruct (v_data v) as [|row t]; [discriminate|].
  destruct row as [|b r]; [discriminate|]. injection H as ->. cbn. apply in_or_app. left. apply in_or_app. left. exact HI.
Qed.

Lemma point_values parse cfg csv static sd ed f w n l : NoDup (column_names cfg) ->
  create_1D_input parse cfg csv static sd ed = Ok (f, w) -> file_series f n 0 0 = Some l ->
  forall x, In x l -> x <> None.
Proof.
  intros ND H FS x HI. destruct (point_ok _ _ _ _ _ _ _ _ ND H) as (_ & _ & _ & _ & _ & NN & _).
  unfold file_series in FS. destruct (dict_find (nf_vars f) n) as [v|] eqn:E; [|discriminate].
  destruct (cell_at (v_data v) 0 0) as [[l'|]|] eqn:EC; try discriminate. injection FS as ->.
  apply (NN n v); [apply find_in; exact E|]. eapply find_values; eauto.
Qed.

Lemma point_cells parse cfg csv static sd ed f w : create_1D_input parse cfg csv static sd ed = Ok (f, w) ->
  Forall (fun nv => exists l, v_data (snd nv) = [[Series l]]) (nf_vars f).
Proof.
  intros H. unfold create_1D_input in H.
  apply bind_ok in H as (df0 & _ & H). apply bind_ok in H as (df & _ & H).
  apply bind_ok in H as ([[lat lon] vars0] & HC & H). apply bind_ok in H as (df1 & _ & H). cbv zeta in H.
  apply bind_ok in H as (T2 & _ & H). apply bind_ok in H as ([] & _ & H).
  apply bind_ok in H as (RH2 & _ & H). apply bind_ok in H as (U2 & _ & H). apply bind_ok in H as (G & _ & H).
  apply bind_ok in H as (PRES & _ & H). apply bind_ok in H as ([[aspect slope] mask] & _ & H).
  apply bind_ok in H as (vars1 & HV1 & H). apply bind_ok in H as (vars2 & HV2 & H).
  apply bind_ok in H as ([] & _ & H). apply bind_ok in H as (warn & _ & H). injection H as H _. subst f. cbn [nf_vars].
  set (Q := fun v : variable => exists l, v_data v = [[Series l]]).
  assert (B0 : Forall (fun nv => Q (snd nv)) vars0).
  { unfold point_coordinates in HC. destruct (aw_WRF cfg); [injection HC as _ _ <-; constructor|].
    destruct static as [st|]; [|injection HC as _ _ <-; constructor].
    apply bind_ok in HC as (iy & _ & HC). apply bind_ok in HC as (ix & _ & HC). cbv zeta in HC.
    apply bind_ok in HC as (h & _ & HC). apply bind_ok in HC as (s & _ & HC). apply bind_ok in HC as (a & _ & HC).
    apply bind_ok in HC as (m & _ & HC). apply bind_ok in HC as (other & HO & HC).
    assert (E : vars0 = dict_union other [("HGT", scalar_variable (Some h)); ("SLOPE", scalar_variable (Some s));
               ("ASPECT", scalar_variable (Some a)); ("MASK", scalar_variable m)]%string) by congruence.
    rewrite E. cbn [dict_union fold_left fst snd].
    repeat (apply set_forall; [|cbn [snd]; unfold Q; eexists; reflexivity]).
    apply Forall_forall. intros [k v] HI. apply map_res_forall2 in HO. eapply forall2_right in HO; [|exact HI].
    destruct HO as ([k' r] & _ & HO). cbn [fst snd] in *. apply bind_ok in HO as (x & _ & HO).
    injection HO as _ HO. subst v. unfold Q. eexists. reflexivity. }
  eapply add_variables_forall with (Q := Q) in HV1; [|exact B0|].
  2:{ intros n a u s HI. cbn in HI. repeat (destruct HI as [HI|HI]; [injection HI as _ <-; unfold Q; eexists; reflexivity|]). destruct HI. }
  eapply add_variables_forall with (Q := Q) in HV2; [exact HV2|exact HV1|].
  intros n a u s HI. unfold if_column in HI. cbn in HI.
  repeat (destruct HI as [HI|HI]; [
    try (injection HI as _ <-; unfold Q; eexists; reflexivity; fail);
    match type of HI with context [dict_find ?d ?m] => destruct (dict_find d m); cbn in HI; [injection HI as _ <-; unfold Q; eexists; reflexivity|discriminate] end|]).
  destruct HI.
Qed.

(*@ C78 The file written for a point has no missing value, and the check that the model makes before it simulates the point accepts it. *)
Lemma point_file_complete_lem :
  forall parse (cfg : AwsConfig) (csv : frame) static sd ed f w,
    NoDup (column_names cfg) ->
    create_1D_input parse cfg csv static sd ed = Ok (f, w) ->
    (forall n v, In (n, v) (nf_vars f) -> ~ In None (array_values (v_data v))) /\
    check_for_nan (gridded f) 0 0 = Ok tt.
Proof.
  intros parse cfg csv static sd ed f w ND H. destruct (point_ok _ _ _ _ _ _ _ _ ND H) as (_ & _ & _ & _ & _ & NN & _).
  split; [intros n v HI X; apply (NN n v HI None X); reflexivity|].
  pose proof (point_cells _ _ _ _ _ _ _ _ H) as PC. unfold check_for_nan, gridded. cbn [g_vars].
  rewrite (map_res_pure _ (fun nv => match snd nv with [[b]] => b | _ => Series [] end)).
  2:{ intros [n a] HI. apply in_map_iff in HI. destruct HI as ([m v] & E & HI). injection E as <- <-. cbn [fst snd].
      rewrite Forall_forall in PC. destruct (PC _ HI) as (l & El). cbn [snd] in El. rewrite El. reflexivity. }
  cbn [bind]. match goal with |- (if ?e then _ else _) = _ => destruct e eqn:EX; [|reflexivity] end.
  exfalso. apply existsb_exists in EX. destruct EX as (b & HI & EX). apply in_map_iff in HI. destruct HI as ([n a] & EB & HI).
  apply in_map_iff in HI. destruct HI as ([m v] & E & HI). injection E as <- <-. cbn [fst snd] in *.
  rewrite Forall_forall in PC. destruct (PC _ HI) as (l & El). cbn [snd] in El. rewrite El in EB. subst b. cbn [block_values] in EX.
  apply existsb_exists in EX. destruct EX as (x & HX & EX). destruct x; [discriminate|].
  apply (NN _ _ HI None); [|reflexivity]. rewrite El. cbn. rewrite !app_nil_r. exact HX.
Qed.

(*@ C78 A station file with an hour without rows is not converted: every hour of the file has at least one row of the station file, with numbers for all five required columns known by then. *)
Lemma point_hours_have_rows_lem :
  forall parse (cfg : AwsConfig) (csv : frame) static sd ed f w,
    NoDup (column_names cfg) -> rectangular csv ->
    (forall st, static = Some st -> plain_static st) ->
    create_1D_input parse cfg csv static sd ed = Ok (f, w) ->
    forall b : Z, hour_in_file parse csv sd ed b ->
      (exists t : Z, In t (f_index csv) /\ (b <= t < b + 3600)%Z) /\
      forall n, In n [aw_T2 cfg; aw_RH2 cfg; aw_U2 cfg; aw_G cfg; aw_PRES cfg] -> hourly_mean csv n b <> None.
Proof.
  intros parse cfg csv static sd ed f w ND RE PS H b HB.
  pose proof (proj2 (proj2 (point_file_times_lem _ _ _ _ _ _ _ _ ND H)) b) as HT. apply HT in HB. clear HT.
  assert (VV : forall n g, file_series f n 0 0 = Some (map g (nf_time f)) -> g b <> None).
  { intros n g E. eapply point_values; [exact ND|exact H|exact E|]. apply in_map. exact HB. }
  pose proof (point_file_content_lem _ _ _ _ _ _ _ _ ND RE PS H) as (C1 & C2 & C3 & C4 & _).
  apply VV in C1. apply VV in C2. apply VV in C3. apply VV in C4.
  assert (C5 : hourly_mean csv (aw_PRES cfg) b <> None).
  { destruct (point_ok _ _ _ _ _ _ _ _ ND H) as (_ & _ & _ & _ & _ & _ & vars0 & a0 & s0 & m0 & _ & _ & _ & _ & _ & _ & _ & VS).
    destruct (VS "PRES"%string _ eq_refl) as (u & _ & F). apply point_find in F.
    apply (VV _ (fun b => get_pressure_bias cfg (aw_hgt cfg) (hourly_mean csv (aw_PRES cfg) b))) in F. intros X. apply F. rewrite X. reflexivity. }
  split.
  - destruct (hourly_mean csv (aw_T2 cfg) b) as [v|] eqn:E; [|exfalso; apply C1; reflexivity].
    unfold hourly_mean in E. destruct (reals_of (during b 3600 (f_index csv) (carried (column_or_nan csv (aw_T2 cfg))))) as [|x r] eqn:ER.
    + unfold mean_of in E. rewrite ER in E. discriminate.
    + assert (HX : In x (reals_of (during b 3600 (f_index csv) (carried (column_or_nan csv (aw_T2 cfg)))))) by (rewrite ER; left; auto).
      apply in_reals, in_during in HX. destruct HX as (t & HX & HR). apply in_combine_l in HX. eauto.
  - intros n HN. cbn in HN. destruct HN as [<-|[<-|[<-|[<-|[<-|[]]]]]]; auto.
    + intros X. apply C1. rewrite X. reflexivity.
    + intros X. apply C2. rewrite X. reflexivity.
Qed.

(** ** Temperature *)
Lemma temperature_bounds_iff l : check_temperature_bounds l = Ok tt <->
  l <> [] /\ forall x, In (Some x) l -> 173.16 <= x <= 373.16.
Proof.
  unfold check_temperature_bounds. destruct l as [|a t]; [split; [discriminate|intros [X _]; congruence]|].
  set (l := a :: t). assert (NE : l <> []) by discriminate. clearbody l.
  destruct (reals_of l) as [|x r] eqn:E.
  - split; [intros _; split; auto|reflexivity]. intros x HX. apply in_reals in HX. rewrite E in HX. destruct HX.
  - assert (IR : forall v, In v (x :: r) <-> In (Some v) l) by (intros v; rewrite <- E; apply in_reals).
    pose proof (max_list_lt 373.16 x r) as MX. pose proof (min_list_lt 173.16 x r) as MN.
    destruct (Rltb 373.16 (max_list x r)).
    + split; [discriminate|]. intros (_ & B). destruct (proj1 MX eq_refl) as (v & HI & HV). apply IR in HI. apply B in HI. lra.
    + destruct (Rltb (min_list x r) 173.16).
      * split; [discriminate|]. intros (_ & B). destruct (proj1 MN eq_refl) as (v & HI & HV). apply IR in HI. apply B in HI. lra.
      * split; [|reflexivity]. intros _. split; auto. intros v HI. apply IR in HI. split.
        -- destruct (Rle_dec 173.16 v); auto. exfalso. assert (X : false = true) by (apply MN; exists v; split; auto; lra). discriminate.
        -- destruct (Rle_dec v 373.16); auto. exfalso. assert (X : false = true) by (apply MX; exists v; split; auto; lra). discriminate.
Qed.

(*@ C79 Every temperature written for a point lies between 173.16 K and 373.16 K. *)
Lemma point_temperature_range_lem :
  forall parse (cfg : AwsConfig) (csv : frame) static sd ed f w l,
    NoDup (column_names cfg) ->
    create_1D_input parse cfg csv static sd ed = Ok (f, w) -> file_series f "T2"%string 0 0 = Some l ->
    forall v, In v l -> exists x : R, v = Some x /\ 173.16 <= x <= 373.16.
Proof.
  intros parse cfg csv static sd ed f w l ND H FS v HI.
  pose proof (point_values _ _ _ _ _ _ _ _ _ _ ND H FS v HI) as NN. destruct v as [x|]; [|congruence]. exists x. split; auto.
  destruct (point_ok _ _ _ _ _ _ _ _ ND H) as (_ & _ & _ & _ & CT & _ & vars0 & a0 & s0 & m0 & _ & _ & _ & _ & _ & _ & _ & VS).
  destruct (VS "T2"%string _ eq_refl) as (u & _ & F). apply point_find in F. rewrite F in FS. injection FS as FS.
  apply temperature_bounds_iff in CT. destruct CT as [_ CT]. apply CT. rewrite FS. exact HI.
Qed.

(*@ C79 Degrees declared as Kelvin, or Kelvin declared as degrees, are rejected: with natural temperatures (between 180 K and 330 K at the point) only the right setting of in_K is converted. *)
Lemma temperature_unit_detected_lem :
  forall parse (cfg : AwsConfig) (csv : frame) static sd ed f w,
    NoDup (column_names cfg) -> rectangular csv ->
    (forall st, static = Some st -> plain_static st) ->
    create_1D_input parse cfg csv static sd ed = Ok (f, w) ->
    let dz := aw_hgt cfg - aw_stationAlt cfg in
    forall b v, hour_in_file parse csv sd ed b -> hourly_mean csv (aw_T2 cfg) b = Some v ->
      (180 <= v + dz * aw_lapse_T cfg <= 330 -> aw_in_K cfg = true) /\
      (180 <= v + 273.16 + dz * aw_lapse_T cfg <= 330 -> aw_in_K cfg = false).
Proof.
  intros parse cfg csv static sd ed f w ND RE PS H dz b v HB HV.
  pose proof (point_file_content_lem _ _ _ _ _ _ _ _ ND RE PS H) as (C1 & _). cbv zeta in C1.
  pose proof (proj2 (proj2 (point_file_times_lem _ _ _ _ _ _ _ _ ND H)) b) as HT. apply HT in HB. clear HT.
  destruct (point_temperature_range_lem _ _ _ _ _ _ _ _ _ ND H C1 (option_map (fun v : R => kelvin cfg v + dz * aw_lapse_T cfg) (hourly_mean csv (aw_T2 cfg) b))) as (x & EX & RX).
  { apply (in_map (fun b => option_map (fun v : R => kelvin cfg v + dz * aw_lapse_T cfg) (hourly_mean csv (aw_T2 cfg) b))). exact HB. }
  rewrite HV in EX. cbn in EX. injection EX as EX. unfold kelvin in EX. destruct (aw_in_K cfg); split; intros; auto; exfalso; lra.
Qed.

(** ** Resampling *)
Lemma sum_map_total (l : list (list number)) : sum_of (map total_of l) = fold_right Rplus 0 (map sum_of l).
Proof.
  induction l as [|a t IH]; [reflexivity|]. cbn [map fold_right]. rewrite <- IH. unfold sum_of.
  unfold total_of at 1. destruct (reals_of a) as [|x r]; cbn [reals_of fold_right]; [|reflexivity]. ring.
Qed.
Lemma sum_map_sum (l : list (list number)) : sum_of (map (fun x => Some (sum_of x)) l) = fold_right Rplus 0 (map sum_of l).
Proof. induction l as [|a t IH]; [reflexivity|]. cbn [map fold_right]. rewrite <- IH. reflexivity. Qed.

(*@ C77 Adding up precipitation to longer steps loses and invents nothing: the sum of the new column is the sum of the old one, for both ways of summing. *)
Lemma resampling_conserves_sum_lem :
  forall (w : Z) (kinds : dict agg) (df df' : frame) (n : string) (k : agg) (c : list number),
    (0 < w)%Z -> NoDup (map fst kinds) -> rectangular df ->
    resample w kinds df = Ok df' -> dict_find kinds n = Some k -> k <> Mean ->
    column df n = Some c ->
    exists c' : list number, column df' n = Some c' /\ length c' = length (f_index df') /\ sum_of c' = sum_of c.
Proof.
  intros w kinds df df' n k c Hw ND RE H HK NM HC. destruct (resample_ok _ _ _ _ Hw ND H) as (HI & HF & _).
  destruct (HF n k HK) as (c0 & E0 & E1). unfold column in *. rewrite HC in E0. injection E0 as <-.
  eexists. split; [exact E1|]. split; [rewrite map_length, HI; reflexivity|].
  set (B := map (fun b => during b w (f_index df) c) (bins w (f_index df))).
  assert (E2 : sum_of c = fold_right Rplus 0 (map sum_of B)).
  { rewrite <- (resample_sum w (f_index df) c Hw (RE _ _ HC)). unfold B. rewrite map_map. reflexivity. }
  rewrite E2. destruct k; [congruence| |].
  - rewrite <- sum_map_sum. unfold B. rewrite map_map. f_equal. apply map_ext. intros b. apply sum_sum_of.
  - rewrite <- sum_map_total. unfold B. rewrite map_map. f_equal. apply map_ext. intros b. apply nansum_total.
Qed.

Lemma sum_between (r : list R) a b : (forall x, In x r -> a <= x <= b) ->
  a * INR (length r) <= fold_right Rplus 0 r <= b * INR (length r).
Proof.
  induction r as [|x t IH]; intros H; [cbn; lra|]. cbn [length fold_right]. rewrite S_INR.
  specialize (IH (fun y HY => H y (or_intror HY))). specialize (H x (or_introl eq_refl)). lra.
Qed.

(*@ C77 A mean lies between the smallest and the largest of the values it is made of, and it is missing only if all of them are. *)
Lemma hourly_mean_between_lem :
  forall (l : list number) (a b : R), (forall x, In (Some x) l -> a <= x <= b) ->
    (forall m, aggregate Mean l = Some m -> a <= m <= b) /\
    (aggregate Mean l = None <-> forall x, ~ In (Some x) l).
Proof.
  intros l a b H. split; [|apply aggregate_some; discriminate].
  intros m E. rewrite mean_mean_of in E. unfold mean_of in E. destruct (reals_of l) as [|x r] eqn:ER; [discriminate|].
  rewrite <- ER in E.
  assert (X : forall u v : R, Some u = Some v -> u = v) by (intros u v Q; inversion Q; reflexivity). apply X in E. subst m. assert (L : 0 < INR (length (reals_of l))) by (rewrite ER; apply lt_0_INR; cbn; lia).
  pose proof (sum_between (reals_of l) a b (fun x HX => H x (proj1 (in_reals l x) HX))) as [S1 S2].
  split; [apply Rmult_le_reg_r with (INR (length (reals_of l))); auto|apply Rmult_le_reg_r with (INR (length (reals_of l))); auto];
    unfold Rdiv; rewrite Rmult_assoc, Rinv_l by lra; lra.
Qed.

(** ** Columns *)

(*@ C84 Without one of the six required columns no file is written for a point. *)
Lemma point_required_columns_lem :
  forall parse (cfg : AwsConfig) (csv : frame) static sd ed n,
    NoDup (column_names cfg) -> In n (required_columns cfg) -> column csv n = None ->
    forall r, create_1D_input parse cfg csv static sd ed <> Ok r.
Proof.
  intros parse cfg csv static sd ed n ND HI E [f w] H. destruct (point_ok _ _ _ _ _ _ _ _ ND H) as (RC & _). apply (RC n HI E).
Qed.

(*@ C84 So the pressure of 660 hPa is never filled in for a missing column: the columns are asked for before it. *)
Lemma pressure_never_replaced_lem :
  forall (cfg : AwsConfig) (df : frame), dict_mem (f_cols df) (aw_PRES cfg) = false ->
    set_order_and_type cfg true df = Err KeyError.
Proof.
  intros cfg df H. unfold set_order_and_type. rewrite mem_find in H.
  assert (G : map_res (dict_get (f_cols df)) [aw_T2 cfg; aw_RH2 cfg; aw_U2 cfg; aw_G cfg; aw_PRES cfg] = Err KeyError).
  { cbn [map_res]. unfold dict_get. destruct (dict_find (f_cols df) (aw_PRES cfg)); [discriminate|].
    destruct (dict_find (f_cols df) (aw_T2 cfg)); [|reflexivity]. cbn [bind].
    destruct (dict_find (f_cols df) (aw_RH2 cfg)); [|reflexivity]. cbn [bind].
    destruct (dict_find (f_cols df) (aw_U2 cfg)); [|reflexivity]. cbn [bind].
    destruct (dict_find (f_cols df) (aw_G cfg)); reflexivity. }
  rewrite G. reflexivity.
Qed.

(*@ C84 Without any longwave radiation and any cloud cover no file is written, neither for a point nor for a grid. *)
Lemma longwave_or_clouds_lem :
  forall parse vapour doy (cfg : AwsConfig) (csv : frame) static st lut sd ed x0 x1 y0 y1,
    NoDup (column_names cfg) -> rectangular csv -> (aw_aggregate cfg = true -> 0 < aw_step cfg)%Z ->
    (~ has_number csv (aw_LWin cfg) -> ~ has_number csv (aw_N cfg) ->
     forall r, create_1D_input parse cfg csv static sd ed <> Ok r) /\
    (column csv (aw_LWin cfg) = None -> column csv (aw_N cfg) = None ->
     forall r, create_2D_input parse vapour doy cfg csv st lut sd ed x0 x1 y0 y1 <> Ok r).
Proof.
  intros parse vapour doy cfg csv static st lut sd ed x0 x1 y0 y1 ND RE STP. split.
  - intros N1 N2 [f w] H. destruct (point_ok _ _ _ _ _ _ _ _ ND H) as (_ & _ & _ & LN & _).
    rewrite !hour_column_number, !has_number_iff in LN by (auto; discriminate). tauto.
  - intros N1 N2 [f w] H. destruct (grid_ok _ _ _ _ _ _ _ _ _ _ _ _ _ _ _ ND RE STP H) as (_ & _ & _ & LN & _). tauto.
Qed.

(*@ C84 One date alone has no effect. *)
Lemma one_date_ignored_lem :
  forall parse vapour doy (cfg : AwsConfig) (csv : frame) static lut xl xr yl yu (d : string),
    aws_main parse vapour doy cfg csv static lut (Some d) None xl xr yl yu =
    aws_main parse vapour doy cfg csv static lut None None xl xr yl yu /\
    aws_main parse vapour doy cfg csv static lut None (Some d) xl xr yl yu =
    aws_main parse vapour doy cfg csv static lut None None xl xr yl yu.
Proof. intros. split; reflexivity. Qed.

(** ** Coordinates and terrain of a point *)

(*@ C82 With WRF coordinates the file for a point holds the longitude under lat and the latitude under lon. *)
Lemma wrf_point_coordinates_lem :
  forall parse (cfg : AwsConfig) (csv : frame) static sd ed f w,
    NoDup (column_names cfg) -> aw_WRF cfg = true ->
    create_1D_input parse cfg csv static sd ed = Ok (f, w) ->
    nf_lat f = Mesh [[aw_plon cfg]] /\ nf_lon f = Mesh [[aw_plat cfg]].
Proof.
  intros parse cfg csv static sd ed f w ND HW H.
  destruct (point_ok _ _ _ _ _ _ _ _ ND H) as (_ & _ & _ & _ & _ & _ & vars0 & a0 & s0 & m0 & HC & _).
  unfold point_coordinates in HC. rewrite HW in HC. injection HC as <- <- _. split; reflexivity.
Qed.

(*@ C82 ... and a static file cannot be used: the aspect is looked up in a dataset without variables. *)
Lemma wrf_point_static_lem :
  forall parse (cfg : AwsConfig) (csv : frame) st sd ed,
    NoDup (column_names cfg) -> aw_WRF cfg = true ->
    forall r, create_1D_input parse cfg csv (Some st) sd ed <> Ok r.
Proof.
  intros parse cfg csv st sd ed ND HW [f w] H.
  destruct (point_ok _ _ _ _ _ _ _ _ ND H) as (_ & _ & _ & _ & _ & _ & vars0 & a0 & s0 & m0 & HC & HP & _).
  unfold point_coordinates in HC. rewrite HW in HC. injection HC as _ _ <-. discriminate.
Qed.

(*@ C83 A point without static file: the coordinates of the configuration, horizontal ground, glacier. *)
Lemma point_terrain_default_lem :
  forall parse (cfg : AwsConfig) (csv : frame) sd ed f w,
    NoDup (column_names cfg) -> create_1D_input parse cfg csv None sd ed = Ok (f, w) ->
    (aw_WRF cfg = false -> nf_lat f = Along "lat" [aw_plat cfg] /\ nf_lon f = Along "lon" [aw_plon cfg]) /\
    file_series f "HGT"%string 0 0 = Some [Some (aw_hgt cfg)] /\
    file_series f "SLOPE"%string 0 0 = Some [Some 0] /\ file_series f "ASPECT"%string 0 0 = Some [Some 0] /\
    file_series f "MASK"%string 0 0 = Some [Some 1] /\ is_glacier (gridded f) 0 0.
Proof.
  intros parse cfg csv sd ed f w ND H.
  destruct (point_ok _ _ _ _ _ _ _ _ ND H) as (_ & _ & _ & _ & _ & _ & vars0 & a0 & s0 & m0 & HC & HP & (u1 & _ & F1) & (u2 & _ & F2) & (u3 & _ & F3) & (u4 & _ & F4) & _).
  cbn in HP. injection HP as <- <- <-.
  split; [intros HW; unfold point_coordinates in HC; rewrite HW in HC; injection HC as <- <- _; split; reflexivity|].
  split; [exact (point_find1 _ _ _ _ _ F1)|]. split; [exact (point_find1 _ _ _ _ _ F3)|].
  split; [exact (point_find1 _ _ _ _ _ F2)|]. split; [exact (point_find1 _ _ _ _ _ F4)|].
  exists (point (Some 1)). split; [|reflexivity]. unfold gridded. cbn [g_vars]. rewrite (find_map_snd v_data). rewrite F4. reflexivity.
Qed.

(*@ C83 A point with static file: slope, aspect (turned by 180 degrees) and mask come from the grid point next to the coordinates of the configuration, the height from the configuration.  The longitude in the file is the one of the grid point, the latitude the one of the configuration. *)
Lemma point_terrain_static_lem :
  forall parse (cfg : AwsConfig) (csv : frame) st sd ed f w,
    NoDup (column_names cfg) -> create_1D_input parse cfg csv (Some st) sd ed = Ok (f, w) ->
    exists (iy ix : nat) (lat lon slope aspect : R) (mask : number),
      nth_error (st_lats st) iy = Some lat /\ nth_error (st_lons st) ix = Some lon /\
      (forall l, In l (st_lats st) -> Rabs (lat - aw_plat cfg) <= Rabs (l - aw_plat cfg)) /\
      (forall l, In l (st_lons st) -> Rabs (lon - aw_plon cfg) <= Rabs (l - aw_plon cfg)) /\
      cell_at (st_SLOPE st) (Z.of_nat iy) (Z.of_nat ix) = Some slope /\
      cell_at (st_ASPECT st) (Z.of_nat iy) (Z.of_nat ix) = Some aspect /\
      cell_at (st_MASK st) (Z.of_nat iy) (Z.of_nat ix) = Some mask /\
      nf_lat f = Along "lat" [aw_plat cfg] /\ nf_lon f = Along "lon" [lon] /\
      file_series f "HGT"%string 0 0 = Some [Some (aw_hgt cfg)] /\
      file_series f "SLOPE"%string 0 0 = Some [Some slope] /\
      file_series f "ASPECT"%string 0 0 = Some [Some (aspect - 180)] /\
      file_series f "MASK"%string 0 0 = Some [mask].
Proof.
  intros parse cfg csv st sd ed f w ND H.
  destruct (point_ok _ _ _ _ _ _ _ _ ND H) as (_ & _ & _ & _ & _ & _ & vars0 & a0 & s0 & m0 & HC & HP & (u1 & _ & F1) & (u2 & _ & F2) & (u3 & _ & F3) & (u4 & _ & F4) & _).
  assert (HW : aw_WRF cfg = false).
  { destruct (aw_WRF cfg) eqn:E; auto. exfalso. eapply wrf_point_static_lem; eauto. }
  unfold point_coordinates in HC. rewrite HW in HC.
  apply bind_ok in HC as ([iy lat] & N1 & HC). apply bind_ok in HC as ([ix lon] & N2 & HC). cbv zeta in HC. cbn [fst snd] in HC.
  apply bind_ok in HC as (h & _ & HC). apply bind_ok in HC as (s & G2 & HC). apply bind_ok in HC as (a & G3 & HC).
  apply bind_ok in HC as (m & G4 & HC). apply bind_ok in HC as (other & HO & HC).
  assert (E1 : nf_lat f = Along "lat" [aw_plat cfg]) by congruence. assert (E2 : nf_lon f = Along "lon" [lon]) by congruence.
  assert (E : vars0 = dict_union other [("HGT", scalar_variable (Some h)); ("SLOPE", scalar_variable (Some s));
               ("ASPECT", scalar_variable (Some a)); ("MASK", scalar_variable m)]%string) by congruence.
  clear HC HO. subst vars0. cbn [point_terrain] in HP. unfold dict_get, attr_get in HP. rewrite !find_union in HP. cbn in HP.
  injection HP as <- <- <-.
  apply nearest_ok in N1. apply nearest_ok in N2. exists iy, ix, lat, lon, s, a, m.
  apply raster_get_ok in G2; [|lia|lia]. apply raster_get_ok in G3; [|lia|lia]. apply raster_get_ok in G4; [|lia|lia].
  split; [apply N1|]. split; [apply N2|]. split; [intros l HI; apply N1; auto|]. split; [intros l HI; apply N2; auto|].
  split; [exact G2|]. split; [exact G3|]. split; [exact G4|]. split; [exact E1|]. split; [exact E2|].
  split; [exact (point_find1 _ _ _ _ _ F1)|]. split; [exact (point_find1 _ _ _ _ _ F3)|].
  split; [rewrite (point_find1 _ _ _ _ _ F2); do 3 f_equal; lra|]. exact (point_find1 _ _ _ _ _ F4).
Qed.
