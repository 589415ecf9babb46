(** * Conversion of weather station data to a grid *)
From Verif Require Import ModelPy ModelConstants ModelNode ModelGrid ModelHeat ModelSurface ModelInit
  ModelCore ModelConfig ModelIO ModelMain ModelRadCor SpecIO SpecRadCor ModelAws SpecAws.
From Verif Require Import LemPy LemDict LemIO LemIO4 LemIO5 LemShad LemShad2 LemShad3 LemShad4 LemShad5 LemAws LemAws2 LemAws3 LemAws4
  LemAws5 LemFinInput LemFinAws.
From Coq Require Import Sorted.

(** ** Spatial window *)
Lemma find_picked ky kx (d : dict (raster number)) n :
  dict_find (map (fun nr => (fst nr, pick_raster ky kx (snd nr))) d) n = option_map (pick_raster ky kx) (dict_find d n).
Proof. induction d as [|[m r] t IH]; cbn; auto. destruct (String.eqb m n); [reflexivity|exact IH]. Qed.

(*@ C85 The window keeps the rows and columns whose coordinates lie inside the bounds, in their order, with all their fields.  For descending coordinates the first bound is the upper one. *)
Lemma window_selects_lem :
  forall st x0 x1 y0 y1, static_shape st ->
    let ds := subset st x0 x1 y0 y1 in
    exists ry rx : list nat,
      StronglySorted lt ry /\ StronglySorted lt rx /\
      (StronglySorted Rlt (st_lats st) ->
         forall i, In i ry <-> (i < length (st_lats st))%nat /\ within y0 y1 (nth i (st_lats st) 0)) /\
      (StronglySorted Rgt (st_lats st) -> (2 <= length (st_lats st))%nat ->
         forall i, In i ry <-> (i < length (st_lats st))%nat /\ within y1 y0 (nth i (st_lats st) 0)) /\
      (StronglySorted Rlt (st_lons st) ->
         forall j, In j rx <-> (j < length (st_lons st))%nat /\ within x0 x1 (nth j (st_lons st) 0)) /\
      st_lats ds = map (fun i => nth i (st_lats st) 0) ry /\
      st_lons ds = map (fun j => nth j (st_lons st) 0) rx /\
      static_shape ds /\
      (forall y x i j, nth_error ry y = Some i -> nth_error rx x = Some j ->
         cell_at (st_HGT ds) (Z.of_nat y) (Z.of_nat x) = cell_at (st_HGT st) (Z.of_nat i) (Z.of_nat j) /\
         cell_at (st_SLOPE ds) (Z.of_nat y) (Z.of_nat x) = cell_at (st_SLOPE st) (Z.of_nat i) (Z.of_nat j) /\
         cell_at (st_ASPECT ds) (Z.of_nat y) (Z.of_nat x) = cell_at (st_ASPECT st) (Z.of_nat i) (Z.of_nat j) /\
         cell_at (st_MASK ds) (Z.of_nat y) (Z.of_nat x) = cell_at (st_MASK st) (Z.of_nat i) (Z.of_nat j) /\
         forall n, match dict_find (st_other st) n, dict_find (st_other ds) n with
                   | Some r, Some r' => cell_at r' (Z.of_nat y) (Z.of_nat x) = cell_at r (Z.of_nat i) (Z.of_nat j)
                   | None, None => True
                   | _, _ => False
                   end).
Proof.
  intros st x0 x1 y0 y1 SH ds. pose proof (subset_shape st x0 x1 y0 y1 SH) as SD. fold ds in SD.
  destruct SH as (S1 & S2 & S3 & S4 & S5).
  exists (kept_at (label_slice (st_lats st) y0 y1)), (kept_at (label_slice (st_lons st) x0 x1)).
  split; [apply kept_sorted|]. split; [apply kept_sorted|].
  split; [intros H i; apply kept_labels; exact H|]. split; [intros H HL i; apply kept_labels; assumption|].
  split; [intros H i; apply kept_labels; exact H|].
  split; [apply pick_values; apply label_length|]. split; [apply pick_values; apply label_length|].
  split; [exact SD|]. intros y x i j EY EX.
  pose proof (label_length (st_lats st) y0 y1) as LY. pose proof (label_length (st_lons st) x0 x1) as LX.
  split; [eapply pick_raster_at; eauto|]. split; [eapply pick_raster_at; eauto|].
  split; [eapply pick_raster_at; eauto|]. split; [eapply pick_raster_at; eauto|].
  intros n. unfold ds, subset. cbn [st_other]. rewrite find_picked.
  destruct (dict_find (st_other st) n) as [r|] eqn:E; cbn [option_map]; [|exact I].
  eapply pick_raster_at; eauto. apply find_in in E. rewrite Forall_forall in S5. apply (S5 _ E).
Qed.

(*@ C85 Without bounds everything is kept. *)
Lemma window_all_lem :
  forall st, static_shape st -> subset st None None None None = st.
Proof.
  intros st (S1 & S2 & S3 & S4 & S5). unfold subset.
  pose proof (label_length (st_lats st) None None) as LY. pose proof (label_length (st_lons st) None None) as LX.
  assert (AY := label_all (st_lats st)). assert (AX := label_all (st_lons st)).
  rewrite !pick_all by auto.
  rewrite (pick_raster_all _ _ (st_HGT st) _ _ S1), (pick_raster_all _ _ (st_SLOPE st) _ _ S2), (pick_raster_all _ _ (st_ASPECT st) _ _ S3),
    (pick_raster_all _ _ (st_MASK st) _ _ S4) by auto.
  replace (map _ (st_other st)) with (st_other st); [destruct st; reflexivity|].
  rewrite <- (map_id (st_other st)) at 1. apply map_ext_in. intros [n r] HI. cbn [fst snd]. f_equal. symmetry.
  rewrite Forall_forall in S5. apply (pick_raster_all _ _ r _ _ (S5 _ HI)); auto.
Qed.

Lemma tabulate_empty {A} nx (f : Z -> Z -> A) : tabulate 0 nx f = [].
Proof. reflexivity. Qed.

(*@ C85 Latitudes from north to south and bounds from south to north: nothing is kept and the conversion fails. *)
Lemma window_order_lem :
  forall parse vapour doy (cfg : AwsConfig) (csv : frame) st lut sd ed x0 x1 (a b : R),
    static_shape st -> StronglySorted Rgt (st_lats st) -> (2 <= length (st_lats st))%nat -> a < b ->
    st_lats (subset st x0 x1 (Some a) (Some b)) = [] /\
    forall r, create_2D_input parse vapour doy cfg csv st lut sd ed x0 x1 (Some a) (Some b) <> Ok r.
Proof.
  intros parse vapour doy cfg csv st lut sd ed x0 x1 a b SH SO HL AB.
  assert (E : kept_at (label_slice (st_lats st) (Some a) (Some b)) = []).
  { destruct (kept_at (label_slice (st_lats st) (Some a) (Some b))) as [|i t] eqn:E; [reflexivity|exfalso].
    assert (HI : In i (kept_at (label_slice (st_lats st) (Some a) (Some b)))) by (rewrite E; left; reflexivity).
    apply kept_labels in HI; auto. destruct HI as (_ & W1 & W2). specialize (W1 b eq_refl). specialize (W2 a eq_refl). lra. }
  assert (EL : st_lats (subset st x0 x1 (Some a) (Some b)) = []).
  { unfold subset. cbn [st_lats]. rewrite (pick_values _ _ 0) by apply label_length. rewrite E. reflexivity. }
  split; [exact EL|]. pose proof (subset_shape st x0 x1 (Some a) (Some b) SH) as SD.
  set (ds := subset st x0 x1 (Some a) (Some b)) in *. destruct SD as ((SD & _) & _).
  assert (HE : st_HGT ds = []) by (apply length_zero_iff_nil; rewrite SD, EL; reflexivity).
  intros [f w] H. unfold create_2D_input in H. fold ds in H.
  apply bind_ok in H as (df0 & _ & H). apply bind_ok in H as (df & _ & H).
  match type of H with context [if aw_WRF cfg then ?p else ?q] => destruct (if aw_WRF cfg then p else q) as [[[lat lon] dims] vars0] end.
  apply bind_ok in H as (df1 & _ & H). cbv zeta in H.
  apply bind_ok in H as (RH2 & _ & H). apply bind_ok in H as (U2 & _ & H). apply bind_ok in H as (G & _ & H).
  apply bind_ok in H as (PRES & _ & H). apply bind_ok in H as (T2 & _ & H). apply bind_ok in H as ([] & _ & H).
  apply bind_ok in H as (g & _ & H). apply bind_ok in H as (vars1 & HV1 & H). apply bind_ok in H as (vars2 & HV2 & H).
  apply bind_ok in H as ([] & _ & H). apply bind_ok in H as (warn & HW & _).
  assert (V2 := fun N2 => add_variables_find _ _ _ _ N2 HV2). clear HV2.
  specialize (V2 ltac:(cbn; repeat constructor; cbn; intuition discriminate)).
  destruct (V2 "T2"%string) as (u & _ & VT). clear V2. rename VT into V2.
  match type of V2 with _ = Some (mkVariable _ ?e _ _) => assert (EE : e = []) by (cbn [snd]; rewrite HE; reflexivity); rewrite EE in V2 end.
  unfold check_data in HW. cbn [filter snd for_each fst] in HW. unfold attr_get in HW. rewrite V2 in HW. discriminate.
Qed.

(** ** Content *)
Lemma cell_nonneg {A} (a : raster A) y x v : cell_at a y x = Some v -> (0 <= y)%Z /\ (0 <= x)%Z.
Proof.
  unfold cell_at. destruct (Z.leb_spec 0 y), (Z.leb_spec 0 x); cbn [andb]; try discriminate. auto.
Qed.

Lemma cell_in_range {A} (a : raster A) ny nx y x v : sized a ny nx -> cell_at a y x = Some v ->
  (0 <= y < Z.of_nat ny)%Z /\ (0 <= x < Z.of_nat nx)%Z.
Proof.
  intros [HL HF] H. destruct (cell_nonneg _ _ _ _ H) as [Y X]. unfold cell_at in H.
  destruct (Z.leb_spec 0 y); [|lia]. destruct (Z.leb_spec 0 x); [|lia]. cbn [andb] in H.
  destruct (nth_error a (Z.to_nat y)) as [row|] eqn:E; [|discriminate].
  assert (Z.to_nat y < length a)%nat by (apply nth_error_Some; congruence).
  assert (Z.to_nat x < length row)%nat by (apply nth_error_Some; congruence).
  rewrite Forall_forall in HF. apply nth_error_In in E. rewrite (HF _ E) in *. lia.
Qed.

Lemma file_find f n dims a u s y x l : dict_find (nf_vars f) n = Some (mkVariable dims a u s) ->
  cell_at a y x = Some (Series l) -> file_series f n y x = Some l.
Proof. intros H E. unfold file_series. rewrite H. cbn [v_data]. rewrite E. reflexivity. Qed.

Lemma interpolate_at heights f l y x h : cell_at heights y x = Some h ->
  cell_at (interpolate heights f l) y x = Some (Series (map (f h) l)).
Proof. intros H. unfold interpolate. rewrite cell_at_mapmap, H. reflexivity. Qed.

Lemma grid_others_plain cfg ds n : plain_static ds -> dict_find variable_metadata n <> None ->
  dict_find (grid_others cfg ds) n = None.
Proof.
  intros PS MD. unfold grid_others. destruct (aw_WRF cfg); [reflexivity|]. specialize (PS n MD). revert PS.
  generalize (st_other ds). intros d. induction d as [|[m r] t IH]; cbn; auto. destruct (String.eqb m n); [discriminate|auto].
Qed.

Lemma press_lapse alt h v : 0 < standard_atmosphere alt -> 0 < standard_atmosphere h ->
  barometric alt 5.255 h v = option_map (lapsed_pressure 5.255 5.255 alt h) v.
Proof. intros A B. destruct v; [apply barometric_formula; auto|reflexivity]. Qed.

(*@ C80 Content of a cell of the gridded file: the values of the station, averaged (precipitation and snowfall: added up) over the aggregation steps, with one altitude correction by the height difference between cell and station.  A column that the station file does not have is not in the file. *)
Lemma grid_file_content_lem :
  forall parse vapour doy (cfg : AwsConfig) (csv : frame) st lut sd ed x0 x1 y0 y1 f w,
    NoDup (column_names cfg) -> rectangular csv -> (aw_aggregate cfg = true -> 0 < aw_step cfg)%Z ->
    plain_static st ->
    create_2D_input parse vapour doy cfg csv st lut sd ed x0 x1 y0 y1 = Ok (f, w) ->
    forall y x h, cell_at (st_HGT (subset st x0 x1 y0 y1)) y x = Some h ->
    let dz := h - aw_stationAlt cfg in
    let means name := mean_column parse cfg csv sd ed name in
    let sums name := sum_column parse cfg csv sd ed name in
    let holds name (column : option (list number)) (value : R -> R) :=
      file_series f name y x = option_map (map (option_map value)) column in
    nf_time f = used_times parse cfg csv sd ed /\
    holds "T2"%string (means (aw_T2 cfg)) (fun v => kelvin cfg v + dz * aw_lapse_T cfg) /\
    holds "RH2"%string (means (aw_RH2 cfg)) (fun v => humidity_range (v + dz * aw_lapse_RH cfg)) /\
    holds "U2"%string (means (aw_U2 cfg)) (fun v => v) /\
    (0 < standard_atmosphere (aw_stationAlt cfg) -> 0 < standard_atmosphere h ->
     holds "PRES"%string (means (aw_PRES cfg)) (lapsed_pressure 5.255 5.255 (aw_stationAlt cfg) h)) /\
    holds "RRR"%string (sums (aw_RRR cfg)) (fun v => Rmax (v + dz * aw_lapse_RRR cfg) 0) /\
    holds "SNOWFALL"%string (sums (aw_SNOWFALL cfg)) (fun v => Rmax (v + dz * aw_lapse_SNOWFALL cfg) 0) /\
    holds "LWin"%string (means (aw_LWin cfg)) (fun v => v) /\
    holds "N"%string (means (aw_N cfg)) (fun v => v).
Proof.
  intros parse vapour doy cfg csv st lut sd ed x0 x1 y0 y1 f w ND RE ST PS H y x h HC dz means sums holds.
  destruct (grid_ok _ _ _ _ _ _ _ _ _ _ _ _ _ _ _ ND RE ST H) as (HT & _ & _ & _ & _ & T2 & RH2 & U2 & G & PRES & g & E1 & E2 & E3 & E4 & E5 & _ & _ & _ & VV & VN).
  pose proof (subset_plain st x0 x1 y0 y1 PS) as PD.
  set (ds := subset st x0 x1 y0 y1) in *.
  assert (IN : forall n fn l, dict_find (grid_vars parse cfg csv ds sd ed T2 RH2 U2 PRES g) n = Some (Some (interpolate (st_HGT ds) fn l)) ->
    file_series f n y x = Some (map (fn h) l)).
  { intros n fn l E. destruct (VV n _ E) as (u & F & _). eapply file_find; [exact F|]. apply interpolate_at. exact HC. }
  assert (OP : forall n (fn : R -> number -> number) col value, dict_find (grid_vars parse cfg csv ds sd ed T2 RH2 U2 PRES g) n =
      Some (option_map (interpolate (st_HGT ds) fn) col) -> (forall v, fn h v = option_map value v) ->
      dict_find (grid_static ds) n = None -> dict_find variable_metadata n <> None -> holds n col value).
  { intros n fn col value E FV NS MD. unfold holds. destruct col as [l|]; cbn [option_map] in *.
    - rewrite (IN _ _ _ E). rewrite (map_ext _ _ FV). reflexivity.
    - unfold file_series. rewrite (VN n NS) by (rewrite E; exact I). rewrite grid_others_plain by auto. reflexivity. }
  assert (ID : forall v : number, v = option_map (fun v : R => v) v) by (intros [v|]; reflexivity).
  split; [exact HT|].
  split; [unfold holds, means; rewrite E1, (IN "T2"%string _ _ eq_refl); cbn [option_map]; rewrite map_map; f_equal; apply map_ext; intros v; apply kelvin_bias|].
  split; [unfold holds, means; rewrite E2, (IN "RH2"%string _ _ eq_refl); cbn [option_map]; f_equal; apply map_ext; intros v; apply humid_bias|].
  split; [unfold holds, means; rewrite E3, (IN "U2"%string _ _ eq_refl); cbn [option_map]; f_equal; apply map_ext; intros v; apply ID|].
  split; [intros A B; unfold holds, means; rewrite E5, (IN "PRES"%string _ _ eq_refl); cbn [option_map]; f_equal; apply map_ext; intros v; apply press_lapse; auto|].
  split; [apply (OP "RRR"%string (fun h => set_bias (aw_lapse_RRR cfg) (h - aw_stationAlt cfg) true)); [reflexivity|intros v; apply limit_bias|reflexivity|discriminate]|].
  split; [apply (OP "SNOWFALL"%string (fun h => set_bias (aw_lapse_SNOWFALL cfg) (h - aw_stationAlt cfg) true)); [reflexivity|intros v; apply limit_bias|reflexivity|discriminate]|].
  split; [apply (OP "LWin"%string (fun _ v => v)); [reflexivity|intros v; apply ID|reflexivity|discriminate]|].
  apply (OP "N"%string (fun _ v => v)); [reflexivity|intros v; apply ID|reflexivity|discriminate].
Qed.

(*@ C80 Static fields of the gridded file: height, slope and mask of the static file, the aspect minus 180 degrees. *)
Lemma grid_static_fields_lem :
  forall parse vapour doy (cfg : AwsConfig) (csv : frame) st lut sd ed x0 x1 y0 y1 f w,
    NoDup (column_names cfg) -> rectangular csv -> (aw_aggregate cfg = true -> 0 < aw_step cfg)%Z ->
    create_2D_input parse vapour doy cfg csv st lut sd ed x0 x1 y0 y1 = Ok (f, w) ->
    let ds := subset st x0 x1 y0 y1 in
    forall y x,
    (forall h, cell_at (st_HGT ds) y x = Some h -> file_series f "HGT"%string y x = Some [Some h]) /\
    (forall s, cell_at (st_SLOPE ds) y x = Some s -> file_series f "SLOPE"%string y x = Some [Some s]) /\
    (forall a, cell_at (st_ASPECT ds) y x = Some a -> file_series f "ASPECT"%string y x = Some [Some (a - 180)]) /\
    (forall m, cell_at (st_MASK ds) y x = Some m -> file_series f "MASK"%string y x = Some [m]).
Proof.
  intros parse vapour doy cfg csv st lut sd ed x0 x1 y0 y1 f w ND RE ST H ds y x.
  destruct (grid_ok _ _ _ _ _ _ _ _ _ _ _ _ _ _ _ ND RE ST H) as (_ & _ & _ & _ & _ & T2 & RH2 & U2 & G & PRES & g & _ & _ & _ & _ & _ & _ & _ & VS & _).
  fold ds in VS.
  assert (SS : forall n a l, dict_find (grid_static ds) n = Some (Some a) -> cell_at a y x = Some (Series l) -> file_series f n y x = Some l).
  { intros n a l E C. destruct (VS n a E) as (u & F & _). eapply file_find; [exact F|exact C]. }
  split; [|split; [|split]].
  - intros h E. eapply (SS "HGT"%string); [reflexivity|]. unfold flat_field. rewrite cell_at_mapmap, E. reflexivity.
  - intros s E. eapply (SS "SLOPE"%string); [reflexivity|]. unfold flat_field. rewrite cell_at_mapmap, E. reflexivity.
  - intros a E. eapply (SS "ASPECT"%string); [reflexivity|]. unfold flat_field. rewrite !cell_at_mapmap, E. cbn. unfold one_number. do 4 f_equal. lra.
  - intros m E. eapply (SS "MASK"%string); [reflexivity|]. rewrite cell_at_mapmap, E. reflexivity.
Qed.

(*@ C80 A cell at the altitude of the station gets the values of the station. *)
Lemma grid_cell_at_station_lem :
  forall parse vapour doy (cfg : AwsConfig) (csv : frame) st lut sd ed x0 x1 y0 y1 f w,
    NoDup (column_names cfg) -> rectangular csv -> (aw_aggregate cfg = true -> 0 < aw_step cfg)%Z ->
    plain_static st ->
    create_2D_input parse vapour doy cfg csv st lut sd ed x0 x1 y0 y1 = Ok (f, w) ->
    forall y x, cell_at (st_HGT (subset st x0 x1 y0 y1)) y x = Some (aw_stationAlt cfg) ->
    0 < standard_atmosphere (aw_stationAlt cfg) ->
    file_series f "T2"%string y x =
      option_map (map (option_map (kelvin cfg))) (mean_column parse cfg csv sd ed (aw_T2 cfg)) /\
    file_series f "PRES"%string y x = mean_column parse cfg csv sd ed (aw_PRES cfg) /\
    file_series f "RH2"%string y x =
      option_map (map (option_map humidity_range)) (mean_column parse cfg csv sd ed (aw_RH2 cfg)) /\
    file_series f "RRR"%string y x =
      option_map (map (option_map (fun v => Rmax v 0))) (sum_column parse cfg csv sd ed (aw_RRR cfg)).
Proof.
  intros parse vapour doy cfg csv st lut sd ed x0 x1 y0 y1 f w ND RE ST PS H y x HC A.
  pose proof (grid_file_content_lem _ _ _ _ _ _ _ _ _ _ _ _ _ _ _ ND RE ST PS H y x _ HC) as (_ & C1 & C2 & _ & C3 & C4 & _).
  specialize (C3 A A). rewrite C1, C2, C3, C4.
  assert (EX : forall (f g : R -> R) (c : option (list number)), (forall v, f v = g v) -> option_map (map (option_map f)) c = option_map (map (option_map g)) c).
  { intros p q [c|] E; [|reflexivity]. cbn. f_equal. apply map_ext. intros [v|]; [cbn; rewrite E; reflexivity|reflexivity]. }
  split; [apply EX; intros v; ring|]. split.
  - rewrite (EX _ (fun v => v)).
    + destruct (mean_column parse cfg csv sd ed (aw_PRES cfg)) as [c|]; [|reflexivity]. cbn. f_equal. rewrite <- (map_id c) at 2. apply map_ext. intros [v|]; reflexivity.
    + intros p. unfold lapsed_pressure. assert (X := exp_pos (5.255 * ln (standard_atmosphere (aw_stationAlt cfg)))). field. unfold Rpower. lra.
  - split; apply EX; intros v; f_equal; ring.
Qed.

(*@ C51 The humidity in a gridded or point file lies between 0 and 100, precipitation and snowfall are not negative. *)
Lemma file_ranges_lem :
  forall parse vapour doy (cfg : AwsConfig) (csv : frame) static lut sd ed x0 x1 y0 y1 f w,
    NoDup (column_names cfg) -> rectangular csv -> (aw_aggregate cfg = true -> 0 < aw_step cfg)%Z ->
    (forall st, static = Some st -> plain_static st /\ static_shape st) ->
    aws_main parse vapour doy cfg csv static lut sd ed x0 x1 y0 y1 = Ok (f, w) ->
    forall y x,
    (forall l v, file_series f "RH2"%string y x = Some l -> In (Some v) l -> 0 <= v <= 100) /\
    (forall n l v, n = "RRR"%string \/ n = "SNOWFALL"%string -> file_series f n y x = Some l -> In (Some v) l -> 0 <= v).
Proof.
  intros parse vapour doy cfg csv static lut sd ed x0 x1 y0 y1 f w ND RE ST PS H y x.
  assert (HR : forall v, 0 <= humidity_range v <= 100).
  { intros v. unfold humidity_range. destruct (Rlt_dec 100 v), (Rlt_dec v 0); lra. }
  assert (IM : forall (g : R -> R) (c : list number) v, In (Some v) (map (option_map g) c) -> exists u, v = g u).
  { intros g c v HI. apply in_map_iff in HI. destruct HI as ([u|] & E & _); [|discriminate]. exists u. cbn in E. injection E as <-. reflexivity. }
  unfold aws_main in H. destruct (aw_point_model cfg).
  - assert (PL : forall st, static = Some st -> plain_static st) by (intros st E; apply (PS st E)).
    pose proof (point_cells _ _ _ _ _ _ _ _ H) as PC.
    assert (YX : forall n l, file_series f n y x = Some l -> file_series f n 0 0 = Some l).
    { intros n l E. unfold file_series in *. destruct (dict_find (nf_vars f) n) as [v|] eqn:EF; [|discriminate].
      apply find_in in EF. rewrite Forall_forall in PC. destruct (PC _ EF) as (l' & El). cbn [snd] in El. rewrite El in *.
      destruct (cell_at [[Series l']] y x) as [b|] eqn:EC; [|discriminate].
      assert (S1 : sized [[Series l']] 1 1) by (split; [reflexivity|repeat constructor]).
      destruct (cell_in_range _ _ _ _ _ _ S1 EC) as [Y X]. assert (y = 0%Z) by lia. assert (x = 0%Z) by lia. subst y x. rewrite EC. exact E. }
    pose proof (point_file_content_lem _ _ _ _ _ _ _ _ ND RE PL H) as (_ & C1 & _ & _ & _ & (C2 & C3) & (C4 & C5) & _).
    split.
    + intros l v E HI. apply YX in E. rewrite C1 in E. injection E as <-. apply in_map_iff in HI. destruct HI as (b & E & _).
      destruct (hourly_mean csv (aw_RH2 cfg) b); [|discriminate]. cbn in E. injection E as <-. apply HR.
    + assert (GEN : forall n column k l v, 
        (has_number csv column -> file_series f n 0 0 = Some (map (fun b => option_map (fun v => Rmax (v + (aw_hgt cfg - aw_stationAlt cfg) * k) 0) (hourly_total csv column b)) (nf_time f))) ->
        (~ has_number csv column -> dict_find (nf_vars f) n = None) -> file_series f n y x = Some l -> In (Some v) l -> 0 <= v).
      { intros n column k l v A B E HI. apply YX in E.
        assert (DEC : has_number csv column \/ ~ has_number csv column).
        { destruct (existsb is_number (column_or_nan csv column)) eqn:EN.
          - left. apply existsb_exists in EN. destruct EN as ([u|] & HU & EU); [|discriminate]. apply has_number_iff. exists u. exact HU.
          - right. intros HN. apply has_number_iff in HN. destruct HN as (u & HU).
            assert (X : existsb is_number (column_or_nan csv column) = true) by (apply existsb_exists; exists (Some u); auto).
            rewrite X in EN. discriminate. }
        destruct DEC as [HN|HN].
        - rewrite (A HN) in E. injection E as <-. apply in_map_iff in HI. destruct HI as (b & E & _).
          destruct (hourly_total csv column b); [|discriminate]. cbn in E. injection E as <-. apply Rmax_r.
        - unfold file_series in E. rewrite (B HN) in E. discriminate. }
      intros n l v [->| ->] E HI; [exact (GEN _ _ _ _ _ C2 C3 E HI)|exact (GEN _ _ _ _ _ C4 C5 E HI)].
  - destruct static as [st|]; [|discriminate]. destruct (PS st eq_refl) as [PL SH].
    pose proof (subset_shape st x0 x1 y0 y1 SH) as SD.
    assert (CELL : forall n l, In n ["RH2"; "RRR"; "SNOWFALL"]%string -> file_series f n y x = Some l -> exists h, cell_at (st_HGT (subset st x0 x1 y0 y1)) y x = Some h).
    { intros n l HN E.
      destruct (grid_ok _ _ _ _ _ _ _ _ _ _ _ _ _ _ _ ND RE ST H) as (_ & _ & _ & _ & _ & T2 & RH2 & U2 & G & PRES & g & _ & _ & _ & _ & _ & _ & _ & _ & VV & VN).
      assert (X : forall fn l', dict_find (grid_vars parse cfg csv (subset st x0 x1 y0 y1) sd ed T2 RH2 U2 PRES g) n = Some (Some (interpolate (st_HGT (subset st x0 x1 y0 y1)) fn l')) ->
        exists h, cell_at (st_HGT (subset st x0 x1 y0 y1)) y x = Some h).
      { intros fn l' F. destruct (VV n _ F) as (u & FF & _). unfold file_series in E. rewrite FF in E. cbn [v_data] in E. unfold interpolate in E.
        rewrite cell_at_mapmap in E. destruct (cell_at _ y x); [eauto|discriminate]. }
      assert (NO : match dict_find (grid_vars parse cfg csv (subset st x0 x1 y0 y1) sd ed T2 RH2 U2 PRES g) n with Some (Some _) => False | _ => True end -> dict_find (grid_static (subset st x0 x1 y0 y1)) n = None -> dict_find variable_metadata n <> None -> False).
      { intros F FS MD. specialize (VN n FS F). rewrite grid_others_plain in VN by (auto; apply subset_plain; exact PL).
        unfold file_series in E. rewrite VN in E. discriminate. }
      cbn in HN. destruct HN as [<-|[<-|[<-|[]]]].
      - eapply X. reflexivity.
      - destruct (sum_column parse cfg csv sd ed (aw_RRR cfg)) as [c|] eqn:EC.
        + eapply X. unfold grid_vars. cbn. rewrite EC. reflexivity.
        + exfalso. apply NO; [unfold grid_vars; cbn; rewrite EC; exact I|reflexivity|discriminate].
      - destruct (sum_column parse cfg csv sd ed (aw_SNOWFALL cfg)) as [c|] eqn:EC.
        + eapply X. unfold grid_vars. cbn. rewrite EC. reflexivity.
        + exfalso. apply NO; [unfold grid_vars; cbn; rewrite EC; exact I|reflexivity|discriminate]. }
    split.
    + intros l v E HI. destruct (CELL "RH2"%string l) as (h & HC); [cbn; tauto|exact E|].
      pose proof (grid_file_content_lem _ _ _ _ _ _ _ _ _ _ _ _ _ _ _ ND RE ST PL H y x _ HC) as (_ & _ & C1 & _).
      rewrite C1 in E. destruct (mean_column _ _ _ _ _ _) as [c|]; [|discriminate]. cbn in E. injection E as <-.
      apply IM in HI. destruct HI as (u & ->). apply HR.
    + intros n l v HN E HI. destruct (CELL n l) as (h & HC); [cbn; destruct HN; subst; tauto|exact E|].
      pose proof (grid_file_content_lem _ _ _ _ _ _ _ _ _ _ _ _ _ _ _ ND RE ST PL H y x _ HC) as (_ & _ & _ & _ & _ & C1 & C2 & _).
      destruct HN as [->| ->]; [rewrite C1 in E|rewrite C2 in E]; (destruct (sum_column _ _ _ _ _ _) as [c|]; [|discriminate]; cbn in E; injection E as <-;
      apply IM in HI; destruct HI as (u & ->); apply Rmax_r).
Qed.
