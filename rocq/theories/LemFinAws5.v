(** * Conversion of weather station data to a grid: when it succeeds *)
From Verif Require Import ModelPy ModelConstants ModelNode ModelGrid ModelHeat ModelSurface ModelInit
  ModelCore ModelConfig ModelIO ModelMain ModelRadCor SpecIO SpecRadCor ModelAws SpecAws.
From Verif Require Import LemPy LemDict LemIO LemIO4 LemIO5 LemShad LemShad2 LemShad3 LemShad4 LemShad5 LemAws LemAws2 LemAws3 LemAws4
  LemAws5 LemFinInput LemFinAws LemFinAws2 LemFinAws3 LemFinAws4.
From Coq Require Import Sorted.

(*@ C80 Times of the gridded file.  Without aggregation those of the rows between the dates; with aggregation equally spaced steps, each row falling into exactly one. *)
Lemma grid_file_times_lem :
  forall parse vapour doy (cfg : AwsConfig) (csv : frame) st lut sd ed x0 x1 y0 y1 f w,
    NoDup (column_names cfg) -> rectangular csv -> (aw_aggregate cfg = true -> 0 < aw_step cfg)%Z ->
    create_2D_input parse vapour doy cfg csv st lut sd ed x0 x1 y0 y1 = Ok (f, w) ->
    (aw_aggregate cfg = false -> nf_time f = filter (in_slice parse sd ed) (f_index csv)) /\
    (aw_aggregate cfg = true ->
       StronglySorted Z.lt (nf_time f) /\
       (forall k a b, nth_error (nf_time f) k = Some a -> nth_error (nf_time f) (S k) = Some b -> b = a + aw_step cfg)%Z /\
       forall t, In t (f_index csv) -> in_slice parse sd ed t = true ->
         exists b, In b (nf_time f) /\ (b <= t < b + aw_step cfg)%Z /\
           forall b', In b' (nf_time f) -> (b' <= t < b' + aw_step cfg)%Z -> b' = b).
Proof.
  intros parse vapour doy cfg csv st lut sd ed x0 x1 y0 y1 f w ND RE ST H.
  destruct (grid_ok _ _ _ _ _ _ _ _ _ _ _ _ _ _ _ ND RE ST H) as (HT & _). rewrite HT. unfold used_times.
  split; intros HA; rewrite HA; [reflexivity|]. specialize (ST HA). split; [apply sorted_bins; exact ST|].
  split; [intros k a b; apply bins_step|]. intros t HI HS.
  assert (HK : In t (kept_times parse csv sd ed)) by (unfold kept_times; apply filter_In; auto).
  exists (bin (bin_origin (kept_times parse csv sd ed)) (aw_step cfg) t). split; [apply bins_cover; auto|].
  split; [apply bin_range; exact ST|]. intros b' HB HR. symmetry. apply bin_unique; auto. apply in_bins in HB; tauto.
Qed.

(*@ C80 The meteorological values of a cell depend on its height only, apart from the radiation: cells of the same height have the same values, also in two files made with different static files, windows and radiation tables. *)
Lemma grid_cell_by_height_lem :
  forall parse vapour doy (cfg : AwsConfig) (csv : frame) st lut x0 x1 y0 y1 f w st' lut' x0' x1' y0' y1' f' w' sd ed,
    NoDup (column_names cfg) -> rectangular csv -> (aw_aggregate cfg = true -> 0 < aw_step cfg)%Z ->
    create_2D_input parse vapour doy cfg csv st lut sd ed x0 x1 y0 y1 = Ok (f, w) ->
    create_2D_input parse vapour doy cfg csv st' lut' sd ed x0' x1' y0' y1' = Ok (f', w') ->
    forall y x y' x' h,
      cell_at (st_HGT (subset st x0 x1 y0 y1)) y x = Some h ->
      cell_at (st_HGT (subset st' x0' x1' y0' y1')) y' x' = Some h ->
      nf_time f = nf_time f' /\
      forall n, In n ["T2"; "RH2"; "U2"; "PRES"]%string -> file_series f n y x = file_series f' n y' x'.
Proof.
  intros parse vapour doy cfg csv st lut x0 x1 y0 y1 f w st' lut' x0' x1' y0' y1' f' w' sd ed ND RE ST H H' y x y' x' h HC HC'.
  destruct (grid_ok _ _ _ _ _ _ _ _ _ _ _ _ _ _ _ ND RE ST H) as (HT & _ & _ & _ & _ & T2 & RH2 & U2 & G & PRES & g & E1 & E2 & E3 & E4 & E5 & _ & _ & _ & VV & _).
  destruct (grid_ok _ _ _ _ _ _ _ _ _ _ _ _ _ _ _ ND RE ST H') as (HT' & _ & _ & _ & _ & T2' & RH2' & U2' & G' & PRES' & g' & E1' & E2' & E3' & E4' & E5' & _ & _ & _ & VV' & _).
  rewrite E1 in E1'. rewrite E2 in E2'. rewrite E3 in E3'. rewrite E5 in E5'.
  injection E1' as <-. injection E2' as <-. injection E3' as <-. injection E5' as <-.
  split; [congruence|]. intros n HN.
  assert (X : forall fn l, dict_find (grid_vars parse cfg csv (subset st x0 x1 y0 y1) sd ed T2 RH2 U2 PRES g) n = Some (Some (interpolate (st_HGT (subset st x0 x1 y0 y1)) fn l)) ->
    dict_find (grid_vars parse cfg csv (subset st' x0' x1' y0' y1') sd ed T2 RH2 U2 PRES g') n = Some (Some (interpolate (st_HGT (subset st' x0' x1' y0' y1')) fn l)) ->
    file_series f n y x = file_series f' n y' x').
  { intros fn l F F'. destruct (VV n _ F) as (u & B & _). destruct (VV' n _ F') as (u' & B' & _).
    rewrite (file_find _ _ _ _ _ _ _ _ _ B (interpolate_at _ _ _ _ _ _ HC)).
    rewrite (file_find _ _ _ _ _ _ _ _ _ B' (interpolate_at _ _ _ _ _ _ HC')). reflexivity. }
  cbn in HN. destruct HN as [<-|[<-|[<-|[<-|[]]]]]; eapply X; reflexivity.
Qed.

(** ** Progress *)
Lemma aggregates_names cfg df n k : NoDup (column_names cfg) -> In (n, k) (aggregates cfg df) ->
  In n (means cfg) \/ dict_mem (f_cols df) n = true.
Proof.
  intros ND HI. apply names_nodup in ND.
  set (l := map (fun n => (n, Mean)) (means cfg)
         ++ map (fun n => (n, if in_names n [aw_N cfg; aw_LWin cfg] then Mean else Sum)) (filter (dict_mem (f_cols df)) (extras cfg))).
  assert (K : map fst l = means cfg ++ filter (dict_mem (f_cols df)) (extras cfg)).
  { unfold l. rewrite map_app, !map_map. cbn [fst]. rewrite !map_id. reflexivity. }
  assert (NL : NoDup (map fst l)) by (rewrite K; apply nodup_filter_app; exact ND).
  assert (E : aggregates cfg df = l).
  { unfold aggregates. change (dict_union [] l = l). rewrite union_fresh; [reflexivity|exact NL]. }
  rewrite E in HI. apply (in_map fst) in HI. cbn [fst] in HI. rewrite K in HI. apply in_app_iff in HI.
  destruct HI as [HI|HI]; [left; exact HI|right]. apply filter_In in HI. tauto.
Qed.

Lemma series_nonempty (a : cells block) y x l : cell_at a y x = Some (Series l) -> l <> [] -> array_values a <> [].
Proof.
  intros H NE E. destruct l as [|v l]; [congruence|]. assert (HI : In v (array_values a)); [|rewrite E in HI; destruct HI].
  apply in_array_values. unfold cell_at in H. destruct ((0 <=? y) && (0 <=? x))%Z%bool; [|discriminate].
  destruct (nth_error a (Z.to_nat y)) as [row|] eqn:ER; [|discriminate].
  exists row, (Series (v :: l)). split; [eapply nth_error_In; eauto|]. split; [eapply nth_error_In; eauto|]. left. reflexivity.
Qed.

Lemma for_each_unit_ok {A} (body : A -> res unit) l : (forall a, In a l -> body a = Ok tt) -> for_each l (fun a _ => body a) tt = Ok tt.
Proof.
  induction l as [|a t IH]; intros H; cbn [for_each]; [reflexivity|]. rewrite H by (left; reflexivity). cbn [bind]. apply IH. intros b HB. apply H. right. exact HB.
Qed.

(*@ C78 When the gridded conversion without radiation correction succeeds: the columns have no gaps in the chosen period, the temperatures are possible, longwave radiation or cloud cover is given, the dates can be read, and the static file is complete on the glacier. *)
Lemma grid_conversion_succeeds_lem :
  forall parse vapour doy (cfg : AwsConfig) (csv : frame) st lut sd ed,
    NoDup (column_names cfg) -> rectangular csv -> (aw_aggregate cfg = true -> 0 < aw_step cfg)%Z ->
    sd = None \/ ed = None \/ (exists a b p q, sd = Some a /\ ed = Some b /\ parse a = Some p /\ parse b = Some q) ->
    static_shape st -> st_lats st <> [] -> st_lons st <> [] ->
    (forall n r y x, In (n, r) (st_other st) -> cell_at (st_MASK st) y x = Some (Some 1) -> cell_at r y x <> Some None) ->
    aw_radiation cfg = None \/ aw_radiation cfg = Some "none"%string ->
    0 < standard_atmosphere (aw_stationAlt cfg) ->
    (forall y x h, cell_at (st_HGT st) y x = Some h -> 0 < standard_atmosphere h) ->
    used_times parse cfg csv sd ed <> [] ->
    (forall n, In n [aw_T2 cfg; aw_RH2 cfg; aw_U2 cfg; aw_G cfg; aw_PRES cfg] ->
       exists l, mean_column parse cfg csv sd ed n = Some l /\ ~ In None l) ->
    (forall n l, In n [aw_LWin cfg; aw_N cfg] -> mean_column parse cfg csv sd ed n = Some l -> ~ In None l) ->
    (forall n l, In n [aw_RRR cfg; aw_SNOWFALL cfg] -> sum_column parse cfg csv sd ed n = Some l -> ~ In None l) ->
    column csv (aw_LWin cfg) <> None \/ column csv (aw_N cfg) <> None ->
    (forall l v, mean_column parse cfg csv sd ed (aw_T2 cfg) = Some l -> In (Some v) l ->
       173.16 <= kelvin cfg v <= 373.16) ->
    exists f w, create_2D_input parse vapour doy cfg csv st lut sd ed None None None None = Ok (f, w).
Proof.
  intros parse vapour doy cfg csv st lut sd ed ND RE ST DT SH NLA NLO OTH RM A1 A2 NT REQ OPM OPS LN TMP.
  unfold create_2D_input. rewrite window_all_lem by exact SH.
  assert (HS : exists df0, get_time_slice parse csv sd ed = Ok df0).
  { unfold get_time_slice. destruct DT as [->|[->|(a & b & p & q & -> & -> & E1 & E2)]]; [eauto|destruct sd; eauto|].
    unfold slice_bounds. rewrite E1, E2. destruct p, q. cbn [bind]. eauto. }
  destruct HS as (df0 & HS). rewrite HS. cbn [bind].
  assert (MEM : forall n, column csv n <> None -> dict_find (f_cols df0) n <> None).
  { intros n HN. pose proof (slice_ok _ _ _ _ _ HS) as (_ & _ & HC). destruct (column csv n) as [c|] eqn:EC; [|congruence]. unfold column in EC.
    rewrite (HC _ _ EC (RE _ _ EC)). discriminate. }
  assert (CR : forall n, In n (means cfg) -> column csv n <> None).
  { intros n HI. assert (HI' : In n [aw_T2 cfg; aw_RH2 cfg; aw_U2 cfg; aw_G cfg; aw_PRES cfg]) by (unfold means in HI; cbn in *; tauto).
    destruct (REQ n HI') as (l & E & _). unfold mean_column in E. destruct (column csv n); [discriminate|discriminate E]. }
  assert (HA : exists df, aggregate_frame cfg df0 = Ok df).
  { unfold aggregate_frame. destruct (aw_aggregate cfg); [|eauto]. unfold resample. cbv zeta.
    match goal with |- context [map_res ?fn ?l] => destruct (map_res_progress fn l) as (cols & EC) end; [|rewrite EC; cbn [bind]; eauto].
    intros [n k] HI. cbn [fst snd]. assert (DM : dict_find (f_cols df0) n <> None).
    { apply aggregates_names in HI; [|exact ND]. destruct HI as [HI|HI]; [apply MEM; auto|]. rewrite mem_find in HI. destruct (dict_find (f_cols df0) n); [discriminate|discriminate HI]. }
    unfold dict_get. destruct (dict_find (f_cols df0) n); [cbn [bind]; eauto|congruence]. }
  destruct HA as (df & HA). rewrite HA. cbn [bind].
  destruct (grid_frame _ _ _ _ _ _ _ ND RE ST HS HA) as (FI & FM & FS).
  match goal with |- context [if aw_WRF cfg then ?a else ?b] =>
    replace (if aw_WRF cfg then a else b) with
      (if aw_WRF cfg then Mesh (meshgrid_y (st_lons st) (st_lats st)) else Along "lat" (st_lats st),
       if aw_WRF cfg then Mesh (meshgrid_x (st_lons st) (st_lats st)) else Along "lon" (st_lons st),
       grid_dims cfg, grid_others cfg st)
       by (unfold grid_dims, grid_others; destruct (aw_WRF cfg); reflexivity) end.
  cbv beta iota.
  assert (RQ : forall n, In n [aw_T2 cfg; aw_RH2 cfg; aw_U2 cfg; aw_G cfg; aw_PRES cfg] ->
    exists l, mean_column parse cfg csv sd ed n = Some l /\ dict_find (f_cols df) n = Some l /\ ~ In None l /\ length l = length (f_index df)).
  { intros n HI. destruct (REQ n HI) as (l & E & NN). exists l. split; [exact E|]. split; [rewrite FM, E; [reflexivity|unfold means; cbn in *; tauto]|].
    split; [exact NN|]. rewrite FI. eapply used_length; eauto. }
  destruct (RQ (aw_T2 cfg)) as (T2 & M1 & F1 & N1 & L1); [cbn; tauto|]. destruct (RQ (aw_RH2 cfg)) as (RH2 & _ & F2 & N2 & L2); [cbn; tauto|].
  destruct (RQ (aw_U2 cfg)) as (U2 & _ & F3 & N3 & L3); [cbn; tauto|]. destruct (RQ (aw_G cfg)) as (G & _ & F4 & N4 & L4); [cbn; tauto|].
  destruct (RQ (aw_PRES cfg)) as (PRES & _ & F5 & N5 & L5); [cbn; tauto|]. clear RQ.
  assert (SO : set_order_and_type cfg false df = Ok df).
  { unfold set_order_and_type. cbn [map_res]. unfold dict_get. rewrite F1, F2, F3, F4, F5. cbn [bind andb]. rewrite !mem_find.
    rewrite !FM by (cbn; tauto). unfold mean_column.
    destruct LN as [LN|LN]; [destruct (column csv (aw_LWin cfg)); [reflexivity|congruence]|].
    destruct (column csv (aw_N cfg)); [|congruence]. cbn [option_map]. rewrite andb_false_r. reflexivity. }
  rewrite SO. cbn [bind]. cbv zeta. unfold dict_get. rewrite F1, F2, F3, F4, F5. cbn [bind].
  assert (NI : f_index df <> []) by (rewrite FI; exact NT).
  assert (NEL : forall (l : list number), length l = length (f_index df) -> l <> []).
  { intros l HL E. subst l. apply NI, length_zero_iff_nil. symmetry. exact HL. }
  assert (TB : check_temperature_bounds (map (to_kelvin cfg) T2) = Ok tt).
  { apply temperature_bounds_iff. split; [intros E; apply map_eq_nil in E; apply (NEL T2); auto|].
    intros v HV. apply in_map_iff in HV. destruct HV as (u & EU & HU). destruct u as [u|]; [|contradiction].
    assert (X : to_kelvin cfg (Some u) = Some (kelvin cfg u)) by (unfold to_kelvin, kelvin; destruct (aw_in_K cfg); reflexivity).
    rewrite X in EU. injection EU as <-. eapply TMP; eauto. }
  rewrite TB. cbn [bind].
  destruct SH as (SH1 & SH2 & SH3 & SH4 & SH5).
  match goal with |- context [radiation ?p1 ?p2 ?p3 ?p4 ?p5 ?p6 ?p7 ?p8 ?p9 ?p10 ?p11 ?p12 ?p13 ?p14] =>
    assert (HR : exists g, radiation p1 p2 p3 p4 p5 p6 p7 p8 p9 p10 p11 p12 p13 p14 = Ok g /\ length g = length (f_index df) /\
      forall r, In r g -> forall y x, cell_at (st_MASK st) y x = Some (Some 1) -> exists v, cell_at r y x = Some (Some v)) end.
  { unfold radiation. cbv zeta. destruct (module_none cfg RM) as [Q1 Q2]. rewrite Q1, Q2.
    match goal with |- context [map_res ?fn ?l] => destruct (map_res_progress fn l) as (g & EG) end.
    - intros [t v] _. apply raster_map_ok. intros y x m _. destruct (num_eqb m 1); eauto.
    - exists g. split; [exact EG|]. split; [rewrite (map_res_length _ _ _ EG), combine_length; lia|].
      intros r HI y x HM. apply map_res_forall2 in EG. eapply forall2_right in EG; [|exact HI]. destruct EG as ([t v] & HV & EG).
      pose proof (raster_map_at _ _ _ y x EG) as RA. rewrite HM in RA. destruct RA as (u & U1 & U3). cbn [num_eqb] in U1. unfold Reqb in U1.
      destruct (Req_EM_T 1 1); [|congruence]. apply in_combine_r in HV. destruct v as [v|]; [|contradiction]. exists v. transitivity (Some u); [exact U3|]. injection U1 as <-. reflexivity. }
  destruct HR as (g & HR & LG & NG). rewrite HR. cbn [bind].
  match goal with |- context [add_variables ?d ?l ?v] => destruct (add_variables_total d l) with (vars := v) as (vars1 & HV1) end.
  { intros n a HX. cbn in HX. intuition (subst; match goal with E : (_, _) = (_, _) |- _ => injection E as <- _ end; discriminate). }
  rewrite HV1. cbn [bind].
  match goal with |- context [add_variables ?d ?l vars1] => destruct (add_variables_total d l) with (vars := vars1) as (vars2 & HV2) end.
  { intros n a HX. cbn [In] in HX. repeat (destruct HX as [HX|HX]; [injection HX as <- _; discriminate|]). destruct HX. }
  rewrite HV2. cbn [bind].
  assert (OM : forall n, In n [aw_LWin cfg; aw_N cfg] -> dict_find (f_cols df) n = mean_column parse cfg csv sd ed n) by (intros n HN; apply FM; cbn in *; tauto).
  assert (OSM : forall n, In n [aw_RRR cfg; aw_SNOWFALL cfg] -> dict_find (f_cols df) n = sum_column parse cfg csv sd ed n) by (intros n HN; apply FS; exact HN).
  set (ny := Z.of_nat (length (st_lats st))) in *. set (nx := Z.of_nat (length (st_lons st))) in *.
  set (Q := fun v : variable => forall y x, (0 <= y < ny)%Z -> (0 <= x < nx)%Z ->
    exists l, cell_at (v_data v) y x = Some (Series l) /\ (cell_at (st_MASK st) y x = Some (Some 1) -> ~ In None l)).
  assert (QI : forall d fn l u s, ~ In None l -> (forall y x h v, cell_at (st_HGT st) y x = Some h -> fn h (Some v) <> None) -> Q (mkVariable d (interpolate (st_HGT st) fn l) u s)).
  { intros d fn l u s HN HF y x Y X. cbn [v_data]. destruct (sized_at _ _ _ y x SH1 Y X) as (h & EH).
    exists (map (fn h) l). split; [apply interpolate_at; exact EH|]. intros _ HI. apply in_map_iff in HI. destruct HI as ([v|] & E & HI); [|contradiction].
    apply (HF y x h v EH). exact E. }
  assert (QF : forall d (r : raster R) u s, sized r (length (st_lats st)) (length (st_lons st)) -> Q (mkVariable d (flat_field r) u s)).
  { intros d r u s SR y x Y X. cbn [v_data]. destruct (sized_at _ _ _ y x SR Y X) as (h & EH). exists [Some h]. unfold flat_field.
    rewrite cell_at_mapmap, EH. split; [reflexivity|]. intros _ [E|[]]. discriminate. }
  assert (OPQ : forall n fn d u s a, (forall y x h v, cell_at (st_HGT st) y x = Some h -> fn h (Some v) <> None) ->
    option_map (interpolate (st_HGT st) fn) (dict_find (f_cols df) n) = Some a ->
    In n [aw_LWin cfg; aw_N cfg] \/ In n [aw_RRR cfg; aw_SNOWFALL cfg] -> Q (mkVariable d a u s)).
  { intros n fn d u s a HF E HN. destruct (dict_find (f_cols df) n) as [l|] eqn:EF; [|discriminate]. cbn in E. injection E as <-.
    apply QI; [|exact HF]. destruct HN as [HN|HN]; [rewrite (OM n HN) in EF; eapply OPM; eauto|rewrite (OSM n HN) in EF; eapply OPS; eauto]. }
  assert (Q2 : Forall (fun nv => Q (snd nv)) vars2).
  { eapply add_variables_forall with (Q := Q) in HV1.
    2:{ unfold grid_others. destruct (aw_WRF cfg); [constructor|]. apply Forall_map. apply Forall_forall. intros [n r] HI. cbn [fst snd].
        intros y x Y X. cbn [v_data]. rewrite Forall_forall in SH5. destruct (sized_at _ _ _ y x (SH5 _ HI) Y X) as (v & EV). exists [v].
        rewrite cell_at_mapmap. cbn [snd] in EV. rewrite EV. split; [reflexivity|]. intros HM [E|[]]. apply (OTH n r y x HI HM). rewrite EV, E. reflexivity. }
    2:{ intros n a u s HX. cbn [In] in HX.
        destruct HX as [HX|[HX|[HX|[HX|[]]]]]; injection HX as _ <-; try (apply QF; auto using (sized_map); fail).
        intros y x Y X. cbn [v_data]. destruct (sized_at _ _ _ y x SH4 Y X) as (m & EM). exists [m]. rewrite cell_at_mapmap, EM.
        split; [reflexivity|]. intros HM [E|[]]. subst m. discriminate. }
    eapply add_variables_forall with (Q := Q) in HV2; [exact HV2|exact HV1|].
    intros n a u s HX. unfold if_column in HX. cbn [In] in HX.
    destruct HX as [HX|[HX|[HX|[HX|[HX|[HX|[HX|[HX|[HX|[]]]]]]]]]].
    - injection HX as _ <-. apply QI; [|intros; discriminate]. intros HI. apply in_map_iff in HI. destruct HI as ([v|] & E & HI); [|contradiction].
      unfold to_kelvin in E. destruct (aw_in_K cfg); discriminate.
    - injection HX as _ <-. apply QI; [exact N2|]. intros y x h v _. rewrite humid_bias. discriminate.
    - injection HX as _ <-. apply QI; [exact N3|]. intros; discriminate.
    - injection HX as _ <-. intros y x Y X. cbn [v_data]. rewrite stack_at by auto. eexists. split; [reflexivity|].
      intros HM HI. apply in_map_iff in HI. destruct HI as (r & E & HI). destruct (NG r HI y x HM) as (v & EV).
      rewrite (entry_at r y x (Some v)) in E by (auto; lia). discriminate.
    - injection HX as _ <-. apply QI; [exact N5|]. intros y x h v EH. rewrite press_lapse by (eauto). discriminate.
    - injection HX as _ HX. eapply (OPQ (aw_RRR cfg) (fun h => set_bias (aw_lapse_RRR cfg) (h - aw_stationAlt cfg) true)); [|exact HX|right; cbn; tauto]. intros y x h v _. rewrite limit_bias. discriminate.
    - injection HX as _ HX. eapply (OPQ (aw_SNOWFALL cfg) (fun h => set_bias (aw_lapse_SNOWFALL cfg) (h - aw_stationAlt cfg) true)); [|exact HX|right; cbn; tauto]. intros y x h v _. rewrite limit_bias. discriminate.
    - injection HX as _ HX. eapply (OPQ (aw_LWin cfg) (fun _ v => v)); [|exact HX|left; cbn; tauto]. intros; discriminate.
    - injection HX as _ HX. eapply (OPQ (aw_N cfg) (fun _ v => v)); [|exact HX|left; cbn; tauto]. intros; discriminate. }
  assert (V1 := fun ND1 => add_variables_find _ _ _ _ ND1 HV1). clear HV1. specialize (V1 ltac:(cbn; repeat constructor; cbn; intuition discriminate)).
  assert (V2 := fun ND2 => add_variables_find _ _ _ _ ND2 HV2). clear HV2. specialize (V2 ltac:(cbn; repeat constructor; cbn; intuition discriminate)).
  assert (FMK : exists d u s, dict_find vars2 "MASK"%string = Some (mkVariable d (map (map one_number) (st_MASK st)) u s)).
  { pose proof (V2 "MASK"%string) as E2. cbn [dict_find String.eqb Ascii.eqb Bool.eqb] in E2.
    destruct (V1 "MASK"%string) as (u & _ & E1). exists (grid_dims cfg), (fst u), (snd u). transitivity (dict_find vars1 "MASK"%string); [exact E2|exact E1]. }
  assert (NP : check_for_nan_2D vars2 ny nx = Ok tt).
  { unfold check_for_nan_2D. apply for_each_unit_ok. intros [y x] HI. apply in_product in HI. destruct HI as [Y X]. cbn [fst snd].
    unfold check_for_nan_cell, attr_get. destruct FMK as (d & u & s & FMK). rewrite FMK. cbn [bind v_data]. rewrite cell_get_at by lia.
    destruct (sized_at _ _ _ y x SH4 Y X) as (m & EM). rewrite cell_at_mapmap, EM. cbn [option_map bind one_number].
    destruct (num_eqb m 1) eqn:EQ; [|reflexivity].
    assert (EM1 : m = Some 1) by (destruct m as [v|]; [cbn in EQ; unfold Reqb in EQ; destruct (Req_EM_T v 1); [subst; reflexivity|discriminate]|discriminate]). subst m.
    destruct (map_res_progress (fun nv => cell_get (v_data (snd nv)) y x) vars2) as (bs & EB).
    { intros [n v] HI. rewrite Forall_forall in Q2. destruct (Q2 _ HI y x Y X) as (l & E & _). cbn [snd] in *. rewrite cell_get_at by lia. rewrite E. eauto. }
    rewrite EB. cbn [bind]. destruct (existsb _ bs) eqn:EX; [|reflexivity]. exfalso. apply existsb_exists in EX. destruct EX as (b & HB & EX).
    apply map_res_forall2 in EB. eapply forall2_right in EB; [|exact HB]. destruct EB as ([n v] & HI & EB). cbn [snd] in EB. rewrite cell_get_at in EB by lia.
    rewrite Forall_forall in Q2. destruct (Q2 _ HI y x Y X) as (l & E & HN). cbn [snd] in E. rewrite E in EB. injection EB as <-.
    apply existsb_exists in EX. destruct EX as (z & HZ & EZ). destruct z; [discriminate|]. apply (HN EM HZ). }
  rewrite NP. cbn [bind].
  assert (C00 : exists h, cell_at (st_HGT st) 0 0 = Some h).
  { apply (sized_at _ _ _ 0 0 SH1); [|]; split; try lia; [destruct (st_lats st)|destruct (st_lons st)]; cbn [length]; try congruence; lia. }
  assert (CM0 : exists m, cell_at (st_MASK st) 0 0 = Some m).
  { apply (sized_at _ _ _ 0 0 SH4); [|]; split; try lia; [destruct (st_lats st)|destruct (st_lons st)]; cbn [length]; try congruence; lia. }
  destruct C00 as (h0 & C00).
  assert (RNG : (0 <= 0 < ny)%Z /\ (0 <= 0 < nx)%Z) by (destruct CM0 as (m & CM0); exact (cell_in_range _ _ _ _ _ _ SH4 CM0)).
  assert (CD : exists w, check_data cfg vars2 df = Ok w).
  { unfold check_data. cbv zeta.
    match goal with |- context [for_each ?l ?b []] => destruct (for_each_ok (fun _ => True) b l []) as (w & E & _); [exact I| |exists w; exact E] end.
    intros [[n [mx mn]] keep] ws HX _. apply filter_In in HX. destruct HX as [HX KP]. cbn [snd fst] in *.
    assert (F : exists v l, dict_find vars2 n = Some v /\ cell_at (v_data v) 0 0 = Some (Series l) /\ l <> []).
    { assert (FIN : forall d fn c, (exists u', dict_find variable_metadata n = Some u' /\ dict_find vars2 n = Some (mkVariable d (interpolate (st_HGT st) fn c) (fst u') (snd u'))) ->
        c <> [] -> exists v l, dict_find vars2 n = Some v /\ cell_at (v_data v) 0 0 = Some (Series l) /\ l <> []).
      { intros d fn c (u' & _ & F) NC. do 2 eexists. split; [exact F|]. cbn [v_data]. split; [apply interpolate_at; exact C00|].
        intros E. apply map_eq_nil in E. auto. }
      assert (NOC : forall c l, In c (column_names cfg) -> dict_find (f_cols df) c = Some l ->
         In c [aw_LWin cfg; aw_N cfg] \/ In c [aw_RRR cfg; aw_SNOWFALL cfg] -> l <> []).
      { intros c l _ E HN. apply NEL. rewrite FI. destruct HN as [HN|HN]; [rewrite (OM c HN) in E; eapply used_length; eauto|].
        rewrite (OSM c HN) in E. unfold sum_column in E. destruct (column csv c) as [cc|] eqn:EC; [|discriminate]. cbn in E. injection E as <-.
        apply RE in EC. unfold used_values, used_times. destruct (aw_aggregate cfg); [rewrite map_length; reflexivity|]. apply filter_length_pair. exact EC. }
      cbn [In] in HX.
      destruct HX as [HX|[HX|[HX|[HX|[HX|HX]]]]].
      - injection HX as <- _ _ _. eapply FIN; [exact (V2 "T2"%string)| ]. intros E. apply map_eq_nil in E. apply (NEL T2); auto.
      - injection HX as <- _ _ _. eapply FIN; [exact (V2 "RH2"%string)|apply NEL; exact L2].
      - injection HX as <- _ _ _. eapply FIN; [exact (V2 "U2"%string)|apply NEL; exact L3].
      - injection HX as <- _ _ _. destruct (V2 "G"%string) as (u & _ & F). do 2 eexists. split; [exact F|]. cbn [v_data]. split; [apply stack_at; tauto|].
        intros E. apply map_eq_nil in E. subst g. apply NI, length_zero_iff_nil. symmetry. exact LG.
      - injection HX as <- _ _ _. eapply FIN; [exact (V2 "PRES"%string)|apply NEL; exact L5].
      - destruct HX as [HX|[HX|[HX|[HX|[]]]]]; injection HX as <- _ _ <-; rewrite mem_find in KP.
        + destruct (dict_find (f_cols df) (aw_RRR cfg)) as [l|] eqn:EF; [|discriminate].
          pose proof (V2 "RRR"%string) as F. unfold if_column in F. rewrite EF in F. eapply FIN; [exact F|].
          eapply NOC; [|exact EF|right; cbn; tauto]. unfold column_names; cbn; tauto.
        + destruct (dict_find (f_cols df) (aw_SNOWFALL cfg)) as [l|] eqn:EF; [|discriminate].
          pose proof (V2 "SNOWFALL"%string) as F. unfold if_column in F. rewrite EF in F. eapply FIN; [exact F|].
          eapply NOC; [|exact EF|right; cbn; tauto]. unfold column_names; cbn; tauto.
        + destruct (dict_find (f_cols df) (aw_LWin cfg)) as [l|] eqn:EF; [|discriminate].
          pose proof (V2 "LWin"%string) as F. unfold if_column in F. rewrite EF in F. eapply (FIN _ (fun _ v => v)); [exact F|].
          eapply NOC; [|exact EF|left; cbn; tauto]. unfold column_names; cbn; tauto.
        + destruct (dict_find (f_cols df) (aw_N cfg)) as [l|] eqn:EF; [|discriminate].
          pose proof (V2 "N"%string) as F. unfold if_column in F. rewrite EF in F. eapply (FIN _ (fun _ v => v)); [exact F|].
          eapply NOC; [|exact EF|left; cbn; tauto]. unfold column_names; cbn; tauto. }
    destruct F as (v & l & F & CL & NL). unfold attr_get. rewrite F. cbn [bind].
    destruct (check_ok (array_values (v_data v)) mx mn) as (bb & ->); [eapply series_nonempty; eauto|]. cbn [bind]. eauto. }
  destruct CD as (w & ->). cbn [bind]. eauto.
Qed.

(** ** A conversion *)
Definition b_config : AwsConfig :=
  mkAwsConfig "PRES" "T2" "RH2" "G" "RRR" "U2" "LWin" "SNOWFALL" "N" true false true 3600%Z None false
    0 0 0 0 false 9 46 3000 2500 46 (Ropp 0.006) 0 0 0.
Definition b_station : frame :=
  mkFrame [0; 1800; 3600]%Z
    [("T2", [Some 270; Some 272; Some 274]); ("RH2", [Some 50; None; Some 101]); ("U2", [Some 1; Some 3; Some 5]);
     ("G", [Some 0; Some 100; Some 200]); ("PRES", [Some 700; Some 700; Some 701]); ("RRR", [Some 1; None; Some 0]);
     ("LWin", [Some 250; Some 260; Some 270])]%string.
Definition b_static : static_file :=
  mkStatic [46.1; 46] [9] [[2500]; [3000]] [[0]; [10]] [[180]; [90]] [[Some 1]; [None]] [].

Lemma b_shape : static_shape b_static.
Proof. repeat split; repeat constructor. Qed.
Lemma b_cell {A} (a b : A) y x v : cell_at [[a]; [b]] y x = Some v -> v = a \/ v = b.
Proof.
  unfold cell_at. destruct ((0 <=? y) && (0 <=? x))%Z%bool; [|discriminate].
  destruct (Z.to_nat y) as [|[|[|]]], (Z.to_nat x) as [|[|]]; cbn; intros H; try discriminate; injection H as <-; auto.
Qed.

Lemma b_file parse vapour doy lut : exists f w, create_2D_input parse vapour doy b_config b_station b_static lut None None None None None None = Ok (f, w).
Proof.
  apply grid_conversion_succeeds_lem.
  - exact a_names.
  - exact a_rectangular.
  - reflexivity.
  - left. reflexivity.
  - exact b_shape.
  - discriminate.
  - discriminate.
  - intros n r y x [].
  - left. reflexivity.
  - cbn. unfold standard_atmosphere. lra.
  - intros y x h H. apply b_cell in H. unfold standard_atmosphere. destruct H as [-> | ->]; lra.
  - discriminate.
  - intros n HN. cbn in HN. repeat (destruct HN as [<-|HN]; [eexists; split; [reflexivity|]; cbn; change (Pos.to_nat 2) with 2%nat; cbn; intuition discriminate|]). destruct HN.
  - intros n l HN H. cbn in HN. destruct HN as [<-|[<-|[]]]; [|discriminate]. injection H as <-. cbn. change (Pos.to_nat 2) with 2%nat. cbn. intuition discriminate.
  - intros n l HN H. cbn in HN. destruct HN as [<-|[<-|[]]]; [|discriminate]. injection H as <-. cbn. change (Pos.to_nat 2) with 2%nat. cbn. intuition discriminate.
  - left. discriminate.
  - intros l v H HI. injection H as <-. cbn in HI. change (Pos.to_nat 2) with 2%nat in HI. cbn in HI. unfold kelvin. cbn [aw_in_K b_config].
    destruct HI as [HI|[HI|[]]]; injection HI as <-; lra.
Qed.

(*@ex A station file converted to a grid of two cells with hourly means; the upper cell is not glacier. *)
Lemma grid_file_example_lem :
  forall parse vapour doy lut, exists f w,
    create_2D_input parse vapour doy b_config b_station b_static lut None None None None None None = Ok (f, w) /\
    nf_time f = [0; 3600]%Z /\
    file_series f "T2"%string 0 0 = Some [Some 271; Some 274] /\
    file_series f "T2"%string 1 0 = Some [Some 268; Some 271] /\
    file_series f "RRR"%string 0 0 = Some [Some 1; Some 0] /\
    file_series f "G"%string 0 0 = Some [Some 50; Some 200] /\
    file_series f "G"%string 1 0 = Some [None; None].
Proof.
  intros parse vapour doy lut. destruct (b_file parse vapour doy lut) as (f & w & H). exists f, w. split; [exact H|].
  assert (PS : plain_static b_static) by (intros n _; reflexivity).
  pose proof (grid_file_content_lem parse vapour doy b_config b_station b_static lut None None None None None None f w a_names a_rectangular ltac:(intros; reflexivity) PS H) as C.
  rewrite (window_all_lem b_static b_shape) in C.
  pose proof (C 0%Z 0%Z 2500 eq_refl) as (C0 & C1 & _ & _ & _ & C2 & _). pose proof (C 1%Z 0%Z 3000 eq_refl) as (_ & C3 & _).
  split; [exact C0|].
  split; [rewrite C1; cbn; change (Pos.to_nat 2) with 2%nat; cbn; unfold kelvin; cbn; f_equal; f_equal; [f_equal; lra|f_equal; f_equal; lra]|].
  split; [rewrite C3; cbn; change (Pos.to_nat 2) with 2%nat; cbn; unfold kelvin; cbn; f_equal; f_equal; [f_equal; lra|f_equal; f_equal; lra]|].
  split; [rewrite C2; cbn; change (Pos.to_nat 2) with 2%nat; cbn; f_equal; f_equal; [f_equal; unfold sum_of; cbn; rewrite Rmax_left; lra|f_equal; f_equal; unfold sum_of; cbn; rewrite Rmax_left; lra]|].
  pose proof (fun y x => radiation_uncorrected_lem parse vapour doy b_config b_station b_static lut None None None None None None f w a_names a_rectangular ltac:(intros; reflexivity) b_shape (or_introl eq_refl) H y x) as D.
  rewrite (window_all_lem b_static b_shape) in D.
  split.
  - destruct (D 0%Z 0%Z (Some 1) eq_refl) as (D1 & _). rewrite D1 by reflexivity. cbn. change (Pos.to_nat 2) with 2%nat. cbn. f_equal. f_equal; [f_equal; lra|f_equal; f_equal; lra].
  - destruct (D 1%Z 0%Z None eq_refl) as (_ & D2). rewrite D2 by discriminate. rewrite C0. reflexivity.
Qed.
