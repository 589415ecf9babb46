(** * Gridded conversion of station data *)
From Verif Require Import ModelPy ModelConstants ModelNode ModelGrid ModelHeat ModelSurface ModelInit
  ModelCore ModelConfig ModelIO ModelMain ModelRadCor SpecIO SpecRadCor ModelAws SpecAws.
From Verif Require Import LemPy LemDict LemIO LemIO4 LemIO5 LemShad5 LemAws LemAws2.
From Coq Require Import Permutation.

Lemma resample_ok w kinds df df' : (0 < w)%Z -> NoDup (map fst kinds) -> resample w kinds df = Ok df' ->
  f_index df' = bins w (f_index df) /\
  (forall n k, dict_find kinds n = Some k -> exists c, dict_find (f_cols df) n = Some c /\
     dict_find (f_cols df') n = Some (map (fun b => aggregate k (during b w (f_index df) c)) (bins w (f_index df)))) /\
  (forall n, dict_find kinds n = None -> dict_find (f_cols df') n = None).
Proof.
  intros Hw ND H. unfold resample in H. apply bind_ok in H as (cols & HC & H). injection H as H. subst df'.
  cbn [f_index f_cols]. split; [reflexivity|].
  assert (D : forall b c, In b (bins w (f_index df)) ->
    pick (map (fun t => (bin (bin_origin (f_index df)) w t =? b)%Z) (f_index df)) c = during b w (f_index df) c).
  { intros b c HI. apply pick_during; auto. apply in_bins in HI; tauto. }
  clear ND. revert cols HC. induction kinds as [|[m a] t IH]; intros cols HC; cbn [map_res] in HC.
  - injection HC as HC. subst. split; [discriminate|reflexivity].
  - apply bind_ok in HC as (x & HX & HC). apply bind_ok in HC as (xs & HXS & HC). injection HC as HC. subst cols.
    apply bind_ok in HX as (c & HG & HX). injection HX as HX. subst x. cbn [fst snd] in *.
    destruct (IH xs HXS) as [P Q]. cbn [dict_find]. split.
    + intros n k. destruct (String.eqb m n) eqn:E; [|apply P].
      apply String.eqb_eq in E. subst n. intros X. injection X as X. subst a. exists c.
      unfold dict_get in HG. destruct (dict_find (f_cols df) m); [|discriminate]. injection HG as HG. subst. split; auto.
      f_equal. apply map_ext_in. intros b HB. rewrite D; auto.
    + intros n. destruct (String.eqb m n); [discriminate|apply Q].
Qed.

Lemma nodup_filter_app {A} (p : A -> bool) (l m : list A) : NoDup (l ++ m) -> NoDup (l ++ filter p m).
Proof.
  induction l as [|a t IH]; cbn; [apply NoDup_filter|]. intros ND. inversion ND; subst. constructor; auto.
  intros HI. apply H1. apply in_app_iff in HI. apply in_app_iff. destruct HI as [HI|HI]; auto.
  apply filter_In in HI. tauto.
Qed.

Definition means (cfg : AwsConfig) : list string := [aw_PRES cfg; aw_T2 cfg; aw_RH2 cfg; aw_G cfg; aw_U2 cfg].
Definition extras (cfg : AwsConfig) : list string := [aw_N cfg; aw_RRR cfg; aw_LWin cfg; aw_SNOWFALL cfg].

Lemma names_nodup cfg : NoDup (column_names cfg) -> NoDup (means cfg ++ extras cfg).
Proof.
  unfold column_names, means, extras. cbn [app]. intros ND.
  eapply Permutation_NoDup; [|exact ND].
  apply NoDup_Permutation_bis; [exact ND|cbn; lia|intros x HI; cbn in *; tauto].
Qed.

Lemma aggregates_nodup cfg df : NoDup (column_names cfg) ->
  NoDup (map fst (aggregates cfg df)) /\
  (forall n, In n (means cfg) -> dict_find (aggregates cfg df) n = Some Mean) /\
  (forall n, In n (extras cfg) -> dict_find (aggregates cfg df) n =
     if dict_mem (f_cols df) n then Some (if in_names n [aw_N cfg; aw_LWin cfg] then Mean else Sum) else None).
Proof.
  intros ND. apply names_nodup in ND.
  set (l := map (fun n => (n, Mean)) (means cfg)
         ++ map (fun n => (n, if in_names n [aw_N cfg; aw_LWin cfg] then Mean else Sum)) (filter (dict_mem (f_cols df)) (extras cfg))).
  assert (K : map fst l = means cfg ++ filter (dict_mem (f_cols df)) (extras cfg)).
  { unfold l. rewrite map_app, !map_map. cbn [fst]. rewrite !map_id. reflexivity. }
  assert (NL : NoDup (map fst l)) by (rewrite K; apply nodup_filter_app; exact ND).
  assert (E : aggregates cfg df = l).
  { unfold aggregates. change (dict_union [] l = l). rewrite union_fresh; [reflexivity|exact NL]. }
  rewrite E. split; [exact NL|]. split.
  - intros n HI. apply in_find; [exact NL|]. unfold l. apply in_or_app. left. apply in_map_iff. exists n. auto.
  - intros n HI. destruct (dict_mem (f_cols df) n) eqn:M.
    + apply in_find; [exact NL|]. unfold l. apply in_or_app. right. apply in_map_iff. exists n. split; auto.
      apply filter_In. auto.
    + destruct (dict_find l n) as [k|] eqn:F; auto. exfalso. apply find_in in F. apply (in_map fst) in F. cbn [fst] in F.
      rewrite K in F. apply in_app_iff in F. destruct F as [F|F].
      * clear - ND HI F. revert ND F. generalize (means cfg). intros m. induction m as [|a t IH]; intros ND F; [destruct F|].
        inversion ND; subst. destruct F as [->|F]; auto. apply H1. apply in_or_app. auto.
      * apply filter_In in F. destruct F as [_ F]. congruence.
Qed.

Lemma pick_kept parse csv sd ed c :
  pick (map (in_slice parse sd ed) (f_index csv)) c = kept_values parse csv sd ed c.
Proof. unfold kept_values. apply pick_filter. Qed.

Lemma grid_frame parse cfg csv sd ed df0 df : NoDup (column_names cfg) -> rectangular csv ->
  (aw_aggregate cfg = true -> 0 < aw_step cfg)%Z ->
  get_time_slice parse csv sd ed = Ok df0 -> aggregate_frame cfg df0 = Ok df ->
  f_index df = used_times parse cfg csv sd ed /\
  (forall n, In n (means cfg ++ [aw_N cfg; aw_LWin cfg]) ->
     dict_find (f_cols df) n = mean_column parse cfg csv sd ed n) /\
  (forall n, In n [aw_RRR cfg; aw_SNOWFALL cfg] ->
     dict_find (f_cols df) n = sum_column parse cfg csv sd ed n).
Proof.
  intros ND RE ST HS HA. apply slice_ok in HS. destruct HS as (HI & HN & HC).
  assert (F0 : forall n, dict_find (f_cols df0) n = option_map (kept_values parse csv sd ed) (column csv n)).
  { intros n. destruct (column csv n) as [c|] eqn:EC; unfold column in EC; cbn [option_map].
    - rewrite (HC _ _ EC (RE _ _ EC)). rewrite pick_kept. reflexivity.
    - apply HN. exact EC. }
  clear HN HC. unfold aggregate_frame in HA. unfold used_times, mean_column, sum_column, used_values.
  destruct (aw_aggregate cfg).
  - specialize (ST eq_refl). destruct (aggregates_nodup cfg df0 ND) as (NA & AM & AE).
    destruct (resample_ok _ _ _ _ ST NA HA) as (R1 & R2 & R3). rewrite R1, HI. split; [reflexivity|].
    assert (X : forall n k w, dict_find (aggregates cfg df0) n = Some k -> (forall l, aggregate k l = w l) ->
      dict_find (f_cols df) n = option_map (fun c => map (fun b => w (during b (aw_step cfg) (kept_times parse csv sd ed) (kept_values parse csv sd ed c)))
        (bins (aw_step cfg) (kept_times parse csv sd ed))) (column csv n)).
    { intros n k w E W. destruct (R2 n k E) as (c & E1 & E2). rewrite E2. rewrite F0 in E1.
      destruct (column csv n) as [c0|]; cbn [option_map] in *; [|discriminate]. injection E1 as E1. subst c.
      f_equal. rewrite HI. unfold kept_times. apply map_ext. intros b. apply W. }
    assert (Y : forall n, In n (extras cfg) -> column csv n = None -> dict_find (f_cols df) n = None).
    { intros n HIn E. apply R3. rewrite AE by auto. rewrite mem_find, F0, E. reflexivity. }
    assert (MM : forall n c, In n (extras cfg) -> column csv n = Some c ->
      dict_find (aggregates cfg df0) n = Some (if in_names n [aw_N cfg; aw_LWin cfg] then Mean else Sum)).
    { intros n c HIn E. rewrite AE by auto. rewrite mem_find, F0, E. reflexivity. }
    split.
    + intros n HIn. apply in_app_iff in HIn. destruct HIn as [HIn|HIn].
      * apply (X n Mean); [apply AM; auto|apply mean_mean_of].
      * assert (HX : In n (extras cfg)) by (unfold extras; cbn in *; tauto).
        destruct (column csv n) as [c|] eqn:EC; [|cbn; apply Y; auto].
        rewrite <- EC. apply (X n Mean); [|apply mean_mean_of]. rewrite (MM n c HX EC).
        assert (Q : in_names n [aw_N cfg; aw_LWin cfg] = true) by (apply in_names_iff; exact HIn). rewrite Q. reflexivity.
    + intros n HIn. assert (HX : In n (extras cfg)) by (unfold extras; cbn in *; tauto).
      destruct (column csv n) as [c|] eqn:EC; [|cbn; apply Y; auto].
      rewrite <- EC. apply (X n Sum (fun l => Some (sum_of l))); [|apply sum_sum_of]. rewrite (MM n c HX EC).
      destruct (in_names n [aw_N cfg; aw_LWin cfg]) eqn:Q; [|reflexivity]. exfalso. apply in_names_iff in Q.
      apply names_nodup in ND. unfold means, extras in ND. cbn [app] in ND.
      do 5 (apply NoDup_cons_iff in ND; destruct ND as [_ ND]).
      clear - ND HIn Q. inversion ND as [|a1 l1 N1 ND1]; subst. inversion ND1 as [|a2 l2 N2 ND2]; subst.
      inversion ND2 as [|a3 l3 N3 ND3]; subst. cbn in *. intuition congruence.
  - injection HA as HA. subst df0. split; [exact HI|]. split; intros n _; apply F0.
Qed.

(** ** The file *)
Section GRID.
Variables (parse : parser) (vapour : R -> R -> R -> number) (doy : Z -> Z) (cfg : AwsConfig) (csv : frame)
  (ds : static_file) (lut : list (raster number) * raster number) (sd ed : option string).

Let alt := aw_stationAlt cfg.
Let T (h : R) := set_bias (aw_lapse_T cfg) (h - alt) false.
Let H (h : R) := set_bias (aw_lapse_RH cfg) (h - alt) false.
Let P (h : R) := barometric alt 5.255 h.

Definition grid_dims : list string :=
  if aw_WRF cfg then ["south_north"; "west_east"]%string else ["lat"; "lon"]%string.

Definition grid_static : dict (option (cells block)) :=
  [("HGT", Some (flat_field (st_HGT ds)));
   ("ASPECT", Some (flat_field (map (map (fun a => a - 180.0)) (st_ASPECT ds))));
   ("SLOPE", Some (flat_field (st_SLOPE ds)));
   ("MASK", Some (map (map one_number) (st_MASK ds)))]%string.

Definition grid_vars (T2 RH2 U2 PRES : list number) (g : list (raster number)) : dict (option (cells block)) :=
  [("T2", Some (interpolate (st_HGT ds) T (map (to_kelvin cfg) T2)));
   ("RH2", Some (interpolate (st_HGT ds) (fun h v => set_relative_humidity_bounds (H h v)) RH2));
   ("U2", Some (constant_field (st_HGT ds) U2));
   ("G", Some (stack (Z.of_nat (length (st_lats ds))) (Z.of_nat (length (st_lons ds))) g));
   ("PRES", Some (interpolate (st_HGT ds) P PRES));
   ("RRR", option_map (interpolate (st_HGT ds) (fun h => set_bias (aw_lapse_RRR cfg) (h - alt) true))
             (sum_column parse cfg csv sd ed (aw_RRR cfg)));
   ("SNOWFALL", option_map (interpolate (st_HGT ds) (fun h => set_bias (aw_lapse_SNOWFALL cfg) (h - alt) true))
             (sum_column parse cfg csv sd ed (aw_SNOWFALL cfg)));
   ("LWin", option_map (constant_field (st_HGT ds)) (mean_column parse cfg csv sd ed (aw_LWin cfg)));
   ("N", option_map (constant_field (st_HGT ds)) (mean_column parse cfg csv sd ed (aw_N cfg)))]%string.

Definition grid_others : dict variable :=
  if aw_WRF cfg then []
  else map (fun nr => (fst nr, mkVariable ["lat"; "lon"]%string (map (map one_number) (snd nr)) "" "")) (st_other ds).

Definition grid_radiation (T2 PRES RH2 G : list number) : res (list (raster number)) :=
  radiation vapour doy cfg ds lut T P H (used_times parse cfg csv sd ed) (map (to_kelvin cfg) T2) PRES RH2
    (mean_column parse cfg csv sd ed (aw_N cfg)) G.
End GRID.

Lemma grid_ok parse vapour doy cfg csv static lut sd ed x0 x1 y0 y1 f w :
  NoDup (column_names cfg) -> rectangular csv -> (aw_aggregate cfg = true -> 0 < aw_step cfg)%Z ->
  create_2D_input parse vapour doy cfg csv static lut sd ed x0 x1 y0 y1 = Ok (f, w) ->
  let ds := subset static x0 x1 y0 y1 in
  nf_time f = used_times parse cfg csv sd ed /\
  nf_lat f = (if aw_WRF cfg then Mesh (meshgrid_y (st_lons ds) (st_lats ds)) else Along "lat" (st_lats ds)) /\
  nf_lon f = (if aw_WRF cfg then Mesh (meshgrid_x (st_lons ds) (st_lats ds)) else Along "lon" (st_lons ds)) /\
  (column csv (aw_LWin cfg) <> None \/ column csv (aw_N cfg) <> None) /\
  check_for_nan_2D (nf_vars f) (Z.of_nat (length (st_lats ds))) (Z.of_nat (length (st_lons ds))) = Ok tt /\
  exists T2 RH2 U2 G PRES g,
    mean_column parse cfg csv sd ed (aw_T2 cfg) = Some T2 /\
    mean_column parse cfg csv sd ed (aw_RH2 cfg) = Some RH2 /\
    mean_column parse cfg csv sd ed (aw_U2 cfg) = Some U2 /\
    mean_column parse cfg csv sd ed (aw_G cfg) = Some G /\
    mean_column parse cfg csv sd ed (aw_PRES cfg) = Some PRES /\
    check_temperature_bounds (map (to_kelvin cfg) T2) = Ok tt /\
    grid_radiation parse vapour doy cfg csv ds lut sd ed T2 PRES RH2 G = Ok g /\
    (forall n a, dict_find (grid_static ds) n = Some (Some a) ->
       exists u, dict_find (nf_vars f) n = Some (mkVariable (grid_dims cfg) a (fst u) (snd u)) /\
                 dict_find variable_metadata n = Some u) /\
    (forall n a, dict_find (grid_vars parse cfg csv ds sd ed T2 RH2 U2 PRES g) n = Some (Some a) ->
       exists u, dict_find (nf_vars f) n = Some (mkVariable ("time" :: grid_dims cfg)%string a (fst u) (snd u)) /\
                 dict_find variable_metadata n = Some u) /\
    (forall n, dict_find (grid_static ds) n = None ->
       match dict_find (grid_vars parse cfg csv ds sd ed T2 RH2 U2 PRES g) n with Some (Some _) => False | _ => True end ->
       dict_find (nf_vars f) n = dict_find (grid_others cfg ds) n).
Proof.
  intros ND RE ST HH ds. unfold create_2D_input in HH.
  apply bind_ok in HH as (df0 & HS & HH). apply bind_ok in HH as (df & HA & HH).
  destruct (grid_frame _ _ _ _ _ _ _ ND RE ST HS HA) as (FI & FM & FS). clear HS HA df0.
  fold ds in HH.
  match type of HH with context [if aw_WRF cfg then ?a else ?b] =>
    replace (if aw_WRF cfg then a else b) with
      (if aw_WRF cfg then Mesh (meshgrid_y (st_lons ds) (st_lats ds)) else Along "lat" (st_lats ds),
       if aw_WRF cfg then Mesh (meshgrid_x (st_lons ds) (st_lats ds)) else Along "lon" (st_lons ds),
       grid_dims cfg, grid_others cfg ds) in HH
       by (unfold grid_dims, grid_others; destruct (aw_WRF cfg); reflexivity) end.
  cbv beta iota in HH.
  apply bind_ok in HH as (df1 & HO & HH). apply set_order_ok in HO. destruct HO as (-> & REQ & LWN). cbv zeta in HH.
  assert (MC : forall n l, In n (means cfg) -> dict_get (f_cols df) n = Ok l -> mean_column parse cfg csv sd ed n = Some l).
  { intros n l HI E. rewrite <- FM by (apply in_or_app; left; exact HI). unfold dict_get in E.
    destruct (dict_find (f_cols df) n); congruence. }
  apply bind_ok in HH as (RH2 & E1 & HH). apply bind_ok in HH as (U2 & E2 & HH). apply bind_ok in HH as (G & E3 & HH).
  apply bind_ok in HH as (PRES & E4 & HH). apply bind_ok in HH as (T2 & E5 & HH).
  apply bind_ok in HH as ([] & HT & HH). apply bind_ok in HH as (g & HR & HH).
  apply bind_ok in HH as (vars1 & HV1 & HH). apply bind_ok in HH as (vars2 & HV2 & HH).
  apply bind_ok in HH as ([] & HNAN & HH). apply bind_ok in HH as (warn & HW & HH). injection HH as H1 H2. subst f w.
  cbn [nf_time nf_lat nf_lon nf_vars].
  unfold if_column in HV2.
  rewrite (FS (aw_RRR cfg)) in HV2 by (cbn; tauto). rewrite (FS (aw_SNOWFALL cfg)) in HV2 by (cbn; tauto).
  rewrite (FM (aw_LWin cfg)) in HV2 by (cbn; tauto). rewrite (FM (aw_N cfg)) in HV2 by (cbn; tauto).
  rewrite (FM (aw_N cfg)) in HR by (cbn; tauto). rewrite FI in HR.
  split; [exact FI|]. split; [reflexivity|]. split; [reflexivity|]. split.
  { destruct LWN as [X|X]; [left|right]; rewrite FM in X by (cbn; tauto); unfold mean_column in X;
    destruct (column csv _); cbn in X; congruence. }
  split; [exact HNAN|].
  exists T2, RH2, U2, G, PRES, g.
  split; [apply MC; [unfold means; cbn; tauto|exact E5]|].
  split; [apply MC; [unfold means; cbn; tauto|exact E1]|].
  split; [apply MC; [unfold means; cbn; tauto|exact E2]|].
  split; [apply MC; [unfold means; cbn; tauto|exact E3]|].
  split; [apply MC; [unfold means; cbn; tauto|exact E4]|].
  split; [exact HT|]. split; [exact HR|].
  assert (V1 := fun N1 => add_variables_find _ _ _ _ N1 HV1). clear HV1. specialize (V1 ltac:(cbn; repeat constructor; cbn; intuition discriminate)).
  assert (V2 := fun N2 => add_variables_find _ _ _ _ N2 HV2). clear HV2. specialize (V2 ltac:(cbn; repeat constructor; cbn; intuition discriminate)).
  change (forall n, match dict_find (grid_static ds) n with
    | Some (Some a) => exists u, dict_find variable_metadata n = Some u /\ dict_find vars1 n = Some (mkVariable (grid_dims cfg) a (fst u) (snd u))
    | _ => dict_find vars1 n = dict_find (grid_others cfg ds) n end) in V1.
  change (forall n, match dict_find (grid_vars parse cfg csv ds sd ed T2 RH2 U2 PRES g) n with
    | Some (Some a) => exists u, dict_find variable_metadata n = Some u /\ dict_find vars2 n = Some (mkVariable ("time"%string :: grid_dims cfg) a (fst u) (snd u))
    | _ => dict_find vars2 n = dict_find vars1 n end) in V2.
  assert (DIS : forall n x, dict_find (grid_static ds) n = Some x -> dict_find (grid_vars parse cfg csv ds sd ed T2 RH2 U2 PRES g) n = None).
  { intros n x F. apply find_in in F. apply (in_map fst) in F. cbn in F.
    repeat (destruct F as [F|F]; [subst n; reflexivity|]). destruct F. }
  split.
  { intros n a F. specialize (V1 n). rewrite F in V1. destruct V1 as (u & U1 & U3). exists u. split; [|exact U1].
    specialize (V2 n). rewrite (DIS _ _ F) in V2. rewrite V2. exact U3. }
  split.
  { intros n a F. specialize (V2 n). rewrite F in V2. destruct V2 as (u & U1 & U3). eauto. }
  intros n F1 F2. specialize (V1 n). specialize (V2 n). rewrite F1 in V1.
  destruct (dict_find (grid_vars parse cfg csv ds sd ed T2 RH2 U2 PRES g) n) as [[a|]|]; [destruct F2| |]; rewrite V2; exact V1.
Qed.
