(** * Conversion of weather station data: when it succeeds, ranges of the values *)
From Verif Require Import ModelPy ModelConstants ModelNode ModelGrid ModelHeat ModelSurface ModelInit
  ModelCore ModelConfig ModelIO ModelMain ModelRadCor SpecIO SpecRadCor ModelAws SpecAws.
From Verif Require Import LemPy LemDict LemIO LemIO4 LemIO5 LemShad LemShad5 LemAws LemAws2 LemAws3 LemAws4
  LemFinInput LemFinAws.
From Coq Require Import Sorted.

Lemma check_ok l mx mn : l <> [] -> exists b, check l mx mn = Ok b.
Proof.
  intros H. unfold check, check_field. destruct l; [congruence|]. destruct (reals_of _); cbn [bind]; eauto.
Qed.

Lemma hourly_mean_number csv n b x : hourly_mean csv n b = Some x -> has_number csv n.
Proof.
  intros H. unfold hourly_mean, mean_of in H.
  destruct (reals_of (during b 3600 (f_index csv) (carried (column_or_nan csv n)))) as [|y r] eqn:E; [discriminate|].
  assert (HX : In y (reals_of (during b 3600 (f_index csv) (carried (column_or_nan csv n))))) by (rewrite E; left; auto).
  apply in_reals, in_during in HX. destruct HX as (t & HX & _). apply in_combine_r in HX. rewrite carried_in in HX.
  apply has_number_iff. exists y. exact HX.
Qed.

Lemma mean_total_none csv n b : hourly_mean csv n b = None <-> hourly_total csv n b = None.
Proof. unfold hourly_mean, hourly_total. rewrite mean_none, total_none. tauto. Qed.

(*@ C78 When the conversion for a point succeeds: the columns are there, every hour has numbers of the required columns and of each optional column that is not empty, the temperatures are possible, longwave radiation or cloud cover is given, and the dates can be read. *)
Lemma point_conversion_succeeds_lem :
  forall parse (cfg : AwsConfig) (csv : frame) sd ed,
    NoDup (column_names cfg) -> rectangular csv ->
    sd = None \/ ed = None \/ (exists a b p q, sd = Some a /\ ed = Some b /\ parse a = Some p /\ parse b = Some q) ->
    0 < standard_atmosphere (aw_stationAlt cfg) -> 0 < standard_atmosphere (aw_hgt cfg) ->
    (exists b, hour_in_file parse csv sd ed b) ->
    (forall n b, In n [aw_T2 cfg; aw_RH2 cfg; aw_U2 cfg; aw_G cfg; aw_PRES cfg] ->
       hour_in_file parse csv sd ed b -> hourly_mean csv n b <> None) ->
    column csv (aw_RRR cfg) <> None ->
    (forall n, In n [aw_RRR cfg; aw_SNOWFALL cfg; aw_LWin cfg; aw_N cfg] ->
       ~ has_number csv n \/ forall b, hour_in_file parse csv sd ed b -> hourly_mean csv n b <> None) ->
    has_number csv (aw_LWin cfg) \/ has_number csv (aw_N cfg) ->
    (forall b v, hour_in_file parse csv sd ed b -> hourly_mean csv (aw_T2 cfg) b = Some v ->
       173.16 <= kelvin cfg v + (aw_hgt cfg - aw_stationAlt cfg) * aw_lapse_T cfg <= 373.16) ->
    exists f w, create_1D_input parse cfg csv None sd ed = Ok (f, w).
Proof.
  intros parse cfg csv sd ed ND RE DT A1 A2 (b0 & HB0) REQ RRR OPT LN TMP.
  assert (RC : forall n, In n (required_columns cfg) -> column csv n <> None).
  { intros n HI. destruct (string_dec n (aw_RRR cfg)) as [->|NE]; [exact RRR|].
    assert (HI' : In n [aw_T2 cfg; aw_RH2 cfg; aw_U2 cfg; aw_G cfg; aw_PRES cfg]) by (unfold required_columns in HI; cbn in *; intuition congruence).
    pose proof (REQ n b0 HI' HB0) as X. destruct (hourly_mean csv n b0) as [x|] eqn:E; [|congruence].
    apply hourly_mean_number in E. destruct E as (c & y & E & _). congruence. }
  unfold create_1D_input. rewrite hourly_exact by auto. cbn [bind].
  assert (HS : exists df, get_time_slice parse (hourly_frame cfg csv) sd ed = Ok df).
  { unfold get_time_slice. destruct DT as [->|[->|(a & b & p & q & -> & -> & E1 & E2)]]; [eauto|destruct sd; eauto|].
    unfold slice_bounds. rewrite E1, E2. destruct p, q. cbn [bind]. eauto. }
  destruct HS as (df & HS). rewrite HS. cbn [bind].
  pose proof (proj1 (slice_ok _ _ _ _ _ HS)) as HI. rewrite hourly_frame_index in HI.
  assert (HRS : forall b, In b (f_index df) <-> hour_in_file parse csv sd ed b).
  { intros b. rewrite HI, filter_In, in_hours. unfold hour_in_file. tauto. }
  assert (NEI : f_index df <> []). { intros X. assert (Y : In b0 (f_index df)) by (apply HRS; exact HB0). rewrite X in Y. destruct Y. }
  assert (SFN : forall n k, In (n, k) (kinds cfg) -> dict_find (f_cols df) n =
    if existsb is_number (hour_column csv k n)
    then Some (map (fun b => aggregate k (during b 3600 (f_index csv) (carried (column_or_nan csv n)))) (f_index df))
    else None) by (intros n k HK; eapply sliced_find; eauto).
  assert (REQ2 : forall n, In n [aw_T2 cfg; aw_RH2 cfg; aw_U2 cfg; aw_G cfg; aw_PRES cfg] ->
    dict_find (f_cols df) n = Some (map (hourly_mean csv n) (f_index df))).
  { intros n HN. assert (HK : In (n, Mean) (kinds cfg)) by (unfold kinds; cbn in *; intuition congruence).
    rewrite (SFN n Mean HK).
    assert (NU : existsb is_number (hour_column csv Mean n) = true).
    { apply hour_column_number; [auto|discriminate|]. apply has_number_iff.
      pose proof (REQ n b0 HN HB0) as X. destruct (hourly_mean csv n b0) as [x|] eqn:E; [|congruence]. eapply hourly_mean_number; eauto. }
    rewrite NU. f_equal. apply map_ext. intros b. apply mean_mean_of. }
  assert (REQ3 : forall n, In n [aw_T2 cfg; aw_RH2 cfg; aw_U2 cfg; aw_G cfg; aw_PRES cfg] ->
    dict_get (f_cols df) n = Ok (map (hourly_mean csv n) (f_index df))).
  { intros n HN. unfold dict_get. rewrite (REQ2 n HN). reflexivity. }
  assert (OPT2 : forall n k, In (n, k) (kinds cfg) -> In n [aw_RRR cfg; aw_SNOWFALL cfg; aw_LWin cfg; aw_N cfg] -> k <> Sum ->
    dict_find (f_cols df) n = None \/ exists l, dict_find (f_cols df) n = Some l /\ l <> [] /\ forall x, In x l -> x <> None).
  { intros n k HK HN NK. rewrite (SFN n k HK). destruct (existsb is_number (hour_column csv k n)) eqn:NU; [|left; reflexivity]. right.
    eexists. split; [reflexivity|]. split; [intros X; apply map_eq_nil in X; auto|].
    apply hour_column_number in NU; auto. apply has_number_iff in NU. destruct (OPT n HN) as [X|X]; [tauto|].
    intros x HX. apply in_map_iff in HX. destruct HX as (b & <- & HB). apply HRS in HB. specialize (X b HB).
    intros E. pose proof (proj1 (aggregate_some k _ NK) E) as E1. apply X. unfold hourly_mean. apply mean_none. exact E1. }
  assert (SO : set_order_and_type cfg true df = Ok df).
  { unfold set_order_and_type. cbn [map_res]. rewrite !REQ3 by (cbn; tauto). cbn [bind]. rewrite !mem_find.
    rewrite (REQ2 (aw_PRES cfg)) by (cbn; tauto). cbn [negb andb].
    rewrite (SFN (aw_LWin cfg) Mean) by (unfold kinds; cbn; tauto). rewrite (SFN (aw_N cfg) Mean) by (unfold kinds; cbn; tauto).
    destruct LN as [LN|LN]; apply has_number_iff in LN; apply (hour_column_number csv Mean) in LN; auto; try discriminate; rewrite LN;
      [reflexivity|rewrite andb_false_r; reflexivity]. }
  assert (HC : exists lat lon, point_coordinates cfg None = Ok (lat, lon, [])).
  { unfold point_coordinates. destruct (aw_WRF cfg); eauto. }
  destruct HC as (lat & lon & HC). rewrite HC. cbn [bind]. rewrite SO. cbn [bind]. cbv zeta.
  rewrite !REQ3 by (cbn; tauto). cbn [bind].
  assert (NM : forall (g : number -> number) n, In n [aw_T2 cfg; aw_RH2 cfg; aw_U2 cfg; aw_G cfg; aw_PRES cfg] ->
    (forall x, exists y, g (Some x) = Some y) -> (forall x, In x (map g (map (hourly_mean csv n) (f_index df))) -> x <> None)).
  { intros g n HN HG x HX. rewrite map_map in HX. apply in_map_iff in HX. destruct HX as (b & <- & HB). apply HRS in HB.
    pose proof (REQ n b HN HB) as X. destruct (hourly_mean csv n b) as [v|]; [|congruence]. destruct (HG v) as (y & ->). discriminate. }
  assert (TB : check_temperature_bounds (map (fun v => set_bias (aw_lapse_T cfg) (aw_hgt cfg - aw_stationAlt cfg) false (to_kelvin cfg v)) (map (hourly_mean csv (aw_T2 cfg)) (f_index df))) = Ok tt).
  { apply temperature_bounds_iff. split; [intros X; apply map_eq_nil, map_eq_nil in X; auto|].
    intros x HX. rewrite map_map in HX. apply in_map_iff in HX. destruct HX as (b & EX & HB). apply HRS in HB.
    rewrite kelvin_bias in EX. destruct (hourly_mean csv (aw_T2 cfg) b) as [v|] eqn:E; [|discriminate]. cbn in EX. injection EX as <-.
    eapply TMP; eauto. }
  rewrite TB. cbn [bind point_terrain].
  match goal with |- context [add_variables ?d ?l ?v] => destruct (add_variables_total d l) with (vars := v) as (vars1 & HV1) end.
  { intros n a HX. cbn in HX. intuition (subst; match goal with E : (_, _) = (_, _) |- _ => injection E as <- _ end; discriminate). }
  rewrite HV1. cbn [bind].
  match goal with |- context [add_variables ?d ?l vars1] => destruct (add_variables_total d l) with (vars := vars1) as (vars2 & HV2) end.
  { intros n a HX. cbn [In] in HX. repeat (destruct HX as [HX|HX]; [injection HX as <- _; discriminate|]). destruct HX. }
  rewrite HV2. cbn [bind].
  set (Q := fun v : variable => forall x, In x (array_values (v_data v)) -> x <> None).
  assert (Q2 : Forall (fun nv => Q (snd nv)) vars2).
  { eapply add_variables_forall with (Q := Q) in HV1; [|constructor|].
    2:{ intros n a u s HX. cbn in HX. repeat (destruct HX as [HX|HX]; [injection HX as _ <-; unfold Q; cbn; intros x [<-|[]]; discriminate|]). destruct HX. }
    eapply add_variables_forall with (Q := Q) in HV2; [exact HV2|exact HV1|].
    assert (SQ : forall l d u s, (forall x, In x l -> x <> None) -> Q (mkVariable d (point_series l) u s)).
    { intros l d u s HL. unfold Q. cbn [v_data]. rewrite series_values. exact HL. }
    assert (OQ : forall n k g d u s a, In (n, k) (kinds cfg) -> In n [aw_RRR cfg; aw_SNOWFALL cfg; aw_LWin cfg; aw_N cfg] -> k <> Sum ->
      (forall x, exists y, g (Some x) = Some y) ->
      option_map (fun l => point_series (map g l)) (dict_find (f_cols df) n) = Some a -> Q (mkVariable d a u s)).
    { intros n k g d u s a HK HN NK HG E. destruct (OPT2 n k HK HN NK) as [X|(l & X & _ & HL)]; rewrite X in E; [discriminate|].
      cbn in E. injection E as <-. apply SQ. intros x HX. apply in_map_iff in HX. destruct HX as (v & <- & HX). apply HL in HX.
      destruct v as [v|]; [|congruence]. destruct (HG v) as (y & ->). discriminate. }
    intros n a u s HX. unfold if_column in HX. cbn [In] in HX.
    destruct HX as [HX|[HX|[HX|[HX|[HX|[HX|[HX|[HX|[HX|[]]]]]]]]]].
    - injection HX as _ <-. apply SQ. apply NM; [cbn; tauto|]. intros x. rewrite kelvin_bias. cbn. eauto.
    - injection HX as _ <-. apply SQ. rewrite map_map. apply NM; [cbn; tauto|]. intros x. rewrite humid_bias. cbn. eauto.
    - injection HX as _ <-. apply SQ. rewrite <- (map_id (map _ _)). apply NM; [cbn; tauto|]. eauto.
    - injection HX as _ <-. apply SQ. rewrite <- (map_id (map _ _)). apply NM; [cbn; tauto|]. eauto.
    - injection HX as _ <-. apply SQ. apply NM; [cbn; tauto|]. intros x. rewrite press_bias by auto. cbn. eauto.
    - injection HX as _ HX. eapply (OQ (aw_RRR cfg) NanSum); [unfold kinds; cbn; tauto|cbn; tauto|discriminate| |exact HX]. intros x. cbn. eauto.
    - injection HX as _ HX. eapply (OQ (aw_SNOWFALL cfg) NanSum); [unfold kinds; cbn; tauto|cbn; tauto|discriminate| |exact HX]. intros x. cbn. eauto.
    - injection HX as _ HX. apply (OQ (aw_LWin cfg) Mean (fun v => v)) with (d := ["time"; "lat"; "lon"]%string) (u := u) (s := s) (a := a); [unfold kinds; cbn; tauto|cbn; tauto|discriminate|eauto|].
      rewrite <- HX. destruct (dict_find (f_cols df) (aw_LWin cfg)); [|reflexivity]. cbn. rewrite map_id. reflexivity.
    - injection HX as _ HX. apply (OQ (aw_N cfg) Mean (fun v => v)) with (d := ["time"; "lat"; "lon"]%string) (u := u) (s := s) (a := a); [unfold kinds; cbn; tauto|cbn; tauto|discriminate|eauto|].
      rewrite <- HX. destruct (dict_find (f_cols df) (aw_N cfg)); [|reflexivity]. cbn. rewrite map_id. reflexivity. }
  assert (NP : check_for_nan_point vars2 = Ok tt).
  { unfold check_for_nan_point. destruct (existsb _ vars2) eqn:EX; [|reflexivity]. exfalso. apply existsb_exists in EX.
    destruct EX as (nv & HX & EX). rewrite Forall_forall in Q2. specialize (Q2 _ HX). apply has_none_false in Q2. congruence. }
  rewrite NP. cbn [bind].
  assert (V2 := fun N2 => add_variables_find _ _ _ _ N2 HV2). clear HV2. specialize (V2 ltac:(cbn; repeat constructor; cbn; intuition discriminate)).
  assert (CD : exists w, check_data cfg vars2 df = Ok w).
  { unfold check_data. cbv zeta.
    match goal with |- context [for_each ?l ?b []] => destruct (for_each_ok (fun _ => True) b l []) as (w & E & _); [exact I| |exists w; exact E] end.
    intros [[n [mx mn]] keep] ws HX _. apply filter_In in HX. destruct HX as [HX KP]. cbn [snd fst] in *.
    assert (F : exists d l u s, dict_find vars2 n = Some (mkVariable d (point_series l) u s) /\ l <> []).
    { assert (R1 : forall (g : number -> number) c, map g (map (hourly_mean csv c) (f_index df)) <> []) by (intros g c X; apply map_eq_nil, map_eq_nil in X; auto).
      assert (R2 : forall c, map (hourly_mean csv c) (f_index df) <> []) by (intros c X; apply map_eq_nil in X; auto).
      cbn [In] in HX.
      destruct HX as [HX|[HX|[HX|[HX|[HX|HX]]]]].
      - injection HX as <- _ _ _. pose proof (V2 "T2"%string) as (u & _ & F). rewrite F. do 4 eexists. split; [reflexivity|apply R1].
      - injection HX as <- _ _ _. pose proof (V2 "RH2"%string) as (u & _ & F). rewrite F. do 4 eexists. split; [reflexivity|rewrite map_map; apply R1].
      - injection HX as <- _ _ _. pose proof (V2 "U2"%string) as (u & _ & F). rewrite F. do 4 eexists. split; [reflexivity|apply R2].
      - injection HX as <- _ _ _. pose proof (V2 "G"%string) as (u & _ & F). rewrite F. do 4 eexists. split; [reflexivity|apply R2].
      - injection HX as <- _ _ _. pose proof (V2 "PRES"%string) as (u & _ & F). rewrite F. do 4 eexists. split; [reflexivity|apply R1].
      - destruct HX as [HX|[HX|[HX|[HX|[]]]]]; injection HX as <- _ _ <-; rewrite mem_find in KP.
        + destruct (OPT2 (aw_RRR cfg) NanSum) as [X|(l & X & NL & _)]; [unfold kinds; cbn; tauto|cbn; tauto|discriminate|rewrite X in KP; discriminate|].
          pose proof (V2 "RRR"%string) as F. cbn in F. unfold if_column in F. rewrite X in F. cbn in F. destruct F as (u & _ & F). rewrite F. do 4 eexists.
          split; [reflexivity|intros Y; apply map_eq_nil in Y; auto].
        + destruct (OPT2 (aw_SNOWFALL cfg) NanSum) as [X|(l & X & NL & _)]; [unfold kinds; cbn; tauto|cbn; tauto|discriminate|rewrite X in KP; discriminate|].
          pose proof (V2 "SNOWFALL"%string) as F. cbn in F. unfold if_column in F. rewrite X in F. cbn in F. destruct F as (u & _ & F). rewrite F. do 4 eexists.
          split; [reflexivity|intros Y; apply map_eq_nil in Y; auto].
        + destruct (OPT2 (aw_LWin cfg) Mean) as [X|(l & X & NL & _)]; [unfold kinds; cbn; tauto|cbn; tauto|discriminate|rewrite X in KP; discriminate|].
          pose proof (V2 "LWin"%string) as F. cbn in F. unfold if_column in F. rewrite X in F. cbn in F. destruct F as (u & _ & F). rewrite F. do 4 eexists.
          split; [reflexivity|exact NL].
        + destruct (OPT2 (aw_N cfg) Mean) as [X|(l & X & NL & _)]; [unfold kinds; cbn; tauto|cbn; tauto|discriminate|rewrite X in KP; discriminate|].
          pose proof (V2 "N"%string) as F. cbn in F. unfold if_column in F. rewrite X in F. cbn in F. destruct F as (u & _ & F). rewrite F. do 4 eexists.
          split; [reflexivity|exact NL]. }
    destruct F as (d & l & u & s & F & NL). unfold attr_get. rewrite F. cbn [bind v_data]. rewrite series_values.
    destruct (check_ok l mx mn NL) as (bb & ->). cbn [bind]. eauto. }
  destruct CD as (w & ->). cbn [bind]. eauto.
Qed.

(** ** Precipitation of a file *)
Lemma carried_full (c : list number) : ~ In None c -> carried c = c.
Proof.
  rewrite <- ffill_carried. assert (X : forall a : number, ~ In None c -> ffill a c = c); [|apply X]. induction c as [|v t IH]; intros a H; [reflexivity|].
  destruct v as [x|]; [|exfalso; apply H; left; reflexivity]. cbn. f_equal. apply IH. intros X. apply H. right. exact X.
Qed.

Lemma sum_pos (r : list R) : (forall x, In x r -> 0 <= x) -> 0 <= fold_right Rplus 0 r.
Proof.
  induction r as [|x t IH]; intros H; cbn; [lra|]. specialize (IH (fun y HY => H y (or_intror HY))).
  specialize (H x (or_introl eq_refl)). lra.
Qed.

Lemma filter_true {A} (p : A -> bool) l : (forall a, p a = true) -> filter p l = l.
Proof. intros H. induction l; cbn; auto. rewrite H, IHl. reflexivity. Qed.

(*@ C77 Precipitation of the file for a point, without lapse rate and dates: its total is the total of the station column after the gaps have been filled, thus the total of the station column if that has no gaps. *)
Lemma point_precipitation_total_lem :
  forall parse (cfg : AwsConfig) (csv : frame) static f w c,
    NoDup (column_names cfg) -> rectangular csv ->
    (forall st, static = Some st -> plain_static st) ->
    create_1D_input parse cfg csv static None None = Ok (f, w) ->
    aw_lapse_RRR cfg = 0 -> column csv (aw_RRR cfg) = Some c -> has_number csv (aw_RRR cfg) ->
    (forall x, In (Some x) c -> 0 <= x) ->
    exists l, file_series f "RRR"%string 0 0 = Some l /\ sum_of l = sum_of (carried c) /\
      (~ In None c -> sum_of l = sum_of c).
Proof.
  intros parse cfg csv static f w c ND RE PS H LP HC HN POS.
  pose proof (point_file_content_lem _ _ _ _ _ _ _ _ ND RE PS H) as (_ & _ & _ & _ & _ & (C & _) & _).
  specialize (C HN). eexists. split; [exact C|].
  assert (CN : column_or_nan csv (aw_RRR cfg) = c) by (unfold column_or_nan; rewrite HC; reflexivity).
  assert (E : forall b, option_map (fun v : R => Rmax (v + (aw_hgt cfg - aw_stationAlt cfg) * aw_lapse_RRR cfg) 0) (hourly_total csv (aw_RRR cfg) b)
    = total_of (during b 3600 (f_index csv) (carried c))).
  { intros b. unfold hourly_total. rewrite CN. destruct (total_of _) as [v|] eqn:EV; [|reflexivity]. cbn [option_map]. f_equal.
    rewrite LP, Rmult_0_r, Rplus_0_r. apply Rmax_left. unfold total_of in EV.
    destruct (reals_of (during b 3600 (f_index csv) (carried c))) as [|x r] eqn:ER; [discriminate|].
    rewrite <- ER in EV. assert (X : forall u v : R, Some u = Some v -> u = v) by (intros u v' Q; inversion Q; reflexivity). apply X in EV.
    rewrite <- EV. apply sum_pos. intros y HY. apply in_reals, in_during in HY. destruct HY as (t & HY & _). apply in_combine_r in HY.
    rewrite carried_in in HY. apply POS; exact HY. }
  assert (S1 : sum_of (map (fun b => option_map (fun v : R => Rmax (v + (aw_hgt cfg - aw_stationAlt cfg) * aw_lapse_RRR cfg) 0) (hourly_total csv (aw_RRR cfg) b)) (nf_time f)) = sum_of (carried c)).
  { rewrite (map_ext _ _ E). rewrite <- (map_map (fun b => during b 3600 (f_index csv) (carried c)) total_of), sum_map_total, map_map.
    destruct (point_ok _ _ _ _ _ _ _ _ ND H) as (_ & HT & _). rewrite HT. rewrite filter_true by reflexivity.
    apply resample_sum; [lia|]. rewrite carried_length. apply (RE _ _ HC). }
  split; [exact S1|]. intros NN. transitivity (sum_of (carried c)); [exact S1|]. rewrite carried_full by exact NN. reflexivity.
Qed.

(** *** A station file *)
Definition a_config : AwsConfig :=
  mkAwsConfig "PRES" "T2" "RH2" "G" "RRR" "U2" "LWin" "SNOWFALL" "N" true false false 3600%Z None false
    0 0 0 0 true 9 46 3000 2500 46 (Ropp 0.006) 0 0 0.
Definition a_station : frame :=
  mkFrame [0; 1800; 3600]%Z
    [("T2", [Some 270; Some 272; Some 274]); ("RH2", [Some 50; None; Some 101]); ("U2", [Some 1; Some 3; Some 5]);
     ("G", [Some 0; Some 100; Some 200]); ("PRES", [Some 700; Some 700; Some 701]); ("RRR", [Some 1; None; Some 0]);
     ("LWin", [Some 250; Some 260; Some 270])]%string.

Lemma a_names : NoDup (column_names a_config).
Proof. cbn. repeat constructor; cbn; intuition discriminate. Qed.
Lemma a_rectangular : rectangular a_station.
Proof.
  intros n c H. apply find_in in H. cbn in H. repeat (destruct H as [H|H]; [injection H as <- <-; reflexivity|]). destruct H.
Qed.
Lemma a_hours parse b : hour_in_file parse a_station None None b -> b = 0%Z \/ b = 3600%Z.
Proof.
  intros (M & _ & t & u & HT & HU & B). cbn in HT, HU.
  assert (B' : (0 <= b <= 3600)%Z).
  { destruct HT as [<-|[<-|[<-|[]]]], HU as [<-|[<-|[<-|[]]]]; cbn in B; lia. }
  apply Z.mod_divide in M; [|lia]. destruct M as (q & ->). assert (q = 0 \/ q = 1)%Z by lia. destruct H as [-> | ->]; lia.
Qed.
Lemma a_mean parse n b : In n ["T2"; "RH2"; "U2"; "G"; "PRES"; "RRR"; "LWin"]%string -> hour_in_file parse a_station None None b ->
  hourly_mean a_station n b <> None.
Proof.
  intros HN HB. apply a_hours in HB. destruct HB as [-> | ->];
    repeat (destruct HN as [<-|HN]; [cbv [hourly_mean]; cbn; discriminate|]); destruct HN.
Qed.

Lemma a_file parse : exists f w, create_1D_input parse a_config a_station None None None = Ok (f, w).
Proof.
  apply point_conversion_succeeds_lem.
  - exact a_names.
  - exact a_rectangular.
  - left. reflexivity.
  - cbn. unfold standard_atmosphere. lra.
  - cbn. unfold standard_atmosphere. lra.
  - exists 0%Z. split; [reflexivity|]. split; [reflexivity|]. exists 0%Z, 3600%Z. cbn. split; [tauto|]. split; [tauto|lia].
  - intros n b HN HB. apply (a_mean parse); auto. cbn in HN. cbn. tauto.
  - discriminate.
  - intros n HN. cbn in HN. destruct HN as [<-|[<-|[<-|[<-|[]]]]].
    + right. intros b HB. apply (a_mean parse); auto. cbn. tauto.
    + left. intros (c & x & E & _). discriminate.
    + right. intros b HB. apply (a_mean parse); auto. cbn. tauto.
    + left. intros (c & x & E & _). discriminate.
  - left. exists [Some 250; Some 260; Some 270], 250. split; [reflexivity|left; reflexivity].
  - intros b v HB HV. apply a_hours in HB. cbn [a_config aw_hgt aw_stationAlt aw_lapse_T]. unfold kelvin. cbn [aw_in_K a_config].
    destruct HB as [-> | ->]; unfold hourly_mean in HV; cbn in HV; injection HV as <-; lra.
Qed.

(*@ C77 Filling the gaps repeats precipitation: a station file with a total of 1 mm gives an input file with a total of 2 mm, without any lapse rate. *)
Lemma precipitation_repeated_refuted_lem :
  exists parse cfg csv f w c l,
    create_1D_input parse cfg csv None None None = Ok (f, w) /\ aw_lapse_RRR cfg = 0 /\
    column csv (aw_RRR cfg) = Some c /\ sum_of c = 1 /\
    file_series f "RRR"%string 0 0 = Some l /\ sum_of l = 2.
Proof.
  set (parse := fun _ : string => @None (Z * Z)). destruct (a_file parse) as (f & w & H).
  destruct (point_precipitation_total_lem parse a_config a_station None f w [Some 1; None; Some 0] a_names a_rectangular) as (l & E1 & E2 & _);
    try discriminate; auto.
  - exists [Some 1; None; Some 0], 1. split; [reflexivity|left; reflexivity].
  - intros x HX. cbn in HX. destruct HX as [HX|[HX|[HX|[]]]]; [injection HX as <-; lra|discriminate|injection HX as <-; lra].
  - exists parse, a_config, a_station, f, w, [Some 1; None; Some 0], l. split; [exact H|]. split; [reflexivity|]. split; [reflexivity|].
    split; [unfold sum_of; cbn; lra|]. split; [exact E1|]. rewrite E2. unfold sum_of, carried, last_known, newer. cbn. lra.
Qed.

(*@ex A station file with gaps that is converted; the second hour has a humidity above 100 and the temperature is lowered by 3 K. *)
Lemma point_file_example_lem :
  forall parse, exists f w, create_1D_input parse a_config a_station None None None = Ok (f, w) /\
    nf_time f = [0; 3600]%Z /\
    file_series f "T2"%string 0 0 = Some [Some (271 - 3); Some (274 - 3)] /\
    file_series f "RH2"%string 0 0 = Some [Some 50; Some 100] /\
    file_series f "RRR"%string 0 0 = Some [Some 2; Some 0] /\
    dict_find (nf_vars f) "N"%string = None.
Proof.
  intros parse. destruct (a_file parse) as (f & w & H). exists f, w. split; [exact H|].
  pose proof (point_ok _ _ _ _ _ _ _ _ a_names H) as (_ & HT & _). rewrite filter_true in HT by reflexivity.
  change (bins 3600 (f_index a_station)) with [0; 3600]%Z in HT.
  pose proof (point_file_content_lem parse a_config a_station None None None f w a_names a_rectangular ltac:(intros; discriminate) H) as (C1 & C2 & _ & _ & _ & (C6 & _) & _ & _ & (_ & C9)).
  split; [exact HT|]. rewrite HT in *. cbn [map] in *. rewrite C1, C2. split; [|split; [|split]].
  - unfold hourly_mean. cbn. unfold kelvin. cbn. f_equal. f_equal; [f_equal; lra|]. f_equal. f_equal. lra.
  - unfold hourly_mean. cbn. f_equal. unfold humidity_range.
    repeat match goal with |- context [Rlt_dec ?a ?b] => destruct (Rlt_dec a b) end; try lra.
    f_equal. f_equal. lra.
  - rewrite C6; [|exists [Some 1; None; Some 0], 1; split; [reflexivity|left; reflexivity]].
    unfold hourly_total. cbn. f_equal. f_equal; [f_equal; rewrite Rmax_left; lra|]. f_equal. f_equal. rewrite Rmax_left; lra.
  - apply C9. intros (c & x & E & _). discriminate.
Qed.
