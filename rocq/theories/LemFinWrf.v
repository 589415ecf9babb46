(** * Conversion of WRF output *)
From Verif Require Import ModelPy ModelConstants ModelNode ModelGrid ModelHeat ModelSurface ModelInit
  ModelCore ModelConfig ModelIO ModelMain ModelRadCor SpecIO SpecRadCor ModelAws ModelWrf SpecWrf.
From Verif Require Import LemPy LemDict LemIO LemIO4 LemIO5 LemShad LemShad2 LemShad3 LemShad4 LemShad5 LemAws LemAws2 LemAws5 LemWrf LemWrf2.
From Coq Require Import Ascii.

(*@ C53 Precipitation of a cell: zero in the first step, then the increments of the accumulated precipitation, so that the sum over any steps is the difference of the accumulations at their ends. *)
Lemma wrf_precipitation_telescopes_lem :
  forall c cfg slope aspect w sd ed f chk,
    create_input c cfg slope aspect w sd ed = Ok (f, chk) ->
    let ds := select_period sd ed w in
    forall n y x (A : nat -> R),
      n = length (w_Time ds) -> at_time (w_T2 ds) 0 y x <> None ->
      (forall k, (k < n)%nat -> exists a b,
         at_time (w_RAINNC ds) k y x = Some a /\ at_time (w_RAINC ds) k y x = Some b /\ A k = a + b) ->
      exists r : nat -> R,
        (forall k, (k < n)%nat -> written f "RRR"%string k y x = Some (Some (r k))) /\
        r 0%nat = 0 /\
        forall i m, (i + m < n)%nat -> sum_steps r (S i) m = A (i + m)%nat - A i.
Proof.
  intros c cfg slope aspect w sd ed f chk H ds n y x A HN HT HA. apply wrf_ok in H. fold ds in H. cbv zeta in H.
  destruct H as (hgt & lu_index & z & lu & tq & rh & U2 & rain & rrr & s0 & sf & DX & DY & _ & _ & _ & _ & _ & _ & _ & _ & _ & _ & ER & EI & _ & _ & _ & _ & _ & _ & _ & _ & _ & _ & _ & _ & _ & _ & FR & _).
  rewrite <- HN in EI. destruct (increments_at _ _ _ _ y x EI) as [I0 I1].
  assert (RA : forall k, (k < n)%nat -> at_time rain k y x = Some (A k)).
  { intros k K. destruct (HA k K) as (a & b & E1 & E2 & ->). destruct (zip_array_at _ _ _ _ _ _ _ _ ER E1) as (b' & E3 & E4). congruence. }
  set (r := fun k => match k with O => 0 | S j => A k - A j end). exists r. split; [|split; [reflexivity|]].
  - intros k K. rewrite (written_timed _ _ _ _ _ _ FR). destruct k as [|k].
    + rewrite I0, at_time_map. destruct (at_time (w_T2 ds) 0 y x); [reflexivity|congruence].
    + destruct (I1 (S k) (A (S k)) ltac:(lia) (RA _ K)) as (b & E1 & ->). replace (S k - 1)%nat with k in E1 by lia. rewrite RA in E1 by lia.
      injection E1 as <-. reflexivity.
  - apply sum_telescopes. intros k K. destruct k as [|k]; [lia|]. replace (S k - 1)%nat with k by lia. reflexivity.
Qed.

(*@ C53 Humidity, pressure, temperature and radiation of every cell and step. *)
Lemma wrf_atmosphere_lem :
  forall c cfg slope aspect w sd ed f chk,
    create_input c cfg slope aspect w sd ed = Ok (f, chk) ->
    let ds := select_period sd ed w in
    cf_time f = map strftime (w_Time ds) /\
    forall k y x,
      (forall t, at_time (w_T2 ds) k y x = Some t ->
         written f "T2"%string k y x = Some (Some t) /\
         exists q p, at_time (w_Q2 ds) k y x = Some q /\ at_time (w_PSFC ds) k y x = Some p /\
           (p <> 0 -> t <> 35.86 -> written f "RH2"%string k y x = Some (Some (humidity_percent t q p)))) /\
      (forall h, written f "RH2"%string k y x = Some (Some h) -> 0 <= h <= 100) /\
      (forall p, at_time (w_PSFC ds) k y x = Some p -> written f "PRES"%string k y x = Some (Some (p / 100))) /\
      (forall g, at_time (w_SWDOWN ds) k y x = Some g -> written f "G"%string k y x = Some (Some g)) /\
      (forall l, at_time (w_GLW ds) k y x = Some l -> written f "LWin"%string k y x = Some (Some l)).
Proof.
  intros c cfg slope aspect w sd ed f chk H ds. apply wrf_ok in H. fold ds in H. cbv zeta in H.
  destruct H as (hgt & lu_index & z & lu & tq & rh & U2 & rain & rrr & s0 & sf & DX & DY & ET & _ & _ & _ & _ & _ & _ & E1 & E2 & _ & _ & _ & _ & _ & _ & _ & _ & _ & _ & _ & F1 & F2 & _ & F3 & F4 & F5 & _).
  split; [exact ET|]. intros k y x. split; [|split; [|split; [|split]]].
  - intros t T. rewrite (written_timed _ _ _ _ _ _ F1), T. split; [reflexivity|].
    destruct (zip_array_at _ _ _ _ _ _ _ _ E1 T) as (q & Q1 & Q2). destruct (zip_array_at _ _ _ _ _ _ _ _ E2 Q2) as (p & P1 & P2).
    exists q, p. split; [exact Q1|]. split; [exact P1|]. intros NP NT. rewrite (written_Timed _ _ _ _ _ _ F2), P2. cbn [fst snd]. f_equal. apply wrf_rh_exact; auto.
  - intros h E. rewrite (written_Timed _ _ _ _ _ _ F2) in E.
    assert (exists t q p, wrf_rh t q p = Some h) as (t & q & p & W).
    { unfold at_time in E. destruct (nth_error rh k) as [s|] eqn:ES; [|discriminate].
      clear - E ES E2. revert E2 ES. generalize (w_PSFC ds). intros b. revert tq b rh. unfold zip_array. induction k as [|k IH]; intros tq b rh H ES.
      - destruct tq as [|a0 tq], b as [|b0 b]; cbn [zip_res] in H; try discriminate; [injection H as <-; discriminate|].
        apply bind_ok in H as (s' & S1 & H). apply bind_ok in H as (r & _ & H). injection H as <-. cbn in ES. injection ES as ->.
        pose proof (raster_map_at _ _ _ y x S1) as X. destruct (cell_at a0 y x); [|rewrite X in E; discriminate].
        destruct X as (v & X1 & X2). rewrite X2 in E. injection E as ->. apply bind_ok in X1 as (pp & _ & X1). injection X1 as X1. eauto.
      - destruct tq as [|a0 tq], b as [|b0 b]; cbn [zip_res] in H; try discriminate; [injection H as <-; discriminate|].
        apply bind_ok in H as (s' & S1 & H). apply bind_ok in H as (r & S2 & H). injection H as <-. cbn in ES. eauto. }
    destruct (wrf_rh_some _ _ _ _ W) as [NP NT]. rewrite wrf_rh_exact in W by auto. injection W as <-. unfold humidity_percent.
    split; [apply Rmax_l|]. apply Rmax_lub; [lra|apply Rmin_l].
  - intros p P. rewrite (written_timed _ _ _ _ _ _ F5), at_time_map, P. cbn. do 2 f_equal. lra.
  - intros p P. rewrite (written_timed _ _ _ _ _ _ F3), P. reflexivity.
  - intros p P. rewrite (written_timed _ _ _ _ _ _ F4), P. reflexivity.
Qed.

(*@ C53 The mask is 1 for the land use class of glaciers and 0 elsewhere; the land use itself is kept.  If the class is 0, every cell becomes glacier. *)
Lemma wrf_mask_zero_one_lem :
  forall c cfg slope aspect w sd ed f chk lu y x v,
    create_input c cfg slope aspect w sd ed = Ok (f, chk) ->
    dict_find cfg "lu_class"%string = Some lu ->
    at_time (w_LU_INDEX (select_period sd ed w)) 0 y x = Some v ->
    written_once f "LU_INDEX"%string y x = Some (Some v) /\
    exists m, written_once f "MASK"%string y x = Some (Some m) /\
      (lu <> 0 -> m = if Req_EM_T v lu then 1 else 0) /\ (lu = 0 -> m = 1).
Proof.
  intros c cfg slope aspect w sd ed f chk lu y x v H HL HV. apply wrf_ok in H. cbv zeta in H. set (ds := select_period sd ed w) in *.
  destruct H as (hgt & lu_index & z & lu' & tq & rh & U2 & rain & rrr & s0 & sf & DX & DY & _ & _ & _ & _ & EL & _ & EC & _ & _ & _ & _ & _ & _ & _ & _ & _ & _ & _ & F1 & F2 & _).
  unfold dict_get in EC. rewrite HL in EC. injection EC as <-. apply get_nth in EL; [|lia]. change (Z.to_nat 0) with 0%nat in EL. unfold at_time in HV. rewrite EL in HV.
  rewrite (written_flat _ _ _ _ _ F1), (written_flat _ _ _ _ _ F2), HV. split; [reflexivity|]. unfold slab_map. rewrite cell_at_mapmap, HV. cbn [option_map].
  exists (wrf_mask lu v). split; [reflexivity|]. destruct (wrf_mask_cases lu v) as [[-> ->]|[(N & -> & ->)|(N & M & ->)]].
  - split; [congruence|auto].
  - split; [|congruence]. intros _. destruct (Req_EM_T lu lu); [reflexivity|congruence].
  - split; [|congruence]. intros _. destruct (Req_EM_T v lu); [contradiction|reflexivity].
Qed.

(*@ C86 Wind at 2 m: the speed of the wind at 10 m times ln(500)/ln(2500), never negative and never more than the wind at 10 m. *)
Lemma wrf_wind_speed_lem :
  forall c cfg slope aspect w sd ed f chk k y x u v,
    create_input c cfg slope aspect w sd ed = Ok (f, chk) ->
    let ds := select_period sd ed w in
    at_time (w_U10 ds) k y x = Some u -> at_time (w_V10 ds) k y x = Some v ->
    written f "U2"%string k y x = Some (Some (log_wind u v)) /\
    0 <= log_wind u v <= sqrt (u * u + v * v) /\
    (log_wind u v = 0 <-> u = 0 /\ v = 0).
Proof.
  intros c cfg slope aspect w sd ed f chk k y x u v H ds EU EV. apply wrf_ok in H. fold ds in H. cbv zeta in H.
  destruct H as (hgt & lu_index & z & lu & tq & rh & U2 & rain & rrr & s0 & sf & DX & DY & _ & _ & _ & _ & _ & _ & _ & _ & _ & E1 & _ & _ & _ & _ & _ & _ & _ & _ & _ & _ & _ & _ & F1 & _).
  destruct (zip_array_at _ _ _ _ _ _ _ _ E1 EV) as (u' & E2 & E3). rewrite EU in E2. injection E2 as <-.
  rewrite (written_timed _ _ _ _ _ _ F1), E3, wrf_wind_log. split; [reflexivity|]. apply log_wind_facts.
Qed.

(*@ C86 Snowfall: its mass is the increment of the accumulated snowfall, with the same density of fresh snow that the model uses for the temperature and wind of the file; rain and snow computed by the model add up to the precipitation. *)
Lemma wrf_snow_mass_lem :
  forall c cfg slope aspect w sd ed f chk,
    create_input c cfg slope aspect w sd ed = Ok (f, chk) -> c_water_density c <> 0 ->
    let ds := select_period sd ed w in
    forall k y x t u v (now before p : R),
      (0 < k < length (w_Time ds))%nat ->
      at_time (w_T2 ds) k y x = Some t -> at_time (w_U10 ds) k y x = Some u -> at_time (w_V10 ds) k y x = Some v ->
      at_time (w_SNOWNC ds) k y x = Some now -> at_time (w_SNOWNC ds) (k - 1) y x = Some before ->
      written f "RRR"%string k y x = Some (Some p) ->
      exists s rho,
        written f "SNOWFALL"%string k y x = Some (Some s) /\
        fresh_snow_density c t (log_wind u v) = Ok rho /\
        s * rho = (now - before) / 1000 * c_water_density c /\
        snow_and_rain c rho t (Some s) (Some p) = Ok (s, Some (p - (now - before))).
Proof.
  intros c cfg slope aspect w sd ed f chk H WD ds k y x t u v now before p K ET EU EV EN EB EP. apply wrf_ok in H. fold ds in H. cbv zeta in H.
  destruct H as (hgt & lu_index & z & lu & tq & rh & U2 & rain & rrr & s0 & sf & DX & DY & _ & _ & _ & _ & _ & _ & _ & _ & _ & E1 & _ & _ & EI & ES & _ & _ & _ & _ & _ & _ & _ & _ & _ & _ & _ & _ & _ & F1 & _).
  destruct (zip_array_at _ _ _ _ _ _ _ _ E1 EV) as (u' & E2 & E3). rewrite EU in E2. injection E2 as <-. rewrite wrf_wind_log in E3.
  destruct (increments_at _ _ _ _ y x EI) as [_ I1]. destruct (I1 k now K EN) as (b' & E4 & E5). rewrite EB in E4. injection E4 as <-.
  rewrite (written_timed _ _ _ _ _ _ F1). destruct (log_wind_facts u v) as ((W0 & _) & _).
  unfold wrf_snow in ES. unfold fresh_snow_density. destruct (String.eqb (c_densification_method c) "constant"%string); cbn [negb] in ES.
  - apply bind_ok in ES as (q & EQ & ES). injection ES as <-. unfold fdiv in EQ. destruct (Req_EM_T (c_constant_density c) 0) as [|ND]; [discriminate|]. injection EQ as <-.
    rewrite at_time_map, E5. cbn [option_map]. replace 1000.0 with 1000 by lra. do 2 eexists. split; [reflexivity|]. split; [reflexivity|]. split; [field; auto|].
    cbn [snow_and_rain]. unfold fdiv. destruct (Req_EM_T (c_water_density c) 0); [contradiction|]. cbn [bind]. do 3 f_equal. field. auto.
  - apply bind_ok in ES as (d & ED & ES). destruct (zip_array_at _ _ _ _ _ _ _ _ ED ET) as (uu & E6 & E7). rewrite E3 in E6. injection E6 as <-.
    destruct (zip_array_at _ _ _ _ _ _ _ _ ES E5) as (dd & E8 & E9). rewrite E7 in E8. injection E8 as <-. rewrite E9. cbn [option_map]. replace 1000.0 with 1000 by lra.
    unfold Rltb. destruct (Rlt_dec (log_wind u v) 0); [lra|].
    replace (Rmax (109 + 6 * (t - 273.16) + 26 * sqrt (log_wind u v)) 50) with (Rmax (109.0 + 6.0 * (t - 273.16) + 26.0 * sqrt (log_wind u v)) 50.0).
    2:{ f_equal; lra. }
    set (rho := Rmax _ _). assert (RP : rho > 0) by (unfold rho; pose proof (Rmax_r (109.0 + 6.0 * (t - 273.16) + 26.0 * sqrt (log_wind u v)) 50.0); lra).
    do 2 eexists. split; [reflexivity|]. split; [reflexivity|]. split; [field; lra|].
    cbn [snow_and_rain]. unfold fdiv. destruct (Req_EM_T (c_water_density c) 0); [contradiction|]. cbn [bind]. do 3 f_equal. field. split; auto; lra.
Qed.

(*@ C86 The height of the wind measurement in the configuration has no effect. *)
Lemma wrf_wind_height_unused_lem :
  forall c cfg slope aspect w sd ed (h h' : R),
    dict_find cfg "hu"%string = Some h ->
    create_input c (dict_set cfg "hu"%string h') slope aspect w sd ed = create_input c cfg slope aspect w sd ed.
Proof.
  intros c cfg slope aspect w sd ed h h' E. unfold create_input, dict_get. rewrite !find_set. cbn [String.eqb Ascii.eqb Bool.eqb]. rewrite E. reflexivity.
Qed.

(*@ C86 The conversion succeeds for every regular file with at least one time in the period, grid spacing, and both settings. *)
Lemma wrf_conversion_succeeds_lem :
  forall c (cfg : dict R) slope aspect w sd ed n ny nx,
    wrf_shape n ny nx (select_period sd ed w) -> (0 < n)%nat ->
    dict_find cfg "hu"%string <> None -> dict_find cfg "lu_class"%string <> None ->
    w_DX w <> None -> w_DY w <> None ->
    c_densification_method c <> "constant"%string \/ c_constant_density c <> 0 ->
    exists f chk, create_input c cfg slope aspect w sd ed = Ok (f, chk).
Proof.
  intros c cfg slope aspect w sd ed n ny nx SH N H1 H2 HX HY HD.
  assert (DX : w_DX (select_period sd ed w) = w_DX w) by (destruct sd, ed; reflexivity).
  assert (DY : w_DY (select_period sd ed w) = w_DY w) by (destruct sd, ed; reflexivity).
  unfold create_input. cbv zeta. set (ds := select_period sd ed w) in *. destruct SH as [LT F].
  repeat (apply Forall_cons_iff in F; let X := fresh "SH" in destruct F as [X F]). clear F.
  destruct (shaped_first _ _ _ _ SH N) as (lat & -> & _). destruct (shaped_first _ _ _ _ SH0 N) as (lon & -> & _). destruct (shaped_first _ _ _ _ SH1 N) as (hgt & -> & _). cbn [bind].
  destruct (zip_array_total pair ny nx _ _ n SH2 SH3) as (tq & -> & ST). cbn [bind].
  destruct (zip_array_total (fun tq p => wrf_rh (fst tq) (snd tq) p) ny nx _ _ n ST SH4) as (rh & -> & _). cbn [bind].
  destruct (shaped_first _ _ _ _ SH7 N) as (a1 & -> & _). destruct (shaped_first _ _ _ _ SH8 N) as (a2 & -> & _). destruct (shaped_first _ _ _ _ SH9 N) as (a3 & -> & _). cbn [bind].
  destruct (shaped_first _ _ _ _ SH10 N) as (a4 & -> & _). destruct (shaped_first _ _ _ _ SH11 N) as (a5 & -> & _). cbn [bind].
  unfold dict_get. destruct (dict_find cfg "hu"%string); [|congruence]. destruct (dict_find cfg "lu_class"%string); [|congruence]. cbn [bind].
  destruct (zip_array_total (fun v u => wrf_wind u v) ny nx _ _ n SH13 SH12) as (U2 & -> & SU). cbn [bind].
  destruct (zip_array_total Rplus ny nx _ _ n SH14 SH15) as (rain & -> & SR). cbn [bind]. rewrite LT.
  assert (SZ : shaped n ny nx (map_array (fun _ : R => 0) (w_T2 ds))) by (apply map_array_shaped; exact SH2).
  destruct (increments_total n ny nx rain _ SR SZ) as (rrr & -> & _). destruct (increments_total n ny nx _ _ SH16 SZ) as (s0 & -> & SS). cbn [bind].
  assert (exists sf, wrf_snow c (w_T2 ds) U2 s0 = Ok sf) as (sf & ->).
  { unfold wrf_snow. destruct (String.eqb_spec (c_densification_method c) "constant"%string); cbn [negb].
    - unfold fdiv. destruct (Req_EM_T (c_constant_density c) 0); [destruct HD; congruence|]. cbn [bind]. eauto.
    - match goal with |- context [zip_array ?fn (w_T2 ds) U2] => destruct (zip_array_total fn ny nx _ _ n SH2 SU) as (d & -> & SD) end. cbn [bind].
      match goal with |- context [zip_array ?fn s0 d] => destruct (zip_array_total fn ny nx _ _ n SS SD) as (q & -> & _) end. eauto. }
  cbn [bind]. rewrite DX, DY. destruct (w_DX w); [|congruence]. destruct (w_DY w); [|congruence]. eauto.
Qed.

(*@ C86 Without grid spacing or without any time in the period there is no file. *)
Lemma wrf_conversion_fails_lem :
  forall c (cfg : dict R) slope aspect w sd ed,
    w_DX w = None \/ w_DY w = None \/ w_XLAT (select_period sd ed w) = [] ->
    forall r, create_input c cfg slope aspect w sd ed <> Ok r.
Proof.
  intros c cfg slope aspect w sd ed HC [f chk] H. apply wrf_ok in H. cbv zeta in H.
  destruct H as (hgt & lu_index & z & lu & tq & rh & U2 & rain & rrr & s0 & sf & DX & DY & _ & E1 & _ & _ & _ & _ & _ & _ & _ & _ & _ & _ & _ & _ & E2 & E3 & _).
  assert (X : w_DX (select_period sd ed w) = w_DX w) by (destruct sd, ed; reflexivity).
  assert (Y : w_DY (select_period sd ed w) = w_DY w) by (destruct sd, ed; reflexivity).
  destruct HC as [HC|[HC|HC]]; [congruence|congruence|]. rewrite HC in E1. discriminate.
Qed.

(*@ C87 Dates written as the usage text asks, yyyymmdd: the times of whole years are kept, from the year after the first date to the year of the last date. *)
Lemma wrf_dates_compact_lem :
  forall w y m d y' m' d',
    (0 <= y <= 9999)%Z -> (0 <= y' <= 9999)%Z -> Forall proper_stamp (w_Time w) ->
    w_Time (select_period (Some (yyyymmdd y m d)) (Some (yyyymmdd y' m' d')) w) =
    filter (fun t => ((y <? s_year t) && (s_year t <=? y'))%Z%bool) (w_Time w).
Proof.
  intros w y m d y' m' d' HY HY' HF. cbn [select_period select w_Time]. rewrite pick_map_filter. apply filter_ext_in. intros t HI.
  rewrite Forall_forall in HF. destruct (HF t HI) as (P & _). unfold text_leb, yyyymmdd, strftime. rewrite !four_compare by auto.
  rewrite digit_minus, minus_digit. destruct (Z.compare_spec y (s_year t)), (Z.compare_spec (s_year t) y'), (Z.ltb_spec y (s_year t)), (Z.leb_spec (s_year t) y'); try reflexivity; lia.
Qed.

(*@ C87 Two such dates in one year: no time is kept and the conversion fails. *)
Lemma wrf_dates_one_year_lem :
  forall c cfg slope aspect w n ny nx y m d m' d',
    (0 <= y <= 9999)%Z -> Forall proper_stamp (w_Time w) -> wrf_shape n ny nx w ->
    forall r, create_input c cfg slope aspect w (Some (yyyymmdd y m d)) (Some (yyyymmdd y m' d')) <> Ok r.
Proof.
  intros c cfg slope aspect w n ny nx y m d m' d' HY HF [LT SH]. apply wrf_conversion_fails_lem. right. right.
  pose proof (wrf_dates_compact_lem w y m d y m' d' HY HY HF) as E. cbn [select_period select w_Time w_XLAT] in *.
  rewrite (filter_false _ (w_Time w)) in E by (intros t _; destruct (Z.ltb_spec y (s_year t)), (Z.leb_spec (s_year t) y); try reflexivity; lia).
  apply Forall_cons_iff in SH. destruct SH as [[LX _] _].
  match goal with |- pick ?k _ = [] => revert E; assert (length k = length (w_XLAT w)) as L by (rewrite map_length; congruence); revert L end.
  rewrite <- LX in LT. revert LT. generalize (map (fun t => text_leb (yyyymmdd y m d) (strftime t) && text_leb (strftime t) (yyyymmdd y m' d'))%bool (w_Time w)).
  generalize (w_XLAT w). generalize (w_Time w). intros a b k L1 L2 E. revert a b L1 L2 E. induction k as [|[|] k IH]; intros [|t a] [|r b] L1 L2 E; cbn in *; try discriminate; auto.
  apply (IH a b); lia || auto.
Qed.

(*@ C87 Dates with hyphens: the times from the first day on are kept, and those before the last day; the last day is left out. *)
Lemma wrf_dates_hyphens_lem :
  forall w y m d y' m' d',
    (0 <= y <= 9999)%Z -> (0 <= y' <= 9999)%Z -> (0 <= m <= 99)%Z -> (0 <= m' <= 99)%Z -> (0 <= d <= 99)%Z -> (0 <= d' <= 99)%Z ->
    Forall proper_stamp (w_Time w) ->
    forall t, In t (w_Time (select_period (Some (iso_date y m d)) (Some (iso_date y' m' d')) w)) <->
      In t (w_Time w) /\ ~ day_before (s_year t) (s_month t) (s_day t) y m d /\ day_before (s_year t) (s_month t) (s_day t) y' m' d'.
Proof.
  intros w y m d y' m' d' HY HY' HM HM' HD HD' HF t. cbn [select_period select w_Time]. rewrite pick_map_filter, filter_In.
  split; intros [HI HB]; (split; [exact HI|]); rewrite Forall_forall in HF; destruct (HF t HI) as (P1 & P2 & P3 & _); revert HB;
    unfold text_leb, iso_date, strftime, day_before; rewrite !four_compare, !same_cons, !two_compare, !same_cons, !two_compare by auto; cbn [String.compare];
    destruct (Z.compare_spec y (s_year t)), (Z.compare_spec (s_year t) y'), (Z.compare_spec m (s_month t)), (Z.compare_spec (s_month t) m'),
      (Z.compare_spec d (s_day t)), (Z.compare_spec (s_day t) d'); cbn; intros HB; try discriminate; try reflexivity; lia.
Qed.

(*@ C87 A single date is ignored. *)
Lemma wrf_single_date_lem :
  forall c cfg slope aspect w a,
    create_input c cfg slope aspect w (Some a) None = create_input c cfg slope aspect w None None /\
    create_input c cfg slope aspect w None (Some a) = create_input c cfg slope aspect w None None.
Proof. intros. split; reflexivity. Qed.

(** ** A conversion *)
Definition one_cell (a b : R) : list (raster R) := [[[a]]; [[b]]].
Definition a_wrf : wrf_file :=
  mkWrf [mkStamp 2009 6 1 0 0; mkStamp 2009 6 1 1 0] (one_cell 46 46) (one_cell 9 9) (one_cell 3000 3000)
    (one_cell 270 271) (one_cell 0.003 0.003) (one_cell 70000 70010) (one_cell 0 10) (one_cell 250 250)
    (one_cell 1 1) (one_cell 300 300) (one_cell 1 1) (one_cell 24 24) (one_cell 270 270)
    (one_cell 3 3) (one_cell 4 4) (one_cell 99 1) (one_cell 0 0) (one_cell 50 52) (Some 1000) (Some 1000).
Definition a_wrf_config : dict R := [("hu", 10); ("lu_class", 24)]%string.

Lemma a_wrf_shape : wrf_shape 2 1 1 a_wrf.
Proof. split; [reflexivity|]. repeat constructor. Qed.

(*@ C53 Accumulated precipitation that WRF has reset to zero gives negative precipitation, which is written unchanged and not reported. *)
Lemma wrf_reset_refuted_lem :
  exists c cfg slope aspect w f chk,
    create_input c cfg slope aspect w None None = Ok (f, chk) /\
    written f "RRR"%string 1 0 0 = Some (Some (Ropp 98)) /\
    forall ws, chk = Ok ws -> ~ In "RRR"%string ws.
Proof.
  set (s := fun (_ : raster R) (_ _ : R) => [[Some 0]] : raster number).
  destruct (wrf_conversion_succeeds_lem default_constants a_wrf_config s s a_wrf None None 2 1 1) as (f & chk & H);
    try discriminate; [exact a_wrf_shape|lia|left; discriminate|].
  exists default_constants, a_wrf_config, s, s, a_wrf, f, chk. split; [exact H|]. split.
  - destruct (wrf_precipitation_telescopes_lem _ _ _ _ _ _ _ _ _ H 2%nat 0%Z 0%Z (fun k => match k with O => 99 | _ => 1 end) eq_refl) as (r & R1 & _ & R3); [discriminate| |].
    + intros [|[|k]] K; [exists 99, 0|exists 1, 0|lia]; (split; [reflexivity|]; split; [reflexivity|lra]).
    + rewrite R1 by lia. do 2 f_equal. pose proof (R3 0%nat 1%nat ltac:(lia)) as E. unfold sum_steps in E. cbn in E. lra.
  - intros ws E. pose proof (wrf_ok _ _ _ _ _ _ _ _ _ H) as W. cbv zeta in W.
    destruct W as (hgt & lu_index & z & lu & tq & rh & U2 & rain & rrr & s0 & sf & DX & DY & _ & _ & _ & _ & _ & _ & _ & _ & _ & _ & _ & _ & _ & _ & _ & _ & EC & _).
    rewrite E in EC. symmetry in EC. unfold wrf_checks in EC.
    match type of EC with for_each ?l ?b _ = _ => assert (X : forall l' acc, (forall a, In a l' -> In a l) -> ~ In "RRR"%string acc -> forall r, for_each l' b acc = Ok r -> ~ In "RRR"%string r) end.
    { induction l' as [|[n [mx mn]] l' IH]; intros acc SUB NI r HR; cbn [for_each] in HR; [injection HR as <-; exact NI|].
      apply bind_ok in HR as (acc' & B & HR). apply (IH acc'); auto; [intros a A; apply SUB; right; exact A|].
      apply bind_ok in B as (v & _ & B). apply bind_ok in B as (ww & _ & B). injection B as <-. destruct ww; [|exact NI].
      rewrite in_app_iff. intros [A|[A|[]]]; [auto|]. subst n. specialize (SUB _ (or_introl eq_refl)). cbn in SUB.
      repeat (destruct SUB as [SUB|SUB]; [injection SUB; intros; discriminate|]). destruct SUB. }
    eapply X; [intros a A; exact A| |exact EC]. intros [].
Qed.

(*@ex A file of two steps and one cell: wind of 5 m/s at 10 m, snowfall of 2 mm. *)
Lemma wrf_example_lem :
  forall slope aspect, exists f chk,
    create_input default_constants a_wrf_config slope aspect a_wrf None None = Ok (f, chk) /\
    cf_time f = ["2009-06-01T00-00"; "2009-06-01T01-00"]%string /\
    written_once f "MASK"%string 0 0 = Some (Some 1) /\
    written f "U2"%string 0 0 0 = Some (Some (5 * (ln 500 / ln 2500))) /\
    written f "PRES"%string 1 0 0 = Some (Some 700.1) /\
    exists s rho, written f "SNOWFALL"%string 1 0 0 = Some (Some s) /\ s * rho = 2.
Proof.
  intros slope aspect.
  destruct (wrf_conversion_succeeds_lem default_constants a_wrf_config slope aspect a_wrf None None 2 1 1) as (f & chk & H);
    try discriminate; [exact a_wrf_shape|lia|left; discriminate|]. exists f, chk. split; [exact H|].
  destruct (wrf_atmosphere_lem _ _ _ _ _ _ _ _ _ H) as [T A].
  split; [rewrite T; reflexivity|]. split.
  { destruct (wrf_mask_zero_one_lem _ _ _ _ _ _ _ _ _ 24 0%Z 0%Z 24 H eq_refl eq_refl) as (_ & m & E & M & _). rewrite E, M by lra.
    destruct (Req_EM_T 24 24); [reflexivity|congruence]. }
  split.
  { destruct (wrf_wind_speed_lem _ _ _ _ _ _ _ _ _ 0%nat 0%Z 0%Z 3 4 H eq_refl eq_refl) as (E & _). rewrite E. unfold log_wind.
    replace (3 * 3 + 4 * 4) with (5 * 5) by lra. rewrite sqrt_square by lra. reflexivity. }
  split.
  { destruct (A 1%nat 0%Z 0%Z) as (_ & _ & P & _). rewrite (P 70010 eq_refl). do 2 f_equal. lra. }
  destruct (wrf_precipitation_telescopes_lem _ _ _ _ _ _ _ _ _ H 2%nat 0%Z 0%Z (fun k => match k with O => 99 | _ => 1 end) eq_refl) as (r & R1 & _ & R3); [discriminate| |].
  { intros [|[|k]] K; [exists 99, 0|exists 1, 0|lia]; (split; [reflexivity|]; split; [reflexivity|lra]). }
  destruct (wrf_snow_mass_lem _ _ _ _ _ _ _ _ _ H ltac:(cbn; lra) 1%nat 0%Z 0%Z 271 3 4 52 50 (r 1%nat)) as (s & rho & S1 & _ & S2 & _); try reflexivity; [cbn; lia|apply R1; lia|].
  exists s, rho. split; [exact S1|]. rewrite S2. cbn. lra.
Qed.
