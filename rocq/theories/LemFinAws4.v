(** * Conversion of weather station data to a grid: missing values, radiation, coordinates *)
From Verif Require Import ModelPy ModelConstants ModelNode ModelGrid ModelHeat ModelSurface ModelInit
  ModelCore ModelConfig ModelIO ModelMain ModelRadCor SpecIO SpecRadCor ModelAws SpecAws.
From Verif Require Import LemPy LemDict LemIO LemIO4 LemIO5 LemShad LemShad2 LemShad3 LemShad4 LemShad5 LemAws LemAws2 LemAws3 LemAws4
  LemAws5 LemFinInput LemFinAws LemFinAws2 LemFinAws3.
From Coq Require Import Sorted.

(** ** Missing values *)
Lemma for_each_unit {A} (body : A -> res unit) l : for_each l (fun a _ => body a) tt = Ok tt ->
  forall a, In a l -> body a = Ok tt.
Proof.
  induction l as [|b t IH]; intros H a HI; [destruct HI|]. cbn [for_each] in H. apply bind_ok in H as ([] & E & H).
  destruct HI as [<-|HI]; auto.
Qed.

Lemma map_res_map {A B C} (f : B -> res C) (g : A -> B) l : map_res f (map g l) = map_res (fun a => f (g a)) l.
Proof. induction l as [|a t IH]; cbn; auto. rewrite IH. reflexivity. Qed.

Lemma existsb_same {A} (p q : A -> bool) l : (forall a, p a = q a) -> existsb p l = existsb q l.
Proof. intros H. induction l as [|a t IH]; cbn; auto. rewrite H, IH. reflexivity. Qed.

(*@ C78 The glacier cells of a gridded file have no missing value: the check that the model makes before it simulates a cell accepts each of them. *)
Lemma grid_file_complete_lem :
  forall parse vapour doy (cfg : AwsConfig) (csv : frame) st lut sd ed x0 x1 y0 y1 f w,
    NoDup (column_names cfg) -> rectangular csv -> (aw_aggregate cfg = true -> 0 < aw_step cfg)%Z ->
    static_shape st ->
    create_2D_input parse vapour doy cfg csv st lut sd ed x0 x1 y0 y1 = Ok (f, w) ->
    forall y x, cell_at (st_MASK (subset st x0 x1 y0 y1)) y x = Some (Some 1) ->
      check_for_nan (gridded f) y x = Ok tt /\
      forall n l, file_series f n y x = Some l -> ~ In None l.
Proof.
  intros parse vapour doy cfg csv st lut sd ed x0 x1 y0 y1 f w ND RE ST SH H y x HM.
  destruct (grid_ok _ _ _ _ _ _ _ _ _ _ _ _ _ _ _ ND RE ST H) as (_ & _ & _ & _ & NN & T2 & RH2 & U2 & G & PRES & g & _ & _ & _ & _ & _ & _ & _ & VS & _).
  pose proof (subset_shape st x0 x1 y0 y1 SH) as (_ & _ & _ & SM & _).
  set (ds := subset st x0 x1 y0 y1) in *. destruct (cell_in_range _ _ _ _ _ _ SM HM) as [Y X].
  unfold check_for_nan_2D in NN. apply for_each_unit with (a := (y, x)) in NN; [|apply in_product; auto]. cbn [fst snd] in NN.
  destruct (VS "MASK"%string _ eq_refl) as (u & F & _). unfold check_for_nan_cell, attr_get in NN. rewrite F in NN. cbn [bind v_data] in NN.
  rewrite cell_get_at in NN by lia. rewrite cell_at_mapmap, HM in NN. cbn [option_map bind one_number num_eqb] in NN.
  unfold Reqb in NN. destruct (Req_EM_T 1 1); [|congruence].
  apply bind_ok in NN as (blocks & EB & NN).
  assert (NB : existsb (fun b => has_none (block_values b)) blocks = false) by (destruct (existsb _ blocks); [discriminate|reflexivity]).
  split.
  - unfold check_for_nan, gridded. cbn [g_vars]. rewrite map_res_map. cbn [snd]. rewrite EB. cbn [bind].
    rewrite (existsb_same _ (fun b => has_none (block_values b))); [rewrite NB; reflexivity|].
    intros b. unfold has_none. apply existsb_same. intros [v|]; reflexivity.
  - intros n l E HI. unfold file_series in E. destruct (dict_find (nf_vars f) n) as [v|] eqn:EF; [|discriminate].
    apply find_in in EF. apply map_res_forall2 in EB. eapply forall2_left in EB; [|exact EF].
    destruct EB as (b & HB & EB). cbn [snd] in EB. rewrite cell_get_at in EB by lia.
    destruct (cell_at (v_data v) y x) as [[l'|]|]; try discriminate. injection E as ->. injection EB as <-.
    assert (Z : existsb (fun b => has_none (block_values b)) blocks = true); [|rewrite Z in NB; discriminate].
    apply existsb_exists. exists (Series l). split; [exact HB|]. apply existsb_exists. exists None. split; [exact HI|reflexivity].
Qed.

(*@ C79 Gridded conversion: the temperatures of the station lie between 173.16 K and 373.16 K; this is asked of the station values, not of the cells. *)
Lemma grid_temperature_range_lem :
  forall parse vapour doy (cfg : AwsConfig) (csv : frame) st lut sd ed x0 x1 y0 y1 f w,
    NoDup (column_names cfg) -> rectangular csv -> (aw_aggregate cfg = true -> 0 < aw_step cfg)%Z ->
    create_2D_input parse vapour doy cfg csv st lut sd ed x0 x1 y0 y1 = Ok (f, w) ->
    exists l, mean_column parse cfg csv sd ed (aw_T2 cfg) = Some l /\ l <> [] /\
      forall v, In (Some v) l -> 173.16 <= kelvin cfg v <= 373.16.
Proof.
  intros parse vapour doy cfg csv st lut sd ed x0 x1 y0 y1 f w ND RE ST H.
  destruct (grid_ok _ _ _ _ _ _ _ _ _ _ _ _ _ _ _ ND RE ST H) as (_ & _ & _ & _ & _ & T2 & RH2 & U2 & G & PRES & g & E1 & _ & _ & _ & _ & TB & _).
  exists T2. split; [exact E1|]. apply temperature_bounds_iff in TB. destruct TB as [NE TB].
  split; [intros X; apply NE; rewrite X; reflexivity|].
  intros v HI. apply TB. apply in_map_iff. exists (Some v). split; [|exact HI]. unfold to_kelvin, kelvin. destruct (aw_in_K cfg); reflexivity.
Qed.

(** ** Coordinates *)

(*@ C82 With WRF coordinates the gridded file holds the latitude and longitude of each cell; otherwise those of the static file. *)
Lemma grid_coordinates_lem :
  forall parse vapour doy (cfg : AwsConfig) (csv : frame) st lut sd ed x0 x1 y0 y1 f w,
    NoDup (column_names cfg) -> rectangular csv -> (aw_aggregate cfg = true -> 0 < aw_step cfg)%Z ->
    create_2D_input parse vapour doy cfg csv st lut sd ed x0 x1 y0 y1 = Ok (f, w) ->
    let ds := subset st x0 x1 y0 y1 in
    (aw_WRF cfg = false -> nf_lat f = Along "lat" (st_lats ds) /\ nf_lon f = Along "lon" (st_lons ds)) /\
    (aw_WRF cfg = true -> exists lats lons : raster R, nf_lat f = Mesh lats /\ nf_lon f = Mesh lons /\
       forall (y x : nat) a b, nth_error (st_lats ds) y = Some a -> nth_error (st_lons ds) x = Some b ->
         cell_at lats (Z.of_nat y) (Z.of_nat x) = Some a /\ cell_at lons (Z.of_nat y) (Z.of_nat x) = Some b).
Proof.
  intros parse vapour doy cfg csv st lut sd ed x0 x1 y0 y1 f w ND RE ST H ds.
  destruct (grid_ok _ _ _ _ _ _ _ _ _ _ _ _ _ _ _ ND RE ST H) as (_ & HY & HX & _). fold ds in HY, HX.
  split; intros HW; rewrite HW in *; [auto|]. do 2 eexists. split; [exact HY|]. split; [exact HX|].
  intros y x a b EY EX. unfold cell_at, meshgrid_x, meshgrid_y.
  assert (ZZ : forall n : nat, (0 <=? Z.of_nat n)%Z = true) by (intros n; apply Z.leb_le; lia).
  rewrite !ZZ. cbn [andb]. rewrite !Nat2Z.id, !nth_error_map, EY. cbn [option_map]. rewrite nth_error_map, EX. auto.
Qed.

(** ** Radiation *)
Lemma filter_length_pair parse csv sd ed (c : list number) : length c = length (f_index csv) ->
  length (kept_values parse csv sd ed c) = length (kept_times parse csv sd ed).
Proof.
  unfold kept_values, kept_times. rewrite map_length. revert c. induction (f_index csv) as [|t ts IH]; intros [|v c] H; cbn in *; try discriminate; auto.
  destruct (in_slice parse sd ed t); cbn; auto.
Qed.

Lemma used_length parse cfg csv sd ed n l : rectangular csv -> mean_column parse cfg csv sd ed n = Some l ->
  length l = length (used_times parse cfg csv sd ed).
Proof.
  intros RE H. unfold mean_column in H. destruct (column csv n) as [c|] eqn:E; [|discriminate]. cbn in H. injection H as <-.
  apply RE in E. unfold used_values, used_times. destruct (aw_aggregate cfg); [rewrite map_length; reflexivity|]. apply filter_length_pair. exact E.
Qed.

Lemma stack_at ny nx slabs y x : (0 <= y < ny)%Z -> (0 <= x < nx)%Z ->
  cell_at (stack ny nx slabs) y x = Some (Series (map (fun r => entry r y x) slabs)).
Proof. intros Y X. unfold stack. apply cell_at_tabulate; auto. Qed.

Lemma entry_at (r : raster number) y x v : (0 <= y)%Z -> (0 <= x)%Z -> cell_at r y x = Some v -> entry r y x = v.
Proof. intros Y X E. unfold entry. rewrite raster_get_at, E by auto. reflexivity. Qed.

Lemma module_none cfg : aw_radiation cfg = None \/ aw_radiation cfg = Some "none"%string ->
  match aw_radiation cfg with None => true | Some s => in_names s ["Wohlfahrt2016"; "none"]%string end = true /\
  match aw_radiation cfg with Some s => String.eqb s "Wohlfahrt2016" | None => false end = false.
Proof. intros [-> | ->]; split; reflexivity. Qed.

(*@ C81 Without correction every glacier cell gets the measured radiation and every other cell none. *)
Lemma radiation_uncorrected_lem :
  forall parse vapour doy (cfg : AwsConfig) (csv : frame) st lut sd ed x0 x1 y0 y1 f w,
    NoDup (column_names cfg) -> rectangular csv -> (aw_aggregate cfg = true -> 0 < aw_step cfg)%Z ->
    static_shape st -> aw_radiation cfg = None \/ aw_radiation cfg = Some "none"%string ->
    create_2D_input parse vapour doy cfg csv st lut sd ed x0 x1 y0 y1 = Ok (f, w) ->
    forall y x m, cell_at (st_MASK (subset st x0 x1 y0 y1)) y x = Some m ->
      (m = Some 1 -> file_series f "G"%string y x = mean_column parse cfg csv sd ed (aw_G cfg)) /\
      (m <> Some 1 -> file_series f "G"%string y x = Some (map (fun _ => None) (nf_time f))).
Proof.
  intros parse vapour doy cfg csv st lut sd ed x0 x1 y0 y1 f w ND RE ST SH RM H y x m HM.
  destruct (grid_ok _ _ _ _ _ _ _ _ _ _ _ _ _ _ _ ND RE ST H) as (HT & _ & _ & _ & _ & T2 & RH2 & U2 & G & PRES & g & _ & _ & _ & E4 & _ & _ & HR & _ & VV & _).
  pose proof (subset_shape st x0 x1 y0 y1 SH) as (_ & _ & _ & SM & _).
  set (ds := subset st x0 x1 y0 y1) in *. destruct (cell_in_range _ _ _ _ _ _ SM HM) as [Y X].
  destruct (VV "G"%string _ eq_refl) as (u & F & _).
  assert (FS : file_series f "G"%string y x = Some (map (fun r => entry r y x) g)).
  { eapply file_find; [exact F|]. apply stack_at; auto. }
  pose proof (used_length _ _ _ _ _ _ _ RE E4) as LG. rewrite <- HT in LG.
  unfold grid_radiation, radiation in HR. cbv zeta in HR. destruct (module_none cfg RM) as [M1 M2]. rewrite M1, M2 in HR. rewrite <- HT in HR.
  assert (EN : map (fun r => entry r y x) g = map (fun tg => if num_eqb m 1 then snd tg else None) (combine (nf_time f) G)).
  { apply nth_error_ext'; [rewrite !map_length; eapply map_res_length; exact HR|].
    intros k Hk. rewrite map_length in Hk. rewrite !nth_error_map. destruct (nth_error g k) as [r|] eqn:Er; [|apply nth_error_None in Er; lia].
    destruct (map_res_nth _ _ _ _ _ HR Er) as ([t gv] & Ek & Eb). rewrite Ek. cbn [option_map snd]. f_equal.
    pose proof (raster_map_at _ _ _ y x Eb) as RA. rewrite HM in RA. destruct RA as (v & V1 & V2).
    rewrite (entry_at r y x v) by (auto; lia). destruct (num_eqb m 1); congruence. }
  rewrite FS, EN. split; intros HV.
  - subst m. cbn [num_eqb]. unfold Reqb. destruct (Req_EM_T 1 1); [|congruence]. rewrite E4. f_equal.
    clear - LG. revert G LG. generalize (nf_time f). induction l as [|t ts IH]; intros [|v G] H; cbn in *; try discriminate; auto. f_equal. apply IH. lia.
  - assert (NE : num_eqb m 1 = false).
    { destruct m as [v|]; [|reflexivity]. cbn. unfold Reqb. destruct (Req_EM_T v 1); [subst; congruence|reflexivity]. }
    rewrite NE. f_equal. clear - LG. revert G LG. generalize (nf_time f). induction l as [|t ts IH]; intros [|v G] H; cbn in *; try discriminate; auto. f_equal. apply IH. lia.
Qed.

(*@ C81 With the correction of Wohlfahrt a glacier cell gets, at each time, the larger of zero and the measured radiation corrected for its coordinates, slope and aspect, day and hour.  So the radiation is not negative. *)
Lemma radiation_wohlfahrt_lem :
  forall parse vapour doy (cfg : AwsConfig) (csv : frame) st lut sd ed x0 x1 y0 y1 f w,
    NoDup (column_names cfg) -> rectangular csv -> (aw_aggregate cfg = true -> 0 < aw_step cfg)%Z ->
    static_shape st -> aw_radiation cfg = Some "Wohlfahrt2016"%string ->
    create_2D_input parse vapour doy cfg csv st lut sd ed x0 x1 y0 y1 = Ok (f, w) ->
    let ds := subset st x0 x1 y0 y1 in
    forall y x, cell_at (st_MASK ds) y x = Some (Some 1) ->
    exists lat lon s a l G,
      nth_error (st_lats ds) (Z.to_nat y) = Some lat /\ nth_error (st_lons ds) (Z.to_nat x) = Some lon /\
      cell_at (st_SLOPE ds) y x = Some s /\ cell_at (st_ASPECT ds) y x = Some a /\
      mean_column parse cfg csv sd ed (aw_G cfg) = Some G /\
      file_series f "G"%string y x = Some l /\ length l = length (nf_time f) /\
      forall (k : nat) t, nth_error (nf_time f) k = Some t -> exists g r,
        nth_error G k = Some (Some g) /\
        correctRadiation lat lon (aw_timezone_lon cfg) (IZR (doy t)) (IZR ((t / 3600) mod 24)) s (a - 180) g
          (aw_zeni_thld cfg) = Ok r /\
        nth_error l k = Some (Some (Rmax 0 r)).
Proof.
  intros parse vapour doy cfg csv st lut sd ed x0 x1 y0 y1 f w ND RE ST SH RM H ds y x HM.
  pose proof (grid_file_complete_lem _ _ _ _ _ _ _ _ _ _ _ _ _ _ _ ND RE ST SH H y x HM) as [_ NN].
  destruct (grid_ok _ _ _ _ _ _ _ _ _ _ _ _ _ _ _ ND RE ST H) as (HT & _ & _ & _ & _ & T2 & RH2 & U2 & G & PRES & g & _ & _ & _ & E4 & _ & _ & HR & _ & VV & _).
  pose proof (subset_shape st x0 x1 y0 y1 SH) as (_ & SS & SA & SM & _).
  fold ds in SS, SA, SM, VV, HR. destruct (cell_in_range _ _ _ _ _ _ SM HM) as [Y X].
  destruct (VV "G"%string _ eq_refl) as (u & F & _).
  assert (FS : file_series f "G"%string y x = Some (map (fun r => entry r y x) g)).
  { eapply file_find; [exact F|]. apply stack_at; auto. }
  pose proof (used_length _ _ _ _ _ _ _ RE E4) as LG. rewrite <- HT in LG.
  unfold grid_radiation, radiation in HR. cbv zeta in HR. rewrite RM in HR.
  change (in_names "Wohlfahrt2016" ["Wohlfahrt2016"; "none"]%string) with true in HR.
  change (String.eqb "Wohlfahrt2016" "Wohlfahrt2016") with true in HR. cbv iota in HR. rewrite <- HT in HR.
  destruct (nth_error (st_lats ds) (Z.to_nat y)) as [lat|] eqn:EY; [|apply nth_error_None in EY; lia].
  destruct (nth_error (st_lons ds) (Z.to_nat x)) as [lon|] eqn:EX; [|apply nth_error_None in EX; lia].
  destruct (sized_at _ _ _ y x SS Y X) as (s & ES). destruct (sized_at _ _ _ y x SA Y X) as (a & EA).
  exists lat, lon, s, a, (map (fun r => entry r y x) g), G.
  do 4 (split; [auto|]). split; [exact E4|]. split; [exact FS|].
  assert (LL : length g = length (nf_time f)).
  { rewrite (map_res_length _ _ _ HR), combine_length. lia. }
  split; [rewrite map_length; exact LL|].
  intros k t Et.
  assert (K : (k < length (nf_time f))%nat) by (apply nth_error_Some; congruence).
  destruct (nth_error g k) as [r|] eqn:Er; [|apply nth_error_None in Er; lia].
  destruct (map_res_nth _ _ _ _ _ HR Er) as ([t' gv] & Ek & Eb).
  assert (EG : nth_error G k = Some gv /\ t' = t).
  { destruct (nth_error G k) as [gg|] eqn:EGk; [|apply nth_error_None in EGk; lia].
    assert (W := nth_combine _ _ _ _ _ Et EGk). assert (Q : Some (t', gv) = Some (t, gg)) by (transitivity (nth_error (combine (nf_time f) G) k); [symmetry; exact Ek|exact W]).
    inversion Q; subst. auto. }
  destruct EG as [EG ->].
  pose proof (raster_map_at _ _ _ y x Eb) as RA. rewrite HM in RA. destruct RA as (v & V1 & V2).
  assert (NV : v <> None).
  { intros E. apply (NN _ _ FS). apply in_map_iff. exists r. split; [rewrite (entry_at r y x v); auto; lia|eapply nth_error_In; exact Er]. }
  cbn [num_eqb] in V1. unfold Reqb in V1. destruct (Req_EM_T 1 1); [|congruence].
  assert (PG : forall (l : list R) (z : Z) b, (0 <= z)%Z -> nth_error l (Z.to_nat z) = Some b -> py_get l z = Ok b).
  { intros l z b HZ E. rewrite <- (Z2Nat.id z HZ). apply py_get_nth. exact E. }
  rewrite (PG _ _ _ (proj1 Y) EY), (PG _ _ _ (proj1 X) EX) in V1. cbn [bind] in V1.
  rewrite !raster_get_at in V1 by lia. rewrite cell_at_mapmap, ES, EA in V1. cbn [bind option_map] in V1.
  destruct gv as [gv|]; [|exfalso; apply NV; inversion V1; reflexivity]. apply bind_ok in V1 as (rr & V1 & V3).
  exists gv, rr. split; [exact EG|]. split.
  - replace (a - 180) with (a - 180.0) by lra. exact V1.
  - rewrite nth_error_map, Er. cbn [option_map]. f_equal. rewrite (entry_at r y x v) by (auto; lia).
    unfold max_zero in V3. cbn in V3. assert (Q : v = Some (Rmax 0.0 rr)) by congruence. rewrite Q. f_equal. f_equal. lra.
Qed.

(*@ C81 An unknown radiation module is refused, and the model of Moelg cannot be used without cloud cover. *)
Lemma radiation_refused_lem :
  forall parse vapour doy (cfg : AwsConfig) (csv : frame) st lut sd ed x0 x1 y0 y1 s,
    NoDup (column_names cfg) -> rectangular csv -> (aw_aggregate cfg = true -> 0 < aw_step cfg)%Z ->
    aw_radiation cfg = Some s ->
    (~ In s ["Wohlfahrt2016"; "none"; "Moelg2009"]%string ->
     forall r, create_2D_input parse vapour doy cfg csv st lut sd ed x0 x1 y0 y1 <> Ok r) /\
    (s = "Moelg2009"%string -> column csv (aw_N cfg) = None ->
     forall r, create_2D_input parse vapour doy cfg csv st lut sd ed x0 x1 y0 y1 <> Ok r).
Proof.
  intros parse vapour doy cfg csv st lut sd ed x0 x1 y0 y1 s ND RE ST RM. split.
  - intros NI [f w] H.
    destruct (grid_ok _ _ _ _ _ _ _ _ _ _ _ _ _ _ _ ND RE ST H) as (_ & _ & _ & _ & _ & T2 & RH2 & U2 & G & PRES & g & _ & _ & _ & _ & _ & _ & HR & _).
    unfold grid_radiation, radiation in HR. cbv zeta in HR. rewrite RM in HR.
    destruct (in_names s ["Wohlfahrt2016"; "none"]%string) eqn:E1; [apply in_names_iff in E1; cbn in *; tauto|].
    destruct (String.eqb_spec s "Moelg2009"); [subst; cbn in *; tauto|discriminate].
  - intros -> EN [f w] H.
    destruct (grid_ok _ _ _ _ _ _ _ _ _ _ _ _ _ _ _ ND RE ST H) as (_ & _ & _ & _ & _ & T2 & RH2 & U2 & G & PRES & g & E1 & _ & _ & _ & _ & TB & HR & _).
    unfold grid_radiation, radiation in HR. cbv zeta in HR. rewrite RM in HR.
    change (in_names "Moelg2009" ["Wohlfahrt2016"; "none"]%string) with false in HR.
    change (String.eqb "Moelg2009" "Moelg2009") with true in HR. cbv iota in HR.
    apply bind_ok in HR as ([solPars timeCorr] & _ & HR). apply bind_ok in HR as (tables & _ & HR).
    assert (NM : mean_column parse cfg csv sd ed (aw_N cfg) = None) by (unfold mean_column; rewrite EN; reflexivity). rewrite NM in HR.
    pose proof (used_length _ _ _ _ _ _ _ RE E1) as LT.
    assert (NE : T2 <> []) by (intros Z; apply temperature_bounds_iff in TB; apply (proj1 TB); rewrite Z; reflexivity).
    destruct (used_times parse cfg csv sd ed) as [|t ts]; [apply NE, length_zero_iff_nil; exact LT|].
    assert (ZR : zrange 0 (Z.of_nat (length (t :: ts))) = 0%Z :: zseq 1 (length ts)).
    { unfold zrange. replace (Z.to_nat (Z.of_nat (length (t :: ts)) - 0)) with (S (length ts)) by (cbn [length]; lia). reflexivity. }
    rewrite ZR in HR. cbn [map_res] in HR. apply bind_ok in HR as (r0 & HR & _).
    apply bind_ok in HR as (t0 & _ & HR). apply bind_ok in HR as (tt0 & _ & HR). apply bind_ok in HR as (p0 & _ & HR).
    apply bind_ok in HR as (h0 & _ & HR). discriminate.
Qed.
