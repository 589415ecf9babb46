(** * The point conversion *)
From Verif Require Import ModelPy ModelConstants ModelNode ModelGrid ModelHeat ModelSurface ModelInit
  ModelCore ModelConfig ModelIO ModelMain ModelRadCor SpecIO SpecRadCor ModelAws SpecAws.
From Verif Require Import LemPy LemDict LemIO LemIO4 LemIO5 LemShad5 LemAws.

(** ** Dictionaries *)
Lemma find_map_snd {A B} (f : A -> B) (d : dict A) n :
  dict_find (map (fun nc => (fst nc, f (snd nc))) d) n = option_map f (dict_find d n).
Proof. induction d as [|[m c] t IH]; cbn; auto. destruct (String.eqb m n); auto. Qed.

Lemma find_map_names {A} (g : string -> A) names n :
  dict_find (map (fun m => (m, g m)) names) n = if in_names n names then Some (g n) else None.
Proof.
  induction names as [|m t IH]; cbn; auto. rewrite (String.eqb_sym n m).
  destruct (String.eqb_spec m n) as [->|NE]; cbn; auto.
Qed.

Lemma find_app {A} (d e : dict A) n :
  dict_find (d ++ e) n = match dict_find d n with Some v => Some v | None => dict_find e n end.
Proof. induction d as [|[m c] t IH]; cbn; auto. destruct (String.eqb m n); auto. Qed.

Lemma mem_find {A} (d : dict A) n : dict_mem d n = match dict_find d n with Some _ => true | None => false end.
Proof. reflexivity. Qed.

Lemma set_fresh {A} (d : dict A) k v : ~ In k (map fst d) -> dict_set d k v = d ++ [(k, v)].
Proof.
  induction d as [|[n w] t IH]; intros H; cbn; auto.
  destruct (String.eqb_spec n k) as [->|NE]; [exfalso; apply H; left; reflexivity|].
  rewrite IH; auto. intros I. apply H. right. exact I.
Qed.
Lemma union_fresh {A} (p : dict A) : forall d, NoDup (map fst (d ++ p)) -> dict_union d p = d ++ p.
Proof.
  induction p as [|[k v] p IH]; intros d ND; [rewrite app_nil_r; reflexivity|].
  rewrite union_cons. rewrite set_fresh.
  - rewrite IH; rewrite <- app_assoc; auto.
  - rewrite map_app in ND. cbn [map fst] in ND. apply NoDup_remove_2 in ND. intros I. apply ND. apply in_or_app. auto.
Qed.
Lemma find_filter {A} (p : string * A -> bool) (d : dict A) n v : NoDup (map fst d) ->
  (dict_find (filter p d) n = Some v <-> dict_find d n = Some v /\ p (n, v) = true).
Proof.
  intros ND. induction d as [|[m w] t IH]; cbn [filter dict_find].
  - cbn. split; [discriminate|intros [H _]; discriminate].
  - inversion ND; subst. specialize (IH ltac:(assumption)).
    assert (NI : dict_find t m = None) by (apply find_none; assumption).
    destruct (p (m, w)) eqn:E; cbn [dict_find]; destruct (String.eqb_spec m n) as [->|NE]; auto.
    + split; [intros X; injection X as X; subst; auto|intros [X _]; auto].
    + rewrite IH. split; intros [X Y].
      * rewrite NI in X. discriminate.
      * injection X as X. subst. rewrite E in Y. discriminate.
Qed.

(** ** Frames *)
Lemma carried_none {A} (l : list A) : carried (map (fun _ => None) l) = map (fun _ => None) l.
Proof. rewrite <- ffill_carried. induction l; cbn; auto. f_equal. exact IHl. Qed.

Lemma add_missing_index m df : f_index (add_missing m df) = f_index df.
Proof. unfold add_missing. destruct (dict_mem _ _); reflexivity. Qed.
Lemma add_missing_find m df n : dict_find (f_cols (add_missing m df)) n =
  match dict_find (f_cols df) n with
  | Some c => Some c
  | None => if String.eqb m n then Some (map (fun _ => None) (f_index df)) else None
  end.
Proof.
  unfold add_missing. rewrite mem_find. destruct (dict_find (f_cols df) m) eqn:E.
  - destruct (dict_find (f_cols df) n) eqn:F; auto.
    destruct (String.eqb_spec m n) as [->|NE]; auto. rewrite E in F. discriminate.
  - cbn [f_cols]. rewrite find_app. destruct (dict_find (f_cols df) n); auto.
Qed.

Definition filled_in (cfg : AwsConfig) (csv : frame) : frame :=
  add_missing (aw_SNOWFALL cfg) (add_missing (aw_N cfg) (add_missing (aw_LWin cfg) (ffill_frame csv))).

Lemma filled_in_index cfg csv : f_index (filled_in cfg csv) = f_index csv.
Proof. unfold filled_in. rewrite !add_missing_index. reflexivity. Qed.

Lemma filled_in_find cfg csv n : dict_find (f_cols (filled_in cfg csv)) n =
  match column csv n with
  | Some c => Some (carried c)
  | None => if in_names n [aw_LWin cfg; aw_N cfg; aw_SNOWFALL cfg] then Some (map (fun _ => None) (f_index csv)) else None
  end.
Proof.
  unfold filled_in. rewrite !add_missing_find, !add_missing_index.
  change (f_index (ffill_frame csv)) with (f_index csv).
  change (f_cols (ffill_frame csv)) with (map (fun nc : string * list number => (fst nc, ffill None (snd nc))) (f_cols csv)).
  rewrite find_map_snd. unfold column.
  destruct (dict_find (f_cols csv) n) as [c|]; cbn [option_map].
  - rewrite ffill_carried. reflexivity.
  - unfold in_names. cbn [existsb]. rewrite (String.eqb_sym n (aw_LWin cfg)), (String.eqb_sym n (aw_N cfg)), (String.eqb_sym n (aw_SNOWFALL cfg)).
    destruct (String.eqb (aw_LWin cfg) n), (String.eqb (aw_N cfg) n), (String.eqb (aw_SNOWFALL cfg) n); reflexivity.
Qed.

Lemma map_res_pure {A B} (f : A -> res B) (g : A -> B) l : (forall a, In a l -> f a = Ok (g a)) -> map_res f l = Ok (map g l).
Proof.
  induction l as [|a t IH]; intros H; cbn; auto. rewrite (H a) by (left; auto). cbn [bind].
  rewrite IH by (intros; apply H; right; auto). reflexivity.
Qed.

Definition kinds (cfg : AwsConfig) : dict agg :=
  [(aw_T2 cfg, Mean); (aw_RH2 cfg, Mean); (aw_U2 cfg, Mean); (aw_G cfg, Mean);
   (aw_PRES cfg, Mean); (aw_RRR cfg, NanSum); (aw_LWin cfg, Mean); (aw_N cfg, Mean);
   (aw_SNOWFALL cfg, NanSum)].

Definition hour_column (csv : frame) (k : agg) (n : string) : list number :=
  map (fun b => aggregate k (during b 3600 (f_index csv) (carried (column_or_nan csv n)))) (bins 3600 (f_index csv)).

Definition hourly_frame (cfg : AwsConfig) (csv : frame) : frame :=
  dropna_columns (mkFrame (bins 3600 (f_index csv))
    (map (fun nk => (fst nk, hour_column csv (snd nk) (fst nk))) (kinds cfg))).

Lemma kinds_nodup cfg : NoDup (column_names cfg) -> NoDup (map fst (kinds cfg)).
Proof.
  unfold column_names, kinds. cbn [map fst]. intros ND.
  eapply Permutation.Permutation_NoDup; [|exact ND].
  do 4 constructor. apply Permutation.perm_swap.
Qed.

Lemma hourly_exact cfg csv : NoDup (column_names cfg) ->
  (forall n, In n (required_columns cfg) -> column csv n <> None) ->
  hourly cfg csv = Ok (hourly_frame cfg csv).
Proof.
  intros ND RC. unfold hourly.
  change (add_missing (aw_SNOWFALL cfg) (add_missing (aw_N cfg) (add_missing (aw_LWin cfg) (ffill_frame csv)))) with (filled_in cfg csv).
  cbv zeta.
  assert (FIND : forall n, In n (column_names cfg) -> dict_find (f_cols (filled_in cfg csv)) n = Some (carried (column_or_nan csv n))).
  { intros n HI. rewrite filled_in_find. unfold column_or_nan. destruct (column csv n) as [c|] eqn:E; auto.
    rewrite carried_none. destruct (in_names n _) eqn:F; auto. exfalso.
    assert (X : In n (required_columns cfg)).
    { unfold column_names in HI. cbn in HI.
      cbn in F. unfold required_columns. cbn. apply orb_false_iff in F. destruct F as (F1 & F). apply orb_false_iff in F. destruct F as (F2 & F).
      apply orb_false_iff in F. destruct F as (F3 & _).
      apply String.eqb_neq in F1, F2, F3. repeat (destruct HI as [HI|HI]; [subst; tauto|]). destruct HI. }
    apply RC in X. tauto. }
  assert (SEL : select_columns (column_names cfg) (filled_in cfg csv) =
    Ok (mkFrame (f_index csv) (map (fun n => (n, carried (column_or_nan csv n))) (column_names cfg)))).
  { unfold select_columns. rewrite (map_res_pure _ (fun n => (n, carried (column_or_nan csv n)))).
    - cbn [bind]. rewrite filled_in_index. reflexivity.
    - intros n HI. unfold dict_get. rewrite FIND by auto. reflexivity. }
  unfold column_names in SEL at 1. rewrite SEL. cbn [bind].
  rewrite union_fresh by (apply kinds_nodup in ND; exact ND). cbn [app].
  fold (kinds cfg). unfold resample. cbn [f_index f_cols].
  rewrite (map_res_pure _ (fun nk => (fst nk, hour_column csv (snd nk) (fst nk)))).
  - cbn [bind]. reflexivity.
  - intros [n k] HI. cbn [fst snd]. unfold dict_get. rewrite find_map_names.
    rewrite in_names_true.
    + cbn [bind]. f_equal. f_equal. unfold hour_column. apply map_ext_in. intros b HB.
      apply in_bins in HB; [|lia]. destruct HB as (HM & _). rewrite pick_during by (auto; lia). reflexivity.
    + unfold kinds in HI. cbn in HI. unfold column_names. cbn.
      repeat (destruct HI as [HI|HI]; [injection HI as HI1 HI2; subst; tauto|]). destruct HI.
Qed.

Lemma hourly_missing cfg csv df : hourly cfg csv = Ok df ->
  forall n, In n (required_columns cfg) -> ~ In n [aw_LWin cfg; aw_N cfg; aw_SNOWFALL cfg] -> column csv n <> None.
Proof.
  unfold hourly.
  change (add_missing (aw_SNOWFALL cfg) (add_missing (aw_N cfg) (add_missing (aw_LWin cfg) (ffill_frame csv)))) with (filled_in cfg csv).
  cbv zeta. intros H n HI NI E. apply bind_ok in H as (df1 & SEL & H). clear H.
  unfold select_columns in SEL. apply bind_ok in SEL as (cols & SEL & _).
  apply map_res_forall2 in SEL. eapply forall2_left with (a := n) in SEL.
  2:{ unfold required_columns in HI. cbn in *. tauto. }
  destruct SEL as (p & _ & SEL). apply bind_ok in SEL as (c & SEL & _). unfold dict_get in SEL. rewrite filled_in_find, E in SEL.
  destruct (in_names n _) eqn:F; [|discriminate]. apply in_names_iff in F. tauto.
Qed.

Lemma hourly_ok cfg csv df : NoDup (column_names cfg) -> hourly cfg csv = Ok df ->
  (forall n, In n (required_columns cfg) -> column csv n <> None) /\ df = hourly_frame cfg csv.
Proof.
  intros ND H.
  assert (RC : forall n, In n (required_columns cfg) -> column csv n <> None).
  { intros n HI. apply (hourly_missing _ _ _ H n HI). intros I2.
    unfold column_names in ND. unfold required_columns in HI.
    change (NoDup ([aw_T2 cfg; aw_RH2 cfg; aw_U2 cfg; aw_G cfg; aw_RRR cfg; aw_PRES cfg] ++
                   [aw_LWin cfg; aw_N cfg; aw_SNOWFALL cfg])) in ND.
    clear - ND HI I2. revert ND HI. generalize [aw_T2 cfg; aw_RH2 cfg; aw_U2 cfg; aw_G cfg; aw_RRR cfg; aw_PRES cfg].
    intros l. induction l as [|a t IH]; intros ND HI; [destruct HI|]. inversion ND; subst.
    destruct HI as [->|HI]; auto. apply H1. apply in_or_app. auto. }
  split; auto. rewrite hourly_exact in H by auto. injection H as H. auto.
Qed.

Lemma hourly_frame_index cfg csv : f_index (hourly_frame cfg csv) = bins 3600 (f_index csv).
Proof. reflexivity. Qed.

Lemma hourly_frame_find cfg csv n l : NoDup (column_names cfg) ->
  (dict_find (f_cols (hourly_frame cfg csv)) n = Some l <->
   exists k, In (n, k) (kinds cfg) /\ l = hour_column csv k n /\ existsb is_number l = true).
Proof.
  intros ND. apply kinds_nodup in ND. unfold hourly_frame, dropna_columns. cbn [f_cols].
  assert (K : map fst (map (fun nk : string * agg => (fst nk, hour_column csv (snd nk) (fst nk))) (kinds cfg)) = map fst (kinds cfg)).
  { rewrite map_map. apply map_ext. auto. }
  rewrite find_filter by (rewrite K; exact ND). cbn [snd]. split.
  - intros [F E]. apply find_in in F. apply in_map_iff in F. destruct F as ([m k] & F & HI). cbn [fst snd] in F.
    injection F as F1 F2. subst. exists k. auto.
  - intros (k & HI & E1 & E2). split; auto. apply in_find; [rewrite K; auto|].
    apply in_map_iff. exists (n, k). cbn. subst. auto.
Qed.

(** ** Slices *)
Lemma pick_map_filter (p : Z -> bool) l : pick (map p l) l = filter p l.
Proof. induction l as [|a t IH]; cbn; auto. destruct (p a); rewrite IH; reflexivity. Qed.
Lemma pick_map_map {A} (p : Z -> bool) (g : Z -> A) l : pick (map p l) (map g l) = map g (filter p l).
Proof. induction l as [|a t IH]; cbn; auto. destruct (p a); cbn; rewrite IH; reflexivity. Qed.

Lemma slice_ok parse df sd ed df' : get_time_slice parse df sd ed = Ok df' ->
  f_index df' = filter (in_slice parse sd ed) (f_index df) /\
  (forall n, dict_find (f_cols df) n = None -> dict_find (f_cols df') n = None) /\
  (forall n c, dict_find (f_cols df) n = Some c -> length c = length (f_index df) ->
     dict_find (f_cols df') n = Some (pick (map (in_slice parse sd ed) (f_index df)) c)).
Proof.
  unfold get_time_slice. destruct sd as [a|], ed as [b|].
  2,3,4: intros H; injection H as H; subst; cbn [in_slice]; split; [clear; induction (f_index df'); cbn; congruence|split; auto];
         intros n c HF HL; rewrite HF; f_equal; clear HF; revert c HL; induction (f_index df'); intros [|v c] HL; cbn in *; try lia; auto;
         f_equal; apply IHl; lia.
  unfold slice_bounds. intros H. inv_bind H. inv_bind H.
  destruct (parse a) as [[lo w1]|] eqn:Ea; [|discriminate]. destruct (parse b) as [[hi w2]|] eqn:Eb; [|discriminate].
  injection E as E. injection E0 as E0. subst a0 a1. cbn [fst snd] in H. injection H as H. subst df'. cbn [f_index f_cols].
  assert (P : forall l, map (in_period lo (hi + w2 - 1)) l = map (in_slice parse (Some a) (Some b)) l).
  { intros l. apply map_ext. intros t. unfold in_slice. rewrite Ea, Eb. reflexivity. }
  rewrite P. split; [apply pick_map_filter|]. split.
  - intros n HF. rewrite (find_map_snd (pick _)). rewrite HF. reflexivity.
  - intros n c HF _. rewrite (find_map_snd (pick _)). rewrite HF. reflexivity.
Qed.

(** ** Checks *)
Lemma has_none_false l : has_none l = false <-> forall v, In v l -> v <> None.
Proof.
  unfold has_none. rewrite existsb_false_iff. split.
  - intros H v HI. specialize (H v HI). destruct v; [discriminate|cbn in H; discriminate].
  - intros H v HI. specialize (H v HI). destruct v; cbn; [reflexivity|congruence].
Qed.

Lemma set_order_ok cfg r df df' : set_order_and_type cfg r df = Ok df' ->
  df' = df /\ (forall n, In n [aw_T2 cfg; aw_RH2 cfg; aw_U2 cfg; aw_G cfg; aw_PRES cfg] -> dict_find (f_cols df) n <> None) /\
  (dict_find (f_cols df) (aw_LWin cfg) <> None \/ dict_find (f_cols df) (aw_N cfg) <> None).
Proof.
  unfold set_order_and_type. intros H. apply bind_ok in H as (cols & REQ & H).
  assert (R1 : forall n, In n [aw_T2 cfg; aw_RH2 cfg; aw_U2 cfg; aw_G cfg; aw_PRES cfg] -> dict_find (f_cols df) n <> None).
  { intros n HI. apply map_res_forall2 in REQ. eapply forall2_left in REQ; [|exact HI]. destruct REQ as (c & _ & E).
    unfold dict_get in E. intros X. rewrite X in E. discriminate. }
  assert (M : dict_mem (f_cols df) (aw_PRES cfg) = true).
  { rewrite mem_find. specialize (R1 (aw_PRES cfg) ltac:(cbn; tauto)). destruct (dict_find _ _); congruence. }
  rewrite M in H. cbn [negb] in H. rewrite andb_false_r in H. cbv zeta in H.
  rewrite !mem_find in H.
  destruct (dict_find (f_cols df) (aw_LWin cfg)) eqn:EL, (dict_find (f_cols df) (aw_N cfg)) eqn:EN; cbn in H;
    try discriminate; injection H as H; subst; split; auto; split; auto; try (left; congruence); right; congruence.
Qed.

(** ** The file *)
Definition point_vars (cfg : AwsConfig) (csv : frame) (hours : list Z) : dict (option (cells block)) :=
  let dz := aw_hgt cfg - aw_stationAlt cfg in
  let opt n k f := if existsb is_number (hour_column csv k n)
                   then Some (point_series (map (fun b => f (aggregate k (during b 3600 (f_index csv) (carried (column_or_nan csv n))))) hours))
                   else None in
  let req n f := Some (point_series (map (fun b => f (hourly_mean csv n b)) hours)) in
  [("T2", req (aw_T2 cfg) (fun v => set_bias (aw_lapse_T cfg) dz false (to_kelvin cfg v)));
   ("RH2", req (aw_RH2 cfg) (fun v => set_relative_humidity_bounds (set_bias (aw_lapse_RH cfg) dz false v)));
   ("U2", req (aw_U2 cfg) (fun v => v)); ("G", req (aw_G cfg) (fun v => v));
   ("PRES", req (aw_PRES cfg) (get_pressure_bias cfg (aw_hgt cfg)));
   ("RRR", opt (aw_RRR cfg) NanSum (set_bias (aw_lapse_RRR cfg) dz true));
   ("SNOWFALL", opt (aw_SNOWFALL cfg) NanSum (set_bias (aw_lapse_SNOWFALL cfg) dz true));
   ("LWin", opt (aw_LWin cfg) Mean (fun v => v)); ("N", opt (aw_N cfg) Mean (fun v => v))]%string.

Lemma sliced_find parse cfg csv sd ed df n : NoDup (column_names cfg) ->
  get_time_slice parse (hourly_frame cfg csv) sd ed = Ok df ->
  forall k, In (n, k) (kinds cfg) ->
  dict_find (f_cols df) n =
    if existsb is_number (hour_column csv k n)
    then Some (map (fun b => aggregate k (during b 3600 (f_index csv) (carried (column_or_nan csv n)))) (f_index df))
    else None.
Proof.
  intros ND HS k HK. apply slice_ok in HS. destruct HS as (HI & HN & HC). rewrite hourly_frame_index in *.
  destruct (existsb is_number (hour_column csv k n)) eqn:E.
  - rewrite (HC n (hour_column csv k n)).
    + unfold hour_column. rewrite pick_map_map. rewrite HI. reflexivity.
    + apply hourly_frame_find; auto. eauto.
    + unfold hour_column. apply map_length.
  - apply HN. destruct (dict_find (f_cols (hourly_frame cfg csv)) n) as [l|] eqn:F; auto.
    apply hourly_frame_find in F; auto. destruct F as (k' & HK' & E1 & E2).
    assert (k' = k). { apply kinds_nodup in ND. clear -ND HK HK'.
      eapply in_find in HK; eauto. eapply in_find in HK'; eauto. congruence. }
    subst. congruence.
Qed.

Lemma point_ok parse cfg csv static sd ed f w : NoDup (column_names cfg) ->
  create_1D_input parse cfg csv static sd ed = Ok (f, w) ->
  (forall n, In n (required_columns cfg) -> column csv n <> None) /\
  nf_time f = filter (in_slice parse sd ed) (bins 3600 (f_index csv)) /\
  (forall n, In n [aw_T2 cfg; aw_RH2 cfg; aw_U2 cfg; aw_G cfg; aw_PRES cfg] -> existsb is_number (hour_column csv Mean n) = true) /\
  (existsb is_number (hour_column csv Mean (aw_LWin cfg)) = true \/ existsb is_number (hour_column csv Mean (aw_N cfg)) = true) /\
  check_temperature_bounds (map (fun b => set_bias (aw_lapse_T cfg) (aw_hgt cfg - aw_stationAlt cfg) false (to_kelvin cfg (hourly_mean csv (aw_T2 cfg) b))) (nf_time f)) = Ok tt /\
  (forall n v, In (n, v) (nf_vars f) -> forall x, In x (array_values (v_data v)) -> x <> None) /\
  exists vars0 aspect slope mask,
    point_coordinates cfg static = Ok (nf_lat f, nf_lon f, vars0) /\
    point_terrain static vars0 = Ok (aspect, slope, mask) /\
    (exists u, dict_find variable_metadata "HGT" = Some u /\
       dict_find (nf_vars f) "HGT" = Some (mkVariable ["lat"; "lon"]%string (point (Some (aw_hgt cfg))) (fst u) (snd u))) /\
    (exists u, dict_find variable_metadata "ASPECT" = Some u /\
       dict_find (nf_vars f) "ASPECT" = Some (mkVariable ["lat"; "lon"]%string (point aspect) (fst u) (snd u))) /\
    (exists u, dict_find variable_metadata "SLOPE" = Some u /\
       dict_find (nf_vars f) "SLOPE" = Some (mkVariable ["lat"; "lon"]%string (point slope) (fst u) (snd u))) /\
    (exists u, dict_find variable_metadata "MASK" = Some u /\
       dict_find (nf_vars f) "MASK" = Some (mkVariable ["lat"; "lon"]%string (point mask) (fst u) (snd u))) /\
    (forall n, dict_find (point_vars cfg csv (nf_time f)) n = Some None -> dict_find (nf_vars f) n = dict_find vars0 n) /\
    (forall n a, dict_find (point_vars cfg csv (nf_time f)) n = Some (Some a) ->
       exists u, dict_find variable_metadata n = Some u /\
       dict_find (nf_vars f) n = Some (mkVariable ["time"; "lat"; "lon"]%string a (fst u) (snd u))).
Proof.
  intros ND H. unfold create_1D_input in H.
  apply bind_ok in H as (df0 & HH & H). apply hourly_ok in HH; auto. destruct HH as (RC & ->).
  apply bind_ok in H as (df & HS & H).
  apply bind_ok in H as ([[lat lon] vars0] & HC & H).
  apply bind_ok in H as (df1 & HO & H). apply set_order_ok in HO. destruct HO as (-> & REQ & LWN). cbv zeta in H.
  pose proof (sliced_find parse cfg csv sd ed df) as SF.
  pose proof (proj1 (slice_ok _ _ _ _ _ HS)) as HI. rewrite hourly_frame_index in HI.
  assert (SFN : forall n k, In (n, k) (kinds cfg) -> dict_find (f_cols df) n =
    if existsb is_number (hour_column csv k n)
    then Some (map (fun b => aggregate k (during b 3600 (f_index csv) (carried (column_or_nan csv n)))) (f_index df))
    else None) by (intros n k HK; eapply SF; eauto). clear SF.
  assert (REQ2 : forall n, In n [aw_T2 cfg; aw_RH2 cfg; aw_U2 cfg; aw_G cfg; aw_PRES cfg] ->
    existsb is_number (hour_column csv Mean n) = true /\ dict_get (f_cols df) n = Ok (map (hourly_mean csv n) (f_index df))).
  { intros n HN. pose proof (REQ n HN) as R1.
    assert (HK : In (n, Mean) (kinds cfg)) by (unfold kinds; cbn in *; intuition congruence).
    pose proof (SFN n Mean HK) as E. unfold dict_get.
    destruct (existsb is_number (hour_column csv Mean n)); [|congruence]. split; auto. rewrite E. f_equal.
    apply map_ext. intros b. apply mean_mean_of. }
  assert (LWN2 : existsb is_number (hour_column csv Mean (aw_LWin cfg)) = true \/ existsb is_number (hour_column csv Mean (aw_N cfg)) = true).
  { destruct LWN as [X|X]; [left|right];
    [rewrite (SFN _ Mean) in X by (unfold kinds; cbn; tauto)|rewrite (SFN _ Mean) in X by (unfold kinds; cbn; tauto)];
    destruct (existsb is_number _); congruence. }
  rewrite (proj2 (REQ2 (aw_T2 cfg) ltac:(cbn; tauto))) in H. cbn [bind] in H.
  rewrite (proj2 (REQ2 (aw_RH2 cfg) ltac:(cbn; tauto))) in H. cbn [bind] in H.
  rewrite (proj2 (REQ2 (aw_U2 cfg) ltac:(cbn; tauto))) in H. cbn [bind] in H.
  rewrite (proj2 (REQ2 (aw_G cfg) ltac:(cbn; tauto))) in H. cbn [bind] in H.
  rewrite (proj2 (REQ2 (aw_PRES cfg) ltac:(cbn; tauto))) in H. cbn [bind] in H.
  apply bind_ok in H as ([] & HT & H). rewrite !map_map in HT.
  apply bind_ok in H as ([[aspect slope] mask] & HP & H).
  apply bind_ok in H as (vars1 & HV1 & H).
  apply bind_ok in H as (vars2 & HV2 & H).
  apply bind_ok in H as ([] & HNAN & H).
  apply bind_ok in H as (warn & HW & H). injection H as H1 H2. subst f w. cbn [nf_time nf_lat nf_lon nf_vars].
  split; [exact RC|]. split; [exact HI|]. split; [intros n HN; apply REQ2; exact HN|]. split; [exact LWN2|]. split; [exact HT|].
  split.
  { intros n v HIn x HX. unfold check_for_nan_point in HNAN.
    destruct (existsb _ vars2) eqn:EX; [discriminate|]. rewrite existsb_false_iff in EX. specialize (EX _ HIn). cbn [snd] in EX.
    rewrite has_none_false in EX. apply EX; auto. }
  exists vars0, aspect, slope, mask. split; [exact HC|]. split; [exact HP|].
  assert (V1 := fun ND => add_variables_find _ _ _ _ ND HV1). clear HV1. specialize (V1 ltac:(cbn; repeat constructor; cbn; intuition discriminate)).
  assert (V2 := fun ND => add_variables_find _ _ _ _ ND HV2). clear HV2. specialize (V2 ltac:(cbn; repeat constructor; cbn; intuition discriminate)).
  assert (PV : dict_find (point_vars cfg csv (f_index df)) = dict_find
    [("T2"%string, Some (point_series (map (fun v => set_bias (aw_lapse_T cfg) (aw_hgt cfg - aw_stationAlt cfg) false (to_kelvin cfg v)) (map (hourly_mean csv (aw_T2 cfg)) (f_index df)))));
     ("RH2"%string, Some (point_series (map set_relative_humidity_bounds (map (set_bias (aw_lapse_RH cfg) (aw_hgt cfg - aw_stationAlt cfg) false) (map (hourly_mean csv (aw_RH2 cfg)) (f_index df))))));
     ("U2"%string, Some (point_series (map (hourly_mean csv (aw_U2 cfg)) (f_index df))));
     ("G"%string, Some (point_series (map (hourly_mean csv (aw_G cfg)) (f_index df))));
     ("PRES"%string, Some (point_series (map (get_pressure_bias cfg (aw_hgt cfg)) (map (hourly_mean csv (aw_PRES cfg)) (f_index df)))));
     ("RRR"%string, if_column df (aw_RRR cfg) (fun l => point_series (map (set_bias (aw_lapse_RRR cfg) (aw_hgt cfg - aw_stationAlt cfg) true) l)));
     ("SNOWFALL"%string, if_column df (aw_SNOWFALL cfg) (fun l => point_series (map (set_bias (aw_lapse_SNOWFALL cfg) (aw_hgt cfg - aw_stationAlt cfg) true) l)));
     ("LWin"%string, if_column df (aw_LWin cfg) point_series); ("N"%string, if_column df (aw_N cfg) point_series)]).
  { unfold point_vars, if_column. cbv zeta.
    rewrite (SFN (aw_RRR cfg) NanSum) by (unfold kinds; cbn; tauto).
    rewrite (SFN (aw_SNOWFALL cfg) NanSum) by (unfold kinds; cbn; tauto).
    rewrite (SFN (aw_LWin cfg) Mean) by (unfold kinds; cbn; tauto).
    rewrite (SFN (aw_N cfg) Mean) by (unfold kinds; cbn; tauto).
    rewrite !map_map.
    destruct (existsb is_number (hour_column csv NanSum (aw_RRR cfg))), (existsb is_number (hour_column csv NanSum (aw_SNOWFALL cfg))),
      (existsb is_number (hour_column csv Mean (aw_LWin cfg))), (existsb is_number (hour_column csv Mean (aw_N cfg))); cbn [option_map]; rewrite ?map_map; reflexivity. }
  rewrite PV. clear PV.
  split; [pose proof (V1 "HGT"%string) as (u & U1 & U2); exists u; split; [exact U1|]; rewrite <- U2; apply (V2 "HGT"%string)|].
  split; [pose proof (V1 "ASPECT"%string) as (u & U1 & U2); exists u; split; [exact U1|]; rewrite <- U2; apply (V2 "ASPECT"%string)|].
  split; [pose proof (V1 "SLOPE"%string) as (u & U1 & U2); exists u; split; [exact U1|]; rewrite <- U2; apply (V2 "SLOPE"%string)|].
  split; [pose proof (V1 "MASK"%string) as (u & U1 & U2); exists u; split; [exact U1|]; rewrite <- U2; apply (V2 "MASK"%string)|].
  split.
  - intros n HN. specialize (V2 n). rewrite HN in V2. rewrite V2.
    specialize (V1 n). destruct (dict_find _ n) as [[a|]|] eqn:F in V1; auto.
    exfalso. apply find_in in F. apply find_in in HN.
    assert (K1 := in_map fst _ _ F). assert (K2 := in_map fst _ _ HN). cbn in K1, K2.
    repeat (destruct K1 as [K1|K1]; [subst n; repeat (destruct K2 as [K2|K2]; [discriminate|]); exact K2|]). exact K1.
  - intros n a HN. specialize (V2 n). rewrite HN in V2. exact V2.
Qed.
