(** * Conversion of old configuration modules *)
From Verif Require Import ModelPy ModelConstants ModelNode ModelGrid ModelSurface ModelInit
  ModelCore ModelConfig ModelIO ModelMain ModelFiles ModelConvert SpecConfig SpecConvert.
From Verif Require Import LemPy LemDict LemConvert LemFinConfig.
From Coq Require Import Ascii.

(** *** The names of the output *)

(*@ C97 The prefix of the output from its old name: what comes before the last underscore. *)
Lemma prefix_before_underscore_lem :
  forall p t, without "_" t -> output_prefix (p ++ "_" ++ t) = p.
Proof.
  intros p t W. unfold output_prefix. change ("_" ++ t)%string with (String "_" t).
  rewrite (proj2 (has_char_spec _ _) (in_snoc "_" p t)).
  rewrite split_snoc by exact W. rewrite removelast_app by discriminate. cbn [removelast].
  rewrite app_nil_r, concat_split. apply replace_same.
Qed.

(*@ C97 Without any underscore the prefix is what comes before the last point, but with the points in it replaced by underscores; without a point as well the prefix is empty. *)
Lemma prefix_before_point_lem :
  forall p t,
    (without "_" (p ++ "." ++ t) -> without "." t -> output_prefix (p ++ "." ++ t) = replace_char "." "_" p) /\
    (without "_" p -> without "." p -> output_prefix p = ""%string).
Proof.
  intros p t. split.
  - intros W1 W2. unfold output_prefix. change ("." ++ t)%string with (String "." t) in *.
    destruct (has_char "_" (p ++ String "." t)) eqn:H; [apply has_char_spec in H; contradiction|].
    rewrite split_snoc by exact W2. rewrite removelast_app by discriminate. cbn [removelast].
    rewrite app_nil_r. apply concat_split.
  - intros W1 W2. unfold output_prefix.
    destruct (has_char "_" p) eqn:H; [apply has_char_spec in H; contradiction|].
    rewrite split_without by exact W2. reflexivity.
Qed.

(*@ex C97 A name with a date, a name without one, of which a part is lost, and a name with points. *)
Lemma prefix_examples_lem :
  output_prefix "Zhadang_ERA5_20090101-20090110.nc" = "Zhadang_ERA5"%string /\
  output_prefix "my_run.nc" = "my"%string /\
  output_prefix "run.v2.nc" = "run_v2"%string.
Proof. repeat split. Qed.

(** *** constants.py *)

Lemma last_mapped (g : string -> value) l t k : entries t = map (fun a => (a, g a)) l ->
  last_setting t k = if existsb (String.eqb k) l then Some (g k) else None.
Proof.
  intro E. unfold last_setting. rewrite E, <- map_rev, find_mapped.
  destruct (existsb (String.eqb k) l) eqn:X.
  - apply existsb_in in X. rewrite (proj2 (existsb_in k _)); [reflexivity|]. apply in_rev in X. exact X.
  - destruct (existsb (String.eqb k) (rev l)) eqn:Y; [|reflexivity].
    apply existsb_in in Y. apply in_rev in Y. apply existsb_in in Y. congruence.
Qed.

Lemma constants_attributes module config coupled attrs :
  dict_find config "WRF_X_CSPY"%string = Some coupled ->
  exists attrs', constants_load config (get_constants_params module) attrs = Ok attrs' /\
  forall k, dict_find attrs' k =
    if existsb (String.eqb k) (flat_map snd constants_keys)
    then Some (if (truthy coupled && String.eqb k "albedo_method")%bool then VStr "Oerlemans98"
               else if (truthy coupled && String.eqb k "stability_correction")%bool then VStr "MO"
               else converted module k)
    else dict_find attrs k.
Proof.
  intro C. unfold constants_load, constants_correct, attr_get. rewrite C. cbn [bind].
  rewrite constants_plain. destruct (truthy coupled).
  - eexists. split; [lazy -[converted set_config_values]; reflexivity|].
    intro k. rewrite last_setting_wins_lem.
    rewrite (last_mapped
      (fun k => if String.eqb k "albedo_method" then VStr "Oerlemans98"
                else if String.eqb k "stability_correction" then VStr "MO" else converted module k)
      (flat_map snd constants_keys)) by reflexivity.
    cbn [andb]. destruct (existsb _ _); reflexivity.
  - eexists. split; [reflexivity|]. intro k. rewrite last_setting_wins_lem.
    rewrite (last_mapped (converted module) (flat_map snd constants_keys)) by apply entries_plain.
    cbn [andb]. destruct (existsb _ _); reflexivity.
Qed.

(*@ C97 The constants: converting an old module and loading the result always works; every constant that the program has a name for gets the value of the old module, or 0 if the old module had none; the albedo and the stability scheme are replaced in the coupled mode only; no other attribute changes. *)
Lemma constants_converted_lem :
  forall module config coupled attrs,
    dict_find config "WRF_X_CSPY"%string = Some coupled ->
    exists attrs', constants_load config (get_constants_params module) attrs = Ok attrs' /\
    (forall h k v, entry shipped_constants h k = Some v ->
       dict_find attrs' k =
         Some (if (truthy coupled && String.eqb k "albedo_method")%bool then VStr "Oerlemans98"
               else if (truthy coupled && String.eqb k "stability_correction")%bool then VStr "MO"
               else new_value module k)) /\
    (forall k, (forall h, entry shipped_constants h k = None) -> dict_find attrs' k = dict_find attrs k).
Proof.
  intros module config coupled attrs C.
  destruct (constants_attributes module config coupled attrs C) as (attrs' & L & F).
  exists attrs'. split; [exact L|].
  assert (K : map fst (entries shipped_constants) = flat_map snd constants_keys) by reflexivity.
  split.
  - intros h k v E. rewrite F, <- converted_new. rewrite (proj2 (existsb_in k _)); [reflexivity|]. rewrite <- K.
    unfold entry in E. destruct (dict_find shipped_constants h) as [d|] eqn:D; [|discriminate].
    apply find_in in D. apply find_key in E. unfold entries. apply in_map_iff in E. destruct E as ([k' w] & <- & I).
    apply in_map_iff. exists (k', w). split; [reflexivity|]. apply in_flat_map. exists (h, d). auto.
  - intros k N. rewrite F. destruct (existsb _ _) eqn:X; [|reflexivity]. exfalso.
    apply existsb_in in X. rewrite <- K in X. apply in_map_iff in X. destruct X as ([k' w] & E & I). cbn in E. subst k'.
    unfold entries in I. apply in_flat_map in I. destruct I as ([h d] & I1 & I2). cbn in I2.
    assert (D : dict_find shipped_constants h = Some d) by (apply in_find; [apply nodupb_spec; reflexivity|exact I1]).
    specialize (N h). unfold entry in N. rewrite D in N. apply find_none in N. apply N.
    apply in_map_iff. exists (k, w). auto.
Qed.

Lemma bind_mono {A B} (m m' : res A) (k k' : A -> res B) c :
  (forall x, m = Ok x -> m' = Ok x) -> (forall x, k x = Ok c -> k' x = Ok c) ->
  bind m k = Ok c -> bind m' k' = Ok c.
Proof.
  intros M K H. destruct m as [x|]; [|discriminate]. cbn [bind] in H. rewrite (M x eq_refl). exact (K x H).
Qed.

(*@ C97 Hence, outside of the coupled mode, a run with the converted constants uses the same constants as before. *)
Lemma constants_preserved_lem :
  forall module config coupled attrs attrs' c,
    dict_find config "WRF_X_CSPY"%string = Some coupled -> truthy coupled = false ->
    constants_load config (get_constants_params module) attrs = Ok attrs' ->
    consts_of module = Ok c -> consts_of attrs' = Ok c.
Proof.
  intros module config coupled attrs attrs' c C T L H.
  destruct (constants_attributes module config coupled attrs C) as (a & La & F).
  rewrite L in La. injection La as <-. rewrite T in F. cbn [andb] in F.
  assert (K : forall k v, existsb (String.eqb k) (flat_map snd constants_keys) = true ->
    attr_get module k = Ok v -> v <> VNone -> attr_get attrs' k = Ok v).
  { intros k v I E N. unfold attr_get in *. rewrite F, I. unfold converted, wrapped.
    destruct (dict_find module k) as [w|]; [|discriminate]. injection E as ->. destruct v; congruence. }
  assert (Kn : forall k r, existsb (String.eqb k) (flat_map snd constants_keys) = true ->
    attr_number module k = Ok r -> attr_number attrs' k = Ok r).
  { intros k r I E. unfold attr_number in *. destruct (attr_get module k) as [v|] eqn:G; [|discriminate].
    cbn [bind] in E. rewrite (K k v I G); [exact E|]. intros ->. discriminate. }
  assert (Ki : forall k r, existsb (String.eqb k) (flat_map snd constants_keys) = true ->
    attr_int module k = Ok r -> attr_int attrs' k = Ok r).
  { intros k r I E. unfold attr_int in *. destruct (attr_get module k) as [v|] eqn:G; [|discriminate].
    cbn [bind] in E. rewrite (K k v I G); [exact E|]. intros ->. discriminate. }
  assert (Kt : forall k r, existsb (String.eqb k) (flat_map snd constants_keys) = true ->
    attr_text module k = Ok r -> attr_text attrs' k = Ok r).
  { intros k r I E. unfold attr_text in *. destruct (attr_get module k) as [v|] eqn:G; [|discriminate].
    cbn [bind] in E. rewrite (K k v I G); [exact E|]. intros ->. discriminate. }
  clear L C F K T. revert H. unfold consts_of.
  repeat (apply bind_mono;
    [intro; first [apply Kn | apply Ki | apply Kt]; reflexivity | intro]).
  exact (fun H => H).
Qed.

(** *** config.py *)

Definition config_names : list string :=
  flat_map snd config_keys ++ ["output_atm"; "output_internal"; "output_full"]%string.

Definition config_value (module variables : dict value) (name : string) (k : string) : value :=
  let var n := match dict_find variables n with Some v => v | None => VNone end in
  if String.eqb k "output_prefix" then VStr (output_prefix name)
  else if String.eqb k "output_atm" then var "atm"%string
  else if String.eqb k "output_internal" then var "internal"%string
  else if String.eqb k "output_full" then var "full"%string
  else if (truthy (converted module "WRF") && String.eqb k "northing")%bool then VStr "south_north"
  else if (truthy (converted module "WRF") && String.eqb k "easting")%bool then VStr "west_east"
  else if (truthy (converted module "WRF_X_CSPY") && String.eqb k "full_field")%bool then VBool true
  else if (equals_zero (converted module "workers") && String.eqb k "workers")%bool then VNone
  else converted module k.

Lemma config_attributes module variables name atm internal full attrs :
  dict_find module "output_netcdf"%string = Some (VStr name) ->
  dict_find variables "atm"%string = Some atm -> dict_find variables "internal"%string = Some internal ->
  dict_find variables "full"%string = Some full ->
  exists t attrs', get_config_params module variables = Ok t /\ config_load t attrs = Ok attrs' /\
  forall k, dict_find attrs' k =
    if existsb (String.eqb k) config_names then Some (config_value module variables name k) else dict_find attrs k.
Proof.
  intros Hn Ha Hi Hf. unfold get_config_params, get_output_params, attr_get. rewrite Hn. cbn [bind].
  rewrite config_plain. unfold dict_get. rewrite Ha, Hi, Hf. cbn [bind].
  unfold config_value. rewrite Ha, Hi, Hf. unfold plain. generalize (converted module). intro g.
  generalize (VStr (output_prefix name)). intro prefix.
  match goal with |- exists t attrs', ?m = Ok t /\ _ =>
    let m' := eval lazy in m in change m with m'; match m' with Ok ?t' => exists t' end end.
  assert (Cfg : forall t t', config_correct t = Ok t' -> config_load t attrs = Ok (set_config_values t' attrs)).
  { intros t t' E. unfold config_load. rewrite E. reflexivity. }
  match goal with |- exists attrs', _ /\ config_load ?t attrs = _ /\ _ =>
    assert (exists t', config_correct t = Ok t' /\ entries t' = map (fun a => (a,
      if String.eqb a "output_prefix" then prefix
      else if String.eqb a "output_atm" then atm
      else if String.eqb a "output_internal" then internal
      else if String.eqb a "output_full" then full
      else if (truthy (g "WRF"%string) && String.eqb a "northing")%bool then VStr "south_north"
      else if (truthy (g "WRF"%string) && String.eqb a "easting")%bool then VStr "west_east"
      else if (truthy (g "WRF_X_CSPY"%string) && String.eqb a "full_field")%bool then VBool true
      else if (equals_zero (g "workers"%string) && String.eqb a "workers")%bool then VNone
      else g a)) config_names) end.
  { lazy -[truthy equals_zero entries map config_names].
    destruct (truthy (g "WRF"%string)); lazy -[truthy equals_zero entries map config_names];
    destruct (truthy (g "WRF_X_CSPY"%string)); lazy -[truthy equals_zero entries map config_names];
    destruct (equals_zero (g "workers"%string)); (eexists; split; [reflexivity|reflexivity]). }
  destruct H as (t' & E & En). eexists. split; [reflexivity|]. split; [apply Cfg, E|].
  intro k. rewrite last_setting_wins_lem, (last_mapped _ _ _ k En). destruct (existsb _ _); reflexivity.
Qed.

(*@ C97 The configuration: if the old module names its output and the file of the output variables has its three lists, conversion and loading work.  Every setting of the program gets the value of the old module, or 0 if the old module had none, except for the prefix and the lists of the output, the names of the dimensions with WRF, the full fields in the coupled mode and zero workers; no other attribute changes. *)
Lemma config_converted_lem :
  forall module variables name atm internal full attrs,
    dict_find module "output_netcdf"%string = Some (VStr name) ->
    dict_find variables "atm"%string = Some atm -> dict_find variables "internal"%string = Some internal ->
    dict_find variables "full"%string = Some full ->
    exists t attrs', get_config_params module variables = Ok t /\ config_load t attrs = Ok attrs' /\
    (forall h k v, entry shipped_config h k = Some v ->
       dict_find attrs' k = Some
         (if String.eqb k "output_prefix" then VStr (output_prefix name)
          else if String.eqb k "output_atm" then atm
          else if String.eqb k "output_internal" then internal
          else if String.eqb k "output_full" then full
          else if (old_switch module "WRF" && String.eqb k "northing")%bool then VStr "south_north"
          else if (old_switch module "WRF" && String.eqb k "easting")%bool then VStr "west_east"
          else if (old_switch module "WRF_X_CSPY" && String.eqb k "full_field")%bool then VBool true
          else if (equals_zero (new_value module "workers") && String.eqb k "workers")%bool then VNone
          else new_value module k)) /\
    (forall k, (forall h, entry shipped_config h k = None) -> dict_find attrs' k = dict_find attrs k).
Proof.
  intros module variables name atm internal full attrs Hn Ha Hi Hf.
  destruct (config_attributes module variables name atm internal full attrs Hn Ha Hi Hf) as (t & attrs' & G & L & F).
  exists t, attrs'. split; [exact G|]. split; [exact L|].
  assert (K : map fst (entries shipped_config) = config_names) by reflexivity.
  split.
  - intros h k v E. rewrite F. rewrite (proj2 (existsb_in k _)).
    + unfold config_value, old_switch. rewrite Ha, Hi, Hf, <- !converted_new. reflexivity.
    + rewrite <- K. unfold entry in E. destruct (dict_find shipped_config h) as [d|] eqn:D; [|discriminate].
      apply find_in in D. apply find_key in E. unfold entries. apply in_map_iff in E. destruct E as ([k' w] & <- & I).
      apply in_map_iff. exists (k', w). split; [reflexivity|]. apply in_flat_map. exists (h, d). auto.
  - intros k N. rewrite F. destruct (existsb _ _) eqn:X; [|reflexivity]. exfalso.
    apply existsb_in in X. rewrite <- K in X. apply in_map_iff in X. destruct X as ([k' w] & E & I). cbn in E. subst k'.
    unfold entries in I. apply in_flat_map in I. destruct I as ([h d] & I1 & I2). cbn in I2.
    assert (D : dict_find shipped_config h = Some d) by (apply in_find; [apply nodupb_spec; reflexivity|exact I1]).
    specialize (N h). unfold entry in N. rewrite D in N. apply find_none in N. apply N.
    apply in_map_iff. exists (k, w). auto.
Qed.

(*@ C97 The conversion fails in the other cases: without a name of the output with an AttributeError, without one of the lists with a KeyError. *)
Lemma config_conversion_fails_lem :
  forall module variables,
    (dict_find module "output_netcdf"%string = None -> get_config_params module variables = Err AttributeError) /\
    (forall name, dict_find module "output_netcdf"%string = Some (VStr name) ->
       (exists n, In n ["atm"; "internal"; "full"]%string /\ dict_find variables n = None) ->
       get_config_params module variables = Err KeyError).
Proof.
  intros module variables. unfold get_config_params, attr_get. rewrite config_plain. split.
  - intros ->. reflexivity.
  - intros name -> (n & I & E). cbn [bind].
    destruct (set2_ok (plain module config_keys) "FILENAMES" "output_prefix" (VStr (output_prefix name))) as [t' ->].
    { discriminate. }
    cbn [bind]. unfold get_output_params, dict_get.
    destruct I as [<-|[<-|[<-|[]]]]; rewrite E; try reflexivity.
    + destruct (dict_find variables "atm"%string); reflexivity.
    + destruct (dict_find variables "atm"%string); [|reflexivity].
      destruct (dict_find variables "internal"%string); reflexivity.
Qed.

(*@ C97 Hence, without WRF and outside of the coupled mode, the converted configuration describes the same run as the old settings under their new names. *)
Lemma config_preserved_lem :
  forall module variables name atm internal full attrs t attrs' cfg,
    dict_find module "output_netcdf"%string = Some (VStr name) ->
    dict_find variables "atm"%string = Some atm -> dict_find variables "internal"%string = Some internal ->
    dict_find variables "full"%string = Some full ->
    old_switch module "WRF" = false -> old_switch module "WRF_X_CSPY" = false ->
    get_config_params module variables = Ok t -> config_load t attrs = Ok attrs' ->
    run_config_of (under_new_names module variables (output_prefix name)) = Ok cfg ->
    rc_time_start cfg <> VNone -> rc_time_end cfg <> VNone ->
    run_config_of attrs' = Ok cfg.
Proof.
  intros module variables name atm internal full attrs t attrs' cfg Hn Ha Hi Hf Hw Hc G L H Ns Ne.
  destruct (config_attributes module variables name atm internal full attrs Hn Ha Hi Hf) as (t2 & a2 & G2 & L2 & F).
  rewrite G in G2. injection G2 as <-. rewrite L in L2. injection L2 as <-.
  unfold old_switch in Hw, Hc. rewrite <- converted_new in Hw, Hc.
  unfold config_value in F. rewrite Ha, Hi, Hf, Hw, Hc in F. cbn [andb] in F.
  set (view := under_new_names module variables (output_prefix name)) in *.
  assert (V : forall k, dict_find view k =
     if String.eqb k "output_prefix" then Some (VStr (output_prefix name))
     else if String.eqb k "output_atm" then Some atm
     else if String.eqb k "output_internal" then Some internal
     else if String.eqb k "output_full" then Some full else dict_find module k).
  { intro k. unfold view, under_new_names. cbn [flat_map snd fst]. rewrite Ha, Hi, Hf. cbn [app dict_find].
    rewrite !(String.eqb_sym _ k). reflexivity. }
  assert (K : forall k v, existsb (String.eqb k) config_names = true -> String.eqb k "workers" = false ->
    attr_get view k = Ok v -> v <> VNone -> attr_get attrs' k = Ok v).
  { intros k v I W E N. unfold attr_get in *. rewrite F, I. rewrite V in E. rewrite W, Bool.andb_false_r.
    destruct (String.eqb k "output_prefix"); [exact E|]. destruct (String.eqb k "output_atm"); [exact E|].
    destruct (String.eqb k "output_internal"); [exact E|]. destruct (String.eqb k "output_full"); [exact E|].
    unfold converted, wrapped. destruct (dict_find module k) as [w|]; [|discriminate]. injection E as ->.
    destruct v; congruence. }
  assert (Kf : forall k b, existsb (String.eqb k) config_names = true -> String.eqb k "workers" = false ->
    String.eqb k "output_prefix" = false -> String.eqb k "output_atm" = false ->
    String.eqb k "output_internal" = false -> String.eqb k "output_full" = false ->
    attr_flag view k = Ok b -> attr_flag attrs' k = Ok b).
  { intros k b I W N1 N2 N3 N4 E. unfold attr_flag, attr_get in *. rewrite F, I. rewrite V in E.
    rewrite W, Bool.andb_false_r. rewrite N1, N2, N3, N4 in *. unfold converted, wrapped.
    destruct (dict_find module k) as [w|]; [|discriminate]. cbn [bind] in E |- *. rewrite <- E. destruct w; reflexivity. }
  assert (Ki : forall k r, existsb (String.eqb k) config_names = true -> String.eqb k "workers" = false ->
    attr_int view k = Ok r -> attr_int attrs' k = Ok r).
  { intros k r I W E. unfold attr_int in *. destruct (attr_get view k) as [v|] eqn:Gk; [|discriminate].
    cbn [bind] in E. rewrite (K k v I W Gk); [exact E|]. intros ->. discriminate. }
  assert (Kt : forall k r, existsb (String.eqb k) config_names = true -> String.eqb k "workers" = false ->
    attr_text view k = Ok r -> attr_text attrs' k = Ok r).
  { intros k r I W E. unfold attr_text in *. destruct (attr_get view k) as [v|] eqn:Gk; [|discriminate].
    cbn [bind] in E. rewrite (K k v I W Gk); [exact E|]. intros ->. discriminate. }
  clearbody view. clear F V G L Ha Hi Hf Hw Hc Hn.
  assert (Ks : attr_get view "time_start" = Ok (rc_time_start cfg) /\ attr_get view "time_end" = Ok (rc_time_end cfg)).
  { clear K Kf Ki Kt. unfold run_config_of in H.
    repeat match type of H with bind ?m _ = Ok cfg =>
      let E := fresh "E" in destruct m eqn:E; [|discriminate H]; cbn [bind] in H end.
    injection H as <-. cbn [rc_time_start rc_time_end]. split; congruence. }
  destruct Ks as [Ks Ke].
  assert (Ms : forall x, attr_get view "time_start" = Ok x -> attr_get attrs' "time_start" = Ok x).
  { intros x E. rewrite Ks in E. injection E as <-. apply K; [reflexivity|reflexivity|exact Ks|exact Ns]. }
  assert (Me : forall x, attr_get view "time_end" = Ok x -> attr_get attrs' "time_end" = Ok x).
  { intros x E. rewrite Ke in E. injection E as <-. apply K; [reflexivity|reflexivity|exact Ke|exact Ne]. }
  clear K Ks Ke Ns Ne. revert H. unfold run_config_of.
  repeat (apply bind_mono;
    [first [exact Ms | exact Me | intro; first [apply Ki | apply Kt | apply Kf]; reflexivity] | intro]).
  exact (fun H => H).
Qed.

(** *** The utilities *)

(*@ C50,C97 The configuration of a utility: the section of its name in the file, whatever else is in the file; without such a section the one of an earlier load of the same process, or else an AttributeError. *)
Lemma utility_section_lem :
  forall (T : Type) (t attrs : dict T) name,
    NoDup (map fst t) ->
    utility_config t attrs name =
      match dict_find t name with
      | Some s => Ok s
      | None => match dict_find attrs name with Some s => Ok s | None => Err AttributeError end
      end.
Proof.
  intros T t attrs name N. unfold utility_config, utilities_load, attr_get.
  change (fold_left (fun a ht => dict_set a (fst ht) (snd ht)) t attrs) with (dict_union attrs t).
  rewrite find_union. rewrite find_last_rev.
  assert (R : dict_find (rev t) name = dict_find t name).
  { destruct (dict_find t name) as [s|] eqn:E.
    - apply in_find; [rewrite map_rev; apply NoDup_rev, N|]. apply in_rev. rewrite rev_involutive. apply find_in, E.
    - apply find_none. apply find_none in E. intro I. apply E. rewrite map_rev in I. apply in_rev in I. exact I. }
  rewrite R. destruct (dict_find t name); reflexivity.
Qed.

(*@ C97 The converted configuration of aws2cosipy has the settings of the old module, or 0, for these names and no others; the path of the look-up table is not among them, so that the conversion with the corrected radiation stops with a KeyError when it comes to that path. *)
Lemma aws_converted_lem :
  forall aws wrf, exists t,
    utility_config (get_utilities_params aws wrf) [] "aws2cosipy" = Ok t /\
    (forall h k, entry t h k =
       if existsb (fun hk => (String.eqb h (fst hk) && String.eqb k (snd hk))%bool)
         [("names", "PRES_var"); ("names", "T2_var"); ("names", "in_K"); ("names", "RH2_var"); ("names", "G_var");
          ("names", "RRR_var"); ("names", "U2_var"); ("names", "LWin_var"); ("names", "SNOWFALL_var"); ("names", "N_var");
          ("coords", "WRF"); ("coords", "aggregate"); ("coords", "aggregation_step"); ("coords", "delimiter");
          ("radiation", "radiationModule"); ("radiation", "LUT"); ("radiation", "dtstep"); ("radiation", "tcart");
          ("radiation", "timezone_lon"); ("radiation", "zeni_thld");
          ("points", "point_model"); ("points", "plon"); ("points", "plat"); ("points", "hgt");
          ("station", "stationName"); ("station", "stationAlt"); ("station", "stationLat");
          ("lapse", "lapse_T"); ("lapse", "lapse_RH"); ("lapse", "lapse_RRR"); ("lapse", "lapse_SNOWFALL")]%string
       then Some (new_value aws k) else None) /\
    get2 t "radiation" "LUT_path" = Err KeyError.
Proof.
  intros aws wrf. exists (get_aws2cosipy_params aws). split; [reflexivity|]. rewrite aws_plain. split; [|reflexivity].
  intros h k. rewrite entry_plain by (apply nodupb_spec; reflexivity). rewrite <- converted_new.
  unfold aws2cosipy_keys. cbn [dict_find existsb fst snd].
  rewrite !(String.eqb_sym h).
  repeat match goal with |- context [String.eqb ?n h] =>
    destruct (String.eqb_spec n h) as [<-|?]; cbn [andb orb existsb]; [match goal with |- context [String.eqb _ _] => idtac end|] end.
  all: cbn [String.eqb Ascii.eqb Bool.eqb andb orb]; rewrite ?Bool.orb_false_r; reflexivity.
Qed.

(*@ C97 The converted sections of wrf2cosipy and create_static: the two constants of the old module, or 0; and empty paths, tiling and averaging switched on and zeros elsewhere, whatever was configured before. *)
Lemma other_utilities_converted_lem :
  forall aws wrf,
    utility_config (get_utilities_params aws wrf) [] "wrf2cosipy" =
      Ok [("constants", [("hu", new_value wrf "hu"); ("lu_class", new_value wrf "lu_class")])]%string /\
    utility_config (get_utilities_params aws wrf) [] "create_static" =
      Ok [("paths", [("static_folder", VStr ""); ("dem_path", VStr ""); ("shape_path", VStr ""); ("output_file", VStr "")]);
          ("coords", [("tile", VBool true); ("aggregate", VBool true); ("aggregate_degree", VFloat 0);
             ("longitude_upper_left", VFloat 0); ("latitude_upper_left", VFloat 0);
             ("longitude_lower_right", VFloat 0); ("latitude_lower_right", VFloat 0)])]%string.
Proof.
  intros aws wrf. split; [|reflexivity]. rewrite <- !converted_new. reflexivity.
Qed.

(*@ex C97 The shipped files, seen as old modules, survive the conversion. *)
Lemma shipped_survive_conversion_lem :
  let module := ("output_netcdf", VStr "Zhadang_ERA5_20090101-20090110.nc")%string :: entries shipped_config in
  let variables := [("atm", VStr "T2"); ("internal", VStr "MB"); ("full", VStr "T")]%string in
  exists t attrs attrs' cfg,
    get_config_params module variables = Ok t /\ config_load t [] = Ok attrs /\ run_config_of attrs = Ok cfg /\
    rc_output_prefix cfg = "Zhadang_ERA5"%string /\
    constants_load attrs (get_constants_params (entries shipped_constants)) [] = Ok attrs' /\
    consts_of attrs' = Ok default_constants.
Proof.
  intros module variables.
  destruct (config_attributes module variables "Zhadang_ERA5_20090101-20090110.nc" (VStr "T2") (VStr "MB") (VStr "T") []
    eq_refl eq_refl eq_refl eq_refl) as (t & attrs & G & L & F).
  exists t, attrs.
  assert (C : dict_find attrs "WRF_X_CSPY"%string = Some (VBool false)).
  { rewrite F. reflexivity. }
  destruct (constants_attributes (entries shipped_constants) attrs (VBool false) [] C) as (attrs' & L' & _).
  exists attrs'.
  assert (P : run_config_of (under_new_names module variables "Zhadang_ERA5") =
    Ok (mkRunConfig "T2" "MB" "T" false false false "lat" "lon" false 20 40 20 40 false "rmse" "snowheight"
      (VStr "2009-01-01T06:00") (VStr "2009-01-10T00:00") "Zhadang_ERA5")) by reflexivity.
  eexists. split; [exact G|]. split; [exact L|]. split.
  { refine (config_preserved_lem module variables "Zhadang_ERA5_20090101-20090110.nc" (VStr "T2") (VStr "MB") (VStr "T") [] t attrs _
      eq_refl eq_refl eq_refl eq_refl eq_refl eq_refl G L P _ _); discriminate. }
  split; [reflexivity|]. split; [exact L'|].
  refine (constants_preserved_lem _ _ _ _ _ _ C eq_refl L' _). reflexivity.
Qed.
