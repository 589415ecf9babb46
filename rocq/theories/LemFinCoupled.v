(** * Coupled runs *)
From Verif Require Import ModelPy ModelConstants ModelNode ModelGrid ModelSurface ModelInit
  ModelCore ModelConfig ModelIO ModelMain ModelFiles ModelCoupled Spec SpecCore SpecInit SpecConfig SpecCalm SpecCoupled.
From Verif Require Import LemPy LemDict LemGridBase LemGridOps LemGridMore LemCore LemFinInit LemFinConfig LemFinRun LemFinCell2.

Definition coupled_list (o : Output) (vh vd vt vw vf : list number) : list pyval :=
  [PNone; PNone; PNone; PNone; PNone; PNone; one (o_LWout o); one (o_H o); one (o_LE o);
      one (o_B o); one (o_QRR o); one (o_MB o); one (o_surfMB o); one (o_Q o); one (o_SNOWHEIGHT o);
      one (o_TOTALHEIGHT o); one (o_TS o); one (o_ALBEDO o); one (IZR (o_NLAYERS o)); one (o_ME o);
      one (o_intMB o); one (o_EVAPORATION o); one (o_SUBLIMATION o); one (o_CONDENSATION o);
      one (o_DEPOSITION o); one (o_REFREEZE o); one (o_subM o); one (o_Z0 o); one (o_surfM o);
      one (o_new_snow_height o); one (o_new_snow_timestamp o); one (o_old_snow_timestamp o);
      PBlock (Series [o_MOL o]); PBlock (Series vh); PBlock (Series vd); PBlock (Series vt);
      PBlock (Series vw); PNone; PNone; PBlock (Series vf); PNone; PNone; PNone; PNone; PNone].

Lemma coupled_return_ok c m g o : counted g -> (g_number_nodes g <= m)%Z ->
  coupled_return c m g o =
  Ok (coupled_list o (pad m (map n_height (g_nodes g))) (pad m (map (layer_density c) (g_nodes g)))
        (pad m (map n_temperature (g_nodes g))) (pad m (map n_lwc (g_nodes g))) (pad m (map n_ice (g_nodes g)))).
Proof.
  intros Hn Hm. set (l := g_nodes g).
  assert (Hm' : (Z.of_nat (length l) <= m)%Z) by (unfold counted in Hn; fold l in Hn; lia).
  assert (F : forall f : Node -> R, fill_nan m (map f l) = Ok (pad m (map f l))).
  { intros f. rewrite fill_ok by (rewrite map_length; exact Hm'). reflexivity. }
  unfold coupled_return. rewrite get_height_counted by exact Hn. fold l. cbn [bind]. rewrite F. cbn [bind].
  rewrite get_density_counted by exact Hn. fold l. cbn [bind]. rewrite F. cbn [bind].
  rewrite get_temperature_counted by exact Hn. fold l. cbn [bind]. rewrite F. cbn [bind].
  unfold get_liquid_water_content. rewrite (get_profile_map n_lwc) by exact Hn. fold l. cbn [bind]. rewrite F. cbn [bind].
  unfold get_ice_fraction. rewrite (get_profile_map n_ice) by exact Hn. fold l. cbn [bind]. rewrite F. cbn [bind].
  reflexivity.
Qed.

(** what a coupled step leaves *)
Lemma coupled_step_facts fuel c sw sv dt m z d inp t s s1 o : sw_WRF_X_CSPY sw = true ->
  core_step fuel c sw sv (dt, m, z) d inp t s = Ok (s1, o) ->
  (g_number_nodes (s_grid s1) <= m)%Z /\ o_NLAYERS o = g_number_nodes (s_grid s1) /\
  o_new_snow_height o = g_new_snow_height (s_grid s1) /\ o_new_snow_timestamp o = g_new_snow_timestamp (s_grid s1) /\
  o_old_snow_timestamp o = g_old_snow_timestamp (s_grid s1) /\ o_TS o = s_surface_temperature s1.
Proof.
  intros W H. apply core_step_inv in H. destruct H.
  cbn [s_grid o_NLAYERS o_new_snow_height o_new_snow_timestamp o_old_snow_timestamp o_TS s_surface_temperature].
  split; [|repeat split].
  match goal with H : (if sw_WRF_X_CSPY sw then _ else _) = Ok _ |- _ => rewrite W in H; apply bind_ok in H as (u & C & _) end.
  unfold check_profiles in C. destruct (Z.ltb_spec m (get_number_layers g10)) as [L|L]; [discriminate|].
  unfold get_number_layers in L. exact L.
Qed.

(** the layers come back *)
Lemma handed_loaded c m g o : counted g -> o_NLAYERS o = g_number_nodes g ->
  exists g', load_snowpack c (handed_back (coupled_list o (pad m (map n_height (g_nodes g))) (pad m (map (layer_density c) (g_nodes g)))
        (pad m (map n_temperature (g_nodes g))) (pad m (map n_lwc (g_nodes g))) (pad m (map n_ice (g_nodes g))))) = Ok g' /\
    g_nodes g' = map (set_layer_refreeze 0) (g_nodes g) /\ g_number_nodes g' = g_number_nodes g /\
    g_new_snow_height g' = o_new_snow_height o /\ g_new_snow_timestamp g' = o_new_snow_timestamp o /\
    g_old_snow_timestamp g' = o_old_snow_timestamp o.
Proof.
  intros Hn HN. set (l := g_nodes g).
  assert (S0 : forall f : Node -> R, map_res (fun x : number => match x with Some r => Ok r | None => Err NotReal end)
     (firstn (Z.to_nat (Z.of_nat (length l))) (pad m (map f l))) = Ok (map f l)).
  { intros f. rewrite Nat2Z.id. rewrite <- (map_length f l) at 1. apply slice_filled. }
  assert (HN' : o_NLAYERS o = Z.of_nat (length l)) by (rewrite HN; exact Hn).
  eexists. split.
  { unfold load_snowpack, load_snowpack_with, handed_back, coupled_list, returned, one, ds_scalar, ds_slice.
    cbn [ds_get String.eqb Ascii.eqb Bool.eqb bind nth_error]. cbv zeta. rewrite HN', py_int_nat. rewrite !S0. cbn [bind]. reflexivity. }
  unfold new_grid, init_grid. cbn [g_nodes g_number_nodes with_nodes app g_new_snow_height g_new_snow_timestamp g_old_snow_timestamp].
  rewrite rows_back, rows_with_ice_len. split; [reflexivity|]. split; [symmetry; exact Hn|]. repeat split.
Qed.

Lemma same_maps (f : Node -> R) l l' : (forall n n', same_layer n n' -> f n' = f n) -> Forall2 same_layer l l' -> map f l' = map f l.
Proof. intros F. induction 1 as [|n n' l l' S1 _ IH]; [reflexivity|]. cbn [map]. rewrite IH, (F n n' S1). reflexivity. Qed.

Lemma chain fuel c sw sv : c_albedo_method c = "Oerlemans98"%string -> sw_WRF_X_CSPY sw = true ->
  forall data s r g, Forall (fun d => nt d <> 0%nat) data -> load_snowpack c r = Ok g ->
  counted (s_grid s) -> resumes c s (start_state c sw g) ->
  call_by_call fuel c sw sv (Some r) data = kept_in_memory fuel c sw sv s data.
Proof.
  intros OE W. induction data as [|d rest IH]; intros s r g NT LD CT RS; [reflexivity|].
  apply Forall_cons_iff in NT as [N0 NT].
  cbn [call_by_call kept_in_memory]. unfold coupled_call, cosipy_core.
  destruct (run_settings c sw d) as [[[dt m] z]|e]; cbn [bind fst snd]; [|reflexivity].
  rewrite LD. cbn [bind]. destruct (select_inputs c sw d) as [inp|e]; cbn [bind]; [|reflexivity]. rewrite W.
  replace (Nat.min 1 (nt d)) with 1%nat by (destruct (nt d); [contradiction|destruct n; reflexivity]).
  cbn [core_loop].
  assert (H := resumed_step_lem fuel c sw sv (dt, m, z) d inp 0 s _ CT RS).
  destruct (core_step fuel c sw sv (dt, m, z) d inp 0 s) as [[s1 o1]|e1] eqn:E1,
    (core_step fuel c sw sv (dt, m, z) d inp 0 (start_state c sw g)) as [[s2 o2]|e2] eqn:E2; try contradiction; [|subst e2; reflexivity].
  destruct H as (-> & C1 & R1). cbn [bind].
  destruct (coupled_step_facts _ _ _ _ _ _ _ _ _ _ _ _ _ W E1) as (B1 & NL1 & F1 & F2 & F3 & _).
  destruct (coupled_step_facts _ _ _ _ _ _ _ _ _ _ _ _ _ W E2) as (B2 & NL2 & _).
  assert (C2 : counted (s_grid s2)).
  { destruct R1 as (RL & RN & _). unfold counted in *. rewrite RN, C1. f_equal.
    clear -RL. unfold same_layers in RL. induction RL; cbn [length]; congruence. }
  assert (SAME : coupled_return c m (s_grid s2) o1 = coupled_return c m (s_grid s1) o1).
  { rewrite !coupled_return_ok by assumption. destruct R1 as (RL & _). unfold same_layers in RL. f_equal.
    rewrite (same_maps n_height _ _ (fun n n' H => proj1 H) RL).
    rewrite (same_maps n_temperature _ _ (fun n n' H => proj1 (proj2 H)) RL).
    rewrite (same_maps n_lwc _ _ (fun n n' H => proj1 (proj2 (proj2 H))) RL).
    rewrite (same_maps n_ice _ _ (fun n n' H => proj2 (proj2 (proj2 H))) RL).
    rewrite (same_maps (layer_density c) (g_nodes (s_grid s1)) (g_nodes (s_grid s2))); [reflexivity| |exact RL].
    intros n n' (_ & _ & L1 & L2). unfold layer_density, layer_air_porosity. rewrite L1, L2. reflexivity. }
  rewrite SAME. rewrite coupled_return_ok by assumption. cbn [bind].
  destruct (handed_loaded c m (s_grid s1) o1 C1 NL1) as (g' & LD' & G1 & G2 & G3 & G4 & G5).
  rewrite (IH s1 _ g' NT LD' C1); [reflexivity|].
  unfold resumes, start_state. cbn [s_grid]. split; [|split; [exact G2|split; [|left; exact OE]]].
  - unfold same_layers. rewrite G1. clear. induction (g_nodes (s_grid s1)) as [|x l IH]; cbn [map]; constructor; [repeat split|exact IH].
  - unfold same_clock. rewrite G3, G4, G5, F1, F2, F3. auto.
Qed.

(*@ C115 One call after the other, each with the layers and the snow clock that the one before returned, returns exactly what a program would that keeps everything in memory, or stops with the same exception at the same step: nothing is lost between the calls.  This is so with the albedo of Oerlemans and Knap. *)
Lemma coupled_calls_chain_lem :
  forall fuel c sw sv restart g d rest,
  c_albedo_method c = "Oerlemans98"%string -> sw_WRF_X_CSPY sw = true ->
  Forall (fun d => nt d <> 0%nat) (d :: rest) ->
  (match restart with
   | Some r => load_snowpack c r
   | None => T2_0 <- py_get (d_T2 d) 0 ;; init_snowpack c (d_SNOWHEIGHT d) T2_0
   end) = Ok g ->
  call_by_call fuel c sw sv restart (d :: rest) = kept_in_memory fuel c sw sv (start_state c sw g) (d :: rest).
Proof.
  intros fuel c sw sv restart g d rest OE W NT LD.
  assert (CT : counted g).
  { destruct restart as [r|].
    - unfold load_snowpack, load_snowpack_with in LD. repeat (apply bind_ok in LD as (? & _ & LD)). injection LD as <-.
      apply new_grid_counted.
    - apply bind_ok in LD as (T & _ & LD). unfold init_snowpack in LD.
      repeat (apply bind_ok in LD as (? & _ & LD)).
      repeat match type of LD with context [let '(_, _) := ?x in _] => destruct x end.
      injection LD as <-. apply new_grid_counted. }
  destruct restart as [r|].
  { apply (chain fuel c sw sv OE W (d :: rest) (start_state c sw g) r g NT LD CT).
    split; [clear; unfold same_layers, start_state; cbn [s_grid]; induction (g_nodes g); constructor; [repeat split|assumption]|].
    split; [reflexivity|]. split; [repeat split|left; exact OE]. }
  apply Forall_cons_iff in NT as [N0 NT].
  cbn [call_by_call kept_in_memory]. unfold coupled_call, cosipy_core.
  destruct (run_settings c sw d) as [[[dt m] z]|e]; cbn [bind fst snd]; [|reflexivity].
  rewrite LD. cbn [bind]. destruct (select_inputs c sw d) as [inp|e]; cbn [bind]; [|reflexivity]. rewrite W.
  replace (Nat.min 1 (nt d)) with 1%nat by (destruct (nt d); [contradiction|destruct n; reflexivity]).
  cbn [core_loop].
  destruct (core_step fuel c sw sv (dt, m, z) d inp 0 (start_state c sw g)) as [[s1 o1]|e1] eqn:E1; [|reflexivity].
  cbn [bind].
  assert (C1 : counted (s_grid s1)) by (apply (core_step_counted _ _ _ _ _ _ _ _ (start_state c sw g) _ _ CT E1)).
  destruct (coupled_step_facts _ _ _ _ _ _ _ _ _ _ _ _ _ W E1) as (B1 & NL1 & F1 & F2 & F3 & _).
  rewrite coupled_return_ok by assumption. cbn [bind].
  destruct (handed_loaded c m (s_grid s1) o1 C1 NL1) as (g' & LD' & G1 & G2 & G3 & G4 & G5).
  rewrite (chain fuel c sw sv OE W rest s1 _ g' NT LD' C1); [reflexivity|].
  unfold resumes, start_state. cbn [s_grid]. split; [|split; [exact G2|split; [|left; exact OE]]].
  - unfold same_layers. rewrite G1. clear. induction (g_nodes (s_grid s1)) as [|x l IH]; cbn [map]; constructor; [repeat split|exact IH].
  - unfold same_clock. rewrite G3, G4, G5, F1, F2, F3. auto.
Qed.

(*@ C115 A coupled call does exactly one step, the first of its data, with the time step, the number of layers and the height of measurement that are given with the data, not with those of the constants; without these it stops with an AttributeError, and with data without any time it returns nothing. *)
Lemma coupled_one_step_lem :
  forall fuel c sw sv d restart, sw_WRF_X_CSPY sw = true ->
  (d_coupled d = None -> coupled_call fuel c sw sv d restart = Err AttributeError) /\
  (forall r, coupled_call fuel c sw sv d restart = Ok r -> r = None <-> nt d = 0%nat) /\
  (forall ret, coupled_call fuel c sw sv d restart = Ok (Some ret) ->
     exists dt m z g inp s o,
       d_coupled d = Some (dt, m, z) /\
       (match restart with
        | Some r => load_snowpack c r
        | None => T2_0 <- py_get (d_T2 d) 0 ;; init_snowpack c (d_SNOWHEIGHT d) T2_0
        end) = Ok g /\
       select_inputs c sw d = Ok inp /\
       core_step fuel c sw sv (IZR dt, m, z) d inp 0 (mkState g 270 (c_albedo_firn c) 0) = Ok (s, o) /\
       (get_number_layers (s_grid s) <= m)%Z /\
       coupled_return c m (s_grid s) o = Ok ret).
Proof.
  intros fuel c sw sv d restart W. split; [|split].
  - intros N. unfold coupled_call, run_settings. rewrite W, N. reflexivity.
  - intros r H. unfold coupled_call in H. apply bind_ok in H as ([[dt m] z] & E & H).
    apply bind_ok in H as ([[s os] re] & C & H). unfold cosipy_core in C. rewrite E, W in C. cbn [bind] in C.
    apply bind_ok in C as (g & _ & C). apply bind_ok in C as (inp & _ & C). apply bind_ok in C as ([s1 os1] & L & C).
    injection C as <- <- <-. destruct (nt d) as [|k]; cbn [Nat.min core_loop] in L.
    + injection L as <- <-. injection H as <-. tauto.
    + apply bind_ok in L as ([s2 o] & _ & L). replace (Nat.min 0 k) with 0%nat in L by (destruct k; reflexivity). cbn [core_loop bind] in L.
      injection L as <- <-. apply bind_ok in H as (ret & _ & H). injection H as <-. split; discriminate.
  - intros ret H. unfold coupled_call in H. apply bind_ok in H as ([[dt m] z] & E & H).
    apply bind_ok in H as ([[s os] re] & C & H). unfold cosipy_core in C. rewrite E, W in C. cbn [bind] in C.
    apply bind_ok in C as (g & LD & C). apply bind_ok in C as (inp & SI & C). apply bind_ok in C as ([s1 os1] & L & C).
    injection C as <- <- <-. destruct (nt d) as [|k]; cbn [Nat.min core_loop] in L.
    { injection L as <- <-. discriminate. }
    apply bind_ok in L as ([s2 o] & ST & L). replace (Nat.min 0 k) with 0%nat in L by (destruct k; reflexivity). cbn [core_loop bind] in L.
    injection L as <- <-. apply bind_ok in H as (ret' & CR & H). injection H as <-.
    unfold run_settings in E. rewrite W in E. destruct (d_coupled d) as [[[dt' m'] z']|]; [|discriminate].
    assert (EE := f_equal (fun r => match r with Ok v => v | Err _ => (0, 0%Z, 0) end) E). cbn beta iota in EE. clear E. rename EE into E.
    apply pair_equal_spec in E as [E <-]. apply pair_equal_spec in E as [<- <-].
    exists dt', m', z', g, inp, s2, o. split; [reflexivity|]. split; [destruct restart; exact LD|]. split; [exact SI|].
    unfold start_state in ST. rewrite W in ST. split; [exact ST|].
    split; [exact (proj1 (coupled_step_facts _ _ _ _ _ _ _ _ _ _ _ _ _ W ST))|exact CR].
Qed.

(*@ C115 The returned tuple has the places of the tuple of a stand-alone run, with the number of the one step in the place of the series of the same quantity and the layers of the one step in the place of the layers of all steps; the first six places (position, restart data, rain, snowfall, incoming longwave radiation), cold content, porosity, irreducible water, refreezing and the stakes are empty. *)
Lemma coupled_places_lem :
  forall fuel c sw sv dt m z d inp t s s1 o ret p y x restart names stat df,
  sw_WRF_X_CSPY sw = true -> counted (s_grid s1) ->
  core_step fuel c sw sv (dt, m, z) d inp t s = Ok (s1, o) ->
  coupled_return c m (s_grid s1) o = Ok ret ->
  store_profiles c m (s_grid s1) = Ok p ->
  let alone := core_return true m y x restart [with_profiles o p]
    names stat df in
  length ret = length alone /\
  forall i v, nth_error ret i = Some v ->
    (In i empty_places /\ v = PNone) \/
    (~ In i empty_places /\
     exists l, v = PBlock (Series l) /\
     (nth_error alone i = Some (PBlock (Series l)) \/ nth_error alone i = Some (PBlock (Layers [l])))).
Proof.
  intros fuel c sw sv dt m z d inp t s s1 o ret p y x restart names stat df W CT ST CR SP alone.
  destruct (coupled_step_facts _ _ _ _ _ _ _ _ _ _ _ _ _ W ST) as (B1 & _).
  rewrite coupled_return_ok in CR by assumption. injection CR as <-.
  unfold store_profiles in SP. destruct (Z.ltb_spec m (get_number_layers (s_grid s1))) as [L|L]; [discriminate|].
  rewrite get_height_counted in SP by exact CT. cbn [bind] in SP.
  rewrite get_density_counted in SP by exact CT. cbn [bind] in SP.
  rewrite get_temperature_counted in SP by exact CT. cbn [bind] in SP.
  unfold get_liquid_water_content in SP. rewrite (get_profile_map n_lwc) in SP by exact CT. cbn [bind] in SP.
  apply bind_ok in SP as (cc & _ & SP). apply bind_ok in SP as (po & _ & SP).
  unfold get_ice_fraction in SP. rewrite (get_profile_map n_ice) in SP by exact CT. cbn [bind] in SP.
  apply bind_ok in SP as (ir & _ & SP). apply bind_ok in SP as (rf & _ & SP). injection SP as <-.
  split; [reflexivity|]. intros i v H.
  do 45 (destruct i as [|i]; [cbn [nth_error coupled_list] in H; injection H as <-;
    first [left; split; [cbn; tauto|reflexivity]
          |right; split; [cbn; lia|eexists; split; [reflexivity|first [left; reflexivity|right; reflexivity]]]]|]).
  cbn [nth_error coupled_list] in H. destruct i; discriminate H.
Qed.

(*@ C115 The limit on the number of layers: a step that ends with more layers than the limit stops with a ValueError, and otherwise the limit does not matter, in a coupled run as in a stand-alone run that stores the layers. *)
Lemma layer_limit_lem :
  forall fuel c sw sv dt m m' z d inp t s s1 o,
  (sw_WRF_X_CSPY sw = true \/ sw_full_field sw = true) -> counted (s_grid s) ->
  core_step fuel c sw sv (dt, m, z) d inp t s = Ok (s1, o) ->
  core_step fuel c sw sv (dt, m', z) d inp t s =
    if (m' <? Z.of_nat (length (g_nodes (s_grid s1))))%Z then Err ValueError else Ok (s1, o).
Proof.
  intros fuel c sw sv dt m m' z d inp t s s1 o M CT H.
  assert (C1 := core_step_counted _ _ _ _ _ _ _ _ _ _ _ CT H). unfold counted in C1. rewrite <- C1. clear C1 CT.
  unfold core_step in *.
  repeat (let E := fresh "E" in apply bind_ok in H as (? & E & H);
    first [rewrite E|rename E into LAST]; cbn [bind] in H |- *;
    repeat match type of H with context [let '(_, _) := ?x in _] => is_var x; destruct x end).
  injection H as <- <-. cbn [s_grid] in *.
  destruct (sw_WRF_X_CSPY sw); [|destruct M as [M|M]; [discriminate|]; rewrite M in *].
  - apply bind_ok in LAST as (u & LAST & K). injection K as <-. unfold check_profiles in *. unfold get_number_layers in *.
    destruct (Z.ltb_spec m (g_number_nodes x15)); [discriminate|].
    destruct (Z.ltb_spec m' (g_number_nodes x15)); [reflexivity|]. rewrite LAST. reflexivity.
  - apply bind_ok in LAST as (u & LAST & K). injection K as <-. unfold store_profiles in *. unfold get_number_layers in *.
    destruct (Z.ltb_spec m (g_number_nodes x15)); [discriminate|].
    destruct (Z.ltb_spec m' (g_number_nodes x15)); [reflexivity|]. rewrite LAST. reflexivity.
Qed.

(*@ C115 The two parameterisations that a coupled run needs are set when the constants are loaded, whatever the file says (unless a key occurs in two tables): the albedo of Oerlemans and Knap, for which nothing is lost, and the stability correction of Monin and Obukhov. *)
Lemma coupled_schemes_lem :
  forall config t t' attrs attrs' coupled c,
  dict_find config "WRF_X_CSPY"%string = Some coupled -> truthy coupled = true ->
  constants_correct config t = Ok t' -> keys_distinct t' ->
  constants_load config t attrs = Ok attrs' -> consts_of attrs' = Ok c ->
  c_albedo_method c = "Oerlemans98"%string /\ c_stability_correction c = "MO"%string.
Proof.
  intros config t t' attrs attrs' coupled c CF TR CC KD LD CO.
  unfold constants_load in LD. rewrite CC in LD. cbn [bind] in LD. injection LD as <-.
  destruct (proj2 (constants_normalised_lem config t) t' CC) as (_ & cp & CF' & EN).
  rewrite CF in CF'. injection CF' as <-.
  assert (ATTR : forall h k v, entry t' h k = Some v -> dict_find (set_config_values t' attrs) k = Some v).
  { intros h k v I. rewrite last_setting_wins_lem. unfold last_setting.
    assert (G : dict_find (rev (entries t')) k = Some v); [|rewrite G; reflexivity].
    apply in_find. { rewrite map_rev. apply NoDup_rev. exact KD. }
    apply in_rev. rewrite rev_involutive. unfold entry in I.
    destruct (dict_find t' h) as [d|] eqn:Ed; [|discriminate]. apply find_in in Ed, I.
    unfold entries. apply in_flat_map. exists (h, d). split; assumption. }
  assert (A1 : dict_find (set_config_values t' attrs) "albedo_method"%string = Some (VStr "Oerlemans98")).
  { apply (ATTR "PARAMETERIZATIONS"%string). rewrite EN, TR. reflexivity. }
  assert (A2 : dict_find (set_config_values t' attrs) "stability_correction"%string = Some (VStr "MO")).
  { apply (ATTR "PARAMETERIZATIONS"%string). rewrite EN, TR. reflexivity. }
  unfold consts_of in CO.
  repeat (apply bind_ok in CO as (? & ? & CO)). injection CO as <-. cbn [c_albedo_method c_stability_correction].
  split.
  - match goal with H : attr_text _ "albedo_method" = Ok _ |- _ => unfold attr_text, attr_get in H; rewrite A1 in H; cbn in H; injection H as <-; reflexivity end.
  - match goal with H : attr_text _ "stability_correction" = Ok _ |- _ => unfold attr_text, attr_get in H; rewrite A2 in H; cbn in H; injection H as <-; reflexivity end.
Qed.

Lemma fluxes_without_mo c w w' g T0 a B : String.eqb (c_stability_correction c) "MO" = false ->
  eb_fluxes c w g T0 a B = eb_fluxes c w' g T0 a B.
Proof. intros H. unfold eb_fluxes. rewrite H. reflexivity. Qed.

Lemma surface_without_mo c w w' nw (mi : string -> R -> R -> R -> res (number * number)) g a q :
  String.eqb (c_stability_correction c) "MO" = false ->
  (String.eqb (c_sfc_temperature_method c) "L-BFGS-B" || String.eqb (c_sfc_temperature_method c) "SLSQP")%bool = true ->
  update_surface_temperature c w nw (fun m _ => mi m) g a q = update_surface_temperature c w' nw (fun m _ => mi m) g a q.
Proof.
  intros H M. unfold update_surface_temperature. rewrite M.
  destruct (interp_subT c g) as [B|]; cbn [bind]; [|reflexivity].
  destruct (get_node g 0) as [n|]; cbn [bind]; [|reflexivity].
  destruct (mi _ _ _ _) as [[x v]|]; cbn [bind]; [|reflexivity].
  destruct (upd_node _ _ _) as [g'|]; cbn [bind]; [|reflexivity].
  rewrite (fluxes_without_mo c w w' _ _ _ _ H). reflexivity.
Qed.

Lemma step_in_coupled fuel c sw sw' sv dt m z d d' inp t s s' o :
  d_T2 d' = d_T2 d -> d_U2 d' = d_U2 d -> d_G d' = d_G d -> d_RH2 d' = d_RH2 d -> d_PRES d' = d_PRES d ->
  (forall g a q, update_surface_temperature c (sw_WRF_X_CSPY sw') (sv_newton sv) (sv_minimize sv) g a q =
     update_surface_temperature c (sw_WRF_X_CSPY sw) (sv_newton sv) (sv_minimize sv) g a q) ->
  sw_WRF_X_CSPY sw' = true ->
  core_step fuel c sw sv (dt, m, z) d inp t s = Ok (s', o) ->
  (g_number_nodes (s_grid s') <= m)%Z -> counted (s_grid s') ->
  exists o', core_step fuel c sw' sv (dt, m, z) d' inp t s = Ok (s', o') /\
    o_NLAYERS o' = o_NLAYERS o /\ o_TS o' = o_TS o.
Proof.
  intros D1 D2 D3 D4 D5 US W H B CT. unfold core_step in *. rewrite D1, D2, D3, D4, D5.
  repeat (let E := fresh "E" in apply bind_ok in H as (? & E & H);
    first [rewrite E|rewrite US, E|rename E into LAST]; cbn [bind] in H |- *;
    repeat match type of H with context [let '(_, _) := ?x in _] => is_var x; destruct x end).
  injection H as <- <-. cbn [s_grid] in *. rewrite W.
  match goal with |- context [check_profiles c m ?g] =>
    assert (K : check_profiles c m g = Ok tt) end.
  { unfold check_profiles. rewrite (proj2 (Z.ltb_ge _ _)) by exact B.
    rewrite get_height_counted by exact CT. cbn [bind].
    rewrite get_density_counted by exact CT. cbn [bind].
    rewrite get_temperature_counted by exact CT. cbn [bind].
    unfold get_liquid_water_content, get_ice_fraction. rewrite !(get_profile_map) by exact CT. reflexivity. }
  rewrite K. cbn [bind]. eexists. split; [reflexivity|]. split; reflexivity.
Qed.

Lemma step_layers fuel c sw sv dt m z d inp t s s' o :
  core_step fuel c sw sv (dt, m, z) d inp t s = Ok (s', o) -> o_NLAYERS o = g_number_nodes (s_grid s').
Proof.
  intros H. unfold core_step in H.
  repeat (apply bind_ok in H as (? & _ & H);
    repeat match type of H with context [let '(_, _) := ?x in _] => is_var x; destruct x end).
  injection H as <- <-. reflexivity.
Qed.

(*@ex C115 The calm night of the other examples as a coupled call: it returns 45 values, among them the four layers, and its
   data come with the time step, the number of layers and the height of measurement. *)
Lemma coupled_example_lem : exists fuel ret,
  sw_WRF_X_CSPY calm_coupled_switches = true /\ c_albedo_method calm_constants = "Oerlemans98"%string /\
  nt calm_coupled_data = 1%nat /\
  coupled_call fuel calm_constants calm_coupled_switches calm_solvers calm_coupled_data None = Ok (Some ret) /\
  length ret = 45%nat /\ nth_error ret 18 = Some (PBlock (Series [Some 4])) /\ nth_error ret 16 = Some (PBlock (Series [Some 220])) /\
  length (returned ret 33) = 200%nat.
Proof.
  destruct calm_step_lem as (fuel & inp & s' & o & _ & _ & _ & Hn & _ & Hi & H & L & _ & TS & _).
  assert (C := core_step_counted _ _ _ _ _ _ _ _ _ _ _ Hn H).
  assert (NL := step_layers _ _ _ _ _ _ _ _ _ _ _ _ _ H). rewrite L in NL.
  destruct (step_in_coupled fuel calm_constants calm_switches calm_coupled_switches calm_solvers 3600 200 2
    calm_data calm_coupled_data inp 0 calm_state s' o eq_refl eq_refl eq_refl eq_refl eq_refl) as (o' & H' & L' & T'); try assumption.
  { intros g a q. apply (surface_without_mo calm_constants _ _ _
      (fun _ _ lo hi => if Rle_dec lo hi then Ok (Some lo, Some 0) else Err ValueError)); reflexivity. }
  { reflexivity. }
  { rewrite <- NL. lia. }
  set (sw := calm_coupled_switches) in *. set (d := calm_coupled_data) in *.
  assert (RS : resumes calm_constants calm_state (start_state calm_constants sw (s_grid calm_state))).
  { split; [|split; [reflexivity|split; [repeat split|left; reflexivity]]].
    cbn. repeat constructor. }
  assert (X := resumed_step_lem fuel calm_constants sw calm_solvers (3600, 200%Z, 2) d inp 0 calm_state _ Hn RS).
  rewrite H' in X.
  destruct (core_step fuel calm_constants sw calm_solvers (3600, 200%Z, 2) d inp 0 (start_state calm_constants sw (s_grid calm_state)))
    as [[s2 o2]|] eqn:E2; [|contradiction].
  destruct X as (-> & _ & R2).
  assert (C2 : counted (s_grid s2)) by (apply (core_step_counted _ _ _ _ _ _ _ _ (start_state calm_constants sw (s_grid calm_state)) _ _ Hn E2)).
  assert (B2 := proj1 (coupled_step_facts _ _ sw _ _ _ _ _ _ _ _ _ _ (eq_refl : sw_WRF_X_CSPY sw = true) E2)).
  exists fuel. eexists. split; [reflexivity|]. split; [reflexivity|]. split; [reflexivity|].
  assert (CALL : forall ret, coupled_return calm_constants 200 (s_grid s2) o' = Ok ret ->
    coupled_call fuel calm_constants sw calm_solvers d None = Ok (Some ret)).
  { intros ret CR. unfold coupled_call, cosipy_core.
    change (run_settings calm_constants sw d) with (Ok (3600, 200%Z, 2)). cbn [bind].
    change (py_get (d_T2 d) 0) with (Ok 220). cbn [bind]. change (d_SNOWHEIGHT d) with (@None number).
    rewrite calm_column. cbn [bind].
    assert (SI : select_inputs calm_constants sw d = Ok inp) by exact Hi.
    rewrite SI. cbn [bind]. change (sw_WRF_X_CSPY sw) with true. cbn iota.
    change (Nat.min 1 (nt d)) with 1%nat. cbn [core_loop]. rewrite E2. cbn [bind]. rewrite CR. reflexivity. }
  split; [apply CALL; apply coupled_return_ok; assumption|].
  split; [reflexivity|]. split; [cbn [nth_error coupled_list]; rewrite L', L; reflexivity|].
  split; [cbn [nth_error coupled_list]; rewrite T', TS; reflexivity|].
  cbn [returned nth_error coupled_list]. unfold pad. rewrite app_length, map_length, repeat_length, map_length.
  unfold counted in C2. lia.
Qed.
