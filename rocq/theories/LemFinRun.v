(** * Whole runs: the layers stay sound (C92) *)
From Verif Require Import ModelPy ModelConstants ModelNode ModelGrid ModelWater ModelHeat ModelDensification
  ModelRadiation ModelAlbedo ModelSurface ModelInit ModelCore Spec SpecSurface SpecInit SpecRun SpecCalm
  LemPy LemGridBase LemGridOps LemGridMore LemWater LemHeat LemSurface LemCore LemHealth LemFinAlbedo LemFinInit
  LemFinSurface LemFinCore LemFinHeat.

(** ** Densification changes no temperature and no number of layers *)
Definition same_temperatures (g g' : Grid) : Prop := temperatures (g_nodes g') = temperatures (g_nodes g).

Lemma list_update_temp f l k : (forall x, n_temperature (f x) = n_temperature x) ->
  map n_temperature (list_update k f l) = map n_temperature l.
Proof. intros F. revert k. induction l as [|x l IH]; intros [|k]; cbn; [reflexivity|reflexivity|rewrite F; reflexivity|rewrite IH; reflexivity]. Qed.

Lemma upd_temp g i f g' : (forall x, n_temperature (f x) = n_temperature x) -> upd_node g i f = Ok g' -> same_temperatures g g'.
Proof.
  unfold upd_node, py_update; intros F E. destruct (py_index _ _); [|discriminate]. cbn in E. injection E as <-.
  unfold same_temperatures, temperatures. cbn. apply list_update_temp. exact F.
Qed.
Lemma height_temp g i h g' : set_node_height g i h = Ok g' -> same_temperatures g g'.
Proof. apply upd_temp. reflexivity. Qed.
Lemma lwc_temp g i h g' : set_node_lwc g i h = Ok g' -> same_temperatures g g'.
Proof. apply upd_temp. reflexivity. Qed.
Lemma ice_temp g i h g' : set_node_ice_fraction g i h = Ok g' -> same_temperatures g g'.
Proof. apply upd_temp. reflexivity. Qed.

Ltac tchain :=
  repeat match goal with
  | H : set_node_height _ _ _ = Ok _ |- _ => apply height_temp in H
  | H : set_node_lwc _ _ _ = Ok _ |- _ => apply lwc_temp in H
  | H : set_node_ice_fraction _ _ _ = Ok _ |- _ => apply ice_temp in H
  end; unfold same_temperatures in *; try reflexivity; congruence.

Lemma densification_temperatures c g s dt g' : densification c g s dt = Ok g' -> same_temperatures g g'.
Proof.
  unfold densification; intros H. crunch; [| | |reflexivity].
  - unfold method_Boone in H. apply bind_ok in H. destruct H as (p & _ & H).
    apply bind_ok in H. destruct H as (k & _ & H). apply bind_ok in H. destruct H as (x & W & H).
    injection H as <-. unfold for_range in W.
    apply (for_loop_inv (fun _ t => same_temperatures g (fst t))) in W; [exact W| |reflexivity].
    clear. intros i [g1 a] [g2 a'] _ A H. unfold boone_body in H. cbn [fst] in *. crunch; tchain.
  - unfold method_Vionnet in H. apply bind_ok in H. destruct H as (p & _ & H).
    apply bind_ok in H. destruct H as (k & _ & H). apply bind_ok in H. destruct H as (x & W & H).
    injection H as <-. unfold for_range in W.
    apply (for_loop_inv (fun _ t => same_temperatures g (fst t))) in W; [exact W| |reflexivity].
    clear. intros i [g1 a] [g2 a'] _ A H. unfold vionnet_body in H. cbn [fst] in *. crunch; tchain.
  - unfold method_empirical in H. apply bind_ok in H. destruct H as (p & _ & H).
    apply bind_ok in H. destruct H as (k & _ & H). unfold for_range in H.
    apply (for_loop_inv (fun _ t => same_temperatures g t)) in H; [exact H| |reflexivity].
    clear. intros i g1 g2 _ A H. unfold empirical_body in H. crunch; tchain.
Qed.

Lemma sound_of_parts lo hi l l' : temperatures l' = temperatures l -> sound_column lo hi l -> layers_ok l' -> sound_column lo hi l'.
Proof.
  unfold temperatures, sound_column, layers_ok. revert l. induction l' as [|x' l' IH]; intros [|x l] E H K; try discriminate; [constructor|].
  cbn in E. injection E as E1 E2. destruct (Forall_inv H) as (_ & _ & _ & T). destruct (Forall_inv K) as (A & B & C). cbv beta in *.
  constructor; [repeat split; lra|]. eapply IH; [exact E2|exact (Forall_inv_tail H)|exact (Forall_inv_tail K)].
Qed.

Lemma map_res_forall {A B} (Q : B -> Prop) (f : A -> res B) l r : (forall x y, In x l -> f x = Ok y -> Q y) ->
  map_res f l = Ok r -> Forall Q r.
Proof.
  revert r. induction l as [|x l IH]; cbn; intros r F H; [injection H as <-; constructor|].
  apply bind_ok in H. destruct H as (y & E & H). apply bind_ok in H. destruct H as (ys & E2 & H). injection H as <-.
  constructor; [eapply F; [left; reflexivity|exact E]|]. apply IH; [|exact E2]. intros a b Hin; apply F; right; exact Hin.
Qed.
Lemma profile_forall {A} (Q : A -> Prop) lo hi (f : Node -> res A) g r : get_profile f g = Ok r -> sound_column lo hi (g_nodes g) ->
  (forall n y, sound_layer lo hi n -> f n = Ok y -> Q y) -> Forall Q r.
Proof.
  intros E H F. unfold get_profile in E. eapply map_res_forall; [|exact E].
  intros i y _ X. apply bind_ok in X. destruct X as (n & X & Y). eapply F; [|exact Y]. eapply get_health; eassumption.
Qed.

Lemma firstn_height lo hi k l : sound_column lo hi l -> 0 <= column_height (firstn k l) <= column_height l.
Proof.
  intros H.
  assert (N : forall l, sound_column lo hi l -> 0 <= column_height l).
  { clear. intros l H. apply total_nonneg. eapply Forall_impl; [|exact H]. intros n (A & _). lra. }
  rewrite <- (firstn_skipn k l) in H. apply Forall_app in H. destruct H as (A & B).
  apply N in A. apply N in B. rewrite <- (firstn_skipn k l) at 3. unfold column_height in *. rewrite total_app. lra.
Qed.

Lemma rain_nonneg c rho raw s r : 0 < c_water_density c -> 0 <= rho -> 0 < c_minimum_snowfall c ->
  threshold_precipitation c rho raw = Ok (s, r) -> 0 <= s /\ 0 <= r.
Proof.
  intros Hw Hr Hm H. unfold threshold_precipitation in H. destruct raw as (s0 & [r0|]); [|discriminate].
  apply bind_ok in H. destruct H as (q & E & H). apply fdiv_inv in E. destruct E as (_ & ->). injection H as <- <-.
  assert (0 <= rho / c_water_density c) by (apply div_nonneg; lra).
  assert (0 <= c_minimum_snowfall c * (rho / c_water_density c)) by (apply Rmult_le_pos; lra).
  split; [destruct (Rltb_spec s0 (c_minimum_snowfall c)); lra|].
  destruct (Rltb_spec r0 (c_minimum_snowfall c * (rho / c_water_density c) * 1000)); lra.
Qed.

Lemma fluxes_signs c Ts LE dt m : constants_ok c -> 0 <= dt -> mass_fluxes c Ts LE dt = Ok m ->
  m_sublimation m <= 0 /\ m_evaporation m <= 0 /\ 0 <= m_deposition m /\ 0 <= m_condensation m.
Proof.
  intros Hc Hdt H. unfold mass_fluxes in H. 
  assert (A : forall q, Rmin q 0 * dt <= 0) by (intros q; assert (B := Rmin_r q 0); nra).
  assert (B : forall q, 0 <= Rmax q 0 * dt) by (intros q; apply Rmult_le_pos; [apply Rmax_r|exact Hdt]).
  crunch; cbn; repeat split; auto; lra.
Qed.

(*@ C92 One step keeps the layers sound, whatever the forcing, the remeshing, the albedo and
    the flux scheme, and whatever the search for the surface temperature answers: if all
    layers have a positive height, hold ice, no negative water, and lie between [lo] and the
    melting temperature before, and the air is not colder than [lo], then the same holds
    after every step that does not raise, with at least three layers, and all reported
    values have the right sign.  For the densification methods other than "constant" the
    layers must come out of the densification with positive heights and ice and without
    negative water; temperatures are kept by all methods. *)
Lemma step_keeps_layers_sound_lem : forall fuel c sw sv dt ml z d inp t s s' o lo,
  run_constants_ok c lo -> 0 <= dt -> respects_bounds (sv_minimize sv) ->
  Forall (fun T => lo <= T) (d_T2 d) ->
  counted (s_grid s) -> sound_column lo (c_zero_temperature c) (g_nodes (s_grid s)) ->
  core_step fuel c sw sv (dt, ml, z) d inp t s = Ok (s', o) ->
  c_densification_method c = "constant"%string \/ layers_ok (g_nodes (s_grid s')) ->
  counted (s_grid s') /\ sound_column lo (c_zero_temperature c) (g_nodes (s_grid s')) /\
  sound_report lo (c_zero_temperature c) o /\ s_surface_temperature s' = o_TS o.
Proof.
  intros fuel c sw sv dt ml z d inp t s s' o lo [Hc Hlo Hz Hcold Hair Hfresh] Hdt Hb HT Hn Hs H HD.
  apply core_step_inv in H. destruct H. cbn [s_grid s_surface_temperature o_TS] in *.
  set (hi := c_zero_temperature c) in *.
  assert (Hr := fresh_density _ _ _ _ Hair Hfresh H1).
  assert (HT2 := py_get_forall _ _ _ _ HT H). cbv beta in HT2.
  assert (Hra := ok_rho_a _ Hc). assert (Hrw := ok_rho_w _ Hc).
  assert (Hr0 : 0 <= rho) by lra.
  destruct (rain_nonneg _ _ _ _ _ Hrw Hr0 (ok_minsnow _ Hc) H5) as (Hsn & Hrn).
  assert (G1 : healthy lo hi (lay_snow c (s_grid s) SNOWFALL rho T2 dt))
    by (apply lay_snow_health; try assumption; [reflexivity|lra]).
  assert (St := ok_stretch _ Hc).
  assert (G2 : healthy lo hi g2) by (eapply update_grid_health; [exact (ok_first _ Hc)| |exact H7|exact G1]; lra).
  assert (G3 : healthy lo hi g3) by (unfold healthy; rewrite (proj1 (albedo_health _ _ _ _ _ _ _ H8)); exact G2).
  assert (G4 : healthy lo hi g4 /\ 0 <= sm).
  { unfold shortwave_below in H10. destruct (Rltb_spec 0 (Rmax Gt 0 * (1 - alpha))) as [L|L].
    - unfold penetrating_radiation in H10. destruct (String.eqb _ _); [|discriminate].
      destruct (bintanja_health lo hi c g3 _ dt g4 sm Gp Hc eq_refl ltac:(lra) (Rlt_le _ _ L) Hdt H10 G3) as (A & B & _). auto.
    - injection H10 as <- <- _. split; [exact G3|lra]. }
  destruct G4 as (G4 & Hsm).
  destruct (surface_health lo hi _ _ _ _ _ _ _ _ _ _ _ eq_refl (proj2 Hlo) Hz Hb H15 G4) as (G5 & HTs).
  destruct (fluxes_signs _ _ _ _ _ Hc Hdt H16) as (F1 & F2 & F3 & F4).
  assert (Hme : 0 <= me) by (subst me; apply Rmax_l).
  assert (HL := ok_Lm _ Hc).
  assert (Hmelt : 0 <= melt).
  { apply fdiv_inv in H18. destruct H18 as (_ & ->). apply div_nonneg; [apply Rmult_le_pos; lra|lra]. }
  destruct (water_health lo hi _ _ _ _ _ _ _ _ _ Hc eq_refl Hcold Hmelt F4 Hrn H19 G5) as (G8 & HQ & Hwr).
  assert (C8 : counted g8).
  { assert (C1 : counted (lay_snow c (s_grid s) SNOWFALL rho T2 dt)).
    { unfold lay_snow. destruct (Rltb _ _); [apply add_fresh_snow_counted; exact Hn|exact Hn]. }
    destruct (update_grid_ev _ _ _ _ H7) as (_ & C2). specialize (C2 C1).
    destruct (albedo_health _ _ _ _ _ _ _ H8) as (A1 & A2).
    assert (C3 : counted g3) by (unfold counted in *; congruence).
    destruct (shortwave_ev _ _ _ _ _ _ _ H10) as (_ & C4). specialize (C4 C3).
    destruct (update_surface_ev _ _ _ _ _ _ _ _ _ _ _ H15) as (_ & C5). specialize (C5 C4).
    exact (proj1 (water_clock _ _ _ _ _ _ _ _ _ C5 H19)). }
  destruct (heat_health lo hi _ _ _ _ _ Hc C8 H20 G8) as (G9 & L3).
  destruct (heat_ev _ _ _ _ _ H20) as (_ & C9). specialize (C9 C8).
  assert (T10 := densification_temperatures _ _ _ _ _ H21).
  destruct (densification_ev _ _ _ _ _ H21) as (_ & C10). specialize (C10 C9).
  assert (G10 : sound_column lo hi (g_nodes g10)).
  { destruct HD as [M|M].
    - unfold densification in H21. rewrite M in H21. cbn in H21. injection H21 as <-. exact G9.
    - eapply sound_of_parts; [exact T10|exact G9|exact M]. }
  assert (L10 : (3 <= length (g_nodes g10))%nat).
  { assert (A : length (g_nodes g10) = length (g_nodes g9)).
    { unfold same_temperatures, temperatures in T10. rewrite <- (map_length n_temperature), T10. apply map_length. }
    assert (B : length (g_nodes g9) = length (g_nodes g8)).
    { unfold counted in *. unfold solveHeatEquation, set_temperature, set_profile in H20.
      do 5 (apply bind_ok in H20; destruct H20 as (? & _ & H20)).
      unfold for_range in H20. apply (for_loop_inv (fun _ t => length (g_nodes t) = length (g_nodes g8))) in H20; [exact H20| |reflexivity].
      clear. intros i a b _ A B. apply bind_ok in B. destruct B as (y & _ & B). unfold upd_node in B.
      apply bind_ok in B. destruct B as (l & E & B). injection B as <-. cbn. apply py_update_length in E. congruence. }
    lia. }
  split; [exact C10|]. split; [exact G10|]. split; [|reflexivity].
  constructor; cbn [o_TS o_RAIN o_SNOWFALL o_ME o_surfM o_subM o_Q o_REFREEZE o_SUBLIMATION o_EVAPORATION o_DEPOSITION
    o_CONDENSATION o_SNOWHEIGHT o_TOTALHEIGHT o_NLAYERS o_profiles]; try assumption.
  - apply fdiv_inv in H22. destruct H22 as (_ & ->). apply Rmult_le_pos; [assumption|apply div_nonneg; lra].
  - rewrite get_total_snowheight_counted in H23 by exact C10. rewrite get_total_height_counted in H24 by exact C10.
    injection H23 as <-. injection H24 as <-. eapply firstn_height; exact G10.
  - unfold get_number_layers. rewrite C10. lia.
  - intros p ->. destruct (sw_WRF_X_CSPY sw).
    { apply bind_ok in H25. destruct H25 as (? & _ & X). discriminate. }
    destruct (sw_full_field sw); [|discriminate]. apply bind_ok in H25. destruct H25 as (p' & E & X). injection X as ->.
    unfold store_profiles in E. destruct (_ <? _)%Z; [discriminate|].
    repeat (apply bind_ok in E; destruct E as (? & ? & E)). injection E as <-. cbn.
    repeat split.
    + eapply profile_forall; [eassumption|exact G10|]. intros n0 y (X1 & X2 & X3 & X4) X. injection X as <-. exact X1.
    + eapply profile_forall; [eassumption|exact G10|]. intros n0 y (X1 & X2 & X3 & X4) X. injection X as <-. exact X4.
    + eapply profile_forall; [eassumption|exact G10|]. intros n0 y (X1 & X2 & X3 & X4) X. injection X as <-. exact X3.
    + eapply profile_forall; [eassumption|exact G10|]. intros n0 y (X1 & X2 & X3 & X4) X. injection X as <-. exact X2.
    + eapply profile_forall; [eassumption|exact G10|]. intros n0 y (X1 & X2 & X3 & X4) X. injection X as <-.
      apply density_positive; assumption.
Qed.

(*@ C92 The same over any number of steps. *)
Lemma run_keeps_layers_sound_lem : forall fuel c sw sv dt ml z d inp lo count t s s' os,
  run_constants_ok c lo -> 0 <= dt -> respects_bounds (sv_minimize sv) ->
  Forall (fun T => lo <= T) (d_T2 d) ->
  counted (s_grid s) -> sound_column lo (c_zero_temperature c) (g_nodes (s_grid s)) ->
  c_densification_method c = "constant"%string \/
  (forall k sk osk, (k <= count)%nat ->
     core_loop fuel c sw sv (dt, ml, z) d inp k t s = Ok (sk, osk) -> layers_ok (g_nodes (s_grid sk))) ->
  core_loop fuel c sw sv (dt, ml, z) d inp count t s = Ok (s', os) ->
  counted (s_grid s') /\ sound_column lo (c_zero_temperature c) (g_nodes (s_grid s')) /\
  Forall (sound_report lo (c_zero_temperature c)) os.
Proof.
  intros fuel c sw sv dt ml z d inp lo count. induction count as [|k IH]; intros t s s' os Hc Hdt Hb HT Hn Hs HD H.
  - injection H as <- <-. auto.
  - cbn [core_loop] in H. apply bind_ok in H. destruct H as ((s1 & o) & E & H).
    apply bind_ok in H. destruct H as ((s2 & os2) & E2 & H). injection H as <- <-.
    assert (D1 : c_densification_method c = "constant"%string \/ layers_ok (g_nodes (s_grid s1))).
    { destruct HD as [M|M]; [left; exact M|right]. apply (M 1%nat s1 [o]); [lia|]. cbn [core_loop]. rewrite E. reflexivity. }
    destruct (step_keeps_layers_sound_lem _ _ _ _ _ _ _ _ _ _ _ _ _ _ Hc Hdt Hb HT Hn Hs E D1) as (C1 & G1 & R1 & _).
    assert (D2 : c_densification_method c = "constant"%string \/
      (forall j sk osk, (j <= k)%nat -> core_loop fuel c sw sv (dt, ml, z) d inp j (t + 1) s1 = Ok (sk, osk) -> layers_ok (g_nodes (s_grid sk)))).
    { destruct HD as [M|M]; [left; exact M|right]. intros j sk osk Hj X.
      apply (M (S j) sk (o :: osk)); [lia|]. cbn [core_loop]. rewrite E. cbn [bind]. rewrite X. reflexivity. }
    destruct (IH _ _ _ _ Hc Hdt Hb HT C1 G1 D2 E2) as (C2 & G2 & R2). auto.
Qed.

(*@ C92 A complete run of one grid cell from the initial column: every air temperature series
    above [lo], every other forcing, every number of steps. *)
Lemma cell_keeps_layers_sound_lem : forall fuel c sw sv d lo s os r,
  run_constants_ok c lo -> respects_bounds (sv_minimize sv) ->
  Forall (fun T => lo <= T) (d_T2 d) ->
  0 < c_initial_glacier_height c -> 0 < c_initial_glacier_layer_heights c ->
  c_air_density c < c_initial_top_density_snowpack c <= c_ice_density c ->
  c_air_density c < c_initial_bottom_density_snowpack c <= c_ice_density c ->
  lo <= c_temperature_bottom c <= c_zero_temperature c ->
  sw_WRF_X_CSPY sw = false -> c_densification_method c = "constant"%string ->
  cosipy_core fuel c sw sv d None = Ok (s, os, r) ->
  sound_column lo (c_zero_temperature c) (g_nodes (s_grid s)) /\
  Forall (sound_report lo (c_zero_temperature c)) os /\ length os = nt d.
Proof.
  intros fuel c sw sv d lo s os r HR Hb HT Hg Hl Htop Hbot Hbt Hw HD H.
  assert (HR' := HR). destruct HR' as [Hc Hlo Hz Hcold Hair Hfresh].
  unfold cosipy_core, run_settings in H. rewrite Hw in H. cbn [bind] in H.
  apply bind_ok in H. destruct H as (g & Eg & H). apply bind_ok in H. destruct H as (inp & _ & H).
  apply bind_ok in H. destruct H as ((s1 & os1) & W & H).
  destruct (nt d =? 0)%nat; [discriminate|]. apply bind_ok in H. destruct H as (rr & _ & H). injection H as <- <- _.
  apply bind_ok in Eg. destruct Eg as (T20 & E0 & Eg).
  assert (HT0 := py_get_forall _ _ _ _ HT E0). cbv beta in HT0.
  destruct Hc eqn:EHc. clear EHc.
  destruct (initial_column_lem c (d_SNOWHEIGHT d) T20 ok_rho_a ltac:(lra) Hg Hl ltac:(lra) ltac:(lra))
    as (g' & snow & ice & Eg' & En & Cg & _ & _ & _ & Hh1 & _ & Hh2 & _ & Hw0 & Hd & Hi & _ & _ & Ht).
  assert (g' = g) by congruence. subst g'.
  assert (S0 : sound_column lo (c_zero_temperature c) (g_nodes g)).
  { rewrite En. unfold sound_column. rewrite Forall_forall. intros n Hin.
    rewrite Forall_forall in Ht, Hw0. specialize (Ht n Hin). specialize (Hw0 n Hin). cbv beta in Ht, Hw0.
    assert (X : 0 < n_height n /\ 0 < n_ice n).
    { apply in_app_or in Hin. destruct Hin as [Hin|Hin].
      - rewrite Forall_forall in Hh1, Hd. destruct (Hh1 n Hin) as (_ & A). destruct (Hd n Hin) as (B & _). split; [exact A|].
        assert (c_air_density c < layer_density c n).
        { eapply Rlt_le_trans; [|exact B]. apply Rmin_glb_lt; lra. }
        destruct (Rlt_le_dec 0 (n_ice n)) as [|N]; [assumption|exfalso].
        unfold layer_density, layer_air_porosity in H. destruct Hw0 as (W0 & _). rewrite W0 in H.
        rewrite Rmax_right in H by lra. nra.
      - rewrite Forall_forall in Hh2, Hi. rewrite (Hh2 n Hin). destruct (Hi n Hin) as (-> & _). lra. }
    destruct X as (X1 & X2). split; [exact X1|]. split; [exact X2|]. split; [lra|].
    unfold between in Ht. destruct Ht as (Ht1 & Ht2). split.
    - eapply Rle_trans; [|exact Ht1]. repeat apply Rmin_glb; lra.
    - eapply Rle_trans; [exact Ht2|]. apply Rmax_lub; [apply Rmin_r|lra]. }
  destruct (run_keeps_layers_sound_lem _ _ _ _ _ _ _ _ _ _ _ _ (start_state c sw g) _ _ HR (Rlt_le _ _ ok_dt) Hb HT
    Cg S0 (or_introl HD) W) as (_ & G & R).
  split; [exact G|]. split; [exact R|].
  exact (proj1 (run_balance_lem _ _ _ _ _ _ _ _ _ _ _ _ _ _ W)).
Qed.

(*@ex A step that succeeds and meets all hypotheses: a calm polar night with 2 cm of fresh
    snow on three cold ice layers. *)
Lemma calm_step_lem : exists fuel inp s' o,
  run_constants_ok calm_constants 150 /\ respects_bounds (sv_minimize calm_solvers) /\
  Forall (fun T => 150 <= T) (d_T2 calm_data) /\ counted (s_grid calm_state) /\
  sound_column 150 (c_zero_temperature calm_constants) (g_nodes (s_grid calm_state)) /\
  select_inputs calm_constants calm_switches calm_data = Ok inp /\
  core_step fuel calm_constants calm_switches calm_solvers calm_settings calm_data inp 0 calm_state = Ok (s', o) /\
  o_NLAYERS o = 4%Z /\ o_SNOWFALL o = 0.02 * (300 / 1000) /\ o_TS o = 220 /\ o_ME o = 0.
Proof.
  set (c := calm_constants).
  assert (Hc : constants_ok c) by (constructor; cbn; lra).
  assert (Hf : flux_constants_ok c) by (constructor; cbn; try lra; tauto).
  assert (Hs : surface_constants_ok c) by (constructor; cbn; lra).
  set (top := new_node c (0.02 * 1) 300 (Rmin 220 (c_zero_temperature c)) 0 None).
  assert (Ht : n_temperature top = 220) by (unfold top; cbn; apply Rmin_left; lra).
  set (x := mkNode 0.5 220 0 1 0).
  assert (Hice : 0.3 < n_ice top < 0.4) by (cbn; lra).
  set (g0 := mkGrid [top; x; x; x] 4 (0.02 * 1) 0 0).
  assert (Hn0 : counted g0) by reflexivity.
  assert (N0 : Forall (fun n => 0 < n_height n /\ 0 < n_ice n /\ 0 <= n_lwc n) (g_nodes g0))
    by (repeat constructor; cbn [n_height n_ice n_lwc top x new_node] in *; try lra).
  assert (MR : forall (ff : Node -> res R) (gg : Node -> R) l, (forall n, In n l -> ff n = Ok (gg n)) -> map_res ff l = Ok (map gg l)).
  { clear. intros ff gg l. induction l as [|n l IH]; intros HH; [reflexivity|]. cbn [map_res map].
    rewrite (HH n) by (left; reflexivity). cbn [bind]. rewrite IH by (intros; apply HH; right; assumption). reflexivity. }
  (* albedo *)
  destruct (oerlemans_exact_lem c g0 top [x; x; x] Hs Hn0 eq_refl) as (g3 & al & Wa & SC & _ & _ & _).
  assert (G3 : g3 = g0).
  { unfold method_Oerlemans, get_surface_properties in Wa. cbn [get_fresh_snow_props g0 g_new_snow_height g_new_snow_timestamp] in Wa.
    rewrite (Rleb_false (0.02 * 1) 0) in Wa by lra. rewrite andb_false_r in Wa.
    apply bind_ok in Wa. destruct Wa as (d & _ & Wa). destruct (Rleb _ _) in Wa.
    - do 3 (apply bind_ok in Wa; destruct Wa as (? & _ & Wa)). injection Wa as <- _. reflexivity.
    - injection Wa as <- _. reflexivity. }
  subst g3. clear SC.
  (* roughness *)
  destruct (roughness_range_lem c g0 top [x; x; x] Hs eq_refl (Rle_refl 0)) as (z0 & Wz & Z1 & Z2 & Z3).
  assert (Hz0 : 0 < z0 < 2).
  { split; [exact Z3|]. destruct (Rle_or_lt (layer_density c top) (c_snow_ice_threshold c)) as [L|L];
      [specialize (Z1 L)|specialize (Z2 L)]; cbn in *; lra. }
  (* subsurface *)
  set (a := mkAtm 3600 2 z0 220 60 600 0 0 0 (Some 50) None).
  assert (FO : forcing_ok c a 220).
  { constructor; cbn; try lra; try (apply ew_bound; lra). left. discriminate. }
  assert (P0 : Forall (fun n => 0 < n_height n) (g_nodes g0)) by (eapply Forall_impl; [|exact N0]; cbv beta; tauto).
  assert (EB : interp_subT c g0 = Ok (220, 220)).
  { unfold interp_subT.
    rewrite (subsurface_between g0 (c_zlt1 c) 0 top x P0 eq_refl eq_refl)
      by (unfold depth_to, column_height; cbn [firstn g0 g_nodes]; rewrite !total_cons, !total_nil; cbn; lra).
    cbn [bind].
    rewrite (subsurface_between g0 (c_zlt2 c) 0 top x P0 eq_refl eq_refl)
      by (unfold depth_to, column_height; cbn [firstn g0 g_nodes]; rewrite !total_cons, !total_nil; cbn; lra).
    cbn [bind]. rewrite Ht. cbn [n_temperature x]. do 2 f_equal; lra. }
  destruct (layer_thermal_conductivity c top) as [lam|] eqn:EL; [|discriminate].
  assert (Etop : set_layer_temperature 220 top = top).
  { unfold set_layer_temperature. rewrite <- Ht. destruct top; reflexivity. }
  assert (EF := eb_fluxes_ri c false g0 220 a (220, 220) top [x; x; x] lam Hf FO eq_refl eq_refl EL).
  assert (ES : update_surface_temperature c false (sv_newton calm_solvers) (sv_minimize calm_solvers) g0 a 0
     = Ok (g0, Some (Some 0), 220, ri_fluxes c lam 220 a (220, 220))).
  { unfold update_surface_temperature. rewrite EB. cbn [bind].
    change (get_node g0 0) with (Ok top). cbn [bind c calm_constants c_sfc_temperature_method String.eqb Ascii.eqb Bool.eqb orb].
    cbn [calm_solvers sv_minimize]. destruct (Rle_dec 220 330) as [_|C]; [|lra]. cbn [bind].
    unfold py_min_nan. rewrite Rltb_true by (cbn; lra).
    change (upd_node g0 0 (set_layer_temperature 220)) with (Ok (with_nodes g0 [set_layer_temperature 220 top; x; x; x])).
    rewrite Etop. cbn [bind]. change (with_nodes g0 [top; x; x; x]) with g0.
    fold c. rewrite EF. reflexivity. }
  set (f := ri_fluxes c lam 220 a (220, 220)) in *.
  assert (FLE : f_LE f = 0) by (unfold f, ri_fluxes; cbn [f_LE a_u2 a]; lra).
  assert (FH : f_H f = 0) by (unfold f, ri_fluxes; cbn [f_H a_u2 a]; lra).
  assert (FB : f_B f = 0) by (unfold f, ri_fluxes; cbn; lra).
  assert (FQ : f_QRR f = 0) by (unfold f, ri_fluxes; cbn; lra).
  assert (FLi : f_Li f = 50) by reflexivity.
  assert (FLo : f_Lo f < -100) by (unfold f, ri_fluxes; cbn; lra).
  assert (ME : available_melt_energy 0 f = 0).
  { unfold available_melt_energy. rewrite FLE, FH, FB, FQ, FLi. apply Rmax_left. lra. }
  (* water *)
  set (g1 := set_fresh_snow_props_height g0 (g_new_snow_height g0 - 0)).
  assert (Hok : column_ok (g_nodes g1)).
  { eapply Forall_impl; [|exact N0]. cbv beta. intros; lra. }
  destruct (percolation_bucket g1 0 Hn0 Hok ltac:(discriminate)) as (g2 & q & Wp & Bk & Nn2 & _).
  assert (E2 : g_nodes g2 = g_nodes g0).
  { cbn [g_nodes g1 set_fresh_snow_props_height g0] in Bk.
    assert (K : forall l l' w q, bucket w l l' q -> w = 0 -> Forall (fun n => 0 < n_height n /\ 0 < n_ice n <= 1 /\ n_lwc n = 0) l -> l' = l).
    { clear. intros l l' w q Bk. induction Bk as [w x x' (O1 & O2 & O3 & O4) Z|w x x' y t t' e q He (O1 & O2 & O3 & O4) Hm Bk IH]; intros Hw HF.
      - f_equal. destruct (Forall_inv HF) as (A1 & A2 & A3). destruct x, x'; cbn in *; congruence.
      - destruct (Forall_inv HF) as (A1 & A2 & A3).
        assert (Z : n_lwc x' = 0).
        { rewrite A3, Hw in Hm. rewrite Rmin_left in Hm.
          - assert (M : n_lwc x' * n_height x = 0) by lra. apply Rmult_integral in M. lra.
          - assert (0 <= e * n_height x); [|lra]. apply Rmult_le_pos; [|lra]. rewrite He. apply LemCorrect.irreducible_nonneg. lra. }
        f_equal.
        + destruct x, x'; cbn in *; congruence.
        + apply IH; [rewrite Z, A3, Hw; lra|eapply Forall_inv_tail; exact HF]. }
    apply (K _ _ _ _ Bk eq_refl). repeat constructor; cbn [n_height n_ice n_lwc top x new_node] in *; lra. }
  assert (Hn2 : counted g2) by (unfold counted; rewrite E2, Nn2; reflexivity).
  assert (RO : Forall (refreeze_ok c) (g_nodes g2)).
  { rewrite E2. assert (cold_ok c x) by (split; cbn; lra). assert (refreeze_ok c x) by (split; [repeat split; cbn; lra|assumption]).
    apply Forall_cons; [|repeat (apply Forall_cons; [assumption|]); apply Forall_nil]. split; [repeat split; try lra; cbn; lra|].
    split; rewrite Ht; cbn; lra. }
  destruct (refreezing_spec c g2 Hc Hn2 RO) as (g4 & ps & Wr & E4 & Nn4 & _ & F4).
  set (w := sumR (map snd ps)) in *.
  assert (H2 : healthy 150 (c_zero_temperature c) g2).
  { unfold healthy, sound_column. rewrite E2. assert (sound_layer 150 (c_zero_temperature c) x) by (repeat split; cbn; lra).
    apply Forall_cons; [|repeat (apply Forall_cons; [assumption|]); apply Forall_nil].
    repeat split; try (rewrite Ht); cbn; lra. }
  destruct (refreezing_health 150 _ c g2 g4 w Hc eq_refl ltac:(cbn; lra) Wr H2) as (H4 & _).
  assert (L4 : length (g_nodes g4) = 4%nat).
  { rewrite E4, map_length. assert (F4' := Forall2_len _ _ _ F4). rewrite F4', E2. reflexivity. }
  assert (Hn4 : counted g4) by (unfold counted; rewrite L4, Nn4, Nn2; reflexivity).
  assert (K4 : conductive c (g_nodes g4)).
  { split; [|left; reflexivity]. eapply Forall_impl; [|exact H4]. unfold sound_layer. cbv beta. intros n Hh. tauto. }
  destruct (heat_maximum_principle_lem c g4 3600 Hc Hn4 K4 ltac:(lia)) as (g5 & N & Wh & F5 & _ & _ & _ & Hn5 & Nn5 & _).
  set (inp := mkInputs (Some [0.02 * 1]) (Some [6 * 1]) (Some [50]) None 0).
  assert (EM : mass_fluxes c 220 0 3600 = Ok (mkMassFluxes 0 0 0 0)).
  { unfold mass_fluxes. rewrite Rltb_true by (cbn; lra). rewrite fdiv_ok by (cbn; lra). cbn [bind].
    replace (0 / (c_water_density c * c_lat_heat_sublimation c)) with 0 by (unfold Rdiv; lra).
    rewrite Rmin_left, Rmax_left by lra. rewrite Rmult_0_l. reflexivity. }
  assert (EW : water_step (S N) c g0 0 (mkMassFluxes 0 0 0 0) 0 = Ok (g4, q, w)).
  { unfold water_step. cbn [m_sublimation m_deposition m_condensation].
    replace (0 - 0 - 0) with 0 by lra. rewrite remove_melt_negative by (lra || lia). fold g1. cbn [bind].
    replace (0 + 0 + 0 / 1000 + 0) with 0 by lra. rewrite Wp. cbn [bind]. rewrite Wr. reflexivity. }
  assert (Efd : forall y, fdiv y (c_water_density c) = Ok (y / c_water_density c)) by (intros; apply fdiv_ok; cbn; lra).
  assert (ESN : lay_snow c (s_grid calm_state) (0.02 * 1) 300 220 3600 = g0).
  { unfold lay_snow. rewrite Rltb_true by lra. unfold add_fresh_snow. rewrite Rltb_false by (cbn; lra). reflexivity. }
  assert (EU : update_grid (S N) c g0 = Ok g0).
  { unfold update_grid. cbn [c calm_constants c_remesh_method String.eqb Ascii.eqb Bool.eqb bind].
    change (get_node_height g0 0) with (Ok (0.02 * 1)). cbn [bind]. rewrite Rltb_false by (cbn; lra). reflexivity. }
  assert (EP : exists p, store_profiles c 200 g5 = Ok p).
  { unfold store_profiles, get_number_layers. rewrite Nn5, Nn4, Nn2. change (200 <? g_number_nodes g1)%Z with false. cbn iota.
    rewrite get_height_counted, get_density_counted, get_temperature_counted by exact Hn5. cbn [bind].
    unfold get_liquid_water_content, get_cold_content, get_porosity, get_ice_fraction, get_refreeze, get_irreducible_water_content.
    rewrite !get_profile_map by exact Hn5. cbn [bind]. rewrite get_profile_counted by exact Hn5.
    rewrite (MR layer_irreducible (fun n => irreducible_content (n_ice n))); [cbn [bind]; eexists; reflexivity|].
    assert (I5 : Forall (fun n => 0 < n_ice n) (g_nodes g5)).
    { assert (I4 : Forall (fun n => 0 < n_ice n) (g_nodes g4)) by (eapply Forall_impl; [|exact H4]; unfold sound_layer; cbv beta; tauto).
      clear - F5 I4. induction F5 as [|u v l l' (O1 & O2 & O3 & O4) F IH]; constructor.
      - assert (A := Forall_inv I4). cbv beta in A. lra.
      - apply IH. eapply Forall_inv_tail; exact I4. }
    rewrite Forall_forall in I5. intros n Hin. apply LemCorrect.irreducible_ok. apply I5. exact Hin. }
  destruct EP as (p & EP).
  eexists (S N), inp, _, _.
  split; [constructor; try exact Hc; cbn; lra|].
  split. { intros m func guess lo hi y v. cbn. destruct (Rle_dec lo hi) as [L|L]; [|discriminate]. intros E; injection E as <- <-. exists lo. split; [reflexivity|lra]. }
  split; [repeat constructor; lra|]. split; [reflexivity|].
  split. { assert (sound_layer 150 (c_zero_temperature c) x) by (repeat split; cbn; lra).
    repeat (apply Forall_cons; [assumption|]); apply Forall_nil. }
  split; [reflexivity|]. split.
  { unfold core_step. cbn [calm_settings].
    change (py_get (d_T2 calm_data) 0) with (Ok 220). change (py_get (d_U2 calm_data) 0) with (Ok 0).
    cbn [bind]. change (fresh_snow_density c 220 0) with (Ok 300). cbn [bind].
    change (opt_get (i_SNOWF inp) 0) with (Ok (Some (0.02 * 1))). change (opt_get (i_RRR inp) 0) with (Ok (Some (6 * 1))).
    cbn [bind snow_and_rain]. rewrite Efd. cbn [bind threshold_precipitation]. rewrite Efd. cbn [bind].
    rewrite (Rltb_false (0.02 * 1)) by (cbn; lra). rewrite Rltb_true by (cbn; lra). cbn [bind].
    rewrite ESN. change (py_get (d_G calm_data) 0) with (Ok 0). cbn [bind]. rewrite EU. cbn [bind].
    unfold updateAlbedo. cbn [c calm_constants c_albedo_method String.eqb Ascii.eqb Bool.eqb]. fold c. rewrite Wa. cbn [bind].
    unfold updateRoughness. cbn [c calm_constants c_roughness_method String.eqb Ascii.eqb Bool.eqb]. fold c. rewrite Wz. cbn [bind].
    unfold shortwave_below. rewrite (Rmax_left 0 0) by lra. rewrite Rltb_false by lra. cbn [bind].
    change (py_get (d_RH2 calm_data) 0) with (Ok 60). change (py_get (d_PRES calm_data) 0) with (Ok 600).
    change (opt_get (i_LWin inp) 0) with (Ok (Some 50)). change (opt_get (i_N inp) 0) with (Ok (@None R)). cbn [bind].
    change (i_SLOPE inp) with 0. fold a. replace (0 * (1 - al) - 0) with 0 by lra.
    change (sw_WRF_X_CSPY calm_switches) with false. rewrite ES. cbn [bind]. rewrite FLE, EM. cbn [bind]. rewrite ME.
    rewrite fdiv_ok by (cbn; lra). cbn [bind].
    replace (0 * 3600 / (1000 * c_lat_heat_melting c)) with 0 by (unfold Rdiv; lra).
    rewrite EW. cbn [bind]. rewrite (Wh (S N)) by lia. cbn [bind].
    change (densification c g5 0 3600) with (Ok g5). cbn [bind]. 
    rewrite get_total_snowheight_counted by exact Hn5. cbn [bind]. rewrite get_total_height_counted by exact Hn5. cbn [bind].
    cbn [get_fresh_snow_props]. change (sw_full_field calm_switches) with true. cbn iota. rewrite EP. cbn [bind]. reflexivity. }
  cbn [o_NLAYERS o_SNOWFALL o_TS o_ME]. split; [|split; [|split]]; try reflexivity; try (cbn; lra).
  unfold get_number_layers. rewrite Nn5, Nn4, Nn2. reflexivity.
Qed.
