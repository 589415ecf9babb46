(** * Mass of the column over whole steps and runs (C95) *)
From Verif Require Import ModelPy ModelConstants ModelNode ModelGrid ModelWater ModelHeat ModelDensification
  ModelRadiation ModelAlbedo ModelSurface ModelInit ModelCore Spec SpecSurface SpecCore SpecRun SpecCalm SpecMass
  LemPy LemGridBase LemGridOps LemGridMore LemDensification LemRadiation LemLog LemWater LemHeat LemSurface LemCore LemHealth LemFinGrid LemFinRadiation
  LemFinDensification LemFinSurface LemFinCore LemFinHeat LemFinRun LemMass.

(** ** The stages of a step *)
Lemma height_nonneg l : Forall (fun n => 0 <= n_height n) l -> 0 <= column_height l.
Proof.
  intros H. unfold column_height. induction H as [|x l A H IH]; [rewrite total_nil; lra|rewrite total_cons; lra].
Qed.

Lemma lay_snow_mass c g s rho t dt : 0 < c_ice_density c -> 0 <= s ->
  column_mass c (g_nodes (lay_snow c g s rho t dt))
  = column_mass c (g_nodes g) + s * rho - c_air_density c * (s - s * rho / c_ice_density c) /\
  column_height (g_nodes (lay_snow c g s rho t dt)) = column_height (g_nodes g) + s.
Proof.
  intros Hi Hs. unfold lay_snow. destruct (Rltb_spec 0 s) as [A|A].
  - assert (E : g_nodes (add_fresh_snow c g s rho (Rmin t (c_zero_temperature c)) 0 dt)
      = new_node c s rho (Rmin t (c_zero_temperature c)) 0 None :: g_nodes g).
    { unfold add_fresh_snow. destruct (Rltb _ _); cbn; unfold py_insert; cbn; destruct (g_nodes g); reflexivity. }
    rewrite E, mass_cons, fresh_mass by exact Hi. split; [lra|]. unfold column_height. rewrite total_cons. cbn. lra.
  - assert (s = 0) by lra. subst s. cbn [g_nodes set_fresh_snow_props_update_time].
    unfold set_fresh_snow_props_update_time. cbn. unfold Rdiv. split; ring.
Qed.

Lemma shortwave_mass c g SWnet dt g' m si : constants_ok c -> counted g -> column_good (g_nodes g) -> g_nodes g <> [] ->
  shortwave_below c g SWnet dt = Ok (g', m, si) ->
  exists sun, column_mass c (g_nodes g') + column_mass c sun = column_mass c (g_nodes g) /\ column_good sun /\
    c_ice_density c * column_ice sun <= c_water_density c * m /\
    column_height (g_nodes g') <= column_height (g_nodes g).
Proof.
  intros Hc Hn Hg Hne H. unfold shortwave_below in H. destruct (Rltb 0 SWnet).
  - unfold penetrating_radiation in H. destruct (String.eqb _ _); [|discriminate].
    destruct (exists_last Hne) as (l & z & E).
    destruct (g_nodes g) as [|top below] eqn:Eg; [congruence|].
    destruct (bintanja_spec c g SWnet dt top l z Hc Hn ltac:(rewrite Eg; exact Hg) ltac:(rewrite Eg; exact E) ltac:(rewrite Eg; reflexivity))
      as (g2 & l' & m2 & W & SC & E' & _).
    rewrite H in W. injection W as <- <- _. rewrite E', E. rewrite E in Hg. apply Forall_app in Hg.
    destruct (sunlit_column_mass _ _ _ _ _ _ Hc (proj1 Hg) SC) as (sun & A & B & C & D & F).
    exists sun. rewrite !mass_app. unfold column_height in *. rewrite !total_app. repeat split; try assumption; lra.
  - injection H as <- <- _. exists []. rewrite mass_nil. unfold column_ice. rewrite total_nil. repeat split; try lra. constructor.
Qed.

Lemma temperature_only_mass c l l' : Forall2 only_temperature l l' ->
  column_mass c l' = column_mass c l /\ column_height l' = column_height l.
Proof.
  intros F. assert (K : map n_height l' = map n_height l /\ map n_ice l' = map n_ice l /\ map n_lwc l' = map n_lwc l).
  { induction F as [|x x' l l' (A & B & C & D) F (I1 & I2 & I3)]; [auto|]. cbn. repeat split; f_equal; assumption. }
  destruct K as (A & B & C). split; [apply mass_same; assumption|].
  clear - A. revert l' A. induction l as [|x l IH]; intros [|x' l'] A; try discriminate; [reflexivity|].
  injection A as A1 A2. unfold column_height in *. rewrite !total_cons, A1, (IH l' A2). reflexivity.
Qed.

Lemma heat_only_temperature lo hi fuel c g dt g' : constants_ok c -> counted g -> healthy lo hi g ->
  solveHeatEquation fuel c g dt = Ok g' -> Forall2 only_temperature (g_nodes g) (g_nodes g').
Proof.
  intros Hc Hn Hg H. destruct (heat_health lo hi fuel c g dt g' Hc Hn H Hg) as (_ & L3).
  assert (Hk : conductive c (g_nodes g)).
  { split.
    - eapply Forall_impl; [|exact Hg]. intros n (A & B & C & D). auto.
    - unfold solveHeatEquation in H. apply bind_ok in H. destruct H as (hs & _ & H). apply bind_ok in H. destruct H as (ks & E0 & _).
      unfold get_thermal_diffusivity in E0.
      rewrite get_profile_counted in E0 by exact Hn.
      destruct (g_nodes g) as [|n l]; [cbn in L3; lia|]. cbn [map_res] in E0. apply bind_ok in E0. destruct E0 as (y & E0 & _).
      unfold layer_thermal_diffusivity in E0. apply bind_ok in E0. destruct E0 as (k & E0 & _).
      unfold layer_thermal_conductivity in E0.
      destruct (String.eqb_spec (c_thermal_conductivity_method c) "bulk"); [auto|].
      destruct (String.eqb_spec (c_thermal_conductivity_method c) "empirical"); [auto|discriminate]. }
  destruct (heat_maximum_principle_lem c g dt Hc Hn Hk L3) as (g2 & N & W & F & _).
  assert (E : g' = g2).
  { specialize (W (Nat.max N fuel) (Nat.le_max_l _ _)).
    assert (X : solveHeatEquation (Nat.max N fuel) c g dt = Ok g').
    { unfold solveHeatEquation in H |- *.
      apply bind_ok in H; destruct H as (x0 & E & H). apply bind_ok in H; destruct H as (x1 & E0 & H).
      apply bind_ok in H; destruct H as (x2 & E1 & H). apply bind_ok in H; destruct H as (x3 & E2 & H).
      apply bind_ok in H; destruct H as (x4 & E3 & H).
      rewrite E, E0, E1. cbn [bind]. rewrite E2. cbn [bind].
      unfold heat_loop in *. rewrite (while_mono fuel (Nat.max N fuel));
        [rewrite E3; cbn [bind]; exact H|apply Nat.le_max_r|rewrite E3; discriminate|intros; discriminate|intros; discriminate]. }
    congruence. }
  subst g2. exact F.
Qed.

(*@ C95 The mass of the column over one step, for every forcing, remeshing, albedo and flux
    scheme: ice and water after the step are ice and water before, plus the reported snow,
    rain, condensation and vapour exchange, minus the runoff, plus residuals which no
    reported value accounts for: thin layers dropped by the remeshing (at most one, unless
    remeshing is adaptive), layers melted away by penetrating radiation (their ice is not
    more than the reported subsurface melt), the water of layers melted at the surface,
    which is counted twice, the air in melted and in fresh snow, and the compaction (none
    for "constant", a loss for "Boone").  Deposition enters only as far as melt balances it. *)
Lemma step_mass_budget_lem : forall fuel c sw sv dt ml z d inp t s s' o lo,
  run_constants_ok c lo -> 0 < dt -> respects_bounds (sv_minimize sv) ->
  Forall (fun T => lo <= T) (d_T2 d) ->
  counted (s_grid s) -> sound_column lo (c_zero_temperature c) (g_nodes (s_grid s)) ->
  g_nodes (s_grid s) <> [] ->
  core_step fuel c sw sv (dt, ml, z) d inp t s = Ok (s', o) ->
  exists r, residuals_ok c (g_nodes (s_grid s)) o r /\
    column_mass c (g_nodes (s_grid s'))
    = column_mass c (g_nodes (s_grid s)) + reported_gain c [o] + unaccounted c r.
Proof.
  intros fuel c sw sv dt ml z d inp t s s' o lo [Hc Hlo Hz Hcold Hair Hfresh] Hdt Hb HT Hn Hs Hne H.
  apply core_step_inv in H. destruct H. cbn [s_grid] in *.
  set (hi := c_zero_temperature c) in *.
  assert (Hr := fresh_density _ _ _ _ Hair Hfresh H1).
  assert (HT2 := py_get_forall _ _ _ _ HT H). cbv beta in HT2.
  assert (Hra := ok_rho_a _ Hc). assert (Hrw := ok_rho_w _ Hc).
  assert (Hri : 0 < c_ice_density c). { assert (A := ok_rho_ai c Hc). assert (B := ok_rho_thr c Hc). lra. }
  assert (Hr0 : 0 <= rho) by lra.
  destruct (rain_nonneg _ _ _ _ _ Hrw Hr0 (ok_minsnow _ Hc) H5) as (Hsn & Hrn).
  set (g1 := lay_snow c (s_grid s) SNOWFALL rho T2 dt) in *.
  assert (G1 : healthy lo hi g1) by (apply lay_snow_health; try assumption; [reflexivity|lra]).
  assert (C1 : counted g1).
  { unfold g1, lay_snow. destruct (Rltb _ _); [apply add_fresh_snow_counted; exact Hn|exact Hn]. }
  assert (St := ok_stretch _ Hc).
  assert (G2 : healthy lo hi g2) by (eapply update_grid_health; [exact (ok_first _ Hc)| |exact H7|exact G1]; lra).
  assert (G3 : healthy lo hi g3) by (unfold healthy; rewrite (proj1 (albedo_health _ _ _ _ _ _ _ H8)); exact G2).
  assert (G4 : healthy lo hi g4 /\ 0 <= sm).
  { unfold shortwave_below in H10. destruct (Rltb_spec 0 (Rmax Gt 0 * (1 - alpha))) as [L|L].
    - unfold penetrating_radiation in H10. destruct (String.eqb _ _); [|discriminate].
      destruct (bintanja_health lo hi c g3 _ dt g4 sm Gp Hc eq_refl ltac:(lra) (Rlt_le _ _ L) (Rlt_le _ _ Hdt) H10 G3) as (A & B & _). auto.
    - injection H10 as <- <- _. split; [exact G3|lra]. }
  destruct G4 as (G4 & Hsm).
  destruct (surface_health lo hi _ _ _ _ _ _ _ _ _ _ _ eq_refl (proj2 Hlo) Hz Hb H15 G4) as (G5 & HTs).
  destruct (update_grid_ev _ _ _ _ H7) as (_ & C2). specialize (C2 C1).
  destruct (albedo_health _ _ _ _ _ _ _ H8) as (A1 & A2).
  assert (C3 : counted g3) by (unfold counted in *; congruence).
  destruct (shortwave_ev _ _ _ _ _ _ _ H10) as (_ & C4). specialize (C4 C3).
  destruct (update_surface_ev _ _ _ _ _ _ _ _ _ _ _ H15) as (_ & C5). specialize (C5 C4).
  assert (C8 := proj1 (water_clock _ _ _ _ _ _ _ _ _ C5 H19)).
  destruct (fluxes_signs _ _ _ _ _ Hc (Rlt_le _ _ Hdt) H16) as (F1 & F2 & F3 & F4).
  assert (Hme : 0 <= me) by (subst me; apply Rmax_l).
  assert (HL := ok_Lm _ Hc).
  assert (Hmelt : 0 <= melt).
  { apply fdiv_inv in H18. destruct H18 as (_ & ->). apply div_nonneg; [apply Rmult_le_pos; lra|lra]. }
  destruct (water_health lo hi _ _ _ _ _ _ _ _ _ Hc eq_refl Hcold Hmelt F4 Hrn H19 G5) as (G8 & HQ & Hwr).
  destruct (heat_health lo hi _ _ _ _ _ Hc C8 H20 G8) as (G9 & L3).
  destruct (heat_ev _ _ _ _ _ H20) as (_ & C9). specialize (C9 C8).
  assert (good : forall g, healthy lo hi g -> column_good (g_nodes g)).
  { intros g Hg. eapply Forall_impl; [|exact Hg]. unfold sound_layer. cbv beta. tauto. }
  destruct (lay_snow_mass c (s_grid s) SNOWFALL rho T2 dt Hri Hsn) as (M1 & h1). fold g1 in M1, h1.
  assert (N1 : g_nodes g1 <> []).
  { intros E. unfold g1, lay_snow in E. destruct (Rltb 0 SNOWFALL); [|exact (Hne E)].
    unfold add_fresh_snow in E. destruct (Rltb _ _) in E; cbn in E; unfold py_insert in E; destruct (g_nodes (s_grid s)); cbn in E; discriminate. }
  assert (O1 : column_ok (g_nodes g1)).
  { eapply Forall_impl; [|exact G1]. unfold sound_layer. cbv beta. tauto. }
  destruct (update_grid_mass fuel c g1 g2 Hc C1 O1 N1 H7) as (thin & M2 & h2 & Th & Th1).
  assert (N3 : g_nodes g3 <> []).
  { rewrite A1. unfold updateAlbedo in H8. intros E. clear - H15 H10 E A1 C4 C3. rewrite <- A1 in E.
    destruct (update_inv _ _ _ _ _ _ _ _ _ _ _ H15) as (B & top & below & x & _ & E4 & _).
    unfold shortwave_below in H10. destruct (Rltb 0 _) in H10; [|injection H10 as <- _ _; congruence].
    unfold penetrating_radiation in H10. destruct (String.eqb _ _); [|discriminate].
    unfold method_Bintanja in H10. apply bind_ok in H10. destruct H10 as (d0 & _ & H10).
    apply bind_ok in H10. destruct H10 as (r0 & X & _). unfold get_node_density, get_node in X. rewrite E in X. discriminate. }
  destruct (shortwave_mass c g3 _ dt g4 sm Gp Hc C3 (good _ G3) N3 H10) as (sun & M4 & Sg & Si & h4).
  destruct (update_inv _ _ _ _ _ _ _ _ _ _ _ H15) as (B & top5 & below5 & x5 & _ & E4 & _ & E5 & _).
  assert (F5 : Forall2 only_temperature (g_nodes g4) (g_nodes g5)).
  { rewrite E5, E4. cbn [g_nodes with_nodes]. constructor; [repeat split; reflexivity|].
    clear. induction below5; constructor; [repeat split; reflexivity|assumption]. }
  destruct (temperature_only_mass c _ _ F5) as (M5 & h5).
  destruct (water_mass fuel c g5 melt m RAIN g8 Q wr Hc C5 (good _ G5) H19) as (top & air & M8 & Ha & (below & Et) & Hno).
  destruct (temperature_only_mass c _ _ (heat_only_temperature lo hi _ _ _ _ _ Hc C8 G8 H20)) as (M9 & h9).
  exists (mkResiduals thin sun top air (c_air_density c * (SNOWFALL - SNOWFALL * rho / c_ice_density c))
            (column_mass c (g_nodes g10) - column_mass c (g_nodes g9))).
  apply fdiv_inv in H22. destruct H22 as (_ & Er). subst ratio.
  assert (Ew : c_water_density c * (SNOWFALL * (rho / c_water_density c)) = SNOWFALL * rho) by (field; lra).
  split.
  - constructor; cbn [r_thin r_sun r_top r_air r_fresh r_compaction o_subM o_SNOWFALL o_surfM o_SUBLIMATION o_DEPOSITION].
    + exact Th.
    + exact Th1.
    + split; [exact Sg|exact Si].
    + assert (X := good _ G5). rewrite Et in X. apply Forall_app in X. exact (proj1 X).
    + intros X. apply Hno. lra.
    + lra.
    + exists SNOWFALL. rewrite Ew. repeat split; [lra|nra|].
      assert (0 <= column_height (g_nodes g8)).
      { apply height_nonneg. eapply Forall_impl; [|exact (good _ G8)]. cbv beta. intros; lra. }
      assert (0 <= column_height thin).
      { apply height_nonneg. eapply Forall_impl; [|exact Th]. cbv beta. intros; lra. }
      rewrite A1 in h4.
      assert (column_height (g_nodes g5) - column_height (g_nodes g8) <= column_height (g_nodes (s_grid s)) + SNOWFALL) by lra.
      nra.
    + intros X. unfold densification in H21. rewrite X in H21. cbn in H21. injection H21 as <-. lra.
    + intros X. unfold densification in H21. rewrite X in H21. cbn in H21.
      destruct (boone_loses_mass_lem c g9 dt Hc C9 (good _ G9) Hdt) as (g' & W & L & _).
      rewrite H21 in W. injection W as <-. lra.
  - unfold reported_gain, sum_outputs, unaccounted. cbn [fold_right r_thin r_sun r_top r_air r_fresh r_compaction
      o_SNOWFALL o_RAIN o_CONDENSATION o_surfM o_SUBLIMATION o_DEPOSITION o_Q].
    rewrite A1 in M4. lra.
Qed.

(*@ C95 The same over any number of steps: the residuals add up. *)
Lemma run_mass_budget_lem : forall fuel c sw sv dt ml z d inp lo count t s s' os,
  run_constants_ok c lo -> 0 < dt -> respects_bounds (sv_minimize sv) ->
  Forall (fun T => lo <= T) (d_T2 d) ->
  counted (s_grid s) -> sound_column lo (c_zero_temperature c) (g_nodes (s_grid s)) ->
  g_nodes (s_grid s) <> [] ->
  c_densification_method c = "constant"%string \/
  (forall k sk osk, (k <= count)%nat ->
     core_loop fuel c sw sv (dt, ml, z) d inp k t s = Ok (sk, osk) -> layers_ok (g_nodes (s_grid sk))) ->
  core_loop fuel c sw sv (dt, ml, z) d inp count t s = Ok (s', os) ->
  exists rs, Forall2 (fun o r => exists before, column_good before /\ residuals_ok c before o r) os rs /\
    column_mass c (g_nodes (s_grid s'))
    = column_mass c (g_nodes (s_grid s)) + reported_gain c os
      + unaccounted c (fold_right add_residuals no_residuals rs).
Proof.
  intros fuel c sw sv dt ml z d inp lo count. induction count as [|k IH]; intros t s s' os Hc Hdt Hb HT Hn Hs Hne HD H.
  - injection H as <- <-. exists []. split; [constructor|].
    unfold reported_gain, unaccounted. cbn. rewrite mass_nil. unfold column_water, total. cbn. ring.
  - cbn [core_loop] in H. apply bind_ok in H. destruct H as ((s1 & o) & E & H).
    apply bind_ok in H. destruct H as ((s2 & os2) & E2 & H). injection H as <- <-.
    assert (D1 : c_densification_method c = "constant"%string \/ layers_ok (g_nodes (s_grid s1))).
    { destruct HD as [M|M]; [left; exact M|right]. apply (M 1%nat s1 [o]); [lia|]. cbn [core_loop]. rewrite E. reflexivity. }
    destruct (step_keeps_layers_sound_lem _ _ _ _ _ _ _ _ _ _ _ _ _ _ Hc (Rlt_le _ _ Hdt) Hb HT Hn Hs E D1) as (C1 & G1 & R1 & _).
    assert (D2 : c_densification_method c = "constant"%string \/
      (forall j sk osk, (j <= k)%nat -> core_loop fuel c sw sv (dt, ml, z) d inp j (t + 1) s1 = Ok (sk, osk) -> layers_ok (g_nodes (s_grid sk)))).
    { destruct HD as [M|M]; [left; exact M|right]. intros j sk osk Hj X.
      apply (M (S j) sk (o :: osk)); [lia|]. cbn [core_loop]. rewrite E. cbn [bind]. rewrite X. reflexivity. }
    assert (N1 : g_nodes (s_grid s1) <> []).
    { assert (L := sr_layers _ _ _ R1). intros X.
      assert (N : o_NLAYERS o = g_number_nodes (s_grid s1)) by (apply core_step_inv in E; destruct E; reflexivity).
      unfold counted in C1. rewrite X in C1. cbn in C1. lia. }
    destruct (step_mass_budget_lem _ _ _ _ _ _ _ _ _ _ _ _ _ _ Hc Hdt Hb HT Hn Hs Hne E) as (r & Hr & M).
    destruct (IH _ _ _ _ Hc Hdt Hb HT C1 G1 N1 D2 E2) as (rs & Hrs & M').
    exists (r :: rs). split.
    { constructor; [|exact Hrs]. exists (g_nodes (s_grid s)). split; [|exact Hr].
      eapply Forall_impl; [|exact Hs]. unfold sound_layer. cbv beta. tauto. }
    rewrite M', M. unfold reported_gain, sum_outputs, unaccounted. cbn [fold_right].
    set (q := fold_right add_residuals no_residuals rs). unfold add_residuals. cbn [r_thin r_sun r_top r_air r_fresh r_compaction].
    rewrite !mass_app. unfold column_water. rewrite total_app. ring.
Qed.

(*@ C95 A step in which deposition and sublimation leave no melt never ends with more mass
    than reported (with constant density or compaction after Boone, without adaptive
    remeshing), apart from rounding in the fresh snow of the order of the air density; at
    most one layer, a thin one, is dropped. *)
Lemma step_mass_no_gain_lem : forall fuel c sw sv dt ml z d inp t s s' o lo,
  run_constants_ok c lo -> 0 < dt -> respects_bounds (sv_minimize sv) ->
  Forall (fun T => lo <= T) (d_T2 d) ->
  counted (s_grid s) -> sound_column lo (c_zero_temperature c) (g_nodes (s_grid s)) ->
  g_nodes (s_grid s) <> [] ->
  c_remesh_method c <> "adaptive_profile"%string ->
  In (c_densification_method c) ["constant"; "Boone"]%string ->
  o_surfM o <= o_SUBLIMATION o + o_DEPOSITION o ->
  core_step fuel c sw sv (dt, ml, z) d inp t s = Ok (s', o) ->
  exists thin, (length thin <= 1)%nat /\ Forall (fun n => 0 < n_height n <= c_minimum_snow_layer_height c) thin /\
    column_mass c (g_nodes (s_grid s')) + column_mass c thin
    <= column_mass c (g_nodes (s_grid s)) + reported_gain c [o]
       + c_water_density c * o_SNOWFALL o * (c_air_density c / c_ice_density c).
Proof.
  intros fuel c sw sv dt ml z d inp t s s' o lo HR Hdt Hb HT Hn Hs Hne HM HD HN H.
  destruct (step_mass_budget_lem _ _ _ _ _ _ _ _ _ _ _ _ _ _ HR Hdt Hb HT Hn Hs Hne H) as (r & K & M).
  assert (Hc := rc_ok _ _ HR).
  assert (Hra := ok_rho_a _ Hc). assert (Hrw := ok_rho_w _ Hc).
  assert (Hri : 0 < c_ice_density c). { assert (A := ok_rho_ai c Hc). assert (B := ok_rho_thr c Hc). lra. }
  destruct K as [K1 K2 (K3 & _) K4 K5 K6 (h & h0 & _ & K7 & _) K8 K9].
  exists (r_thin r). split; [exact (K2 HM)|]. split; [exact K1|]. rewrite M.
  destruct (K5 HN) as (K5a & K5b). unfold unaccounted. rewrite K5a, K5b, K7.
  assert (column_water [] = 0) by (unfold column_water, total; reflexivity).
  assert (0 <= column_mass c (r_sun r)).
  { clear - K3 Hri Hrw. induction K3 as [|x l A K3 IH]; [rewrite mass_nil; lra|]. rewrite mass_cons, column_mass_total, total_cons, total_nil.
    unfold layer_mass. assert (0 <= c_ice_density c * n_ice x + c_water_density c * n_lwc x) by nra. nra. }
  assert (r_compaction r <= 0).
  { destruct HD as [X|[X|[]]]; [rewrite (K8 (eq_sym X)); lra|exact (K9 (eq_sym X))]. }
  assert (0 <= c_air_density c * h) by (apply Rmult_le_pos; lra).
  replace (c_air_density c * (h - c_water_density c * o_SNOWFALL o / c_ice_density c))
    with (c_air_density c * h - c_water_density c * o_SNOWFALL o * (c_air_density c / c_ice_density c)) by (field; lra).
  rewrite H0. lra.
Qed.

(*@ex The calm polar night of C92: three ice layers of half a metre and 6 mm of snow. *)
Lemma calm_mass_lem : exists fuel inp s' o r,
  core_step fuel calm_constants calm_switches calm_solvers calm_settings calm_data inp 0 calm_state = Ok (s', o) /\
  residuals_ok calm_constants (g_nodes (s_grid calm_state)) o r /\ r_compaction r = 0 /\
  o_SNOWFALL o = 0.006 /\ o_surfM o = 0 /\
  column_mass calm_constants (g_nodes (s_grid calm_state)) = 1.5 * c_ice_density calm_constants /\
  column_mass calm_constants (g_nodes (s_grid s'))
  = column_mass calm_constants (g_nodes (s_grid calm_state)) + reported_gain calm_constants [o] + unaccounted calm_constants r.
Proof.
  destruct calm_step_lem as (fuel & inp & s' & o & Hr & Hb & HT & Hn & Hs & Hi & H & _ & ESN & ETs & EM).
  assert (Hdt : 0 < 3600) by lra.
  destruct (step_mass_budget_lem _ _ _ _ _ _ _ _ _ _ _ _ _ _ Hr Hdt Hb HT Hn Hs ltac:(discriminate) H) as (r & K & M).
  exists fuel, inp, s', o, r. split; [exact H|]. split; [exact K|]. split; [apply (rs_constant _ _ _ _ K); reflexivity|].
  split; [rewrite ESN; lra|]. split.
  { apply core_step_inv in H. destruct H. cbn [o_ME o_surfM] in *.
    match goal with H : fdiv (me * _) _ = Ok melt |- _ => apply fdiv_inv in H; destruct H as (_ & ->) end. rewrite EM.
    unfold Rdiv. rewrite Rmult_0_l. apply Rmult_0_l. }
  split; [|exact M]. unfold column_mass, column_ice, column_water, total. cbn. lra.
Qed.
