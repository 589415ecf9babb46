(** * Ranges of what is reported *)
From Verif Require Import ModelPy ModelConstants ModelNode ModelGrid ModelWater ModelHeat ModelDensification
  ModelRadiation ModelAlbedo ModelSurface ModelInit ModelCore ModelConfig ModelIO ModelMain
  Spec SpecSurface SpecInit SpecCore SpecIO SpecRun SpecCell SpecRange SpecCalm.
From Verif Require Import LemPy LemGridBase LemGridOps LemGridMore LemWater LemHeat LemSurface LemCore LemHealth
  LemFinAlbedo LemFinInit LemFinSurface LemFinCore LemFinHeat LemFinRun LemFinCell LemFinCell2.
From Coq Require Import Lra Lia.

(*@ C112 In every completed step the albedo after Oerlemans lies between that of ice and that of fresh
   snow, and the roughness between those of fresh snow and firn, or it is that of ice. *)
Lemma step_surface_range_lem :
  forall fuel c sw sv dt ml z d inp t s s' o lo,
    run_constants_ok c lo -> surface_constants_ok c -> 0 <= dt ->
    c_albedo_method c = "Oerlemans98"%string ->
    Forall (fun T => lo <= T) (d_T2 d) ->
    counted (s_grid s) -> clock_ok (s_grid s) ->
    sound_column lo (c_zero_temperature c) (g_nodes (s_grid s)) ->
    core_step fuel c sw sv (dt, ml, z) d inp t s = Ok (s', o) ->
    surface_range c o.
Proof.
  intros fuel c sw sv dt ml z d inp t s s' o lo [Hc Hlo Hz Hcold Hair Hfresh] Hsc Hdt Hm HT Hn Hk Hs H.
  apply core_step_inv in H. destruct H. cbn [s_grid] in *. unfold surface_range. cbn [o_ALBEDO o_Z0].
  set (hi := c_zero_temperature c) in *.
  assert (Hr := fresh_density _ _ _ _ Hair Hfresh H1).
  assert (HT2 := py_get_forall _ _ _ _ HT H). cbv beta in HT2.
  assert (Hra := ok_rho_a _ Hc). assert (Hrw := ok_rho_w _ Hc).
  assert (Hr0 : 0 <= rho) by lra.
  destruct (rain_nonneg _ _ _ _ _ Hrw Hr0 (ok_minsnow _ Hc) H5) as (Hsn & Hrn).
  assert (G1 : healthy lo hi (lay_snow c (s_grid s) SNOWFALL rho T2 dt))
    by (apply lay_snow_health; try assumption; [reflexivity|lra]).
  assert (St := ok_stretch _ Hc).
  assert (G2 : healthy lo hi g2) by (eapply update_grid_health; [exact (ok_first _ Hc)| |exact H7|exact G1]; lra).
  set (g1 := lay_snow c (s_grid s) SNOWFALL rho T2 dt) in *.
  assert (C1 : counted g1 /\ clock_ok g1).
  { unfold g1, lay_snow. destruct Hk as ((K1 & K2) & K3). destruct (Rltb_spec 0 SNOWFALL) as [P|P].
    - split; [apply add_fresh_snow_counted; exact Hn|].
      destruct (threshold_snow _ _ _ _ _ H5) as [Z0|Z0]; [lra|]. assert (Hms := ok_minsnow _ Hc).
      unfold add_fresh_snow, clock_ok. rewrite Rltb_false by lra. cbn. split; [lra|left; lra].
    - split; [exact Hn|]. unfold clock_ok, set_fresh_snow_props_update_time. cbn.
      split; [lra|]. destruct K3 as [K3|K3]; [left; exact K3|right; lra]. }
  destruct C1 as (C1 & C2).
  destruct (update_grid_ev _ _ _ _ H7) as ((A1 & A2 & A3) & A4). specialize (A4 C1).
  assert (K2 : clock_ok g2) by (unfold clock_ok in *; rewrite A1, A2, A3; exact C2).
  assert (E23 := albedo_clock _ _ _ _ _ _ _ H8). destruct E23 as (B1 & B2 & B3 & B4 & B5). specialize (B5 K2).
  assert (Ne : g_nodes g2 <> []).
  { intros E. unfold updateAlbedo in H8. rewrite Hm in H8. cbn in H8. unfold method_Oerlemans in H8.
    apply bind_ok in H8 as ((g' & a') & H8 & _). destruct (get_surface_properties c g2) as [gx [[h0 t0] hr]].
    assert (A5 : g_nodes g3 = []) by congruence. clear H8.
    unfold updateRoughness in H9. crunch.
    all: unfold method_Moelg in *; crunch.
    all: unfold get_node_density, get_node in *; crunch.
    all: rewrite ?A5 in *; cbn in *; try discriminate. }
  assert (Lo : layers_ok (g_nodes g2)).
  { unfold layers_ok. eapply Forall_impl; [|exact G2]. intros nn (X1 & X2 & X3 & _). repeat split; lra. }
  split.
  - destruct (oerlemans_range_lem c g2 Hsc A4 Lo Ne ltac:(apply K2) ltac:(destruct K2; lra)) as (g' & a & W & Ra & _).
    unfold updateAlbedo in H8. rewrite Hm in H8. cbn in H8. rewrite W in H8. cbn in H8. injection H8 as _ <- _. exact Ra.
  - destruct (g_nodes g3) as [|top below] eqn:E3; [congruence|].
    assert (T3 : 0 <= g_new_snow_timestamp g3).
    { unfold ages in B5. injection B5 as -> _. apply K2. }
    destruct (roughness_range_lem c g3 top below Hsc E3 T3) as (zz & Wz & Z1 & Z2 & _).
    assert (zz = z0).
    { unfold updateRoughness in H9. destruct (String.eqb _ _); [|discriminate]. congruence. }
    subst zz. destruct (Rle_or_lt (layer_density c top) (c_snow_ice_threshold c)) as [L|L]; [left; auto|right; auto].
Qed.

Lemma sound_layers lo hi l : sound_column lo hi l -> layers_ok l.
Proof. intros H. eapply Forall_impl; [|exact H]. intros n (X1 & X2 & X3 & _). repeat split; lra. Qed.

(*@ C112 The same over any number of steps, together with the signs and bounds of all other reported values. *)
Lemma run_surface_range_lem :
  forall fuel c sw sv dt ml z d inp lo count t s s' os,
    run_constants_ok c lo -> surface_constants_ok c -> 0 <= dt -> respects_bounds (sv_minimize sv) ->
    c_albedo_method c = "Oerlemans98"%string ->
    Forall (fun T => lo <= T) (d_T2 d) ->
    counted (s_grid s) -> clock_ok (s_grid s) ->
    sound_column lo (c_zero_temperature c) (g_nodes (s_grid s)) ->
    c_densification_method c = "constant"%string \/
    (forall k sk osk, (k <= count)%nat ->
       core_loop fuel c sw sv (dt, ml, z) d inp k t s = Ok (sk, osk) -> layers_ok (g_nodes (s_grid sk))) ->
    core_loop fuel c sw sv (dt, ml, z) d inp count t s = Ok (s', os) ->
    Forall (sound_report lo (c_zero_temperature c)) os /\ Forall (surface_range c) os.
Proof.
  intros fuel c sw sv dt ml z d inp lo count. induction count as [|k IH];
    intros t s s' os Hc Hsc Hdt Hb Hm HT Hn Hk Hs HD H.
  - injection H as <- <-. auto.
  - cbn [core_loop] in H. apply bind_ok in H. destruct H as ((s1 & o) & E & H).
    apply bind_ok in H. destruct H as ((s2 & os2) & E2 & H). injection H as <- <-.
    assert (D1 : c_densification_method c = "constant"%string \/ layers_ok (g_nodes (s_grid s1))).
    { destruct HD as [M|M]; [left; exact M|right]. apply (M 1%nat s1 [o]); [lia|]. cbn [core_loop]. rewrite E. reflexivity. }
    destruct (step_keeps_layers_sound_lem _ _ _ _ _ _ _ _ _ _ _ _ _ _ Hc Hdt Hb HT Hn Hs E D1) as (C1 & G1 & R1 & _).
    assert (F1 : surface_range c o) by (exact (step_surface_range_lem _ _ _ _ _ _ _ _ _ _ _ _ _ _ Hc Hsc Hdt Hm HT Hn Hk Hs E)).
    assert (Hc' := Hc). destruct Hc' as [Hc0 _ _ _ _ Hfr]. assert (Hra := ok_rho_a _ Hc0).
    assert (K1 : clock_ok (s_grid s1)).
    { assert (Hcd : 0 < c_constant_density c) by lra.
      destruct (snow_clock_step_lem _ _ _ _ _ _ _ _ _ _ _ _ _ Hc0 Hcd Hdt Hn Hk E) as (_ & X & _). exact X. }
    assert (D2 : c_densification_method c = "constant"%string \/
      (forall j sk osk, (j <= k)%nat -> core_loop fuel c sw sv (dt, ml, z) d inp j (t + 1) s1 = Ok (sk, osk) -> layers_ok (g_nodes (s_grid sk)))).
    { destruct HD as [M|M]; [left; exact M|right]. intros j sk osk Hj X.
      apply (M (S j) sk (o :: osk)); [lia|]. cbn [core_loop]. rewrite E. cbn [bind]. rewrite X. reflexivity. }
    destruct (IH _ _ _ _ Hc Hsc Hdt Hb Hm HT C1 K1 G1 D2 E2) as (R2 & F2). auto.
Qed.

Lemma initial_sound c lo sh T20 g : run_constants_ok c lo -> initial_constants_ok c lo -> lo <= T20 ->
  init_snowpack c sh T20 = Ok g ->
  counted g /\ clock_ok g /\ sound_column lo (c_zero_temperature c) (g_nodes g).
Proof.
  intros HR [Hg Hl Htop Hbot Hbt] HT0 Eg. destruct HR as [Hc Hlo Hz Hcold Hair Hfresh]. destruct Hc eqn:EHc. clear EHc.
  destruct (initial_column_lem c sh T20 ok_rho_a ltac:(lra) Hg Hl ltac:(lra) ltac:(lra))
    as (g' & snow & ice & Eg' & En & Cg & Hfs & _ & _ & Hh1 & _ & Hh2 & _ & Hw0 & Hd & Hi & _ & _ & Ht).
  assert (g' = g) by congruence. subst g'. split; [exact Cg|]. split.
  { unfold get_fresh_snow_props in Hfs. injection Hfs as A1 A2 A3. unfold clock_ok. rewrite A2, A3. split; [lra|right; reflexivity]. }
  rewrite En. unfold sound_column. rewrite Forall_forall. intros n Hin.
  rewrite Forall_forall in Ht, Hw0. specialize (Ht n Hin). specialize (Hw0 n Hin). cbv beta in Ht, Hw0.
  assert (X : 0 < n_height n /\ 0 < n_ice n).
  { apply in_app_or in Hin. destruct Hin as [Hin|Hin].
    - rewrite Forall_forall in Hh1, Hd. destruct (Hh1 n Hin) as (_ & A). destruct (Hd n Hin) as (B & _). split; [exact A|].
      assert (c_air_density c < layer_density c n).
      { eapply Rlt_le_trans; [|exact B]. apply Rmin_glb_lt; lra. }
      destruct (Rlt_le_dec 0 (n_ice n)) as [|N]; [assumption|exfalso].
      unfold layer_density, layer_air_porosity in H. destruct Hw0 as (W0 & _). rewrite W0 in H.
      rewrite Rmax_right in H by lra. nra.
    - rewrite Forall_forall in Hh2, Hi. rewrite (Hh2 n Hin). destruct (Hi n Hin) as (-> & _). lra. }
  destruct X as (X1 & X2). split; [exact X1|]. split; [exact X2|]. split; [lra|].
  unfold between in Ht. destruct Ht as (Ht1 & Ht2). split.
  - eapply Rle_trans; [|exact Ht1]. repeat apply Rmin_glb; lra.
  - eapply Rle_trans; [exact Ht2|]. apply Rmax_lub; [apply Rmin_r|lra].
Qed.

(*@ C112 A complete run of one cell from the initial column: every reported value of every step has the right sign and lies in its range. *)
Lemma cell_ranges_lem :
  forall fuel c sw sv d lo s os r,
    run_constants_ok c lo -> surface_constants_ok c -> initial_constants_ok c lo ->
    respects_bounds (sv_minimize sv) -> c_albedo_method c = "Oerlemans98"%string ->
    Forall (fun T => lo <= T) (d_T2 d) -> sw_WRF_X_CSPY sw = false ->
    densification_safe fuel c sw sv d ->
    cosipy_core fuel c sw sv d None = Ok (s, os, r) ->
    Forall (sound_report lo (c_zero_temperature c)) os /\ Forall (surface_range c) os.
Proof.
  intros fuel c sw sv d lo s os r HR Hsc Hic Hb Hm HT Hw HD H.
  unfold cosipy_core, run_settings in H. rewrite Hw in H. cbn [bind] in H.
  apply bind_ok in H. destruct H as (g & Eg & H). apply bind_ok in H. destruct H as (inp & Ei & H).
  apply bind_ok in H. destruct H as ((s1 & os1) & W & H).
  destruct (nt d =? 0)%nat; [discriminate|]. apply bind_ok in H. destruct H as (rr & _ & H). injection H as <- <- _.
  apply bind_ok in Eg. destruct Eg as (T20 & E0 & Eg).
  assert (HT0 := py_get_forall _ _ _ _ HT E0). cbv beta in HT0.
  destruct (initial_sound c lo _ _ g HR Hic HT0 Eg) as (C0 & K0 & S0).
  assert (Hdt : 0 <= c_dt c) by (destruct HR as [[]]; lra).
  refine (run_surface_range_lem _ _ _ _ _ _ _ _ _ _ _ _ (start_state c sw g) _ _ HR Hsc Hdt Hb Hm HT C0 K0 S0 _ W).
  destruct HD as [M|M]; [left; exact M|right]. intros k sk osk Lk E. eapply M; eassumption.
Qed.

(*@ C112 In the result file of a completed run without restart every value of a glacier cell lies in the range of its
   variable, for each variable that is written and has a range. *)
Lemma file_ranges_lem :
  forall fuel cfg c sw sv sd arrivals data stakes measured io col lo y x k,
    run_cosipy cfg c (cell_work fuel cfg c sw sv sd data) arrivals data None stakes measured io = Ok col ->
    schedule arrivals -> sw_full_field sw = rc_full_field cfg -> rc_restart cfg = false ->
    sizes data = Ok (io_ny io, io_nx io) -> (0 <= y < io_ny io)%Z -> (0 <= x < io_nx io)%Z -> is_glacier data y x ->
    run_constants_ok c lo -> surface_constants_ok c -> initial_constants_ok c lo ->
    respects_bounds (sv_minimize sv) -> c_albedo_method c = "Oerlemans98"%string -> sw_WRF_X_CSPY sw = false ->
    (forall d, reads data y x d ->
       (k < nt d)%nat /\ Forall (fun T => lo <= T) (d_T2 d) /\ densification_safe fuel c sw sv d) ->
    (forall name P, In name (io_atm io) -> atm_range c name = Some P ->
       exists v, file_number (io_RESULT (col_io col)) name y x k v /\ P v) /\
    (forall name P, In name (io_internal io) -> internal_range name = Some P ->
       exists v, file_number (io_RESULT (col_io col)) name y x k v /\ P v) /\
    (forall name P, rc_full_field cfg = true -> In name (io_full io) -> layer_range c lo name = Some P ->
       exists row, file_profile (io_RESULT (col_io col)) ("LAYER_" ++ name)%string y x k row /\
         forall v, In (Some v) row -> P v).
Proof.
  intros fuel cfg c sw sv sd arrivals data stakes measured io col lo y x k H Sc Ff Rs Sz Hy Hx G HR Hsc Hic Hb Hm Hw Hk.
  destruct (cell_computed_lem _ _ _ _ _ _ _ _ _ _ _ _ _ y x H Sc Ff Sz Hy Hx G)
    as (d & st & s & outs & last & R1 & R2 & R3 & (F1 & F2 & F3 & _)).
  unfold starts_from in R2. rewrite Rs in R2. subst st.
  destruct (Hk d R1) as (Lk & HT & HD). clear Hk.
  destruct (cell_ranges_lem _ _ _ _ _ _ _ _ _ HR Hsc Hic Hb Hm HT Hw HD R3) as (Q1 & Q2).
  assert (L : length outs = nt d) by (apply core_outputs in R3; tauto).
  destruct (nth_error outs k) as [o|] eqn:Eo; [|apply nth_error_None in Eo; lia].
  rewrite Forall_forall in Q1, Q2. assert (Io := nth_error_In _ _ Eo).
  specialize (Q1 o Io). specialize (Q2 o Io). destruct Q1. destruct Q2 as (Al & Zr).
  assert (FN : forall f name (P : R -> Prop) (v : R),
    (exists var, dict_find (io_RESULT (col_io col)) name = Some var /\ cell_at (v_data var) y x = Some (Series (map f outs))) ->
    f o = Some v -> P v -> exists v, file_number (io_RESULT (col_io col)) name y x k v /\ P v).
  { intros f name P v (var & V1 & V2) E Pv. exists v. split; [|exact Pv]. exists var. eexists.
    split; [exact V1|]. split; [exact V2|]. rewrite nth_error_map, Eo. cbn. rewrite E. reflexivity. }
  split; [|split].
  - intros name P I E. unfold atm_range in E. cbn [dict_find] in E.
    repeat match type of E with
    | (if String.eqb ?a ?b then _ else _) = _ =>
        destruct (String.eqb_spec a b) as [<-|]; [injection E as <-; (eapply FN; [eapply F1; [exact I|reflexivity]|reflexivity|cbv beta; lra || assumption])|]
    end. discriminate.
  - intros name P I E. unfold internal_range in E. cbn [dict_find] in E.
    repeat match type of E with
    | (if String.eqb ?a ?b then _ else _) = _ =>
        destruct (String.eqb_spec a b) as [<-|]; [injection E as <-; (eapply FN; [eapply F2; [exact I|reflexivity]|reflexivity|cbv beta; first [lra|assumption|apply IZR_le; exact sr_layers]])|]
    end. discriminate.
  - intros name P Fu I E.
    assert (Pf : forall (f : LayerFields -> list R) (P : R -> Prop), layer_field name = Some f -> 
      (forall p, o_profiles o = Some p -> Forall P (f p)) ->
      exists row, file_profile (io_RESULT (col_io col)) ("LAYER_" ++ name)%string y x k row /\ forall v, In (Some v) row -> P v).
    { intros f P0 Ef Pp. destruct (F3 name f Fu I Ef) as (var & V1 & V2).
      exists (profile_row (c_max_layers c) f o). split.
      - exists var. eexists. split; [exact V1|]. split; [exact V2|]. rewrite nth_error_map, Eo. reflexivity.
      - intros v Iv. unfold profile_row in Iv. destruct (o_profiles o) as [p|].
        + apply in_app_or in Iv as [Iv|Iv]; [|apply repeat_spec in Iv; discriminate].
          apply in_map_iff in Iv as (w & Ew & Iv). injection Ew as ->.
          specialize (Pp p eq_refl). rewrite Forall_forall in Pp. apply Pp; exact Iv.
        + apply repeat_spec in Iv. discriminate. }
    unfold layer_range in E. cbn [dict_find] in E.
    repeat match type of E with
    | (if String.eqb ?a ?b then _ else _) = _ =>
        destruct (String.eqb_spec a b) as [<-|]; [injection E as <-; (eapply Pf; [reflexivity|intros p Ep; apply (sr_profiles p Ep)])|]
    end. discriminate.
Qed.

(*@ C112 The same for the whole program: what the result file of a completed run without restart holds in a glacier
   cell of the data, or of their tile. *)
Lemma main_ranges_lem :
  forall parse fuel cfg c sw sv sd arrivals file open_restart stakes measured w whole ms lo ny nx y x k,
    cosipy_main parse cfg c (cell_work fuel cfg c sw sv sd) arrivals file open_restart stakes measured = Ok w ->
    schedule arrivals -> sw_full_field sw = rc_full_field cfg -> rc_restart cfg = false ->
    init_data_dataset parse cfg file None = Ok (whole, ms) ->
    let data := if rc_tile cfg then cut_tile cfg whole else whole in
    sizes data = Ok (ny, nx) -> (0 <= y < ny)%Z -> (0 <= x < nx)%Z -> is_glacier data y x ->
    run_constants_ok c lo -> surface_constants_ok c -> initial_constants_ok c lo ->
    respects_bounds (sv_minimize sv) -> c_albedo_method c = "Oerlemans98"%string -> sw_WRF_X_CSPY sw = false ->
    (forall d, reads data y x d ->
       (k < nt d)%nat /\ Forall (fun T => lo <= T) (d_T2 d) /\ densification_safe fuel c sw sv d) ->
    (forall name P, In name (io_atm (io_init cfg)) -> atm_range c name = Some P ->
       exists v, file_number (w_result w) name y x k v /\ P v) /\
    (forall name P, In name (io_internal (io_init cfg)) -> internal_range name = Some P ->
       exists v, file_number (w_result w) name y x k v /\ P v) /\
    (forall name P, rc_full_field cfg = true -> In name (io_full (io_init cfg)) -> layer_range c lo name = Some P ->
       exists row, file_profile (w_result w) ("LAYER_" ++ name)%string y x k row /\
         forall v, In (Some v) row -> P v).
Proof.
  intros parse fuel cfg c sw sv sd arrivals file open_restart stakes measured w whole ms lo ny nx y x k
    H Sc Ff Rs Ed data Sz Hy Hx G HR Hsc Hic Hb Hm Hw Hk.
  destruct (main_parts _ _ _ _ _ _ _ _ _ _ Rs H) as (d0 & ms0 & io & col & Ed0 & R & A1 & A2 & A3 & Sz0 & W1 & _).
  rewrite Ed in Ed0. injection Ed0 as <- _. fold data in R, Sz0. rewrite Sz in Sz0. injection Sz0 as -> ->.
  rewrite <- A1, <- A2, <- A3, W1. eapply file_ranges_lem; eassumption.
Qed.

(*@ex C112 All hypotheses hold for the run over the two cells of a calm night: its file holds an albedo, a surface
   temperature and layer heights in their ranges. *)
Lemma calm_ranges_lem : exists fuel,
  forall sd, exists w v t row,
  cosipy_main calm_parse (calm_config false) calm_constants
    (cell_work fuel (calm_config false) calm_constants calm_switches calm_solvers sd) (@rev Job)
    (Some calm_file) (fun _ => None) [] [] = Ok w /\
  file_number (w_result w) "ALBEDO" 0 0 0 v /\ 0.3 <= v <= 0.85 /\
  file_number (w_result w) "TS" 0 0 0 t /\ 220 <= t <= 273.16 /\
  file_profile (w_result w) "LAYER_HEIGHT" 0 0 0 row /\ forall h, In (Some h) row -> 0 < h.
Proof.
  destruct calm_run_lem as (fuel & C). exists fuel. intros sd. destruct (C sd) as (w & _ & W & _).
  destruct (calm_opened false) as [ms Ed].
  destruct calm_step_lem as (_ & _ & _ & _ & Hr & Hb & HT & _).
  destruct (main_ranges_lem calm_parse fuel (calm_config false) calm_constants calm_switches calm_solvers sd (@rev Job)
    (Some calm_file) (fun _ => None) [] [] w calm_file ms 150 1 2 0 0 0 W) as (P1 & _ & P3); try reflexivity; try assumption; try lia.
  - intros l; apply Permutation.Permutation_rev.
  - eexists; split; reflexivity.
  - constructor; cbn; lra.
  - constructor; cbn; lra.
  - intros d Rd.
    assert (d = calm_data) as ->.
    { refine (reads_unique _ _ _ _ _ _ _ _ _ Rd calm_reads). split; reflexivity. }
    split; [cbn; lia|]. split; [exact HT|left; reflexivity].
  - destruct (P1 "ALBEDO"%string _ ltac:(cbn; tauto) eq_refl) as (v & V1 & V2).
    destruct (P1 "TS"%string _ ltac:(cbn; tauto) eq_refl) as (t & T1 & T2).
    destruct (P3 "HEIGHT"%string _ eq_refl ltac:(cbn; tauto) eq_refl) as (row & R1 & R2).
    exists w, v, t, row. cbn in V2, T2, R2. auto 10.
Qed.
