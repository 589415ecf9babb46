(** * When steps and runs complete (C103, C104) *)
From Verif Require Import ModelPy ModelConstants ModelNode ModelGrid ModelWater ModelHeat ModelDensification
  ModelRadiation ModelAlbedo ModelSurface ModelInit ModelCore Spec SpecSurface SpecRun SpecCore SpecCalm SpecProgress
  LemPy LemGridBase LemMerge LemGridOps LemHealth LemCore LemFinGrid LemFinInit LemFinCore LemFinRun LemMass LemFinFuel LemProgress.

(*@ C103 One time step, for all states with a firm column (every layer has a height, 5 to 100 per cent of
    ice, no negative water and a temperature between the lower bound and melting), all admissible
    inputs, all admissible constants and every solver that answers: the step completes, with the same result for all
    bounds on the loops from some bound on, or it is stuck for one of the listed reasons. *)
Lemma step_completes_or_stuck_lem :
  forall c sw sv dt max_layers z d inp t s lo,
    progress_constants c lo -> forcing_fits c dt z d inp t lo -> dependable (sv_minimize sv) ->
    counted (s_grid s) -> clock_ok (s_grid s) -> firm_column lo (c_zero_temperature c) (g_nodes (s_grid s)) ->
    (exists s' o N, forall fuel, (N <= fuel)%nat -> core_step fuel c sw sv (dt, max_layers, z) d inp t s = Ok (s', o)) \/
    stuck c sw sv dt max_layers z d inp t s.
Proof.
  intros c sw sv dt ml z d inp t s lo Hp Hf Hd Hn Hk Hg.
  destruct (step_completes_core c sw sv dt ml z d inp t s lo Hp Hf Hd Hn Hk Hg) as [(s' & o & N & E & _)|X]; [left|right; exact X].
  exists s', o, N. exact E.
Qed.

(*@ C103 Conversely every stuck step raises an exception. *)
Lemma stuck_step_raises_lem :
  forall c sw sv dt max_layers z d inp t s lo,
    progress_constants c lo -> forcing_fits c dt z d inp t lo -> dependable (sv_minimize sv) ->
    counted (s_grid s) -> clock_ok (s_grid s) -> firm_column lo (c_zero_temperature c) (g_nodes (s_grid s)) ->
    stuck c sw sv dt max_layers z d inp t s ->
    exists N e, (forall fuel, (N <= fuel)%nat -> core_step fuel c sw sv (dt, max_layers, z) d inp t s = Err e) /\
      (In e [IndexError; ZeroDivisionError; ValueError] \/ In (c_sfc_temperature_method c) ["Newton"; "Secant"]%string).
Proof.
  intros c sw sv dt ml z d inp t s lo Hp Hf Hd Hn Hk Hg Hs.
  exact (stuck_raises_core c sw sv dt ml z d inp t s lo Hp Hf (proj1 Hd) Hn Hk Hg Hs).
Qed.

(*@ C103 So a step completes exactly if it is not stuck. *)
Lemma step_completes_iff_lem :
  forall c sw sv dt max_layers z d inp t s lo,
    progress_constants c lo -> forcing_fits c dt z d inp t lo -> dependable (sv_minimize sv) ->
    counted (s_grid s) -> clock_ok (s_grid s) -> firm_column lo (c_zero_temperature c) (g_nodes (s_grid s)) ->
    ((exists fuel s' o, core_step fuel c sw sv (dt, max_layers, z) d inp t s = Ok (s', o)) <->
     ~ stuck c sw sv dt max_layers z d inp t s).
Proof.
  intros c sw sv dt ml z d inp t s lo Hp Hf Hd Hn Hk Hg. split.
  - intros (fuel & s' & o & E) Hs.
    destruct (stuck_step_raises_lem c sw sv dt ml z d inp t s lo Hp Hf Hd Hn Hk Hg Hs) as (N & e & K & _).
    destruct (core_step_refines fuel (Nat.max fuel N) c sw sv (dt, ml, z) d inp t s ltac:(lia)) as [X|X].
    + rewrite E in X. discriminate.
    + rewrite K, E in X by lia. discriminate.
  - intros Ns. destruct (step_completes_or_stuck_lem c sw sv dt ml z d inp t s lo Hp Hf Hd Hn Hk Hg) as [(s' & o & N & K)|X]; [|contradiction].
    exists N, s', o. apply K. lia.
Qed.

(*@ C103 A column vanishes in the logarithmic remeshing only if it is lower than the first layer or than its snow
    stretched by the factor of the remeshing, and in the adaptive remeshing only if it has no layers or, apart from
    layers no thicker than the minimum, is one layer thinner than the first layer is to be. *)
Lemma only_short_columns_vanish_lem :
  forall c g lo, progress_constants c lo -> counted g -> firm_column lo (c_zero_temperature c) (g_nodes g) ->
    vanishes c g ->
    (c_remesh_method c = "log_profile"%string -> too_short c (g_nodes g)) /\
    (c_remesh_method c = "adaptive_profile"%string -> g_nodes g = [] \/ thinned_out c (g_nodes g)).
Proof. exact vanishes_short. Qed.

(** ** Runs *)
Lemma firm_dec lo hi l : firm_column lo hi l \/ ~ firm_column lo hi l.
Proof.
  assert (D : {firm_column lo hi l} + {~ firm_column lo hi l}); [|destruct D; auto].
  apply Forall_dec. intros n. unfold firm_layer, sound_layer.
  destruct (Rlt_dec 0 (n_height n)), (Rlt_dec 0 (n_ice n)), (Rle_dec 0 (n_lwc n)), (Rle_dec lo (n_temperature n)),
    (Rle_dec (n_temperature n) hi), (Rle_dec 0.05 (n_ice n)), (Rle_dec (n_ice n) 1); (left; tauto) || (right; tauto).
Qed.

(*@ C104 A run over any number of steps, all of them with admissible input: it completes, or after some number of
    completed steps the next step is stuck, or (with a densification other than "constant") a layer has
    left the range of firm layers. *)
Lemma run_completes_or_stuck_lem :
  forall c sw sv dt max_layers z d inp lo, progress_constants c lo -> dependable (sv_minimize sv) ->
  forall count t s,
    (forall k, (k < count)%nat -> forcing_fits c dt z d inp (t + Z.of_nat k) lo) ->
    counted (s_grid s) -> clock_ok (s_grid s) -> firm_column lo (c_zero_temperature c) (g_nodes (s_grid s)) ->
    exists N,
      (exists s' os, forall fuel, (N <= fuel)%nat -> core_loop fuel c sw sv (dt, max_layers, z) d inp count t s = Ok (s', os)) \/
      (exists k sk os, (k < count)%nat /\
        (forall fuel, (N <= fuel)%nat -> core_loop fuel c sw sv (dt, max_layers, z) d inp k t s = Ok (sk, os)) /\
        (stuck c sw sv dt max_layers z d inp (t + Z.of_nat k) sk \/
         (c_densification_method c <> "constant"%string /\
          ~ firm_column lo (c_zero_temperature c) (g_nodes (s_grid sk))))).
Proof.
  intros c sw sv dt ml z d inp lo Hp Hd count. induction count as [|n IH]; intros t s Hf Hn Hk Hg.
  { exists 0%nat. left. exists s, []. reflexivity. }
  assert (F0 := Hf 0%nat ltac:(lia)). rewrite Z.add_0_r in F0.
  destruct (step_completes_core c sw sv dt ml z d inp t s lo Hp F0 Hd Hn Hk Hg) as [(s1 & o & N1 & E1 & F1)|X].
  2:{ exists 0%nat. right. exists 0%nat, s, []. split; [lia|]. split; [reflexivity|]. left. rewrite Z.add_0_r. exact X. }
  destruct (pc_run _ _ Hp) as [Hc Hlo Hz0 Hcold Hair Hfresh].
  assert (K : counted (s_grid s1) /\ clock_ok (s_grid s1)).
  { assert (Ha := ok_rho_a _ Hc). destruct F0.
    destruct (snow_clock_step_lem N1 c sw sv dt ml z d inp t s s1 o Hc ltac:(lra) ltac:(lra) Hn Hk (E1 N1 (le_n N1))) as (A & B & _). auto. }
  destruct K as (Hn1 & Hk1).
  destruct (firm_dec lo (c_zero_temperature c) (g_nodes (s_grid s1))) as [G1|G1].
  - destruct (IH (t + 1)%Z s1) as (N2 & H2); try assumption.
    { intros k Lk. replace (t + 1 + Z.of_nat k)%Z with (t + Z.of_nat (S k))%Z by lia. apply Hf. lia. }
    exists (Nat.max N1 N2). destruct H2 as [(s2 & os & E2)|(k & sk & os & Lk & E2 & W)].
    + left. exists s2, (o :: os). intros fuel Lf. cbn [core_loop]. rewrite E1 by lia. cbn [bind]. rewrite E2 by lia. reflexivity.
    + right. exists (S k), sk, (o :: os). split; [lia|]. split.
      * intros fuel Lf. cbn [core_loop]. rewrite E1 by lia. cbn [bind]. rewrite E2 by lia. reflexivity.
      * replace (t + Z.of_nat (S k))%Z with (t + 1 + Z.of_nat k)%Z by lia. exact W.
  - destruct n as [|n'].
    + exists N1. left. exists s1, [o]. intros fuel Lf. cbn [core_loop]. rewrite E1 by lia. reflexivity.
    + exists N1. right. exists 1%nat, s1, [o]. split; [lia|]. split.
      * intros fuel Lf. cbn [core_loop]. rewrite E1 by lia. reflexivity.
      * right. split; [|exact G1]. intros HD. apply G1, F1. exact HD.
Qed.

(*@ C104 A whole cell, from the initial column to the restart data: with admissible constants and forcing
    the run completes, or stops at a stuck step, or (with a densification other than "constant") a layer has left
    the range of firm layers after some step, or the run has more layers at its end than can be stored. *)
Lemma cell_completes_or_stuck_lem :
  forall c sw sv d inp lo, progress_constants c lo -> dependable (sv_minimize sv) ->
    sw_WRF_X_CSPY sw = false ->
    0 < c_initial_glacier_height c -> 0 < c_initial_glacier_layer_heights c ->
    0.05 * c_ice_density c + c_air_density c <= c_initial_top_density_snowpack c <= c_ice_density c - c_air_density c ->
    0.05 * c_ice_density c + c_air_density c <= c_initial_bottom_density_snowpack c <= c_ice_density c - c_air_density c ->
    lo <= c_temperature_bottom c <= c_zero_temperature c ->
    select_inputs c sw d = Ok inp -> (0 < nt d)%nat ->
    (forall k, (k < nt d)%nat -> forcing_fits c (c_dt c) (c_z c) d inp (Z.of_nat k) lo) ->
    exists N T2 g, py_get (d_T2 d) 0 = Ok T2 /\ init_snowpack c (d_SNOWHEIGHT d) T2 = Ok g /\
      ((exists s os r, forall fuel, (N <= fuel)%nat -> cosipy_core fuel c sw sv d None = Ok (s, os, Some r)) \/
       (exists k sk os, (k < nt d)%nat /\
         (forall fuel, (N <= fuel)%nat -> core_loop fuel c sw sv (c_dt c, c_max_layers c, c_z c) d inp k 0 (start_state c sw g) = Ok (sk, os)) /\
         (stuck c sw sv (c_dt c) (c_max_layers c) (c_z c) d inp (Z.of_nat k) sk \/
          (c_densification_method c <> "constant"%string /\
           ~ firm_column lo (c_zero_temperature c) (g_nodes (s_grid sk))))) \/
       (exists s os, (forall fuel, (N <= fuel)%nat ->
           core_loop fuel c sw sv (c_dt c, c_max_layers c, c_z c) d inp (nt d) 0 (start_state c sw g) = Ok (s, os)) /\
         (c_max_layers c < Z.of_nat (length (g_nodes (s_grid s))))%Z)).
Proof.
  intros c sw sv d inp lo Hp Hd Hw Hgh Hgl Htop Hbot Hbt Ei Hnt Hf.
  destruct (pc_run _ _ Hp) as [Hc Hlo Hz0 Hcold Hair Hfresh].
  assert (F0 := Hf 0%nat Hnt). destruct F0 as [_ _ _ (T2 & U2 & rho & ET & _ & HT & _) _ _ _ _ _]. cbn [Z.of_nat] in ET.
  assert (HT1 := Rmax_l lo 0.56).
  assert (Ha := ok_rho_a _ Hc). assert (Hi : c_air_density c < c_ice_density c) by (destruct Hc; lra).
  destruct (initial_column_lem c (d_SNOWHEIGHT d) T2 Ha ltac:(lra) Hgh Hgl ltac:(lra) ltac:(lra))
    as (g & snow & ice & Eg & En & Cg & Hfs & _ & _ & Hh1 & _ & Hh2 & _ & Hw0 & Hde & Hic & _ & _ & Ht).
  assert (S0 : firm_column lo (c_zero_temperature c) (g_nodes g)).
  { rewrite En. unfold firm_column. rewrite Forall_forall. intros n Hin.
    rewrite Forall_forall in Ht, Hw0. specialize (Ht n Hin). specialize (Hw0 n Hin). cbv beta in Ht, Hw0.
    assert (X : 0 < n_height n /\ 0.05 <= n_ice n <= 1).
    { apply in_app_or in Hin. destruct Hin as [Hin|Hin].
      - rewrite Forall_forall in Hh1, Hde. destruct (Hh1 n Hin) as (_ & A). destruct (Hde n Hin) as (B & B'). split; [exact A|].
        assert (L1 : 0.05 * c_ice_density c + c_air_density c <= layer_density c n) by (eapply Rle_trans; [|exact B]; apply Rmin_glb; lra).
        assert (L2 : layer_density c n <= c_ice_density c).
        { eapply Rle_trans; [exact B'|].
          assert (c_air_density c * c_air_density c / c_ice_density c <= c_air_density c).
          { apply Rmult_le_reg_r with (c_ice_density c); [lra|]. unfold Rdiv. rewrite Rmult_assoc, Rinv_l by lra. nra. }
          assert (Rmax (c_initial_top_density_snowpack c) (c_initial_bottom_density_snowpack c) <= c_ice_density c - c_air_density c)
            by (apply Rmax_lub; lra). lra. }
        unfold layer_density, layer_air_porosity in L1, L2. destruct Hw0 as (W0 & _). rewrite W0 in L1, L2.
        destruct (Rle_dec (n_ice n) 1) as [I1|I1].
        + rewrite Rmax_right in L1, L2 by lra. split; [|exact I1].
          apply Rnot_lt_le. intros I2. nra.
        + rewrite Rmax_left in L2 by lra. nra.
      - rewrite Forall_forall in Hh2, Hic. rewrite (Hh2 n Hin). destruct (Hic n Hin) as (-> & _). lra. }
    destruct X as (X1 & X2). split; [|exact X2]. split; [exact X1|]. split; [lra|]. split; [lra|].
    unfold between in Ht. destruct Ht as (Ht1 & Ht2). split.
    - eapply Rle_trans; [|exact Ht1]. repeat apply Rmin_glb; lra.
    - eapply Rle_trans; [exact Ht2|]. apply Rmax_lub; [apply Rmin_r|lra]. }
  assert (Ck : clock_ok g).
  { unfold get_fresh_snow_props in Hfs. injection Hfs as A1 A2 A3. unfold clock_ok. rewrite A2, A3. split; [lra|right; reflexivity]. }
  destruct (run_completes_or_stuck_lem c sw sv (c_dt c) (c_max_layers c) (c_z c) d inp lo Hp Hd (nt d) 0%Z (start_state c sw g))
    as (N & H); try assumption.
  exists N, T2, g. split; [exact ET|]. split; [exact Eg|].
  destruct H as [(s & os & E)|(k & sk & os & Lk & E & W)].
  - destruct (Z_lt_le_dec (c_max_layers c) (Z.of_nat (length (g_nodes (s_grid s))))) as [L|L].
    + right. right. exists s, os. auto.
    + left.
      assert (Hn : counted (s_grid s)).
      { refine (proj1 (loop_clock N c sw sv (c_dt c) (c_max_layers c) (c_z c) d inp (nt d) 0 (start_state c sw g) s os Hc _ _ Cg Ck (E N (le_n N)))).
        - lra.
        - assert (X := ok_dt _ Hc). lra. }
      destruct (restart_round_trip_lem c (s_grid s) Hn ltac:(unfold counted in Hn; rewrite Hn; exact L)) as (r & Er & _).
      exists s, os, r. intros fuel Lf. unfold cosipy_core, run_settings. rewrite Hw. cbn [bind]. rewrite ET. cbn [bind]. rewrite Eg. cbn [bind].
      rewrite Ei. cbn [bind]. cbv zeta. rewrite (E fuel Lf). cbn [bind]. destruct (Nat.eqb_spec (nt d) 0); [lia|]. rewrite Er. reflexivity.
  - right. left. exists k, sk, os. split; [exact Lk|]. split; [exact E|]. rewrite Z.add_0_l in W. exact W.
Qed.


(** ** Examples *)
Lemma calm_dependable : dependable (sv_minimize calm_solvers).
Proof.
  split.
  - intros m func guess lo hi y v. cbn. destruct (Rle_dec lo hi) as [L|L]; [|discriminate]. intros E; injection E as <- <-. exists lo. split; [reflexivity|lra].
  - intros m func guess lo hi L _. cbn. destruct (Rle_dec lo hi); [|contradiction]. eexists; reflexivity.
Qed.

Lemma sqrt_3_bounds : 0 <= sqrt 3 <= 2.
Proof. split; [apply sqrt_pos|]. rewrite <- (sqrt_square 2) by lra. apply sqrt_le_1; lra. Qed.

(*@ex C103 The shipped constants, an hour of snowfall and a cold column meet the hypotheses. *)
Lemma progress_case_lem : exists inp,
  select_inputs default_constants calm_switches snowy_data = Ok inp /\
  progress_constants default_constants 150 /\ forcing_fits default_constants 3600 2 snowy_data inp 0 150 /\
  dependable (sv_minimize calm_solvers) /\ counted (s_grid calm_state) /\ clock_ok (s_grid calm_state) /\
  firm_column 150 (c_zero_temperature default_constants) (g_nodes (s_grid calm_state)).
Proof.
  eexists. split; [reflexivity|]. split.
  { constructor; try (constructor; cbn; try lra; tauto); try (cbn; lra); try reflexivity; try (cbn; tauto).
    constructor; cbn; try lra. constructor; cbn; lra. }
  split.
  { assert (S3 := sqrt_3_bounds). constructor; try (cbn; lra).
    - exists 265, 3, (Rmax (109 + 6 * (265 - 273.16) + 26 * sqrt 3) 50).
      split; [reflexivity|]. split; [reflexivity|].
      split. { unfold Rmax. destruct (Rle_dec _ _); lra. }
      split; [lra|]. split.
      { unfold fresh_snow_density. cbn. rewrite Rltb_false by lra. reflexivity. }
      cbn. unfold Rmax. destruct (Rle_dec _ _); lra.
    - exists 60, 600. repeat split; try reflexivity; lra.
    - exists 0. reflexivity.
    - eexists _, _. split; reflexivity.
    - eexists _, _. split; [reflexivity|]. split; [reflexivity|]. left. discriminate.
    - discriminate. }
  split; [exact calm_dependable|]. split; [reflexivity|]. split; [split; [cbn; lra|right; reflexivity]|].
  repeat constructor; cbn; lra.
Qed.

(*@ex C103 So do adaptive remeshing, the albedo after Bougamont and the densification after Vionnet. *)
Lemma progress_other_methods_lem : exists inp,
  select_inputs vionnet_constants calm_switches snowy_data = Ok inp /\
  c_remesh_method vionnet_constants = "adaptive_profile"%string /\ c_albedo_method vionnet_constants = "Bougamont05"%string /\
  c_densification_method vionnet_constants = "Vionnet"%string /\
  progress_constants vionnet_constants 150 /\ forcing_fits vionnet_constants 3600 2 snowy_data inp 0 150 /\
  firm_column 150 (c_zero_temperature vionnet_constants) (g_nodes (s_grid calm_state)).
Proof.
  eexists. split; [reflexivity|]. do 3 (split; [reflexivity|]). split.
  { constructor; try (constructor; cbn; try lra; tauto); try (cbn; lra); try reflexivity; try (cbn; tauto).
    constructor; cbn; try lra. constructor; cbn; lra. }
  split; [|repeat constructor; cbn; lra].
  assert (S3 := sqrt_3_bounds). constructor; try (cbn; lra).
  - exists 265, 3, (Rmax (109 + 6 * (265 - 273.16) + 26 * sqrt 3) 50).
    split; [reflexivity|]. split; [reflexivity|].
    split. { unfold Rmax. destruct (Rle_dec _ _); lra. }
    split; [lra|]. split.
    { unfold fresh_snow_density. cbn. rewrite Rltb_false by lra. reflexivity. }
    cbn. unfold Rmax. destruct (Rle_dec _ _); lra.
  - exists 60, 600. repeat split; try reflexivity; lra.
  - exists 0. reflexivity.
  - eexists _, _. split; reflexivity.
  - eexists _, _. split; [reflexivity|]. split; [reflexivity|]. left. discriminate.
  - intros _. cbn. rewrite cos_0. lra.
Qed.

(*@ex C103 A dry hour on the last five millimetres of ice: that step is stuck. *)
Lemma stuck_case_lem :
  let d := mkData [220] [60] [600] [0] [0] (Some [0]) (Some [0]) (Some [50]) None None None None in
  let s := mkState (mkGrid [mkNode 0.005 220 0 1 0] 1 0 0 0) 220 0.85 0 in
  exists inp, select_inputs snowy_constants calm_switches d = Ok inp /\
    counted (s_grid s) /\ clock_ok (s_grid s) /\ firm_column 150 (c_zero_temperature snowy_constants) (g_nodes (s_grid s)) /\
    stuck snowy_constants calm_switches calm_solvers 3600 200 2 d inp 0 s.
Proof.
  intros d s. eexists. split; [reflexivity|].
  split; [reflexivity|]. split; [split; [cbn; lra|right; reflexivity]|]. split; [repeat constructor; cbn; lra|].
  eapply stuck_vanished with (RAIN := 0).
  - exists 220, 0, 300, (Some (0 * 1)), (Some (0 * 1)), (0, Some 0), 0.
    split; [reflexivity|]. split; [reflexivity|]. split; [reflexivity|]. split; [reflexivity|]. split; [reflexivity|].
    split. { unfold snow_and_rain, fdiv. cbn. destruct (Req_EM_T 1000 0); [lra|]. cbn. repeat f_equal; lra. }
    split. { unfold threshold_precipitation, fdiv. cbn. destruct (Req_EM_T 1000 0); [lra|]. cbn.
      rewrite !Rltb_true by lra. reflexivity. }
    reflexivity.
  - unfold lay_snow. rewrite Rltb_false by lra.
    set (x := mkNode 0.005 220 0 1 0). set (g := set_fresh_snow_props_update_time (s_grid s) 3600).
    assert (Gx : g_nodes g = [x]) by reflexivity. assert (Cg : counted g) by reflexivity.
    assert (Dx : layer_density snowy_constants x = 917).
    { unfold layer_density, layer_air_porosity, x. cbn. rewrite Rmax_left by lra. lra. }
    assert (Ns : nsnow snowy_constants (g_nodes g) = 0%nat).
    { rewrite Gx. unfold nsnow; cbn. unfold snowb. rewrite Dx. rewrite Rltb_false by (cbn; lra). reflexivity. }
    assert (W : exists g', log_profile 3 snowy_constants g = Ok g' /\ g_nodes g' = []).
    { unfold log_profile. rewrite get_total_snowheight_counted by exact Cg. rewrite Ns. cbn [bind firstn].
      cbn [while_loop log_snow_cond]. rewrite get_number_snow_layers_counted by exact Cg. rewrite Ns.
      cbn [bind Z.of_nat Z.ltb Z.compare].
      rewrite get_total_height_counted by exact Cg. cbn [bind].
      rewrite get_total_snowheight_counted by exact Cg. rewrite Ns. cbn [bind firstn].
      rewrite get_number_snow_layers_counted by exact Cg. rewrite Ns. cbn [bind Z.of_nat].
      cbn [log_ice_cond bind]. change (0 <? get_number_layers g)%Z with true. cbn [log_ice_body].
      assert (Hh : column_height (g_nodes g) - column_height [] = 0.005).
      { rewrite Gx. unfold column_height; cbn; lra. }
      rewrite Hh. rewrite Rleb_false by (cbn; lra). rewrite Rltb_true by (cbn; lra).
      destruct (merge_nodes_minus_one_single_lem g x Gx) as (g1 & Hm & Hn); [cbn; lra|].
      change (0 - 1)%Z with (-1)%Z. rewrite Hm. cbn [bind].
      assert (Nn : g_number_nodes g1 = 0%Z).
      { destruct (merge_nodes_inv g (-1) g1) as (Hq & _); auto.
        rewrite Gx. repeat constructor; cbn; lra. }
      cbn [while_loop log_ice_cond bind]. unfold get_number_layers. rewrite Nn.
      change (0 + 1 <? 0)%Z with false. cbn [bind]. exists g1. auto. }
    destruct W as (g' & W & Hn). exists 3%nat. intros fuel L. left. unfold update_grid.
    change (String.eqb (c_remesh_method snowy_constants) "log_profile") with true. cbv iota.
    rewrite (log_profile_more 3 fuel snowy_constants g g' L W). cbn [bind].
    unfold get_node_height, get_node. rewrite Hn. reflexivity.
Qed.

(*@ex C104 Two hours of snowfall on an initial column of snow and ice meet the hypotheses. *)
Lemma run_progress_case_lem : exists inp,
  progress_constants snowy_constants 150 /\ dependable (sv_minimize calm_solvers) /\
  sw_WRF_X_CSPY calm_switches = false /\ c_densification_method snowy_constants = "constant"%string /\
  select_inputs snowy_constants calm_switches snowy_data = Ok inp /\ nt snowy_data = 2%nat /\
  0.05 * c_ice_density snowy_constants + c_air_density snowy_constants <= c_initial_top_density_snowpack snowy_constants /\
  c_initial_bottom_density_snowpack snowy_constants <= c_ice_density snowy_constants - c_air_density snowy_constants /\
  150 <= c_temperature_bottom snowy_constants <= c_zero_temperature snowy_constants /\
  forall k, (k < nt snowy_data)%nat -> forcing_fits snowy_constants (c_dt snowy_constants) (c_z snowy_constants) snowy_data inp (Z.of_nat k) 150.
Proof.
  eexists. split.
  { constructor; try (constructor; cbn; try lra; tauto); try (cbn; lra); try reflexivity; try (cbn; tauto).
    constructor; cbn; try lra. constructor; cbn; lra. }
  split; [exact calm_dependable|]. do 2 (split; [reflexivity|]). split; [reflexivity|]. split; [reflexivity|].
  split; [cbn; lra|]. split; [cbn; lra|]. split; [cbn; lra|].
  intros k Lk. cbn in Lk. destruct k as [|[|k]]; [| |lia].
  all: constructor; try (cbn; lra).
  all: try (eexists _, _; split; [reflexivity|]; split; [reflexivity|]; left; discriminate).
  all: try (eexists _, _, 300; split; [reflexivity|]; split; [reflexivity|]; cbn; unfold Rmax; destruct (Rle_dec _ _); repeat split; lra).
  all: try (eexists; reflexivity).
  all: try (eexists _, _; split; reflexivity).
  all: try discriminate.
  all: eexists _, _; repeat split; try reflexivity; cbn; lra.
Qed.
