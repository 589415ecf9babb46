(** * The time loop (C17, C38-C43) *)
From Verif Require Import ModelPy ModelConstants ModelNode ModelGrid ModelWater ModelHeat
  ModelDensification ModelRadiation ModelAlbedo ModelSurface ModelInit ModelCore Spec SpecCore
  LemPy LemGridBase LemMerge LemGridOps LemGridMore LemWater LemFinAlbedo LemFinSurface LemCore LemSim.
From Coq Require Import Rtrigo_def.

(** ** Precipitation (C38) *)

Lemma fresh_density_pos c T2 U2 rho : 0 < c_constant_density c ->
  fresh_snow_density c T2 U2 = Ok rho -> 0 < rho.
Proof.
  intros Hc H. unfold fresh_snow_density in H. crunch; [exact Hc|].
  eapply Rlt_le_trans; [|apply Rmax_r]. lra.
Qed.

Lemma cosh_pos x : 0 < cosh x.
Proof. unfold cosh. assert (A := exp_pos x). assert (B := exp_pos (- x)). lra. Qed.

Lemma tanh_form x : tanh x = 1 - 2 / (exp (2 * x) + 1).
Proof.
  unfold tanh, sinh, cosh. replace (2 * x) with (x + x) by ring. rewrite exp_plus, exp_Ropp.
  assert (A := exp_pos x). field. nra.
Qed.

Lemma share_bounds c T2 : 0 < snow_share c T2 < 1.
Proof.
  unfold snow_share. rewrite tanh_form. set (y := 2 * _). assert (A := exp_pos y). clearbody y.
  assert (B : 0 < / (exp y + 1) < 1).
  { split; [apply Rinv_0_lt_compat; lra|]. rewrite <- Rinv_1. apply Rinv_lt_contravar; lra. }
  unfold Rdiv. lra.
Qed.

(*@ C38 The share of snow lies strictly between 0 and 1, is one half at the transfer
    temperature, and decreases strictly with the air temperature. *)
Lemma snow_share_decreases_lem : forall (c : Consts) (T T' : R),
  0 < c_spread_snow_transfer_function c -> T < T' ->
  0 < snow_share c T' < snow_share c T /\ snow_share c T < 1 /\
  snow_share c (c_zero_temperature c + c_center_snow_transfer_function c) = / 2.
Proof.
  intros c T T' Hs H. assert (A := share_bounds c T). assert (A' := share_bounds c T').
  split; [split; [lra|]|split; [lra|]].
  - unfold snow_share. rewrite !tanh_form.
    set (y := 2 * ((T - _ - _) * _)). set (y' := 2 * ((T' - _ - _) * _)).
    assert (E : exp y < exp y') by (apply exp_increasing; unfold y, y'; nra).
    assert (P := exp_pos y). assert (P' := exp_pos y').
    assert (/ (exp y' + 1) < / (exp y + 1)) by (apply Rinv_lt_contravar; nra). lra.
  - unfold snow_share. replace ((_ - _ - _) * _) with 0 by ring.
    rewrite tanh_form, Rmult_0_r, exp_0. lra.
Qed.

(*@ C38 With total precipitation as the only input, every amount r >= 0 is split into snow
    and rain, neither negative, that add up to r exactly; the snow is the share given by the
    transfer function. *)
Lemma precipitation_partition_exact_lem : forall (c : Consts) (rho T2 r : R),
  0 < c_water_density c -> 0 < rho -> 0 <= r ->
  exists s rain, snow_and_rain c rho T2 None (Some r) = Ok (s, Some rain) /\
    snow_mass c rho s + rain = r /\ 0 <= s /\ 0 <= rain /\
    snow_mass c rho s = r * snow_share c T2.
Proof.
  intros c rho T2 r Hw Hr Hp. unfold snow_and_rain. rewrite !fdiv_ok by lra. cbn [bind].
  eexists; eexists. split; [reflexivity|].
  assert (B := share_bounds c T2).
  assert (E : 0.5 * (- tanh ((T2 - c_zero_temperature c - c_center_snow_transfer_function c)
               * c_spread_snow_transfer_function c) + 1) = snow_share c T2) by (unfold snow_share; lra).
  rewrite E. set (k := snow_share c T2) in *. clearbody k.
  assert (M : snow_mass c rho (r / 1000 * (c_water_density c / rho) * k) = r * k).
  { unfold snow_mass. field. lra. }
  unfold snow_mass in *. rewrite M.
  split; [ring|]. split.
  { apply Rmult_le_pos; [|lra]. apply Rmult_le_pos; [lra|]. apply Rle_mult_inv_pos; lra. }
  split; [nra|reflexivity].
Qed.

(*@ C38 Afterwards each part is either kept as it is or, if it is smaller than the smallest
    accepted snowfall, dropped: the dropped amount is lost, not accumulated. *)
Lemma precipitation_threshold_lem : forall (c : Consts) (rho s rain : R),
  0 < c_water_density c ->
  exists s' rain', threshold_precipitation c rho (s, Some rain) = Ok (s', rain') /\
    (c_minimum_snowfall c <= s -> s' = s) /\ (s < c_minimum_snowfall c -> s' = 0) /\
    (snow_mass c rho (c_minimum_snowfall c) <= rain -> rain' = rain) /\
    (rain < snow_mass c rho (c_minimum_snowfall c) -> rain' = 0).
Proof.
  intros c rho s rain Hw. unfold threshold_precipitation. rewrite fdiv_ok by lra. cbn [bind].
  eexists; eexists. split; [reflexivity|]. unfold snow_mass.
  split; [intros; rewrite Rltb_false by lra; reflexivity|].
  split; [intros; rewrite Rltb_true by lra; reflexivity|].
  split; [intros; rewrite Rltb_false by lra; reflexivity|].
  intros; rewrite Rltb_true by lra; reflexivity.
Qed.

(*@ C38 Finding: with both inputs given, snowfall that exceeds the total precipitation makes
    the rain negative, the threshold sets it to zero, and more mass is accepted than the
    total precipitation. *)
Lemma snow_exceeding_total_lem : forall (c : Consts) (rho T2 s r : R),
  constants_ok c -> 0 < rho -> c_minimum_snowfall c <= s -> r < snow_mass c rho s ->
  exists raw, snow_and_rain c rho T2 (Some s) (Some r) = Ok raw /\
    threshold_precipitation c rho raw = Ok (s, 0) /\ r < snow_mass c rho s + 0.
Proof.
  intros c rho T2 s r Hc Hr Hs Hx. assert (Hw := ok_rho_w c Hc). assert (Hm := ok_minsnow c Hc).
  unfold snow_and_rain. rewrite fdiv_ok by lra. cbn [bind]. eexists. split; [reflexivity|].
  unfold threshold_precipitation. rewrite fdiv_ok by lra. cbn [bind].
  unfold snow_mass in *. rewrite Rltb_false by lra.
  assert (0 < c_minimum_snowfall c * (rho / c_water_density c) * 1000).
  { apply Rmult_lt_0_compat; [|lra]. apply Rmult_lt_0_compat; [lra|].
    apply Rmult_lt_0_compat; [lra|]. now apply Rinv_0_lt_compat. }
  rewrite Rltb_true by lra. split; [reflexivity|lra].
Qed.

(*@ex the hypotheses of the partition theorems are met by a concrete case *)
Lemma precipitation_example_lem :
  constants_ok default_constants /\ 0 < c_spread_snow_transfer_function default_constants /\
  fresh_snow_density default_constants 270 4 = Ok 142.04 /\ 0 <= 2.5.
Proof.
  split; [exact default_ok|]. split; [cbn; lra|]. split; [|lra].
  unfold fresh_snow_density. cbn [c_densification_method default_constants String.eqb Ascii.eqb Bool.eqb].
  rewrite Rltb_false by lra. replace 4 with (2 * 2) at 1 by lra. rewrite sqrt_square by lra.
  rewrite Rmax_left by lra. f_equal. lra.
Qed.

(** ** Surface mass fluxes (C39) *)

(*@ C39 The four surface mass fluxes: below the melting temperature only sublimation (<= 0)
    and deposition (>= 0) occur, at or above it only evaporation (<= 0) and condensation
    (>= 0); one of the two is zero, and together they carry exactly the latent heat flux. *)
Lemma mass_fluxes_exclusive_lem : forall (c : Consts) (Ts LE dt : R),
  0 < c_water_density c -> 0 < c_lat_heat_sublimation c -> 0 < c_lat_heat_vaporize c -> 0 <= dt ->
  exists m, mass_fluxes c Ts LE dt = Ok m /\
    m_sublimation m <= 0 /\ 0 <= m_deposition m /\ m_evaporation m <= 0 /\ 0 <= m_condensation m /\
    (Ts < c_zero_temperature c ->
       m_evaporation m = 0 /\ m_condensation m = 0 /\
       (m_sublimation m = 0 \/ m_deposition m = 0) /\
       (m_sublimation m + m_deposition m) * (c_water_density c * c_lat_heat_sublimation c) = LE * dt) /\
    (c_zero_temperature c <= Ts ->
       m_sublimation m = 0 /\ m_deposition m = 0 /\
       (m_evaporation m = 0 \/ m_condensation m = 0) /\
       (m_evaporation m + m_condensation m) * (c_water_density c * c_lat_heat_vaporize c) = LE * dt).
Proof.
  intros c Ts LE dt Hw Hs Hv Hd. unfold mass_fluxes.
  destruct (Rltb_spec Ts (c_zero_temperature c)) as [H|H].
  - rewrite fdiv_ok by nra. cbn [bind]. eexists. split; [reflexivity|]. cbn.
    set (L := c_water_density c * c_lat_heat_sublimation c). assert (HL : 0 < L) by (unfold L; nra).
    set (q := LE / L). assert (E : q * L = LE) by (unfold q; field; lra). clearbody q L.
    unfold Rmin, Rmax. repeat destruct (Rle_dec _ _); repeat split; try nra; try (left; nra); try (right; nra); try lra.
  - rewrite fdiv_ok by nra. cbn [bind]. eexists. split; [reflexivity|]. cbn.
    set (L := c_water_density c * c_lat_heat_vaporize c). assert (HL : 0 < L) by (unfold L; nra).
    set (q := LE / L). assert (E : q * L = LE) by (unfold q; field; lra). clearbody q L.
    unfold Rmin, Rmax. repeat destruct (Rle_dec _ _); repeat split; try nra; try (left; nra); try (right; nra); try lra.
Qed.

(** ** Bookkeeping (C40) *)

(*@ C40 Every step that does not raise: the balance is surface plus internal balance; the
    surface balance is snowfall minus melt plus sublimation, deposition and evaporation
    (condensation is not in it); the internal balance is refreezing minus subsurface melt;
    melt energy and melt are not negative and belong together (with the literal density
    1000); the cumulative balance grows by the balance of the step. *)
Lemma step_balance_lem : forall fuel c sw sv dt ml z d inp t s s' o,
  0 < c_lat_heat_melting c -> 0 <= dt ->
  core_step fuel c sw sv (dt, ml, z) d inp t s = Ok (s', o) ->
  o_MB o = o_surfMB o + o_intMB o /\
  o_surfMB o = o_SNOWFALL o - o_surfM o + o_SUBLIMATION o + o_DEPOSITION o + o_EVAPORATION o /\
  o_intMB o = o_REFREEZE o - o_subM o /\
  0 <= o_ME o /\ 0 <= o_surfM o /\
  o_surfM o * (1000 * c_lat_heat_melting c) = o_ME o * dt /\
  s_MB_cum s' = s_MB_cum s + o_MB o.
Proof.
  intros fuel c sw sv dt ml z d inp t s s' o HL Hdt H. apply core_step_inv in H.
  destruct H as [T2 U2 rho snowf rrr raw SN RAIN Gt g2 g3 alpha as_ z0
    g4 sm Gp RH2 PRES lwin n g5 fn Ts f m melt g8 Q wr g9 g10 sh th pr ratio me]. cbn.
  assert (Hme : 0 <= me) by (subst me; apply Rmax_l).
  match goal with H : fdiv (me * dt) _ = Ok melt |- _ => apply fdiv_inv in H; destruct H as (A & B) end.
  assert (0 <= melt). { rewrite B. apply Rle_mult_inv_pos; [nra|lra]. }
  assert (melt * (1000 * c_lat_heat_melting c) = me * dt) by (rewrite B; field; lra).
  repeat split; lra.
Qed.

(*@ C40 Over a whole run the cumulative balance is its start value plus the sum of the
    balances of all steps, and there is one output per step. *)
Lemma run_balance_lem : forall fuel c sw sv dt ml z d inp count t s s' os,
  core_loop fuel c sw sv (dt, ml, z) d inp count t s = Ok (s', os) ->
  length os = count /\ s_MB_cum s' = s_MB_cum s + sum_outputs o_MB os.
Proof.
  intros fuel c sw sv dt ml z d inp count. induction count as [|k IH]; intros t s s' os H.
  - cbn in H. injection H as <- <-. cbn. split; [reflexivity|lra].
  - cbn [core_loop] in H. apply bind_ok in H. destruct H as ([s1 o] & E & H).
    apply bind_ok in H. destruct H as ([s2 os'] & E2 & H). injection H as <- <-.
    apply IH in E2. destruct E2 as (L & M). cbn [length sum_outputs fold_right].
    split; [lia|]. unfold sum_outputs in M. rewrite M.
    apply core_step_inv in E. destruct E. cbn. ring.
Qed.

(*@ C40 The same for a complete run of one grid cell: nt outputs, cumulative balance equal to
    the sum of the balances. *)
Lemma cell_run_balance_lem : forall fuel c sw sv d restart s os r,
  sw_WRF_X_CSPY sw = false ->
  cosipy_core fuel c sw sv d restart = Ok (s, os, r) ->
  length os = nt d /\ s_MB_cum s = sum_outputs o_MB os /\ r <> None.
Proof.
  intros fuel c sw sv d restart s os r Hw H. unfold cosipy_core in H.
  apply bind_ok in H. destruct H as ([[dt ml] z] & _ & H).
  apply bind_ok in H. destruct H as (g & _ & H). apply bind_ok in H. destruct H as (inp & _ & H).
  rewrite Hw in H. apply bind_ok in H. destruct H as ([s1 os1] & E & H).
  apply run_balance_lem in E. destruct E as (L & M).
  destruct (nt d =? 0)%nat; [discriminate|]. apply bind_ok in H. destruct H as (rr & _ & H).
  injection H as <- <- <-. split; [exact L|]. split; [|discriminate].
  rewrite M. cbn [start_state s_MB_cum]. ring.
Qed.

(** ** The snow clock (C17) *)

Lemma albedo_clock c g ts al g' a al' : updateAlbedo c g ts al = Ok (g', a, al') ->
  g_nodes g' = g_nodes g /\ g_number_nodes g' = g_number_nodes g /\
  (g_new_snow_height g' = g_new_snow_height g) /\
  (g_old_snow_timestamp g' = g_old_snow_timestamp g) /\
  (clock_ok g -> ages g' = ages g).
Proof.
  intros H.
  assert (K : exists p, get_surface_properties c g = (g', p)).
  { unfold updateAlbedo, method_Oerlemans, method_Bougamont in H.
    destruct (get_surface_properties c g) as [g1 [[h0 t0] hr]] eqn:E.
    crunch; eexists; f_equal; cbn in *; congruence. }
  destruct K as (p & K). unfold get_surface_properties, get_fresh_snow_props in K.
  destruct (_ && _) eqn:B; injection K as <- _; cbn; repeat split; try reflexivity.
  intros ((A1 & A2) & A3). unfold ages. cbn. apply andb_prop in B. destruct B as (_ & B).
  destruct (Rleb_spec (g_new_snow_height g) 0); [|discriminate].
  destruct A3 as [A3|A3]; [lra|]. congruence.
Qed.

Lemma melt_clock fuel c g m g' w : counted g -> remove_melt_weq fuel c g m 0 = Ok (g', w) ->
  counted g' /\ ages g' = ages g /\ (g_nodes g' <> [] -> g_new_snow_height g <= g_new_snow_height g').
Proof.
  intros Hc H. assert (Hc' : counted g') by (eapply remove_melt_counted; eassumption). split; [exact Hc'|].
  unfold remove_melt_weq in H. apply bind_ok in H. destruct H as ([[g1 m1] l1] & W & H).
  cbn [Z.eqb] in H. injection H as <- <-.
  assert (W' := W). apply (while_ev (fun s => fst (fst s))) in W'; cbn [fst] in W'.
  2:{ clear. intros [[g m] l] [[g' m'] l'] H. unfold melt_body in H. cbn [fst]. crunch; repeat ev1; chain. }
  destruct W' as ((K1 & K2 & K3) & _).
  apply (while_inv (fun _ => True)) in W; [|trivial|trivial]. destruct W as (_ & W).
  unfold ages. cbn. rewrite K1, K2, K3. split; [reflexivity|]. intros Hne.
  cbn in W. injection W as W. destruct (Rltb_spec 0 m1) as [P|P]; [|lra]. cbn in W.
  apply Z.ltb_ge in W. exfalso. apply Hne. unfold counted in Hc'. cbn in Hc'.
  destruct (g_nodes g1); [reflexivity|]. cbn [length] in Hc'. lia.
Qed.

Lemma water_clock fuel c g melt m rain g' Q wr : counted g ->
  water_step fuel c g melt m rain = Ok (g', Q, wr) ->
  counted g' /\ ages g' = ages g /\ g_new_snow_height g <= g_new_snow_height g'.
Proof.
  intros Hc H. unfold water_step in H. apply bind_ok in H. destruct H as ([g1 l] & E1 & H).
  apply bind_ok in H. destruct H as ([g2 q] & E2 & H). apply bind_ok in H. destruct H as ([g3 w] & E3 & H).
  injection H as <- <- <-. destruct (melt_clock _ _ _ _ _ _ Hc E1) as (A1 & A2 & A3).
  assert (B := percolation_ev _ _ _ _ E2). assert (C := refreezing_ev _ _ _ _ E3).
  assert (D := evolves_trans _ _ _ B C). destruct D as ((D1 & D2 & D3) & D4).
  split; [auto|]. unfold ages in *. rewrite D1, D2, D3. split; [exact A2|]. apply A3.
  unfold percolation in E2. apply bind_ok in E2. destruct E2 as (h & E2 & _).
  unfold get_node_height, get_node in E2. intros Z0. rewrite Z0 in E2. discriminate.
Qed.

Lemma threshold_snow c rho raw s r : threshold_precipitation c rho raw = Ok (s, r) ->
  s = 0 \/ c_minimum_snowfall c <= s.
Proof.
  unfold threshold_precipitation. destruct raw as [s0 [r0|]]; intros H; [|discriminate].
  apply bind_ok in H. destruct H as (q & _ & H). injection H as <- _.
  destruct (Rltb_spec s0 (c_minimum_snowfall c)); [left; reflexivity|right; lra].
Qed.

(*@ C17 The snow clock over one step, for every step that does not raise: with an accepted
    snowfall the fresh snow is 0 s old and the old snow gets the age the fresh snow had at
    the end of the previous step; without, both ages grow by the time step.  The reported
    ages are those of the grid, the invariant is kept, the layer counter stays right. *)
Lemma snow_clock_step_lem : forall fuel c sw sv dt ml z d inp t s s' o,
  constants_ok c -> 0 < c_constant_density c -> 0 <= dt ->
  counted (s_grid s) -> clock_ok (s_grid s) ->
  core_step fuel c sw sv (dt, ml, z) d inp t s = Ok (s', o) ->
  counted (s_grid s') /\ clock_ok (s_grid s') /\
  (snowed o -> ages (s_grid s') = (0, g_new_snow_timestamp (s_grid s))) /\
  (~ snowed o -> ages (s_grid s')
     = (g_new_snow_timestamp (s_grid s) + dt, g_old_snow_timestamp (s_grid s) + dt)) /\
  (o_new_snow_timestamp o, o_old_snow_timestamp o) = ages (s_grid s') /\
  o_NLAYERS o = Z.of_nat (length (g_nodes (s_grid s'))).
Proof.
  intros fuel c sw sv dt ml z d inp t s s' o Hc Hd Hdt Hn Hk H. apply core_step_inv in H.
  destruct H as [T2 U2 rho snowf rrr raw SN RAIN Gt g2 g3 alpha as_ z0
    g4 sm Gp RH2 PRES lwin n g5 fn Ts f m melt g8 Q wr g9 g10 sh th pr ratio me
    _ _ Erho _ _ _ Eth _ Eg2 Eal _ Esw _ _ _ _ Est _ _ _ Ewt Eht Ede Era _ _ _].
  cbn [s_grid o_SNOWFALL o_new_snow_timestamp o_old_snow_timestamp o_NLAYERS snowed].
  assert (Hw := ok_rho_w c Hc). assert (Hms := ok_minsnow c Hc).
  assert (Hrho := fresh_density_pos _ _ _ _ Hd Erho).
  apply fdiv_inv in Era. destruct Era as (_ & Era).
  assert (Hra : 0 < ratio). { rewrite Era. apply Rmult_lt_0_compat; [lra|now apply Rinv_0_lt_compat]. }
  set (g1 := lay_snow c (s_grid s) SN rho T2 dt) in *.
  assert (C1 : counted g1 /\ clock_ok g1 /\
               (0 < SN -> ages g1 = (0, g_new_snow_timestamp (s_grid s))) /\
               (~ 0 < SN -> ages g1 = (g_new_snow_timestamp (s_grid s) + dt, g_old_snow_timestamp (s_grid s) + dt))).
  { unfold g1, lay_snow. destruct Hk as ((K1 & K2) & K3). destruct (Rltb_spec 0 SN) as [P|P].
    - split; [apply add_fresh_snow_counted; exact Hn|].
      destruct (threshold_snow _ _ _ _ _ Eth) as [Z0|Z0]; [lra|].
      unfold add_fresh_snow, clock_ok, ages. rewrite Rltb_false by lra. cbn.
      split; [lra|]. split; [reflexivity|intros; lra].
    - split; [exact Hn|]. unfold clock_ok, ages, set_fresh_snow_props_update_time. cbn.
      split; [|split; [intros; lra|reflexivity]]. split; [lra|].
      destruct K3 as [K3|K3]; [left; exact K3|right; lra]. }
  destruct C1 as (C1 & C2 & C3 & C4).
  assert (E12 := update_grid_ev _ _ _ _ Eg2).
  assert (E23 := albedo_clock _ _ _ _ _ _ _ Eal).
  assert (E34 := shortwave_ev _ _ _ _ _ _ _ Esw).
  assert (E45 := update_surface_ev _ _ _ _ _ _ _ _ _ _ _ Est).
  assert (E35 := evolves_trans _ _ _ E34 E45).
  assert (K2 : clock_ok g2 /\ ages g2 = ages g1 /\ counted g2).
  { destruct E12 as ((A1 & A2 & A3) & A4). unfold clock_ok, ages in *. rewrite A1, A2, A3. auto. }
  destruct K2 as (K2 & A2 & N2).
  destruct E23 as (B1 & B2 & B3 & B4 & B5). specialize (B5 K2).
  assert (N3 : counted g3) by (unfold counted in *; congruence).
  destruct E35 as ((D1 & D2 & D3) & D4). specialize (D4 N3).
  destruct (water_clock _ _ _ _ _ _ _ _ _ D4 Ewt) as (N8 & A8 & H8).
  assert (E810 := evolves_trans _ _ _ (heat_ev _ _ _ _ _ Eht) (densification_ev _ _ _ _ _ Ede)).
  destruct E810 as ((F1 & F2 & F3) & F4). specialize (F4 N8).
  assert (A : ages g10 = ages g1).
  { rewrite <- A2, <- B5. unfold ages in *. rewrite F2, F3.
    injection A8 as -> ->. rewrite D2, D3. reflexivity. }
  assert (Hh : g_new_snow_height g1 <= g_new_snow_height g10).
  { rewrite F1. destruct E12 as ((A1 & _) & _). lra. }
  assert (Sn : 0 < SN * ratio <-> 0 < SN).
  { split; intros P; [|nra]. destruct (Rlt_dec 0 SN); [assumption|exfalso]. nra. }
  split; [exact F4|]. split.
  { injection A as X Y. unfold clock_ok in *. rewrite X, Y. destruct C2 as (C2a & C2b).
    split; [exact C2a|]. destruct C2b; [left; lra|right; assumption]. }
  rewrite A. unfold snowed. cbn [o_SNOWFALL].
  split; [intros P; apply C3; now apply Sn|]. split; [intros P; apply C4; intros P'; apply P; now apply Sn|].
  split; [rewrite <- A; reflexivity|]. unfold get_number_layers. exact F4.
Qed.

(** runs *)
Lemma loop_clock : forall fuel c sw sv dt ml z d inp count t s s' os,
  constants_ok c -> 0 < c_constant_density c -> 0 <= dt ->
  counted (s_grid s) -> clock_ok (s_grid s) ->
  core_loop fuel c sw sv (dt, ml, z) d inp count t s = Ok (s', os) ->
  counted (s_grid s') /\ clock_ok (s_grid s').
Proof.
  intros fuel c sw sv dt ml z d inp count. induction count as [|k IH]; intros t s s' os Hc Hd Hdt Hn Hk H.
  - cbn in H. injection H as <- <-. auto.
  - cbn [core_loop] in H. apply bind_ok in H. destruct H as ([s1 o] & E & H).
    apply bind_ok in H. destruct H as ([s2 os'] & E2 & H). injection H as <- <-.
    apply snow_clock_step_lem in E; auto. destruct E as (A & B & _). eapply IH; eauto.
Qed.

Lemma loop_split : forall fuel c sw sv st d inp count t s s' os1 os2,
  core_loop fuel c sw sv st d inp count t s = Ok (s', os1 ++ os2) ->
  exists s1, core_loop fuel c sw sv st d inp (length os1) t s = Ok (s1, os1) /\
    core_loop fuel c sw sv st d inp (length os2) (t + Z.of_nat (length os1)) s1 = Ok (s', os2).
Proof.
  intros fuel c sw sv st d inp count. induction count as [|k IH]; intros t s s' os1 os2 H.
  - cbn in H. injection H as <- E. destruct os1; [|discriminate]. destruct os2; [|discriminate].
    cbn. eauto.
  - cbn [core_loop] in H. apply bind_ok in H. destruct H as ([s1 o] & E & H).
    apply bind_ok in H. destruct H as ([s2 os'] & E2 & H). injection H as <- H.
    destruct os1 as [|o1 os1]; cbn [app] in H.
    + exists s. subst os2. split; [reflexivity|]. cbn [length core_loop].
      assert (L : length os' = k).
      { clear -E2. revert E2. generalize (t + 1)%Z. revert s1 s2 os'. induction k as [|k IH]; intros s1 s2 os' t' H; cbn in H.
        - injection H as _ <-; reflexivity.
        - apply bind_ok in H. destruct H as ([a b] & _ & H). apply bind_ok in H. destruct H as ([a' b'] & E & H).
          injection H as _ <-. cbn. f_equal. eapply IH; exact E. }
      rewrite Z.add_0_r, E. cbn [bind]. rewrite L, E2. reflexivity.
    + injection H as <- ->. apply IH in E2. destruct E2 as (sm & A & B).
      exists sm. cbn [length core_loop]. rewrite E. cbn [bind]. rewrite A. cbn [bind].
      split; [reflexivity|]. rewrite <- B. f_equal. lia.
Qed.

Lemma loop_no_snow : forall fuel c sw sv dt ml z d inp count t s s' os,
  constants_ok c -> 0 < c_constant_density c -> 0 <= dt ->
  counted (s_grid s) -> clock_ok (s_grid s) -> Forall (fun o => ~ snowed o) os ->
  core_loop fuel c sw sv (dt, ml, z) d inp count t s = Ok (s', os) ->
  ages (s_grid s') = (g_new_snow_timestamp (s_grid s) + INR (length os) * dt,
                      g_old_snow_timestamp (s_grid s) + INR (length os) * dt).
Proof.
  intros fuel c sw sv dt ml z d inp count. induction count as [|k IH]; intros t s s' os Hc Hd Hdt Hn Hk HF H.
  - cbn in H. injection H as <- <-. unfold ages. cbn. f_equal; ring.
  - cbn [core_loop] in H. apply bind_ok in H. destruct H as ([s1 o] & E & H).
    apply bind_ok in H. destruct H as ([s2 os'] & E2 & H). injection H as <- <-.
    apply snow_clock_step_lem in E; auto. destruct E as (A & B & _ & C & _).
    specialize (C (Forall_inv HF)). apply IH in E2; auto; [|exact (Forall_inv_tail HF)].
    rewrite E2. cbn [length]. rewrite S_INR. injection C as C1 C2. rewrite C1, C2. f_equal; ring.
Qed.

(*@ C17 The snow clock over any history of steps: if the last accepted snowfall was in step
    [o] and [after] are the steps since, the age of the fresh snow is exactly the number of
    steps since times the time step, and the age of the old snow is the age the fresh snow
    had before that snowfall plus the same time.  Without any snowfall both ages have grown
    by the whole time. *)
Lemma snow_clock_history_lem : forall fuel c sw sv dt ml z d inp count t s s' os,
  constants_ok c -> 0 < c_constant_density c -> 0 <= dt ->
  counted (s_grid s) -> clock_ok (s_grid s) ->
  core_loop fuel c sw sv (dt, ml, z) d inp count t s = Ok (s', os) ->
  clock_ok (s_grid s') /\
  (forall before o after, os = before ++ o :: after -> snowed o -> Forall (fun o => ~ snowed o) after ->
     exists s1, core_loop fuel c sw sv (dt, ml, z) d inp (length before) t s = Ok (s1, before) /\
       g_new_snow_timestamp (s_grid s') = INR (length after) * dt /\
       g_old_snow_timestamp (s_grid s') = g_new_snow_timestamp (s_grid s1) + INR (length after) * dt) /\
  (Forall (fun o => ~ snowed o) os ->
     g_new_snow_timestamp (s_grid s') = g_new_snow_timestamp (s_grid s) + INR count * dt /\
     g_old_snow_timestamp (s_grid s') = g_old_snow_timestamp (s_grid s) + INR count * dt).
Proof.
  intros fuel c sw sv dt ml z d inp count t s s' os Hc Hd Hdt Hn Hk H.
  assert (L := proj1 (run_balance_lem _ _ _ _ _ _ _ _ _ _ _ _ _ _ H)).
  split; [exact (proj2 (loop_clock _ _ _ _ _ _ _ _ _ _ _ _ _ _ Hc Hd Hdt Hn Hk H))|]. split.
  - intros before o after E Ho Ha. subst os. apply loop_split in H.
    destruct H as (s1 & H1 & H2). exists s1. split; [exact H1|].
    destruct (loop_clock _ _ _ _ _ _ _ _ _ _ _ _ _ _ Hc Hd Hdt Hn Hk H1) as (N1 & K1).
    cbn [length core_loop] in H2. apply bind_ok in H2. destruct H2 as ([s2 o2] & E2 & H2).
    apply bind_ok in H2. destruct H2 as ([s3 os3] & E3 & H2). injection H2 as <- <- <-.
    apply snow_clock_step_lem in E2; auto. destruct E2 as (N2 & K2 & A & _). specialize (A Ho).
    apply loop_no_snow in E3; auto. injection A as A1 A2. injection E3 as E31 E32.
    rewrite E31, E32, A1, A2. split; ring.
  - intros HF. apply loop_no_snow in H; auto. rewrite <- L. unfold ages in H. injection H as -> ->. auto.
Qed.

(*@ C17 Finding: the age handed to the old snow is not advanced by the time step of the
    snowfall itself; when it snows in two successive steps the first snow, one time step
    old, is reported as 0 s old. *)
Lemma old_snow_lags_lem : forall fuel c sw sv dt ml z d inp t s s1 s2 o1 o2,
  constants_ok c -> 0 < c_constant_density c -> 0 <= dt ->
  counted (s_grid s) -> clock_ok (s_grid s) ->
  core_step fuel c sw sv (dt, ml, z) d inp t s = Ok (s1, o1) -> snowed o1 ->
  core_step fuel c sw sv (dt, ml, z) d inp (t + 1) s1 = Ok (s2, o2) -> snowed o2 ->
  o_old_snow_timestamp o2 = 0.
Proof.
  intros fuel c sw sv dt ml z d inp t s s1 s2 o1 o2 Hc Hd Hdt Hn Hk E1 P1 E2 P2.
  apply snow_clock_step_lem in E1; auto. destruct E1 as (N1 & K1 & A1 & _). specialize (A1 P1).
  apply snow_clock_step_lem in E2; auto. destruct E2 as (_ & _ & A2 & _ & R & _). specialize (A2 P2).
  injection A1 as A1 _. injection A2 as _ A2. injection R as _ R. congruence.
Qed.

(** ** The water of one step (C41, C42) *)

Lemma weight_split c l : column_weight c l = column_mass c l + c_air_density c * column_air l.
Proof.
  unfold column_weight, column_mass, column_ice, column_water, column_air.
  induction l as [|n l IH]; [rewrite !total_nil; ring|].
  rewrite !total_cons, IH. unfold layer_weight, layer_density, layer_air_porosity. ring.
Qed.

Lemma good_ok l : column_good l -> column_ok l.
Proof. intros H. eapply Forall_impl; [|exact H]. cbv beta. tauto. Qed.
Lemma good_weighty c l : 0 < c_water_density c -> 0 < c_ice_density c -> 0 < c_air_density c ->
  column_good l -> weighty c l.
Proof.
  intros Hw Hi Ha H. eapply Forall_impl; [|exact H]. cbv beta. intros n (A & B & C). split; [exact A|].
  unfold layer_density, layer_air_porosity. assert (0 <= Rmax 0 (1 - n_lwc n - n_ice n)) by apply Rmax_l. nra.
Qed.

Lemma no_oof_fdiv a b : fdiv a b <> Err OutOfFuel.
Proof. unfold fdiv. destruct (Req_EM_T b 0); discriminate. Qed.

Lemma melt_more fuel c g m r : remove_melt_weq fuel c g m 0 = Ok r -> forall k, (fuel <= k)%nat ->
  remove_melt_weq k c g m 0 = Ok r.
Proof.
  intros H k Hk. unfold remove_melt_weq in *. apply bind_ok in H. destruct H as (x & E & H).
  rewrite (while_mono fuel k) with (1 := Hk).
  - rewrite E. exact H.
  - rewrite E. discriminate.
  - intros [[g1 m1] l1]. unfold melt_body, get_node_height, get_node_density, get_node_lwc, set_node_height, get_node, upd_node, remove_node.
    destruct (py_get (g_nodes g1) 0) as [x0|e0] eqn:E0; cbn [bind]; [|intros X; injection X as ->; apply py_get_err in E0; destruct E0; discriminate].
    unfold fdiv. destruct (Req_EM_T (c_water_density c) 0); [discriminate|]. cbn [bind].
    destruct (Rltb _ _).
    + destruct (Req_EM_T _ 0); [discriminate|]. cbn [bind].
      unfold py_update. destruct (py_index _ _); discriminate.
    + destruct (Rleb _ _); [|discriminate].
      destruct (g_nodes g1); [discriminate|]. unfold del_all, py_del, sort_desc. cbn [fold_right insert_desc].
      destruct (py_index _ _); discriminate.
  - intros [[g1 m1] l1]. discriminate.
Qed.

Lemma refreezing_mass c g g' wr : counted g -> c_ice_density c <> 0 ->
  refreezing c g = Ok (g', wr) ->
  column_mass c (g_nodes g') = column_mass c (g_nodes g) /\
  column_height (g_nodes g') = column_height (g_nodes g) /\
  column_water (g_nodes g') + wr = column_water (g_nodes g).
Proof.
  intros Hn Hi H. unfold refreezing in H. apply bind_ok in H. destruct H as (ph & _ & H).
  unfold for_range in H.
  apply (for_loop_inv (fun i s => (0 <= i)%Z /\ column_mass c (g_nodes (fst s)) = column_mass c (g_nodes g) /\
     column_height (g_nodes (fst s)) = column_height (g_nodes g) /\
     column_water (g_nodes (fst s)) + snd s = column_water (g_nodes g))) in H.
  - cbn [fst snd] in H. tauto.
  - intros j [g1 a1] [g2 a2] _ (Hj & M & Hh & Hw) B. split; [lia|]. cbn [fst snd] in *.
    unfold refreezing_body, get_node_temperature, get_node_lwc, get_node_height, get_node_ice_fraction in B.
    apply bind_ok in B. destruct B as (t & Et & B). apply bind_ok in Et. destruct Et as (x & Ex & Et).
    destruct (get_node_pos_inv _ _ _ Hj Ex) as (pre & post & E & Ei).
    apply bind_ok in B. destruct B as (w & Ew & B). rewrite Ex in Ew. cbn [bind] in Ew, Et.
    injection Et as <-. injection Ew as <-.
    apply bind_ok in B. destruct B as ([g3 dth] & B3 & B).
    assert (K : exists y, g_nodes g3 = pre ++ y :: post /\ n_height y = n_height x /\
       n_lwc y = n_lwc x - dth /\
       c_ice_density c * n_ice y = c_ice_density c * n_ice x + c_water_density c * dth).
    { destruct (Rleb _ _ && Rltb _ _).
      - rewrite Ex in B3. cbn [bind] in B3. apply bind_ok in B3. destruct B3 as (dd & Edd & B3).
        apply bind_ok in B3. destruct B3 as (ra & Era & B3). apply fdiv_inv in Era. destruct Era as (_ & Era).
        apply bind_ok in B3. destruct B3 as (u & _ & B3).
        unfold set_node_lwc, set_node_ice_fraction, set_node_temperature in B3. rewrite Ei in B3.
        rewrite (upd_node_mid g1 pre x post _ E) in B3. cbn [bind] in B3.
        erewrite upd_node_mid in B3 by reflexivity. cbn [bind] in B3.
        erewrite get_node_mid in B3 by reflexivity. cbn [bind] in B3.
        apply bind_ok in B3. destruct B3 as (dT & _ & B3).
        erewrite upd_node_mid in B3 by reflexivity. cbn [bind] in B3.
        destruct (Rltb _ 0); [discriminate|]. injection B3 as <- <-.
        eexists. split; [reflexivity|]. cbn. split; [reflexivity|]. split; [reflexivity|].
        rewrite Era. field. exact Hi.
      - injection B3 as <- <-. exists x. repeat split; try assumption; ring. }
    destruct K as (y & E3 & Y1 & Y2 & Y3).
    apply bind_ok in B. destruct B as (h & Eh & B). rewrite Ei in Eh.
    rewrite (get_node_mid g3 pre y post E3) in Eh. cbn [bind] in Eh. injection Eh as <-.
    unfold set_node_refreeze in B. rewrite Ei in B. rewrite (upd_node_mid g3 pre y post _ E3) in B. cbn [bind] in B.
    injection B as <- <-. cbn [g_nodes with_nodes].
    unfold column_mass, column_ice, column_water, column_height in *. rewrite E in M, Hh, Hw.
    rewrite !total_app, !total_cons in *. cbn [n_height n_ice n_lwc set_layer_refreeze]. rewrite Y1, Y2.
    split; [|split; [exact Hh|]].
    + rewrite <- M. replace (c_ice_density c * (total (fun n => n_ice n * n_height n) pre + (n_ice y * n_height x + total (fun n => n_ice n * n_height n) post)))
        with (c_ice_density c * total (fun n => n_ice n * n_height n) pre + (c_ice_density c * n_ice y) * n_height x
              + c_ice_density c * total (fun n => n_ice n * n_height n) post) by ring.
      rewrite Y3. ring.
    + lra.
  - split; [lia|]. cbn [fst snd]. repeat split; ring.
Qed.

(*@ C42 The water budget of melt, percolation and refreezing, for every column with positive
    heights and ice contents, whenever nothing raises.  If something is melted or sublimated
    away, the layers [gone] vanish and the next one loses height; ice and water after, plus
    runoff, equal ice and water before plus rain, condensation, sublimation and deposition
    plus two residuals: the liquid water of the vanished layers is counted twice (once as
    part of their density, once as percolating water), and the air in the lost pores counts
    as water. *)
Lemma water_step_budget_lem : forall fuel c g melt m rain g' Q wr,
  constants_ok c -> counted g -> column_good (g_nodes g) ->
  water_step fuel c g melt m rain = Ok (g', Q, wr) ->
  0 <= melt - m_sublimation m - m_deposition m ->
  exists gone x x' below,
    g_nodes g = gone ++ x :: below /\ only_height x x' /\ 0 < n_height x' <= n_height x /\
    length (g_nodes g') = S (length below) /\
    column_height (g_nodes g') = column_height (x' :: below) /\
    column_mass c (g_nodes g') + c_water_density c * Q
    = column_mass c (g_nodes g)
      + c_water_density c * (rain / 1000 + m_condensation m + m_sublimation m + m_deposition m)
      + c_water_density c * column_water gone
      + c_air_density c * (column_air (g_nodes g) - column_air (x' :: below)).
Proof.
  intros fuel c g melt m rain g' Q wr Hc Hn Hg H Hm.
  assert (Hw := ok_rho_w c Hc). assert (Ha := ok_rho_a c Hc).
  assert (Hi : 0 < c_ice_density c). { assert (A := ok_rho_ai c Hc). assert (B := ok_rho_thr c Hc). lra. }
  unfold water_step in H. apply bind_ok in H. destruct H as ([g1 l] & E1 & H).
  apply bind_ok in H. destruct H as ([g2 q] & E2 & H). apply bind_ok in H. destruct H as ([g3 w] & E3 & H).
  injection H as <- <- <-.
  set (k := (fuel + S (S (length (g_nodes g))))%nat).
  assert (E1' := melt_more _ _ _ _ _ E1 k ltac:(unfold k; lia)).
  destruct (remove_melt_spec c g _ k Hw Hm Hn (good_weighty c _ Hw Hi Ha Hg) ltac:(unfold k; lia))
    as (g1' & l' & m' & W & N1 & M & _). rewrite E1' in W. injection W as <- <-. clear E1'.
  destruct M as [(gone & x & x' & below & G1 & G2 & G3 & G4 & G5 & G6 & G7)|(G1 & _)].
  2:{ exfalso. unfold percolation in E2. apply bind_ok in E2. destruct E2 as (h & E2 & _).
      unfold get_node_height, get_node in E2. rewrite G1 in E2. cbn in E2. discriminate. }
  exists gone, x, x', below. split; [exact G1|]. split; [exact G3|]. split; [exact G4|].
  assert (Hok : column_ok (g_nodes g1)).
  { rewrite G2. apply good_ok in Hg. rewrite G1 in Hg. apply Forall_app in Hg. destruct Hg as (_ & Hg).
    constructor; [|exact (Forall_inv_tail Hg)]. assert (A := Forall_inv Hg). cbv beta in A.
    destruct G3 as (_ & B & _). rewrite B. tauto. }
  destruct (percolation_bucket g1 (melt + m_condensation m + rain / 1000 + l) N1 Hok ltac:(rewrite G2; discriminate)) as (g2' & q' & W & B & _).
  rewrite W in E2. injection E2 as -> ->.
  assert (BW := bucket_water _ _ _ _ ltac:(eapply Forall_impl; [|exact Hok]; cbv beta; tauto) B).
  assert (BL := bucket_only_lwc _ _ _ _ B).
  assert (N2 : counted g2) by (destruct (percolation_ev _ _ _ _ W) as (_ & X); auto).
  destruct (refreezing_mass c g2 g3 w N2 ltac:(lra) E3) as (R1 & R2 & R3).
  assert (I2 : column_ice (g_nodes g2) = column_ice (g_nodes g1)).
  { apply (only_lwc_total _ _ _) with (2 := BL). intros y y' (H1 & H2 & H3 & H4). rewrite H1, H3. reflexivity. }
  assert (H2 : column_height (g_nodes g2) = column_height (g_nodes g1)).
  { apply (only_lwc_total _ _ _) with (2 := BL). intros y y' (H1 & H2 & H3 & H4). exact H1. }
  split.
  { assert (C3 : counted g3) by (destruct (refreezing_ev _ _ _ _ E3) as (_ & X); auto).
    assert (L2 := Forall2_len _ _ _ BL). rewrite G2 in L2. cbn [length] in L2.
    assert (X : g_number_nodes g3 = g_number_nodes g2).
    { clear -E3. unfold refreezing in E3. apply bind_ok in E3. destruct E3 as (ph & _ & H). unfold for_range in H.
      apply (for_loop_inv (fun _ s => g_number_nodes (fst s) = g_number_nodes g2)) in H; [exact H| |reflexivity].
      intros j [a1 b1] [a2 b2] _ I K. cbn [fst] in *. rewrite <- I. clear -K.
      unfold refreezing_body, set_node_refreeze, set_node_lwc, set_node_ice_fraction, set_node_temperature, upd_node in K.
      crunch; reflexivity. }
    unfold counted in *. lia. }
  split; [congruence|].
  rewrite R1. unfold column_mass at 1. rewrite I2.
  assert (Eq : c_water_density c * column_water (g_nodes g2) + c_water_density c * q
     = c_water_density c * column_water (g_nodes g1)
       + c_water_density c * (melt + m_condensation m + rain / 1000 + l)).
  { rewrite <- !Rmult_plus_distr_l. rewrite BW. ring. }
  assert (Em : column_mass c (x' :: below) = column_mass c (g_nodes g) - c_water_density c * (melt - m_sublimation m - m_deposition m)
      + c_air_density c * (column_air (g_nodes g) - column_air (x' :: below))).
  { assert (A1 := weight_split c (g_nodes g)). assert (A2 := weight_split c (x' :: below)).
    assert (A3 : column_weight c (g_nodes g) - column_weight c (x' :: below)
       = c_water_density c * (melt - m_sublimation m - m_deposition m)).
    { rewrite <- G5, G1. unfold column_weq, column_weight. rewrite !total_app, !total_cons, !total_nil. field. lra. }
    lra. }
  rewrite <- G2 in Em at 1. unfold column_mass in Em at 1. rewrite G6 in Eq. lra.
Qed.

(*@ C41,C42 If deposition exceeds melt, nothing is removed and nothing is deposited either:
    the column gains only melt water, condensation and rain; it is exactly what it would be
    for any other such deposition, so the deposited mass, which the mass balance counts, is
    never stored. *)
Lemma deposition_never_stored_lem : forall fuel c g melt m rain g' Q wr,
  constants_ok c -> counted g -> column_good (g_nodes g) ->
  water_step fuel c g melt m rain = Ok (g', Q, wr) ->
  melt - m_sublimation m - m_deposition m < 0 ->
  length (g_nodes g') = length (g_nodes g) /\
  column_height (g_nodes g') = column_height (g_nodes g) /\
  column_mass c (g_nodes g') + c_water_density c * Q
    = column_mass c (g_nodes g) + c_water_density c * (rain / 1000 + m_condensation m + melt) /\
  forall m2, m_condensation m2 = m_condensation m ->
    melt - m_sublimation m2 - m_deposition m2 < 0 ->
    exists g2, water_step fuel c g melt m2 rain = Ok (g2, Q, wr) /\ same_layers g' g2.
Proof.
  intros fuel c g melt m rain g' Q wr Hc Hn Hg H Hm.
  assert (Hw := ok_rho_w c Hc). assert (Ha := ok_rho_a c Hc).
  assert (Hi : 0 < c_ice_density c). { assert (A := ok_rho_ai c Hc). assert (B := ok_rho_thr c Hc). lra. }
  assert (Hf : (0 < fuel)%nat).
  { destruct fuel; [|lia]. unfold water_step, remove_melt_weq in H. cbn in H. discriminate. }
  assert (H0 := H). unfold water_step in H. rewrite remove_melt_negative in H by (lra || assumption). cbn [bind] in H.
  set (g1 := set_fresh_snow_props_height g _) in H.
  apply bind_ok in H. destruct H as ([g2 q] & E2 & H). apply bind_ok in H. destruct H as ([g3 w] & E3 & H).
  injection H as <- <- <-.
  assert (Hne : g_nodes g1 <> []).
  { intros Z0. unfold percolation in E2. apply bind_ok in E2. destruct E2 as (h & E2 & _).
    unfold get_node_height, get_node in E2. rewrite Z0 in E2. cbn in E2. discriminate. }
  assert (N1 : counted g1) by exact Hn.
  assert (Hok : column_ok (g_nodes g1)) by (apply good_ok; exact Hg).
  destruct (percolation_bucket g1 (melt + m_condensation m + rain / 1000 + 0) N1 Hok Hne) as (g2' & q' & W & B & Nb & _).
  rewrite W in E2. injection E2 as -> ->.
  assert (BW := bucket_water _ _ _ _ ltac:(eapply Forall_impl; [|exact Hok]; cbv beta; tauto) B).
  assert (BL := bucket_only_lwc _ _ _ _ B).
  assert (N2 : counted g2) by (destruct (percolation_ev _ _ _ _ W) as (_ & X); auto).
  destruct (refreezing_mass c g2 g3 w N2 ltac:(lra) E3) as (R1 & R2 & R3).
  assert (I2 : column_ice (g_nodes g2) = column_ice (g_nodes g1)).
  { apply (only_lwc_total _ _ _) with (2 := BL). intros y y' (H1 & H2 & H3 & H4). rewrite H1, H3. reflexivity. }
  assert (H2 : column_height (g_nodes g2) = column_height (g_nodes g1)).
  { apply (only_lwc_total _ _ _) with (2 := BL). intros y y' (H1 & H2 & H3 & H4). exact H1. }
  split.
  { assert (C3 : counted g3) by (destruct (refreezing_ev _ _ _ _ E3) as (_ & X); auto).
    assert (L2 := Forall2_len _ _ _ BL).
    assert (X : g_number_nodes g3 = g_number_nodes g2).
    { clear -E3. unfold refreezing in E3. apply bind_ok in E3. destruct E3 as (ph & _ & H). unfold for_range in H.
      apply (for_loop_inv (fun _ s => g_number_nodes (fst s) = g_number_nodes g2)) in H; [exact H| |reflexivity].
      intros j [a1 b1] [a2 b2] _ I K. cbn [fst] in *. rewrite <- I. clear -K.
      unfold refreezing_body, set_node_refreeze, set_node_lwc, set_node_ice_fraction, set_node_temperature, upd_node in K.
      crunch; reflexivity. }
    change (g_nodes g1) with (g_nodes g) in L2. unfold counted in *. lia. }
  split; [rewrite R2, H2; reflexivity|]. split.
  { rewrite R1. unfold column_mass at 1. rewrite I2.
    assert (Eq : c_water_density c * column_water (g_nodes g2) + c_water_density c * q
     = c_water_density c * column_water (g_nodes g1)
       + c_water_density c * (melt + m_condensation m + rain / 1000 + 0)).
    { rewrite <- !Rmult_plus_distr_l. rewrite BW. ring. }
    change (g_nodes g1) with (g_nodes g) in *. unfold column_mass. lra. }
  intros m2 Hm2 Hneg. unfold water_step. rewrite remove_melt_negative by (lra || assumption). cbn [bind].
  rewrite Hm2.
  (* only the tracked snow height differs *)
  set (g1b := set_fresh_snow_props_height g _).
  assert (Qt : forall x : R, (fun _ _ : R => True) x x) by trivial.
  assert (S1 : gsim (fun _ _ => True) g1 g1b) by (split; [apply Forall2_diag; apply nsim_refl; trivial|reflexivity]).
  assert (S2 := percolation_sim _ _ _ (melt + m_condensation m + rain / 1000 + 0) S1). rewrite W in S2.
  destruct (percolation g1b _) as [[g2b qb]|]; [|contradiction]. destruct S2 as (S2 & S2'). cbn [fst snd] in S2, S2'.
  subst qb. cbn [bind]. assert (S3 := refreezing_sim _ Qt c _ _ S2). rewrite E3 in S3.
  destruct (refreezing c g2b) as [[g3b wb]|]; [|contradiction]. destruct S3 as (S3 & S3'). cbn [fst snd] in S3, S3'.
  subst wb. cbn [bind]. exists g3b. split; [reflexivity|]. destruct S3 as (S3 & _). unfold same_layers. clear -S3. induction S3 as [|? ? ? ? (? & ? & ? & ? & _)]; constructor; [repeat split|]; assumption.
Qed.

(** ** Missing inputs (C43) *)

(*@ C43 Exactly which exception is raised.  With snowfall but no total precipitation the
    first comparison of the rain, which was never assigned, raises TypeError; without both
    (also: snowfall only together with force_use_TP) the step raises ValueError.  The state
    plays no role. *)
Lemma missing_rain_raises_lem : forall fuel c sw sv settings d inp t s T2 U2 rho,
  py_get (d_T2 d) t = Ok T2 -> py_get (d_U2 d) t = Ok U2 ->
  fresh_snow_density c T2 U2 = Ok rho -> i_RRR inp = None ->
  (forall l x, i_SNOWF inp = Some l -> py_get l t = Ok x ->
     core_step fuel c sw sv settings d inp t s = Err TypeError) /\
  (i_SNOWF inp = None -> core_step fuel c sw sv settings d inp t s = Err ValueError).
Proof.
  intros fuel c sw sv [[dt ml] z] d inp t s T2 U2 rho E1 E2 E3 E4.
  split; [intros l x Hl Hx|intros Hl]; unfold core_step; rewrite E1; cbn [bind]; rewrite E2; cbn [bind];
    rewrite E3; cbn [bind]; rewrite Hl, E4; cbn [opt_get bind snow_and_rain]; [|reflexivity].
  rewrite Hx. cbn [bind snow_and_rain threshold_precipitation]. reflexivity.
Qed.

(*@ C43 What the switches make of the variables present: force_use_TP ignores snowfall,
    force_use_N ignores longwave radiation, and without the variable used instead nothing is
    left; neither of the two raises AttributeError. *)
Lemma inputs_selected_lem : forall c sw d,
  (d_SNOWFALL d = None -> d_RRR d = None -> select_inputs c sw d = Err AttributeError) /\
  (d_LWin d = None -> d_N d = None -> select_inputs c sw d = Err AttributeError) /\
  (forall inp, select_inputs c sw d = Ok inp ->
     i_RRR inp = option_map (map (fun x => x * c_mult_factor_RRR c)) (d_RRR d) /\
     i_SNOWF inp = (if sw_force_use_TP sw then None
                    else option_map (map (fun x => x * c_mult_factor_RRR c)) (d_SNOWFALL d)) /\
     i_LWin inp = (if sw_force_use_N sw then None else d_LWin d) /\
     i_N inp = d_N d /\
     i_SLOPE inp = match d_SLOPE d with Some s => s | None => 0 end).
Proof.
  intros c sw d. unfold select_inputs. repeat split.
  - intros -> ->. reflexivity.
  - intros -> ->. destruct (d_SNOWFALL d), (d_RRR d); reflexivity.
  - destruct (d_SNOWFALL d), (d_RRR d), (d_LWin d), (d_N d); try discriminate; injection H as <-; reflexivity.
  - destruct (d_SNOWFALL d), (d_RRR d), (d_LWin d), (d_N d); try discriminate; injection H as <-; cbn; destruct (sw_force_use_TP sw); reflexivity.
  - destruct (d_SNOWFALL d), (d_RRR d), (d_LWin d), (d_N d); try discriminate; injection H as <-; reflexivity.
  - destruct (d_SNOWFALL d), (d_RRR d), (d_LWin d), (d_N d); try discriminate; injection H as <-; reflexivity.
  - destruct (d_SNOWFALL d), (d_RRR d), (d_LWin d), (d_N d); try discriminate; injection H as <-; reflexivity.
Qed.

(*@ C43 Without total precipitation no cell with at least one time step is ever computed,
    whatever the other data, the switches, the constants and the start (initial column or
    restart file). *)
Lemma no_run_without_RRR_lem : forall fuel c sw sv d restart r,
  d_RRR d = None -> (0 < nt d)%nat -> cosipy_core fuel c sw sv d restart <> Ok r.
Proof.
  intros fuel c sw sv d restart r Hr Hn H. unfold cosipy_core in H.
  apply bind_ok in H. destruct H as ([[dt ml] z] & _ & H). apply bind_ok in H. destruct H as (g & _ & H).
  apply bind_ok in H. destruct H as (inp & Ei & H).
  destruct (inputs_selected_lem c sw d) as (_ & _ & I). destruct (I _ Ei) as (I1 & _). rewrite Hr in I1. cbn in I1. clear I.
  assert (X : forall k s x, (0 < k)%nat -> core_loop fuel c sw sv (dt, ml, z) d inp k 0 s <> Ok x).
  { intros [|k] s x Hk; [lia|]. cbn [core_loop]. intros K. apply bind_ok in K. destruct K as ([s1 o] & K & _).
    unfold core_step in K. apply bind_ok in K. destruct K as (T2 & _ & K). apply bind_ok in K. destruct K as (U2 & _ & K).
    apply bind_ok in K. destruct K as (rho & _ & K). apply bind_ok in K. destruct K as (sf & _ & K).
    rewrite I1 in K. cbn [opt_get bind] in K.
    apply bind_ok in K. destruct K as (raw & K1 & K). apply bind_ok in K. destruct K as (p & K2 & _).
    destruct sf; cbn [snow_and_rain] in K1; [|discriminate]. injection K1 as <-. discriminate. }
  destruct (sw_WRF_X_CSPY sw).
  - apply bind_ok in H. destruct H as (q & H & _). revert H. apply X. lia.
  - apply bind_ok in H. destruct H as (q & H & _). revert H. apply X. exact Hn.
Qed.

(*@ C43 Likewise for longwave radiation given as LWin only together with force_use_N: no step
    ever succeeds. *)
Lemma no_step_without_longwave_lem : forall fuel c sw sv settings d inp t s r,
  i_LWin inp = None -> i_N inp = None -> core_step fuel c sw sv settings d inp t s <> Ok r.
Proof.
  intros fuel c sw sv [[dt ml] z] d inp t s [s' o] HL HN H. apply core_step_inv in H.
  destruct H.
  rewrite HL in *. rewrite HN in *. cbn [opt_get] in *.
  repeat match goal with X : Ok None = Ok _ |- _ => injection X as X; subst end.
  match goal with X : update_surface_temperature _ _ _ _ _ _ _ = Ok _ |- _ => rename X into E end.
  unfold update_surface_temperature in E. apply bind_ok in E. destruct E as (b & _ & E).
  apply bind_ok in E. destruct E as (top & _ & E). apply bind_ok in E. destruct E as ([x fn'] & _ & E).
  apply bind_ok in E. destruct E as (g' & _ & E). apply bind_ok in E. destruct E as (f' & E & _).
  unfold eb_fluxes in E. apply bind_ok in E. destruct E as ([e1 e2] & _ & E). cbn in E. discriminate.
Qed.
