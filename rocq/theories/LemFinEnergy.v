(** * Energy report of a step and method names (C93, C94) *)
From Verif Require Import ModelPy ModelConstants ModelNode ModelGrid ModelWater ModelHeat ModelDensification
  ModelRadiation ModelAlbedo ModelSurface ModelInit ModelCore Spec SpecSurface SpecRun SpecCalm
  LemPy LemGridBase LemCore LemSurface LemFinSurface LemFinRun.

(** ** What is common to both stability corrections *)
Lemma fluxes_common c wrf g T0 a B f : eb_fluxes c wrf g T0 a B = Ok f ->
  f_Lo f = - c_surface_emission_coeff c * c_sigma c * T0 ^ 4 /\
  f_QRR f = c_water_density c * c_spec_heat_water c * (a_rain a / 1000 / a_dt a) * (a_T2 a - T0) /\
  (forall L, a_LWin a = Some L -> f_Li f = L) /\
  (c_stability_correction c = "MO"%string \/ c_stability_correction c = "Ri"%string) /\
  (exists top, get_node g 0 = Ok top /\ exists lam, layer_thermal_conductivity c top = Ok lam).
Proof.
  unfold eb_fluxes. intros H.
  apply bind_ok in H. destruct H as ((Ew & Ew0) & _ & H).
  apply bind_ok in H. destruct H as (Li & EL & H).
  apply bind_ok in H. destruct H as (m2 & _ & H). apply bind_ok in H. destruct H as (m0 & _ & H).
  apply bind_ok in H. destruct H as (rho & _ & H).
  apply bind_ok in H. destruct H as (((((H0 & LE) & L) & Ct) & Cq) & EH & H).
  apply bind_ok in H. destruct H as (lam & Elam & H). destruct B as (Tz1 & Tz2).
  apply bind_ok in H. destruct H as (r1 & _ & H). apply bind_ok in H. destruct H as (r2 & _ & H).
  apply bind_ok in H. destruct H as (r3 & _ & H). apply bind_ok in H. destruct H as (r4 & _ & H).
  apply bind_ok in H. destruct H as (r & Er & H). injection H as <-. cbn [f_Lo f_QRR f_Li].
  apply fdiv_inv in Er. destruct Er as (_ & ->).
  split; [reflexivity|]. split; [reflexivity|]. split.
  { intros L0 E. rewrite E in EL. injection EL as ->. reflexivity. }
  split.
  { destruct (String.eqb_spec (c_stability_correction c) "MO"); [left; assumption|].
    destruct (String.eqb_spec (c_stability_correction c) "Ri"); [right; assumption|discriminate]. }
  apply bind_ok in Elam. destruct Elam as (top & Et & El). exists top. split; [exact Et|]. exists lam. exact El.
Qed.

Lemma shortwave_share c g SW dt g' sm pen : shortwave_below c g SW dt = Ok (g', sm, pen) ->
  (SW <= 0 /\ pen = 0 /\ sm = 0 /\ g' = g) \/
  (0 < SW /\ c_penetrating_method c = "Bintanja95"%string /\ (pen = SW * 0.1 \/ pen = SW * 0.2)).
Proof.
  unfold shortwave_below, penetrating_radiation. intros H. destruct (Rltb_spec 0 SW) as [L|L].
  - right. split; [exact L|]. destruct (String.eqb_spec (c_penetrating_method c) "Bintanja95") as [E|]; [|discriminate].
    split; [exact E|]. unfold method_Bintanja in H.
    apply bind_ok in H. destruct H as (d & _ & H). apply bind_ok in H. destruct H as (rho0 & _ & H).
    unfold absorbed_flux in H.
    apply bind_ok in H. destruct H as (A & _ & H). apply bind_ok in H. destruct H as (((g1 & rm) & me) & _ & H).
    apply bind_ok in H. destruct H as (g2 & _ & H). injection H as _ _ <-.
    destruct (Rleb rho0 _); auto.
  - left. injection H as <- <- <-. repeat split. lra.
Qed.

(*@ C93 The energy report of every step that does not raise: the melt energy is what is left of
    the reported fluxes and the absorbed shortwave radiation, or zero if negative; negative
    shortwave radiation counts as zero; a tenth or a fifth of the absorbed
    radiation penetrates and is not available at the surface; emitted radiation and rain heat
    belong to the reported surface temperature; incoming longwave radiation is the input if
    there is one. *)
Lemma step_energy_report_lem : forall fuel c sw sv dt ml z d inp t s s' o,
  core_step fuel c sw sv (dt, ml, z) d inp t s = Ok (s', o) ->
  exists Gt T2 pen, py_get (d_G d) t = Ok Gt /\ py_get (d_T2 d) t = Ok T2 /\
    let sw_net := Rmax 0 Gt * (1 - o_ALBEDO o) in
    o_ME o = Rmax 0 (sw_net - pen + o_LWin o + o_LWout o + o_B o + o_QRR o + o_H o + o_LE o) /\
    (sw_net <= 0 -> pen = 0 /\ o_subM o = 0) /\
    (0 < sw_net -> pen = sw_net * 0.1 \/ pen = sw_net * 0.2) /\
    o_LWout o = - c_surface_emission_coeff c * c_sigma c * o_TS o ^ 4 /\
    o_QRR o = c_water_density c * c_spec_heat_water c * (o_RAIN o / 1000 / dt) * (T2 - o_TS o) /\
    (forall v L, i_LWin inp = Some v -> py_get v t = Ok L -> o_LWin o = L).
Proof.
  intros fuel c sw sv dt ml z d inp t s s' o H. apply core_step_inv in H.
  destruct H as [T2 U2 rho snowf rrr raw SN RAIN Gt g2 g3 alpha as_ z0
    g4 sm Gp RH2 PRES lwin n g5 fn Ts f m melt g8 Q wr g9 g10 sh th pr ratio me
    E1 E2 E3 E4 E5 E6 E7 E8 E9 E10 E11 E12 E13 E14 E15 E16 E17 E18 E19 E20]. cbn [o_ALBEDO o_ME o_LWin o_LWout o_B o_QRR o_H o_LE o_subM o_TS o_RAIN].
  exists Gt, T2, Gp. split; [exact E8|]. split; [exact E1|]. cbv zeta. rewrite (Rmax_comm 0 Gt).
  destruct (update_inv _ _ _ _ _ _ _ _ _ _ _ E17) as (B & top & below & x & _ & _ & _ & _ & Ef & _).
  destruct (fluxes_common _ _ _ _ _ _ _ Ef) as (F1 & F2 & F3 & _).
  split. { rewrite E19. unfold available_melt_energy. reflexivity. }
  assert (SS := shortwave_share _ _ _ _ _ _ _ E12).
  split; [intros L; destruct SS as [(_ & A & A' & _)|(A & _)]; [auto|lra]|].
  split; [intros L; destruct SS as [(A & _)|(_ & _ & A)]; [lra|exact A]|].
  split; [exact F1|]. split; [exact F2|].
  intros v L Ev EL. apply F3. cbn [a_LWin]. rewrite Ev in E15. cbn [opt_get] in E15. rewrite EL in E15. cbn [bind] in E15.
  injection E15 as <-. reflexivity.
Qed.

(*@ C93 The vapour fluxes belong to the reported latent heat: below melting as sublimation or
    deposition with the heat of sublimation, at melting as evaporation or condensation with
    the heat of vaporisation. *)
Lemma step_vapour_report_lem : forall fuel c sw sv dt ml z d inp t s s' o,
  constants_ok c -> 0 < c_lat_heat_vaporize c -> 0 < c_lat_heat_sublimation c ->
  core_step fuel c sw sv (dt, ml, z) d inp t s = Ok (s', o) ->
  (o_TS o < c_zero_temperature c ->
     c_water_density c * c_lat_heat_sublimation c * (o_SUBLIMATION o + o_DEPOSITION o) = o_LE o * dt /\
     o_EVAPORATION o = 0 /\ o_CONDENSATION o = 0) /\
  (c_zero_temperature c <= o_TS o ->
     c_water_density c * c_lat_heat_vaporize c * (o_EVAPORATION o + o_CONDENSATION o) = o_LE o * dt /\
     o_SUBLIMATION o = 0 /\ o_DEPOSITION o = 0).
Proof.
  intros fuel c sw sv dt ml z d inp t s s' o Hc Hv Hl H. apply core_step_inv in H.
  destruct H as [T2 U2 rho snowf rrr raw SN RAIN Gt g2 g3 alpha as_ z0
    g4 sm Gp RH2 PRES lwin n g5 fn Ts f m melt g8 Q wr g9 g10 sh th pr ratio me
    E1 E2 E3 E4 E5 E6 E7 E8 E9 E10 E11 E12 E13 E14 E15 E16 E17 E18 E19 E20].
  cbn [o_TS o_LE o_SUBLIMATION o_DEPOSITION o_EVAPORATION o_CONDENSATION].
  assert (Hw := ok_rho_w _ Hc). unfold mass_fluxes in E18.
  assert (K : forall x, Rmin x 0 * dt + Rmax x 0 * dt = x * dt).
  { intros x. unfold Rmin, Rmax. destruct (Rle_dec x 0); lra. }
  destruct (Rltb_spec Ts (c_zero_temperature c)) as [L|L]; split; intros C; try lra;
    apply bind_ok in E18; destruct E18 as (q & Eq & E18); injection E18 as <-;
    cbn [m_sublimation m_deposition m_evaporation m_condensation]; apply fdiv_inv in Eq; destruct Eq as (_ & ->);
    (split; [rewrite K; field; lra|split; reflexivity]).
Qed.

(*@ C93 If the reported surface temperature balances the fluxes, nothing melts at the
    surface. *)
Lemma balanced_surface_no_melt_lem : forall fuel c sw sv dt ml z d inp t s s' o,
  core_step fuel c sw sv (dt, ml, z) d inp t s = Ok (s', o) -> 0 < c_lat_heat_melting c ->
  (forall Gt, py_get (d_G d) t = Ok Gt ->
     Rmax 0 Gt * (1 - o_ALBEDO o) + o_LWin o + o_LWout o + o_B o + o_QRR o + o_H o + o_LE o <= 0) ->
  o_ALBEDO o <= 1 ->
  o_ME o = 0 /\ o_surfM o = 0.
Proof.
  intros fuel c sw sv dt ml z d inp t s s' o H HL HB HA.
  destruct (step_energy_report_lem _ _ _ _ _ _ _ _ _ _ _ _ _ H) as (Gt & T2 & pen & EG & _ & ME & P1 & P2 & _).
  specialize (HB Gt EG). assert (M : o_ME o = 0).
  { rewrite ME. apply Rmax_left. assert (0 <= Rmax 0 Gt) by apply Rmax_l.
    assert (0 <= Rmax 0 Gt * (1 - o_ALBEDO o)) by (apply Rmult_le_pos; lra).
    destruct (Rle_or_lt (Rmax 0 Gt * (1 - o_ALBEDO o)) 0) as [L|L]; [destruct (P1 L); lra|destruct (P2 L); lra]. }
  split; [exact M|]. apply core_step_inv in H. destruct H. cbn [o_ME o_surfM] in *.
  match goal with H : fdiv (me * dt) _ = Ok melt |- _ => apply fdiv_inv in H; destruct H as (_ & ->) end. rewrite M.
  unfold Rdiv. rewrite Rmult_0_l. apply Rmult_0_l.
Qed.

(** ** Method names *)

(*@ C94 No step completes with an unknown method name: neither for the densification, the
    albedo, the roughness, the stability correction, the conductivity or the surface
    temperature, nor for the penetrating radiation by day. *)
Lemma unknown_methods_raise_lem : forall fuel c sw sv dt ml z d inp t s s' o,
  core_step fuel c sw sv (dt, ml, z) d inp t s = Ok (s', o) ->
  In (c_densification_method c) ["Boone"; "Vionnet"; "empirical"; "constant"]%string /\
  In (c_albedo_method c) ["Oerlemans98"; "Bougamont05"]%string /\
  c_roughness_method c = "Moelg12"%string /\
  In (c_stability_correction c) ["MO"; "Ri"]%string /\
  In (c_thermal_conductivity_method c) ["bulk"; "empirical"]%string /\
  In (c_sfc_temperature_method c) ["L-BFGS-B"; "SLSQP"; "Newton"; "Secant"]%string /\
  (o_ALBEDO o < 1 -> (forall Gt, py_get (d_G d) t = Ok Gt -> 0 < Gt) -> c_penetrating_method c = "Bintanja95"%string).
Proof.
  intros fuel c sw sv dt ml z d inp t s s' o H. apply core_step_inv in H.
  destruct H as [T2 U2 rho snowf rrr raw SN RAIN Gt g2 g3 alpha as_ z0
    g4 sm Gp RH2 PRES lwin n g5 fn Ts f m melt g8 Q wr g9 g10 sh th pr ratio me
    E1 E2 E3 E4 E5 E6 E7 E8 E9 E10 E11 E12 E13 E14 E15 E16 E17 E18 E19 E20 E21 E22 E23].
  destruct (update_inv _ _ _ _ _ _ _ _ _ _ _ E17) as (B & top & below & x & _ & _ & _ & _ & Ef & Em).
  destruct (fluxes_common _ _ _ _ _ _ _ Ef) as (_ & _ & _ & F4 & (top' & Et & lam & F5)).
  split.
  { unfold densification in E23.
    destruct (String.eqb_spec (c_densification_method c) "Boone"); [subst; cbn; auto|].
    destruct (String.eqb_spec (c_densification_method c) "Vionnet"); [cbn; auto|].
    destruct (String.eqb_spec (c_densification_method c) "empirical"); [cbn; auto|].
    destruct (String.eqb_spec (c_densification_method c) "constant"); [cbn; auto|discriminate]. }
  split.
  { unfold updateAlbedo in E10.
    destruct (String.eqb_spec (c_albedo_method c) "Oerlemans98"); [cbn; auto|].
    destruct (String.eqb_spec (c_albedo_method c) "Bougamont05"); [cbn; auto|discriminate]. }
  split.
  { unfold updateRoughness in E11. destruct (String.eqb_spec (c_roughness_method c) "Moelg12"); [assumption|discriminate]. }
  split; [destruct F4; cbn; auto|].
  split.
  { unfold layer_thermal_conductivity in F5.
    destruct (String.eqb_spec (c_thermal_conductivity_method c) "bulk"); [cbn; auto|].
    destruct (String.eqb_spec (c_thermal_conductivity_method c) "empirical"); [cbn; auto|discriminate]. }
  split.
  { destruct (String.eqb_spec (c_sfc_temperature_method c) "L-BFGS-B"); [cbn; auto|].
    destruct (String.eqb_spec (c_sfc_temperature_method c) "SLSQP"); [cbn; auto|]. cbn [orb] in Em.
    destruct (String.eqb_spec (c_sfc_temperature_method c) "Newton"); [cbn; auto|].
    destruct (String.eqb_spec (c_sfc_temperature_method c) "Secant"); [cbn; auto 10|discriminate]. }
  cbn [o_ALBEDO]. intros HA HG. specialize (HG Gt E8).
  destruct (shortwave_share _ _ _ _ _ _ _ E12) as [(A & _)|(_ & A & _)]; [|exact A].
  exfalso. rewrite Rmax_left in A by lra. assert (0 < Gt * (1 - alpha)) by (apply Rmult_lt_0_compat; lra). lra.
Qed.

(*@ C94 Finding: an unknown remeshing method is not noticed: the column is then not remeshed at
    all. *)
Lemma unknown_remesh_silent_lem : forall fuel c g top below,
  c_remesh_method c <> "log_profile"%string -> c_remesh_method c <> "adaptive_profile"%string ->
  g_nodes g = top :: below -> c_minimum_snow_layer_height c <= n_height top ->
  update_grid fuel c g = Ok g.
Proof.
  intros fuel c g top below H1 H2 E Hh. unfold update_grid.
  destruct (String.eqb_spec (c_remesh_method c) "log_profile"); [congruence|].
  destruct (String.eqb_spec (c_remesh_method c) "adaptive_profile"); [congruence|]. cbn [bind].
  unfold get_node_height. rewrite (get_node_mid g [] top below E : get_node g 0 = _). cbn [bind].
  rewrite Rltb_false by lra. reflexivity.
Qed.

(*@ex The calm polar night of C92 is such a step: it emits what a surface at 220 K emits,
    melts nothing and evaporates nothing. *)
Lemma calm_energy_lem : exists fuel inp s' o,
  core_step fuel calm_constants calm_switches calm_solvers calm_settings calm_data inp 0 calm_state = Ok (s', o) /\
  o_LWout o = - 0.99 * 5.67e-8 * 220 ^ 4 /\ o_LWout o < -100 /\ o_ME o = 0 /\ o_surfM o = 0 /\
  o_EVAPORATION o = 0.
Proof.
  destruct calm_step_lem as (fuel & inp & s' & o & Hr & Hb & HT & Hn & Hs & Hi & H & _ & _ & ETs & EM).
  exists fuel, inp, s', o. split; [exact H|].
  assert (Hc := rc_ok _ _ Hr).
  destruct (step_energy_report_lem _ _ _ _ _ _ _ _ _ _ _ _ _ H) as (Gt & T2 & pen & _ & _ & _ & _ & _ & LW & _).
  rewrite ETs in LW. cbn [calm_constants c_surface_emission_coeff c_sigma] in LW.
  destruct (step_vapour_report_lem _ _ _ _ _ _ _ _ _ _ _ _ _ Hc ltac:(cbn; lra) ltac:(cbn; lra) H) as (V & _).
  destruct (V ltac:(rewrite ETs; cbn; lra)) as (_ & V1 & _).
  split; [rewrite LW; lra|]. split; [rewrite LW; lra|]. split; [exact EM|]. split; [|exact V1].
  apply core_step_inv in H. destruct H. cbn [o_ME o_surfM] in *.
  match goal with H : fdiv (me * _) _ = Ok melt |- _ => apply fdiv_inv in H; destruct H as (_ & ->) end. rewrite EM.
  unfold Rdiv. rewrite Rmult_0_l. apply Rmult_0_l.
Qed.
