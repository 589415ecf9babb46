(** * Lemmas about the surface fluxes *)
From Verif Require Import ModelPy ModelConstants ModelNode ModelGrid ModelSurface Spec SpecSurface LemPy
  LemGridBase LemDensification LemFinSecant.

Lemma ice_branch_mono T T' : 0.55 < T < T' ->
  22.46 * (T - 273.16) / (T - 0.55) < 22.46 * (T' - 273.16) / (T' - 0.55).
Proof.
  intros H. assert (I : / (T' - 0.55) < / (T - 0.55)).
  { apply Rinv_lt_contravar; [apply Rmult_lt_0_compat; lra|lra]. }
  replace (22.46 * (T - 273.16) / (T - 0.55)) with (22.46 - 22.46 * 272.61 * / (T - 0.55)).
  2:{ apply (Rmult_eq_reg_r (T - 0.55)); [|lra]. unfold Rdiv. rewrite Rmult_minus_distr_r.
      rewrite !Rmult_assoc, Rinv_l by lra. lra. }
  replace (22.46 * (T' - 273.16) / (T' - 0.55)) with (22.46 - 22.46 * 272.61 * / (T' - 0.55)).
  2:{ apply (Rmult_eq_reg_r (T' - 0.55)); [|lra]. unfold Rdiv. rewrite Rmult_minus_distr_r.
      rewrite !Rmult_assoc, Rinv_l by lra. lra. }
  lra.
Qed.

Lemma water_branch_mono T T' : 29.66 < T < T' ->
  17.67 * (T - 273.16) / (T - 29.66) < 17.67 * (T' - 273.16) / (T' - 29.66).
Proof.
  intros H. assert (I : / (T' - 29.66) < / (T - 29.66)).
  { apply Rinv_lt_contravar; [apply Rmult_lt_0_compat; lra|lra]. }
  replace (17.67 * (T - 273.16) / (T - 29.66)) with (17.67 - 17.67 * 243.5 * / (T - 29.66)).
  2:{ apply (Rmult_eq_reg_r (T - 29.66)); [|lra]. unfold Rdiv. rewrite Rmult_minus_distr_r.
      rewrite !Rmult_assoc, Rinv_l by lra. lra. }
  replace (17.67 * (T' - 273.16) / (T' - 29.66)) with (17.67 - 17.67 * 243.5 * / (T' - 29.66)).
  2:{ apply (Rmult_eq_reg_r (T' - 29.66)); [|lra]. unfold Rdiv. rewrite Rmult_minus_distr_r.
      rewrite !Rmult_assoc, Rinv_l by lra. lra. }
  lra.
Qed.

Lemma sonntag_pos T : 0 < sonntag T.
Proof.
  unfold sonntag. destruct (Rle_dec 273.16 T); apply Rmult_lt_0_compat; try apply exp_pos; lra.
Qed.

Lemma sonntag_melting : sonntag 273.16 = 6.112.
Proof.
  unfold sonntag. destruct (Rle_dec 273.16 273.16); [|lra].
  replace (17.67 * (273.16 - 273.16) / (273.16 - 29.66)) with 0 by lra. rewrite exp_0. lra.
Qed.

Lemma sonntag_mono T T' : 0.55 < T < T' -> sonntag T < sonntag T'.
Proof.
  intros H. assert (K : forall x y, x < y -> 6.112 * exp x < 6.112 * exp y).
  { intros x y L. apply Rmult_lt_compat_l; [lra|]. apply exp_increasing. exact L. }
  destruct (Rlt_le_dec T 273.16) as [L|L]; destruct (Rlt_le_dec T' 273.16) as [L'|L'].
  - unfold sonntag. destruct (Rle_dec 273.16 T); [lra|]. destruct (Rle_dec 273.16 T'); [lra|].
    apply K. apply ice_branch_mono. exact H.
  - apply Rlt_le_trans with 6.112.
    + unfold sonntag. destruct (Rle_dec 273.16 T); [lra|].
      replace 6.112 with (6.112 * exp (22.46 * (273.16 - 273.16) / (273.16 - 0.55))) at 2
        by (replace (22.46 * (273.16 - 273.16) / (273.16 - 0.55)) with 0 by lra; rewrite exp_0; lra).
      apply K. apply ice_branch_mono. lra.
    + rewrite <- sonntag_melting. unfold sonntag. destruct (Rle_dec 273.16 273.16); [|lra].
      destruct (Rle_dec 273.16 T'); [|lra]. apply Rmult_le_compat_l; [lra|].
      destruct (Req_dec T' 273.16) as [->|N]; [lra|]. left. apply exp_increasing. apply water_branch_mono. lra.
  - lra.
  - unfold sonntag. destruct (Rle_dec 273.16 T); [|lra]. destruct (Rle_dec 273.16 T'); [|lra].
    apply K. apply water_branch_mono. lra.
Qed.

Lemma method_EW_ok T : 0.55 < T -> method_EW_Sonntag T = Ok (sonntag T).
Proof.
  intros H. unfold method_EW_Sonntag, sonntag, Rleb. destruct (Rle_dec 273.16 T).
  - rewrite fdiv_ok by lra. reflexivity.
  - rewrite fdiv_ok by lra. reflexivity.
Qed.

(** ** Positivity of the logarithms *)
Lemma ln_pos x : 1 < x -> 0 < ln x.
Proof. intros H. rewrite <- ln_1. apply ln_increasing; lra. Qed.

Lemma ratio_gt1 z zx : 0 < zx < z -> 1 < z / zx.
Proof.
  intros H. apply (Rmult_lt_reg_r zx); [lra|]. unfold Rdiv. rewrite Rmult_assoc, Rinv_l by lra. lra.
Qed.

Lemma np_log_ok x : 0 < x -> np_log x = Ok (ln x).
Proof. intros H. unfold np_log. destruct (Rlt_dec 0 x); [reflexivity|contradiction]. Qed.

Lemma stability_factor_range Ri : 0 <= stability_factor Ri <= 1.
Proof.
  unfold stability_factor. destruct (Rle_dec Ri 0.01); [lra|]. destruct (Rle_dec Ri 0.2); [|lra]. nra.
Qed.

Lemma ri_phi_ok a T0 : 0 < a_T2 a -> ri_phi a T0 = Ok (stability_factor (richardson (a_z a) T0 (a_T2 a) (a_u2 a))).
Proof.
  intros H. unfold ri_phi, richardson, Reqb. destruct (Req_EM_T (a_u2 a) 0) as [E|E]; cbn [negb].
  - cbn [bind]. f_equal. unfold stability_factor. destruct (Rle_dec 0 0.01); [|lra].
    rewrite (Rltb_false 0.01 0) by lra. rewrite (Rltb_false 0.2 0) by lra. reflexivity.
  - rewrite adiv_ok.
    2:{ apply Rgt_not_eq. apply Rmult_lt_0_compat; [exact H|]. assert (0 < a_u2 a * a_u2 a) by nra. cbn. lra. }
    cbn [bind]. f_equal. set (Ri := 9.81 * _ * _ / _). unfold stability_factor.
    destruct (Rle_dec Ri 0.01); [rewrite (Rltb_false 0.01 Ri), (Rltb_false 0.2 Ri) by lra; reflexivity|].
    rewrite (Rltb_true 0.01 Ri) by lra. cbn [andb]. unfold Rleb. destruct (Rle_dec Ri 0.2); [reflexivity|].
    rewrite Rltb_true by lra. reflexivity.
Qed.

(** ** The fluxes with the Richardson correction *)

Lemma conductivity_ok c n : flux_constants_ok c -> exists lam, layer_thermal_conductivity c n = Ok lam.
Proof.
  intros Hc. assert (K := fc_cond c Hc). unfold layer_thermal_conductivity. cbn in K.
  destruct K as [<-|[<-|[]]]; cbn; eexists; reflexivity.
Qed.

Lemma mixing_nonneg rH e p : 0 <= rH -> 0 < e < p -> 0 <= mixing_ratio rH e p.
Proof.
  intros H He. unfold mixing_ratio. apply Rmult_le_pos; [lra|]. apply Rmult_le_pos; [lra|].
  apply Rle_mult_inv_pos; lra.
Qed.

Lemma air_density_pos a T0 c : forcing_ok c a T0 -> 0 < density_of_air a.
Proof.
  intros []. assert (P := sonntag_pos (a_T2 a)). unfold density_of_air.
  assert (0 <= air_mixing a) by (apply mixing_nonneg; lra).
  apply Rdiv_lt_0_compat; [lra|]. apply Rmult_lt_0_compat; [lra|]. apply Rmult_lt_0_compat; lra.
Qed.

Lemma longwave_ok c a T0 : forcing_ok c a T0 ->
  (match a_LWin a, a_N a with
   | None, Some N =>
       q <- fdiv (100 * ((a_rH2 a * sonntag (a_T2 a)) / 100)) (a_T2 a) ;;
       pw <- np_power q (1 / 8) ;;
       Ok (((0.23 + 0.433 * pw) * (1 - N ^ 2) + 0.984 * N ^ 2) * c_sigma c * a_T2 a ^ 4)
   | Some L, _ => Ok L
   | None, None => Err AttributeError
   end) = Ok (longwave_in c a).
Proof.
  intros Hf. assert (K := fo_lw c a T0 Hf). destruct Hf. unfold longwave_in. destruct (a_LWin a); [reflexivity|]. destruct (a_N a) as [N|].
  2:{ destruct K as [H|H]; contradiction H; reflexivity. }
  rewrite fdiv_ok by lra. cbn [bind].
  replace (100 * (a_rH2 a * sonntag (a_T2 a) / 100) / a_T2 a) with (a_rH2 a * sonntag (a_T2 a) / a_T2 a) by (field; lra).
  unfold sky_emissivity, eighth_root, np_power.
  destruct (Rlt_dec 0 (a_rH2 a * sonntag (a_T2 a) / a_T2 a)) as [L|L]; [reflexivity|].
  destruct (Req_EM_T (a_rH2 a * sonntag (a_T2 a) / a_T2 a) 0) as [E|E]; [reflexivity|].
  exfalso. assert (P := sonntag_pos (a_T2 a)).
  assert (0 <= a_rH2 a * sonntag (a_T2 a) / a_T2 a) by (apply Rle_mult_inv_pos; [apply Rmult_le_pos; lra|lra]). lra.
Qed.

Lemma eb_fluxes_ri c wrf g T0 a B top below lam :
  flux_constants_ok c -> forcing_ok c a T0 -> c_stability_correction c = "Ri"%string ->
  g_nodes g = top :: below -> layer_thermal_conductivity c top = Ok lam ->
  eb_fluxes c wrf g T0 a B = Ok (ri_fluxes c lam T0 a B).
Proof.
  intros Hc Hf HS E Hl. assert (Hf' := Hf). destruct Hf. destruct Hc. unfold eb_fluxes, get_saturation_vapor_pressure.
  rewrite !method_EW_ok by assumption. cbn [bind]. rewrite (longwave_ok c a T0 Hf'). cbn [bind].
  rewrite fdiv_ok by lra. cbn [bind]. rewrite adiv_ok by lra. cbn [bind].
  assert (P2 := sonntag_pos (a_T2 a)). assert (P0 := sonntag_pos T0).
  assert (EM : a_rH2 a * 0.622 * (sonntag (a_T2 a) / (a_p a - sonntag (a_T2 a))) / 100 = air_mixing a)
    by (unfold air_mixing, mixing_ratio; lra).
  assert (EM0 : 100 * 0.622 * (sonntag T0 / (a_p a - sonntag T0)) / 100 = surface_mixing a T0)
    by (unfold surface_mixing, mixing_ratio; lra).
  rewrite EM, EM0.
  assert (M : 0 <= air_mixing a) by (apply mixing_nonneg; lra).
  rewrite fdiv_ok.
  2:{ apply Rgt_not_eq. apply Rmult_lt_0_compat; [lra|]. apply Rmult_lt_0_compat; lra. }
  cbn [bind]. rewrite HS. cbn [String.eqb Ascii.eqb Bool.eqb].
  assert (L1 : 1 < a_z a / a_z0 a) by (apply ratio_gt1; lra).
  assert (L2 : 1 < a_z a / (a_z0 a / 100)) by (apply ratio_gt1; lra).
  assert (L3 : 1 < a_z a / (a_z0 a / 10)) by (apply ratio_gt1; lra).
  assert (N1 := ln_pos _ L1). assert (N2 := ln_pos _ L2). assert (N3 := ln_pos _ L3).
  rewrite (fdiv_ok (a_z a) (a_z0 a)) by lra. cbn [bind]. rewrite np_log_ok by lra. cbn [bind].
  rewrite (fdiv_ok (a_z a) (a_z0 a / 100)) by lra. cbn [bind]. rewrite np_log_ok by lra. cbn [bind].
  rewrite fdiv_ok by (apply Rgt_not_eq; apply Rmult_lt_0_compat; lra). cbn [bind].
  rewrite (fdiv_ok (a_z a) (a_z0 a / 10)) by lra. cbn [bind]. rewrite np_log_ok by lra. cbn [bind].
  rewrite fdiv_ok by (apply Rgt_not_eq; apply Rmult_lt_0_compat; lra). cbn [bind].
  rewrite ri_phi_ok by lra. cbn [bind].
  rewrite (get_node_mid g [] top below E : get_node g 0 = _). cbn [bind]. rewrite Hl. cbn [bind].
  destruct B as (Tz1, Tz2).
  replace (c_zlt2 c - c_zlt1 c + c_zlt1 c) with (c_zlt2 c) by ring.
  rewrite !fdiv_ok by lra. cbn [bind]. rewrite adiv_ok by lra. cbn [bind].
  unfold ri_fluxes, latent_heat, Rleb. destruct (Rle_dec (c_zero_temperature c) T0); reflexivity.
Qed.

(** ** The stability functions *)

Definition stable_value (wrf : bool) (zeta : R) : R :=
  if Rle_dec zeta 1 then -5 * zeta
  else if wrf then -5 else (1 - 5) * (1 + ln zeta) - zeta.

Lemma phi_m_stable_ok wrf z L : 0 < z -> 0 < L -> phi_m_stable wrf z L = Ok (stable_value wrf (z / L)).
Proof.
  intros Hz HL. assert (P : 0 < z / L) by (apply Rdiv_lt_0_compat; assumption).
  unfold phi_m_stable, stable_value. rewrite fdiv_ok by lra. cbn [bind]. rewrite (Rltb_true 0) by exact P. cbn [andb].
  unfold Rleb. destruct (Rle_dec (z / L) 1) as [H|H]; [reflexivity|]. rewrite Rltb_true by lra.
  destruct wrf; [reflexivity|]. rewrite np_log_ok by exact P. reflexivity.
Qed.

Lemma stable_value_mono wrf x y : 0 < x <= y -> stable_value wrf y <= stable_value wrf x.
Proof.
  intros H. unfold stable_value. destruct (Rle_dec x 1), (Rle_dec y 1); try lra.
  - destruct wrf; [lra|]. assert (0 < ln y) by (apply ln_pos; lra). lra.
  - destruct wrf; [lra|]. assert (ln x <= ln y); [|lra].
    destruct (Req_dec x y) as [->|]; [lra|]. left. apply ln_increasing; lra.
Qed.

Lemma stable_value_neg wrf x : 0 < x -> stable_value wrf x < 0.
Proof.
  intros H. unfold stable_value. destruct (Rle_dec x 1); [lra|]. destruct wrf; [lra|].
  assert (0 < ln x) by (apply ln_pos; lra). lra.
Qed.

Lemma rpower_quarter_sq x : 0 < x -> Rpower x 0.25 ^ 2 = sqrt x.
Proof.
  intros H. rewrite <- Rpower_sqrt by exact H. cbn [pow]. rewrite Rmult_1_r, <- Rpower_plus. f_equal. lra.
Qed.

(** for unstable air *)
Lemma phi_tq_unstable wrf z L : 0 < z -> L < 0 ->
  phi_tq wrf z L = Ok (2 * ln ((1 + sqrt (1 - 19.3 * z / L)) / 2)).
Proof.
  intros Hz HL. unfold phi_tq. rewrite Rltb_false by lra. rewrite Rltb_true by exact HL.
  rewrite fdiv_ok by lra. cbn [bind]. assert (P : 0 < 1 - 19.3 * z / L).
  { assert (19.3 * z / L < 0); [|lra]. unfold Rdiv. assert (/ L < 0) by (apply Rinv_lt_0_compat; exact HL). nra. }
  unfold np_power. destruct (Rlt_dec 0 (1 - 19.3 * z / L)); [|contradiction]. cbn [bind].
  rewrite rpower_quarter_sq by exact P. assert (Q := sqrt_lt_R0 _ P). rewrite np_log_ok by lra. reflexivity.
Qed.

(** the ratio argument behind the bound on the heat stability correction *)
Lemma unstable_ratio k z z0 : 0 < k -> 0 < z0 < z ->
  ((1 + sqrt (1 + k * z)) / 2) ^ 2 <= z / z0 * ((1 + sqrt (1 + k * z0)) / 2) ^ 2.
Proof.
  intros Hk Hz. assert (P : 0 < 1 + k * z) by nra. assert (P0 : 0 < 1 + k * z0) by nra.
  assert (S1 := sqrt_sqrt (1 + k * z) ltac:(lra)). assert (S0 := sqrt_sqrt (1 + k * z0) ltac:(lra)).
  assert (Q := sqrt_lt_R0 _ P). assert (Q0 := sqrt_lt_R0 _ P0).
  assert (M : sqrt (1 + k * z0) <= sqrt (1 + k * z)) by (apply sqrt_le_1; nra).
  set (s := sqrt (1 + k * z)) in *. set (s0 := sqrt (1 + k * z0)) in *.
  assert (1 < s0). { assert (1 < s0 * s0) by nra. nra. }
  apply (Rmult_le_reg_r z0); [lra|].
  replace (z / z0 * ((1 + s0) / 2) ^ 2 * z0) with (z * ((1 + s0) / 2) ^ 2) by (field; lra).
  apply (Rmult_le_reg_l (4 * k)); [lra|].
  replace (4 * k * (((1 + s) / 2) ^ 2 * z0)) with ((1 + s) ^ 2 * (k * z0)) by field.
  replace (4 * k * (z * ((1 + s0) / 2) ^ 2)) with ((1 + s0) ^ 2 * (k * z)) by field.
  replace (k * z0) with ((s0 - 1) * (s0 + 1)) by lra. replace (k * z) with ((s - 1) * (s + 1)) by lra.
  replace ((1 + s0) ^ 2 * ((s - 1) * (s + 1))) with ((1 + s) * (1 + s0) * ((1 + s0) * (s - 1))) by ring.
  replace ((1 + s) ^ 2 * ((s0 - 1) * (s0 + 1))) with ((1 + s) * (1 + s0) * ((1 + s) * (s0 - 1))) by ring.
  apply Rmult_le_compat_l; [nra|]. nra.
Qed.

Lemma delta_tq_bound wrf z z0 L f1 f2 : 0 < z0 < z ->
  phi_tq wrf z L = Ok f1 -> phi_tq wrf z0 L = Ok f2 -> f1 - f2 <= ln (z / z0).
Proof.
  intros Hz. assert (G : 0 < ln (z / z0)) by (apply ln_pos; apply ratio_gt1; lra).
  destruct (Rtotal_order L 0) as [H|[H|H]].
  - rewrite !phi_tq_unstable by lra. intros W1 W2. injection W1 as <-. injection W2 as <-.
    set (k := 19.3 * / (- L)). assert (Hk : 0 < k) by (unfold k; apply Rmult_lt_0_compat; [lra|apply Rinv_0_lt_compat; lra]).
    replace (1 - 19.3 * z / L) with (1 + k * z) by (unfold k; field_simplify; try lra; field; lra).
    replace (1 - 19.3 * z0 / L) with (1 + k * z0) by (unfold k; field_simplify; try lra; field; lra).
    assert (R1 := unstable_ratio k z z0 Hk Hz).
    assert (P : 0 < (1 + sqrt (1 + k * z)) / 2) by (assert (Q := sqrt_pos (1 + k * z)); lra).
    assert (P0 : 0 < (1 + sqrt (1 + k * z0)) / 2) by (assert (Q := sqrt_pos (1 + k * z0)); lra).
    set (u := (1 + sqrt (1 + k * z)) / 2) in *. set (v := (1 + sqrt (1 + k * z0)) / 2) in *.
    assert (E : 2 * ln u = ln (u ^ 2)) by (cbn [pow]; rewrite Rmult_1_r, ln_mult by exact P; ring).
    assert (E0 : 2 * ln v = ln (v ^ 2)) by (cbn [pow]; rewrite Rmult_1_r, ln_mult by exact P0; ring).
    assert (ln (u ^ 2) <= ln (z / z0 * v ^ 2)).
    { assert (0 < u ^ 2) by (apply pow_lt; exact P). destruct R1 as [R1|R1]; [left; apply ln_increasing; assumption|].
      rewrite R1. lra. }
    rewrite ln_mult in H0; [lra| |apply pow_lt; exact P0].
    assert (1 < z / z0) by (apply ratio_gt1; lra). lra.
  - subst L. unfold phi_tq. rewrite !Rltb_false by lra. intros W1 W2. injection W1 as <-. injection W2 as <-. lra.
  - unfold phi_tq. rewrite Rltb_true by exact H. rewrite !phi_m_stable_ok by lra.
    intros W1 W2. injection W1 as <-. injection W2 as <-.
    assert (stable_value wrf (z / L) <= stable_value wrf (z0 / L)); [|lra].
    apply stable_value_mono. split; [apply Rdiv_lt_0_compat; lra|]. apply Rmult_le_compat_r; [|lra].
    left. apply Rinv_0_lt_compat. exact H.
Qed.

Lemma ln_scaled z z0 k : 0 < z0 < z -> 1 < k -> ln (z / z0) < ln (z / (z0 / k)).
Proof.
  intros Hz Hk. assert (1 < z / z0) by (apply ratio_gt1; lra).
  apply ln_increasing; [lra|]. replace (z / (z0 / k)) with (z / z0 * k) by (field; lra). nra.
Qed.

(** ** One pass of the Monin-Obukhov loop *)

Lemma mo_pass_inv c wrf a T0 rho Lv q0 q2 cs s s' : 0 < a_z0 a < a_z a ->
  mo_pass c wrf a T0 rho Lv q0 q2 cs s = Ok s' ->
  0 <= mo_Cs_t s' /\ 0 <= mo_Cs_q s' /\
  mo_H s' = rho * c_spec_heat_air c * mo_Cs_t s' * a_u2 a * (a_T2 a - T0) * cs /\
  mo_LE s' = rho * Lv * mo_Cs_q s' * a_u2 a * (q2 - q0) * cs /\
  mo_niter s' = S (mo_niter s) /\ mo_H0 s' = Some (mo_H s') /\
  mo_optim s' = negb (match mo_H0 s with None => false | Some H0 => Rltb (Rabs (H0 - mo_H s')) 0.1 end
                      || (5 <? mo_niter s)%nat).
Proof.
  intros Hz W. unfold mo_pass in W. cbv zeta in W.
  apply bind_ok in W. destruct W as (ust & _ & W).
  apply bind_ok in W. destruct W as (f1 & F1 & W).
  apply bind_ok in W. destruct W as (f2 & F2 & W).
  assert (D := delta_tq_bound wrf _ _ _ _ _ Hz F1 F2).
  apply bind_ok in W. destruct W as (r & _ & W).
  apply bind_ok in W. destruct W as (lz & _ & W).
  apply bind_ok in W. destruct W as (m1 & _ & W).
  apply bind_ok in W. destruct W as (m2 & _ & W).
  apply bind_ok in W. destruct W as (Cd & _ & W).
  apply bind_ok in W. destruct W as (rt & Rt & W). apply fdiv_inv in Rt. destruct Rt as (_ & ->).
  apply bind_ok in W. destruct W as (lt & Lt & W).
  assert (L2 : 1 < a_z a / (a_z0 a / 100)) by (apply ratio_gt1; lra).
  rewrite np_log_ok in Lt by lra. injection Lt as <-.
  apply bind_ok in W. destruct W as (Cst & Ct & W). apply fdiv_inv in Ct. destruct Ct as (_ & ECt).
  apply bind_ok in W. destruct W as (rq & Rq & W). apply fdiv_inv in Rq. destruct Rq as (_ & ->).
  apply bind_ok in W. destruct W as (lq & Lq & W).
  assert (L3 : 1 < a_z a / (a_z0 a / 10)) by (apply ratio_gt1; lra).
  rewrite np_log_ok in Lq by lra. injection Lq as <-.
  apply bind_ok in W. destruct W as (Csq & Cq & W). apply fdiv_inv in Cq. destruct Cq as (_ & ECq).
  apply bind_ok in W. destruct W as (L' & _ & W). injection W as <-. cbn.
  assert (S1 := ln_scaled (a_z a) (a_z0 a) 100 Hz ltac:(lra)).
  assert (S2 := ln_scaled (a_z a) (a_z0 a) 10 Hz ltac:(lra)).
  assert (0 <= sqrt Cd) by apply sqrt_pos.
  split; [rewrite ECt; apply Rle_mult_inv_pos; lra|].
  split; [rewrite ECq; apply Rle_mult_inv_pos; lra|].
  repeat split; reflexivity.
Qed.

Lemma bind_noof {A B} (m : res A) (k : A -> res B) :
  m <> Err OutOfFuel -> (forall x, k x <> Err OutOfFuel) -> bind m k <> Err OutOfFuel.
Proof. intros H1 H2. destruct m; cbn; [apply H2|]. intros E. apply H1. injection E as ->. reflexivity. Qed.

Lemma fdiv_noof a b : fdiv a b <> Err OutOfFuel.
Proof. unfold fdiv. destruct (Req_EM_T b 0); discriminate. Qed.
Lemma adiv_noof a b : adiv a b <> Err OutOfFuel.
Proof. unfold adiv. destruct (Req_EM_T b 0); discriminate. Qed.
Lemma np_log_noof a : np_log a <> Err OutOfFuel.
Proof. unfold np_log. destruct (Rlt_dec 0 a); discriminate. Qed.
Lemma np_power_noof a b : np_power a b <> Err OutOfFuel.
Proof. unfold np_power. destruct (Rlt_dec 0 a); [discriminate|]. destruct (Req_EM_T a 0); discriminate. Qed.

Ltac noof := repeat first
  [ discriminate
  | apply fdiv_noof | apply adiv_noof | apply np_log_noof | apply np_power_noof
  | apply bind_noof; [|intros ?]
  | match goal with |- (if ?b then _ else _) <> _ => destruct b end ].

Lemma phi_m_noof wrf z L : phi_m wrf z L <> Err OutOfFuel.
Proof. unfold phi_m, phi_m_stable. noof. Qed.
Lemma phi_tq_noof wrf z L : phi_tq wrf z L <> Err OutOfFuel.
Proof. unfold phi_tq, phi_m_stable. noof. Qed.

Lemma mo_pass_noof c wrf a T0 rho Lv q0 q2 cs s : mo_pass c wrf a T0 rho Lv q0 q2 cs s <> Err OutOfFuel.
Proof.
  unfold mo_pass, ustar, MO. cbv zeta.
  repeat first [apply phi_m_noof | apply phi_tq_noof | discriminate
  | apply fdiv_noof | apply adiv_noof | apply np_log_noof | apply np_power_noof
  | apply bind_noof; [|intros ?]
  | match goal with |- (if ?b then _ else _) <> _ => destruct b end ].
Qed.

(** what a finished loop looks like *)
Definition mo_done (c : Consts) (wrf : bool) (a : Atm) (T0 rho Lv q0 q2 cs : R) (s : MOstate) : Prop :=
  exists s0, mo_pass c wrf a T0 rho Lv q0 q2 cs s0 = Ok s /\
    ((exists H0, mo_H0 s0 = Some H0 /\ Rabs (H0 - mo_H s) < 0.1) \/ mo_niter s = 7%nat).

Lemma mo_while c wrf a T0 rho Lv q0 q2 cs : 0 < a_z0 a < a_z a ->
  forall fuel s, mo_optim s = true -> (mo_niter s <= 6)%nat -> (8 - mo_niter s <= fuel)%nat ->
  (mo_H0 s = None -> mo_niter s = 0%nat) ->
  let o := while_loop fuel (fun s => Ok (mo_optim s)) (mo_pass c wrf a T0 rho Lv q0 q2 cs) s in
  o <> Err OutOfFuel /\ forall s', o = Ok s' ->
    (S (mo_niter s) <= mo_niter s' <= 7)%nat /\ (mo_niter s = 0%nat -> mo_H0 s = None -> (2 <= mo_niter s')%nat) /\
    mo_done c wrf a T0 rho Lv q0 q2 cs s'.
Proof.
  intros Hz. induction fuel as [|fuel IH]; intros s Ho Hn Hfu Hi; [lia|].
  cbn [while_loop bind]. rewrite Ho. cbn [bind].
  destruct (mo_pass c wrf a T0 rho Lv q0 q2 cs s) as [s1|e] eqn:E; cbn [bind].
  2:{ assert (X := mo_pass_noof c wrf a T0 rho Lv q0 q2 cs s). rewrite E in X. split; [congruence|discriminate]. }
  assert (I := mo_pass_inv _ _ _ _ _ _ _ _ _ _ _ Hz E).
  destruct I as (_ & _ & _ & _ & N1 & H1 & O1).
  destruct (mo_optim s1) eqn:Eo.
  - symmetry in O1. apply negb_true_iff in O1. apply orb_false_iff in O1. destruct O1 as (O1 & O2).
    apply Nat.ltb_ge in O2.
    destruct (IH s1 Eo ltac:(lia) ltac:(lia) ltac:(rewrite H1; discriminate)) as (A & B).
    split; [exact A|]. intros s' W. destruct (B s' W) as (B1 & _ & B3). split; [lia|]. split; [lia|exact B3].
  - destruct fuel as [|fuel]; [lia|]. cbn [while_loop bind]. rewrite Eo. split; [discriminate|].
    intros s' W. injection W as <-. split; [lia|].
    symmetry in O1. apply negb_false_iff in O1. apply orb_true_iff in O1.
    split.
    + intros _ HN. rewrite HN in O1. destruct O1 as [O1|O1]; [discriminate|]. apply Nat.ltb_lt in O1. lia.
    + exists s. split; [exact E|]. destruct O1 as [O1|O1].
      * left. destruct (mo_H0 s) as [H0|]; [|discriminate]. exists H0. split; [reflexivity|].
        destruct (Rltb_spec (Rabs (H0 - mo_H s1)) 0.1); [assumption|discriminate].
      * right. apply Nat.ltb_lt in O1. lia.
Qed.

Lemma mo_loop_done c wrf a T0 rho Lv q0 q2 cs : 0 < a_z0 a < a_z a ->
  mo_loop 8 c wrf a T0 rho Lv q0 q2 cs <> Err OutOfFuel /\
  forall s, mo_loop 8 c wrf a T0 rho Lv q0 q2 cs = Ok s ->
    (2 <= mo_niter s <= 7)%nat /\ mo_done c wrf a T0 rho Lv q0 q2 cs s.
Proof.
  intros Hz. unfold mo_loop.
  destruct (mo_while c wrf a T0 rho Lv q0 q2 cs Hz 8 (mkMO 0 None true 0 0 0 0 0) eq_refl ltac:(cbn; lia) ltac:(cbn; lia)
    ltac:(reflexivity)) as (A & B).
  split; [exact A|]. intros s W. destruct (B s W) as (B1 & B2 & B3).
  split; [|exact B3]. specialize (B2 eq_refl eq_refl). lia.
Qed.

(** ** Stable air: nothing can fail *)
Lemma phi_m_nonneg_ok wrf z L : 0 < z -> 0 <= L -> exists v, phi_m wrf z L = Ok v /\ v <= 0.
Proof.
  intros Hz HL. unfold phi_m. destruct (Rltb_spec 0 L) as [H|H].
  - rewrite phi_m_stable_ok by assumption. eexists. split; [reflexivity|]. left. apply stable_value_neg.
    apply Rdiv_lt_0_compat; assumption.
  - rewrite Rltb_false by lra. exists 0. split; [reflexivity|lra].
Qed.

Lemma phi_tq_nonneg_ok wrf z L : 0 < z -> 0 <= L -> exists v, phi_tq wrf z L = Ok v.
Proof.
  intros Hz HL. unfold phi_tq. destruct (Rltb_spec 0 L) as [H|H].
  - rewrite phi_m_stable_ok by assumption. eexists. reflexivity.
  - rewrite Rltb_false by lra. exists 0. reflexivity.
Qed.

Lemma mo_pass_stable c wrf a T0 rho Lv q0 q2 cs s : 0 < a_z0 a < a_z a ->
  0 <= rho -> 0 <= c_spec_heat_air c -> 0 <= a_u2 a -> 0 < a_T2 a -> T0 <= a_T2 a -> 0 <= cs -> 0 <= mo_L s ->
  exists s', mo_pass c wrf a T0 rho Lv q0 q2 cs s = Ok s' /\ 0 <= mo_L s'.
Proof.
  intros Hz Hrho Hcp Hu HT HT0 Hcs HL.
  assert (L1 : 1 < a_z a / a_z0 a) by (apply ratio_gt1; lra).
  assert (L2 : 1 < a_z a / (a_z0 a / 100)) by (apply ratio_gt1; lra).
  assert (L3 : 1 < a_z a / (a_z0 a / 10)) by (apply ratio_gt1; lra).
  assert (N1 := ln_pos _ L1). assert (N2 := ln_pos _ L2). assert (N3 := ln_pos _ L3).
  assert (S1 := ln_scaled (a_z a) (a_z0 a) 100 Hz ltac:(lra)).
  assert (S2 := ln_scaled (a_z a) (a_z0 a) 10 Hz ltac:(lra)).
  destruct (phi_m_nonneg_ok wrf (a_z a) (mo_L s) ltac:(lra) HL) as (m1 & E1 & M1).
  destruct (phi_m_nonneg_ok wrf (a_z0 a) (mo_L s) ltac:(lra) HL) as (m2 & E2 & M2).
  destruct (phi_tq_nonneg_ok wrf (a_z a) (mo_L s) ltac:(lra) HL) as (f1 & F1).
  destruct (phi_tq_nonneg_ok wrf (a_z0 a) (mo_L s) ltac:(lra) HL) as (f2 & F2).
  assert (D := delta_tq_bound wrf _ _ _ _ _ Hz F1 F2).
  unfold mo_pass, ustar. cbv zeta. rewrite (fdiv_ok (a_z a) (a_z0 a)) by lra. cbn [bind]. rewrite np_log_ok by lra. cbn [bind].
  rewrite E1. cbn [bind]. rewrite (fdiv_ok (0.41 * a_u2 a)) by lra. cbn [bind]. rewrite F1, F2. cbn [bind].
  rewrite E2. cbn [bind]. rewrite (fdiv_ok (0.41 ^ 2)) by (apply Rgt_not_eq; apply pow_lt; lra). cbn [bind].
  rewrite (fdiv_ok (a_z a) (a_z0 a / 100)) by lra. cbn [bind]. rewrite np_log_ok by lra. cbn [bind].
  set (Cd := 0.41 ^ 2 / _). rewrite fdiv_ok by lra. cbn [bind].
  rewrite (fdiv_ok (a_z a) (a_z0 a / 10)) by lra. cbn [bind]. rewrite np_log_ok by lra. cbn [bind].
  rewrite fdiv_ok by lra. cbn [bind].
  assert (Q := sqrt_pos Cd).
  set (Cst := 0.41 * sqrt Cd / (ln (a_z a / (a_z0 a / 100)) - (f1 - f2))).
  assert (HCst : 0 <= Cst) by (unfold Cst; apply Rle_mult_inv_pos; lra).
  unfold MO. set (H := get_sensible_heat_flux c rho Cst (a_u2 a) (a_T2 a - T0) cs).
  assert (HH : 0 <= H).
  { unfold H, get_sensible_heat_flux. clearbody Cst. repeat apply Rmult_le_pos; lra. }
  destruct (Reqb_spec H 0) as [Z|Z]; cbn [negb bind].
  - eexists. split; [reflexivity|]. cbn. lra.
  - rewrite adiv_ok by lra. cbn [bind]. eexists. split; [reflexivity|]. cbn.
    apply Rle_mult_inv_pos; [|lra]. set (u := 0.41 * a_u2 a / (ln (a_z a / a_z0 a) - m1)).
    assert (0 <= u) by (unfold u; apply Rle_mult_inv_pos; lra). clearbody u.
    repeat apply Rmult_le_pos; lra.
Qed.

Lemma mo_while_stable c wrf a T0 rho Lv q0 q2 cs : 0 < a_z0 a < a_z a ->
  0 <= rho -> 0 <= c_spec_heat_air c -> 0 <= a_u2 a -> 0 < a_T2 a -> T0 <= a_T2 a -> 0 <= cs ->
  forall fuel s, 0 <= mo_L s ->
  forall e, while_loop fuel (fun s => Ok (mo_optim s)) (mo_pass c wrf a T0 rho Lv q0 q2 cs) s = Err e -> e = OutOfFuel.
Proof.
  intros Hz Hrho Hcp Hu HT HT0 Hcs. induction fuel as [|fuel IH]; intros s HL e W; cbn [while_loop bind] in W.
  - congruence.
  - destruct (mo_optim s); [|discriminate].
    destruct (mo_pass_stable c wrf a T0 rho Lv q0 q2 cs s Hz Hrho Hcp Hu HT HT0 Hcs HL) as (s' & E & HL').
    rewrite E in W. cbn [bind] in W. exact (IH s' HL' e W).
Qed.

Lemma mo_loop_stable c wrf a T0 rho Lv q0 q2 cs : 0 < a_z0 a < a_z a ->
  0 <= rho -> 0 <= c_spec_heat_air c -> 0 <= a_u2 a -> 0 < a_T2 a -> T0 <= a_T2 a -> 0 <= cs ->
  exists s, mo_loop 8 c wrf a T0 rho Lv q0 q2 cs = Ok s.
Proof.
  intros Hz Hrho Hcp Hu HT HT0 Hcs. destruct (mo_loop 8 c wrf a T0 rho Lv q0 q2 cs) as [s|e] eqn:E; [exists s; reflexivity|].
  exfalso. destruct (mo_loop_done c wrf a T0 rho Lv q0 q2 cs Hz) as (A & _). apply A. rewrite E.
  f_equal. exact (mo_while_stable c wrf a T0 rho Lv q0 q2 cs Hz Hrho Hcp Hu HT HT0 Hcs 8 (mkMO 0 None true 0 0 0 0 0) (Rle_refl 0) e E).
Qed.

(** ** eb_fluxes with either correction *)
Lemma eb_fluxes_any c wrf g T0 a B f : flux_constants_ok c -> forcing_ok c a T0 ->
  eb_fluxes c wrf g T0 a B = Ok f ->
  f_rho f = density_of_air a /\ f_q0 f = surface_mixing a T0 /\ f_q2 f = air_mixing a /\
  f_Li f = longwave_in c a /\
  f_Lo f = - c_surface_emission_coeff c * c_sigma c * T0 ^ 4 /\
  f_QRR f = c_water_density c * c_spec_heat_water c * (a_rain a / 1000 / a_dt a) * (a_T2 a - T0) /\
  exists phi Ct Cq, 0 <= phi <= 1 /\ 0 <= Ct /\ 0 <= Cq /\
    f_H f = phi * (density_of_air a * c_spec_heat_air c * Ct * a_u2 a * (a_T2 a - T0) * cos_slope a) /\
    f_LE f = phi * (density_of_air a * latent_heat c T0 * Cq * a_u2 a * (air_mixing a - surface_mixing a T0) * cos_slope a).
Proof.
  intros Hc Hf W. assert (Hf' := Hf). destruct Hf. destruct Hc. unfold eb_fluxes, get_saturation_vapor_pressure in W.
  rewrite !method_EW_ok in W by assumption. cbn [bind] in W. rewrite (longwave_ok c a T0 Hf') in W. cbn [bind] in W.
  rewrite fdiv_ok in W by lra. cbn [bind] in W. rewrite adiv_ok in W by lra. cbn [bind] in W.
  assert (P2 := sonntag_pos (a_T2 a)). assert (P0 := sonntag_pos T0).
  assert (EM : a_rH2 a * 0.622 * (sonntag (a_T2 a) / (a_p a - sonntag (a_T2 a))) / 100 = air_mixing a)
    by (unfold air_mixing, mixing_ratio; lra).
  assert (EM0 : 100 * 0.622 * (sonntag T0 / (a_p a - sonntag T0)) / 100 = surface_mixing a T0)
    by (unfold surface_mixing, mixing_ratio; lra).
  rewrite EM, EM0 in W.
  assert (M : 0 <= air_mixing a) by (apply mixing_nonneg; lra).
  rewrite fdiv_ok in W.
  2:{ apply Rgt_not_eq. apply Rmult_lt_0_compat; [lra|]. apply Rmult_lt_0_compat; lra. }
  cbn [bind] in W.
  assert (EL : (if Rleb (c_zero_temperature c) T0 then c_lat_heat_vaporize c else c_lat_heat_sublimation c) = latent_heat c T0)
    by (unfold latent_heat, Rleb; destruct (Rle_dec (c_zero_temperature c) T0); reflexivity).
  rewrite EL in W.
  apply bind_ok in W. destruct W as (((((H & LE) & L) & Ct) & Cq) & HT & W).
  apply bind_ok in W. destruct W as (lam & _ & W). destruct B as (Tz1 & Tz2).
  apply bind_ok in W. destruct W as (r1 & _ & W). apply bind_ok in W. destruct W as (r2 & _ & W).
  apply bind_ok in W. destruct W as (r3 & _ & W). apply bind_ok in W. destruct W as (r4 & _ & W).
  rewrite fdiv_ok in W by lra. cbn [bind] in W. injection W as <-. cbn.
  repeat (split; [reflexivity|]).
  destruct (String.eqb (c_stability_correction c) "MO").
  - apply bind_ok in HT. destruct HT as (s & Hs & HT). injection HT as <- <- <- <- <-.
    destruct (mo_loop_done c wrf a T0 (density_of_air a) (latent_heat c T0) (surface_mixing a T0) (air_mixing a) (cos_slope a) fo_z) as (_ & D).
    destruct (D s Hs) as (_ & s0 & Hp & _).
    destruct (mo_pass_inv _ _ _ _ _ _ _ _ _ _ _ fo_z Hp) as (A1 & A2 & A3 & A4 & _).
    exists 1, (mo_Cs_t s), (mo_Cs_q s). split; [lra|]. split; [exact A1|]. split; [exact A2|].
    rewrite A3, A4. split; ring.
  - destruct (String.eqb (c_stability_correction c) "Ri"); [|discriminate].
    assert (L1 : 1 < a_z a / a_z0 a) by (apply ratio_gt1; lra).
    assert (L2 : 1 < a_z a / (a_z0 a / 100)) by (apply ratio_gt1; lra).
    assert (L3 : 1 < a_z a / (a_z0 a / 10)) by (apply ratio_gt1; lra).
    assert (N1 := ln_pos _ L1). assert (N2 := ln_pos _ L2). assert (N3 := ln_pos _ L3).
    rewrite (fdiv_ok (a_z a) (a_z0 a)) in HT by lra. cbn [bind] in HT. rewrite np_log_ok in HT by lra. cbn [bind] in HT.
    rewrite (fdiv_ok (a_z a) (a_z0 a / 100)) in HT by lra. cbn [bind] in HT. rewrite np_log_ok in HT by lra. cbn [bind] in HT.
    rewrite fdiv_ok in HT by (apply Rgt_not_eq; apply Rmult_lt_0_compat; lra). cbn [bind] in HT.
    rewrite (fdiv_ok (a_z a) (a_z0 a / 10)) in HT by lra. cbn [bind] in HT. rewrite np_log_ok in HT by lra. cbn [bind] in HT.
    rewrite fdiv_ok in HT by (apply Rgt_not_eq; apply Rmult_lt_0_compat; lra). cbn [bind] in HT.
    rewrite ri_phi_ok in HT by lra. cbn [bind] in HT. injection HT as <- <- <- <- <-.
    eexists _, _, _. split; [apply stability_factor_range|].
    split; [|split; [|split; reflexivity]].
    + apply Rle_mult_inv_pos; [lra|apply Rmult_lt_0_compat; lra].
    + apply Rle_mult_inv_pos; [lra|apply Rmult_lt_0_compat; lra].
Qed.

(** ** argmin and cumulative depths *)
Lemma argmin_from_spec l : forall best bi i,
  (argmin_from best bi i l = bi /\ Forall (fun x => best <= x) l) \/
  (exists k, argmin_from best bi i l = (i + Z.of_nat k)%Z /\ (k < length l)%nat /\
     nth k l 0 < best /\ forall j, (j < length l)%nat -> nth k l 0 <= nth j l 0).
Proof.
  induction l as [|x l IH]; intros best bi i; cbn [argmin_from].
  - left. split; [reflexivity|constructor].
  - destruct (Rltb_spec x best) as [H|H].
    + right. destruct (IH x i (i + 1)%Z) as [(E & F)|(k & E & Hk & Hx & Hm)].
      * exists O. rewrite E. split; [lia|]. split; [cbn; lia|]. split; [exact H|].
        intros [|j] Hj; [cbn; lra|]. cbn [nth]. rewrite Forall_forall in F. apply F. apply nth_In. cbn in Hj. lia.
      * exists (S k). rewrite E. split; [lia|]. split; [cbn; lia|]. split; [cbn [nth]; lra|].
        intros [|j] Hj; cbn [nth]; [lra|]. apply Hm. cbn in Hj. lia.
    + destruct (IH best bi (i + 1)%Z) as [(E & F)|(k & E & Hk & Hx & Hm)].
      * left. split; [exact E|]. constructor; [lra|exact F].
      * right. exists (S k). rewrite E. split; [lia|]. split; [cbn; lia|]. split; [exact Hx|].
        intros [|j] Hj; cbn [nth]; [lra|]. apply Hm. cbn in Hj. lia.
Qed.

Lemma argmin_spec l : l <> [] -> exists k, argmin l = Ok (Z.of_nat k) /\ (k < length l)%nat /\
  forall j, (j < length l)%nat -> nth k l 0 <= nth j l 0.
Proof.
  destruct l as [|x l]; [congruence|]. intros _. cbn [argmin].
  destruct (argmin_from_spec l x 0%Z 1%Z) as [(E & F)|(k & E & Hk & Hx & Hm)]; rewrite E.
  - exists O. split; [reflexivity|]. split; [cbn; lia|]. intros [|j] Hj; cbn [nth]; [lra|].
    rewrite Forall_forall in F. apply F. apply nth_In. cbn in Hj. lia.
  - exists (S k). split; [f_equal; lia|]. split; [cbn; lia|]. intros [|j] Hj; cbn [nth]; [lra|].
    apply Hm. cbn in Hj. lia.
Qed.

Lemma cumsum_from_length l : forall acc, length (cumsum_from acc l) = length l.
Proof. induction l; intros acc; cbn; [reflexivity|]. rewrite IHl. reflexivity. Qed.

Lemma cumsum_from_nth l : forall acc k, (k < length l)%nat ->
  nth k (cumsum_from acc l) 0 = acc + sum_list (firstn (S k) l).
Proof.
  induction l as [|x l IH]; intros acc k Hk; cbn in Hk; [lia|].
  destruct k as [|k].
  - cbn [cumsum_from nth firstn]. rewrite sum_list_cons. unfold sum_list. cbn. lra.
  - cbn [cumsum_from nth]. rewrite IH by lia. cbn [firstn]. rewrite !sum_list_cons.
    cbn [firstn]. destruct l as [|y l]; [cbn in Hk; lia|]. rewrite sum_list_cons. lra.
Qed.

Lemma depth_nth l k : (k < length l)%nat -> nth k (cumsum (map n_height l)) 0 = depth_to l k.
Proof.
  intros H. unfold cumsum. rewrite cumsum_from_nth by (rewrite map_length; exact H).
  rewrite firstn_map. unfold depth_to, column_height. rewrite total_sum_list. lra.
Qed.

Lemma depth_S l k y : nth_error l (S k) = Some y -> depth_to l (S k) = depth_to l k + n_height y.
Proof.
  revert k. induction l as [|x l IH]; intros k H; [discriminate|]. unfold depth_to, column_height in *.
  cbn [nth_error] in H. cbn [firstn]. rewrite !total_cons.
  destruct k as [|k].
  - destruct l as [|z l]; [discriminate|]. cbn in H. injection H as ->. cbn [firstn]. rewrite total_cons, !total_nil. lra.
  - specialize (IH k H). cbn [firstn] in *. destruct l as [|z l]; [discriminate|]. rewrite !total_cons in *. lra.
Qed.

Lemma depth_mono l : Forall (fun n => 0 < n_height n) l ->
  forall j k, (j < k)%nat -> (k < length l)%nat -> depth_to l j < depth_to l k.
Proof.
  intros HF j k Hjk. induction Hjk as [|k Hjk IH]; intros Hk.
  - destruct (nth_error l (S j)) as [y|] eqn:E; [|apply nth_error_None in E; lia].
    rewrite (depth_S l j y E). apply nth_error_In in E. rewrite Forall_forall in HF. specialize (HF y E). lra.
  - destruct (nth_error l (S k)) as [y|] eqn:E; [|apply nth_error_None in E; lia].
    rewrite (depth_S l k y E). apply nth_error_In in E. rewrite Forall_forall in HF. specialize (HF y E).
    specialize (IH ltac:(lia)). lra.
Qed.

Lemma argmin_depth l zlt : l <> [] -> exists m, argmin (map (fun d => Rabs (d - zlt)) (cumsum (map n_height l))) = Ok (Z.of_nat m) /\
  (m < length l)%nat /\ forall j, (j < length l)%nat -> Rabs (depth_to l m - zlt) <= Rabs (depth_to l j - zlt).
Proof.
  intros H. set (cum := cumsum (map n_height l)).
  assert (Hl : length cum = length l) by (unfold cum, cumsum; rewrite cumsum_from_length, map_length; reflexivity).
  destruct (argmin_spec (map (fun d => Rabs (d - zlt)) cum)) as (m & E & Hm & HM).
  { intros Z. apply (f_equal (@length R)) in Z. rewrite map_length, Hl in Z. destruct l; [congruence|discriminate]. }
  rewrite map_length, Hl in Hm, HM. exists m. split; [exact E|]. split; [exact Hm|].
  assert (N : forall j, (j < length l)%nat -> nth j (map (fun d => Rabs (d - zlt)) cum) 0 = Rabs (depth_to l j - zlt)).
  { intros j Hj. rewrite (nth_indep _ 0 (Rabs (0 - zlt))) by (rewrite map_length, Hl; exact Hj).
    rewrite (map_nth (fun d => Rabs (d - zlt))). unfold cum; rewrite depth_nth by exact Hj. reflexivity. }
  intros j Hj. specialize (HM j Hj). rewrite !N in HM by assumption. exact HM.
Qed.

Lemma cum_get l k : (k < length l)%nat -> py_get (cumsum (map n_height l)) (Z.of_nat k) = Ok (depth_to l k).
Proof.
  intros H. apply py_get_nth. rewrite (nth_error_nth' _ 0).
  - f_equal. apply depth_nth. exact H.
  - unfold cumsum. rewrite cumsum_from_length, map_length. exact H.
Qed.

Lemma subsurface_between g zlt k x y :
  Forall (fun n => 0 < n_height n) (g_nodes g) ->
  nth_error (g_nodes g) k = Some x -> nth_error (g_nodes g) (S k) = Some y ->
  depth_to (g_nodes g) k <= zlt < depth_to (g_nodes g) (S k) ->
  get_subsurface_temperature g (cumsum (map n_height (g_nodes g))) zlt
  = Ok (n_temperature x + (n_temperature y - n_temperature x) * ((zlt - depth_to (g_nodes g) k) / n_height y)).
Proof.
  intros HF Ex Ey Hz. set (l := g_nodes g) in *.
  assert (HSk : (S k < length l)%nat) by (apply nth_error_Some; congruence).
  assert (Hne : l <> []) by (destruct l; [discriminate|congruence]).
  destruct (argmin_depth l zlt Hne) as (m & E & Hm & HM).
  assert (DS := depth_S l k y Ey).
  assert (Hy : 0 < n_height y) by (rewrite Forall_forall in HF; apply HF; eapply nth_error_In; exact Ey).
  assert (Hmk : m = k \/ m = S k).
  { destruct (Nat.lt_trichotomy m k) as [L|[L|L]]; [exfalso|left; exact L|].
    - assert (D := depth_mono l HF m k L ltac:(lia)). specialize (HM k ltac:(lia)).
      rewrite (Rabs_left1 (depth_to l k - zlt)) in HM by lra. rewrite Rabs_left in HM by lra. lra.
    - destruct (Nat.eq_dec m (S k)) as [Z|Z]; [right; exact Z|exfalso].
      assert (D := depth_mono l HF (S k) m ltac:(lia) Hm). specialize (HM (S k) HSk).
      rewrite (Rabs_pos_eq (depth_to l (S k) - zlt)) in HM by lra. rewrite Rabs_pos_eq in HM by lra. lra. }
  unfold get_subsurface_temperature. rewrite E. cbn [bind].
  rewrite (cum_get l m Hm). cbn [bind].
  destruct Hmk as [->| ->].
  - rewrite Rltb_false by lra. unfold get_node. rewrite (py_get_nth (g_nodes g) k x Ex). cbn [bind].
    replace (Z.of_nat k + 1)%Z with (Z.of_nat (S k)) by lia. rewrite (py_get_nth (g_nodes g) (S k) y Ey). cbn [bind].
    rewrite (cum_get l (S k)) by lia. cbn [bind]. rewrite fdiv_ok by lra. cbn [bind]. f_equal. rewrite DS. field. lra.
  - rewrite Rltb_true by lra. unfold get_node. rewrite (py_get_nth (g_nodes g) (S k) y Ey). cbn [bind].
    replace (Z.of_nat (S k) - 1)%Z with (Z.of_nat k) by lia. rewrite (py_get_nth (g_nodes g) k x Ex). cbn [bind].
    rewrite (cum_get l k) by lia. cbn [bind]. rewrite fdiv_ok by lra. cbn [bind]. f_equal. rewrite DS. field. lra.
Qed.

Lemma subsurface_thin g zlt :
  Forall (fun n => 0 < n_height n) (g_nodes g) -> g_nodes g <> [] -> column_height (g_nodes g) <= zlt ->
  get_subsurface_temperature g (cumsum (map n_height (g_nodes g))) zlt = Err IndexError.
Proof.
  intros HF Hne Hz. set (l := g_nodes g) in *.
  destruct (argmin_depth l zlt Hne) as (m & E & Hm & HM).
  assert (Hlast : depth_to l (length l - 1) = column_height l).
  { unfold depth_to. rewrite (firstn_all2 (n := S (length l - 1)) l) by lia. reflexivity. }
  assert (m = (length l - 1)%nat).
  { destruct (Nat.eq_dec m (length l - 1)) as [Z|Z]; [exact Z|exfalso].
    assert (D := depth_mono l HF m (length l - 1) ltac:(lia) ltac:(lia)). specialize (HM (length l - 1)%nat ltac:(lia)).
    rewrite Hlast in *. rewrite (Rabs_left1 (column_height l - zlt)) in HM by lra. rewrite Rabs_left in HM by lra. lra. }
  subst m. unfold get_subsurface_temperature. rewrite E. cbn [bind]. rewrite (cum_get l _ Hm). cbn [bind].
  rewrite Rltb_false by (rewrite Hlast; exact Hz).
  destruct (nth_error l (length l - 1)) as [x|] eqn:Ex; [|apply nth_error_None in Ex; lia].
  unfold get_node. rewrite (py_get_nth (g_nodes g) _ x Ex). cbn [bind].
  rewrite py_get_oob; [reflexivity|]. fold l. lia.
Qed.

Lemma subsurface_thick g zlt top middle bottom :
  Forall (fun n => 0 < n_height n) (g_nodes g) -> g_nodes g = top :: middle ++ [bottom] ->
  0 < zlt < n_height top ->
  get_subsurface_temperature g (cumsum (map n_height (g_nodes g))) zlt
  = Ok (n_temperature top + (n_temperature bottom - n_temperature top)
          * ((zlt - n_height top) / column_height (middle ++ [bottom]))).
Proof.
  intros HF El Hz. set (l := g_nodes g) in *.
  assert (Hne : l <> []) by (rewrite El; discriminate).
  destruct (argmin_depth l zlt Hne) as (m & E & Hm & HM).
  assert (D0 : depth_to l 0 = n_height top) by (rewrite El; unfold depth_to, column_height; cbn [firstn]; rewrite total_cons, total_nil; lra).
  assert (m = 0%nat).
  { destruct m as [|m]; [reflexivity|exfalso].
    assert (D := depth_mono l HF 0 (S m) ltac:(lia) Hm). specialize (HM 0%nat ltac:(lia)).
    rewrite D0 in *. rewrite (Rabs_pos_eq (n_height top - zlt)) in HM by lra. rewrite Rabs_pos_eq in HM by lra. lra. }
  subst m. unfold get_subsurface_temperature. rewrite E. cbn [bind]. rewrite (cum_get l 0 Hm). cbn [bind].
  rewrite Rltb_true by lra.
  assert (Hn : length l = S (S (length middle))) by (rewrite El; cbn [length]; rewrite app_length; cbn [length]; lia).
  unfold get_node. rewrite (py_get_nth (g_nodes g) 0 top) by (fold l; rewrite El; reflexivity). cbn [bind].
  change (Z.of_nat 0 - 1)%Z with (- Z.of_nat 1)%Z.
  assert (Hb : py_get (g_nodes g) (- Z.of_nat 1) = Ok bottom).
  { unfold py_get. fold l. rewrite py_index_neg by lia. rewrite El.
    replace (length (top :: middle ++ [bottom]) - 1)%nat with (length (top :: middle)) by (cbn [length]; rewrite app_length; cbn [length]; lia).
    change (top :: middle ++ [bottom]) with ((top :: middle) ++ [bottom]). rewrite nth_error_app2 by lia.
    rewrite Nat.sub_diag. reflexivity. }
  rewrite Hb. cbn [bind].
  assert (Hc : py_get (cumsum (map n_height l)) (- Z.of_nat 1) = Ok (column_height l)).
  { unfold py_get. unfold cumsum at 1. rewrite cumsum_from_length, map_length. rewrite py_index_neg by lia.
    rewrite (nth_error_nth' _ 0) by (unfold cumsum; rewrite cumsum_from_length, map_length; lia).
    rewrite depth_nth by lia. f_equal. unfold depth_to. rewrite (firstn_all2 (n := S (length l - 1)) l) by lia. reflexivity. }
  rewrite Hc. cbn [bind].
  assert (Hcol : column_height l = n_height top + column_height (middle ++ [bottom])).
  { rewrite El. unfold column_height. rewrite total_cons. reflexivity. }
  assert (Hrest : 0 < column_height (middle ++ [bottom])).
  { rewrite El in HF. assert (HF2 := Forall_inv_tail HF). unfold column_height. rewrite total_app, total_cons, total_nil.
    apply Forall_app in HF2. destruct HF2 as (F1 & F2). assert (F3 := Forall_inv F2). cbv beta in F3.
    assert (0 <= total n_height middle) by (apply total_nonneg; eapply Forall_impl; [|exact F1]; cbv beta; intros; lra). lra. }
  rewrite fdiv_ok by lra. cbn [bind]. f_equal. rewrite Hcol, D0. field. lra.
Qed.
