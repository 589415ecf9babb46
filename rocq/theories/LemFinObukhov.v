(** * Stability corrections of Monin and Obukhov *)
From Verif Require Import ModelPy ModelConstants ModelNode ModelGrid ModelSurface ModelAlbedo Spec SpecSurface LemPy
  LemGridBase LemDensification LemFinSecant LemSurface LemFinSurface.

(** integrated stability functions for momentum and for heat and moisture, at a height [z] and for an
    Obukhov length [L]; 0 stands for neutral air, [wrf] for the coupled model *)
Definition psi_stable (wrf : bool) (zeta : R) : R :=
  if Rle_dec zeta 1 then -5 * zeta else if wrf then -5 else -4 * (1 + ln zeta) - zeta.
Definition psi_m (wrf : bool) (z L : R) : R :=
  if Rlt_dec 0 L then psi_stable wrf (z / L)
  else if Rlt_dec L 0 then
    let x := sqrt (sqrt (1 - 16 * z / L)) in 2 * ln ((1 + x) / 2) + ln ((1 + x ^ 2) / 2) - 2 * atan x + PI / 2
  else 0.
Definition psi_h (wrf : bool) (z L : R) : R :=
  if Rlt_dec 0 L then psi_stable wrf (z / L)
  else if Rlt_dec L 0 then 2 * ln ((1 + sqrt (1 - 19.3 * z / L)) / 2)
  else 0.

Lemma psi_stable_eq wrf x : stable_value wrf x = psi_stable wrf x.
Proof. unfold stable_value, psi_stable. destruct (Rle_dec x 1); [reflexivity|]. destruct wrf; lra. Qed.

Lemma quarter x : 0 < x -> Rpower x 0.25 = sqrt (sqrt x).
Proof.
  intros H. rewrite <- (Rpower_sqrt (sqrt x)) by (apply sqrt_lt_R0; exact H). rewrite <- (Rpower_sqrt x) by exact H.
  rewrite Rpower_mult. f_equal. lra.
Qed.

Lemma phi_m_exact wrf z L : 0 < z -> phi_m wrf z L = Ok (psi_m wrf z L).
Proof.
  intros Hz. unfold phi_m, psi_m. unfold Rltb at 1. destruct (Rlt_dec 0 L) as [P|P].
  - rewrite phi_m_stable_ok by assumption. rewrite psi_stable_eq. reflexivity.
  - unfold Rltb. destruct (Rlt_dec L 0) as [N|N]; [|reflexivity].
    rewrite fdiv_ok by lra. cbn [bind]. assert (Q : 0 < 1 - 16 * z / L).
    { assert (16 * z / L < 0); [|lra]. unfold Rdiv. assert (/ L < 0) by (apply Rinv_lt_0_compat; exact N). nra. }
    unfold np_power. destruct (Rlt_dec 0 (1 - 16 * z / L)); [|contradiction]. cbn [bind]. rewrite quarter by exact Q.
    set (x := sqrt (sqrt (1 - 16 * z / L))). assert (X: 0 < x) by (unfold x; apply sqrt_lt_R0, sqrt_lt_R0; exact Q).
    rewrite np_log_ok by lra. cbn [bind]. assert (0 < x ^ 2) by (apply pow_lt; exact X). rewrite np_log_ok by lra. reflexivity.
Qed.

Lemma phi_tq_exact wrf z L : 0 < z -> phi_tq wrf z L = Ok (psi_h wrf z L).
Proof.
  intros Hz. destruct (Rtotal_order L 0) as [H|[H|H]].
  - rewrite phi_tq_unstable by assumption. unfold psi_h. destruct (Rlt_dec 0 L); [lra|]. destruct (Rlt_dec L 0); [reflexivity|lra].
  - subst L. unfold phi_tq, psi_h, Rltb. destruct (Rlt_dec 0 0); [lra|reflexivity].
  - unfold phi_tq, psi_h, Rltb. destruct (Rlt_dec 0 L); [|lra]. rewrite phi_m_stable_ok by assumption. rewrite psi_stable_eq. reflexivity.
Qed.

(*@ C135 The stability functions in closed form: the same for momentum and heat in stable air,
   where they are negative and decrease with the height, the two pieces meet at z = L; zero in neutral air;
   in unstable air the function for heat is positive. *)
Lemma stability_functions_lem :
  forall (wrf : bool) (z z' L : R), 0 < z <= z' ->
    phi_m wrf z L = Ok (psi_m wrf z L) /\ phi_tq wrf z L = Ok (psi_h wrf z L) /\
    (0 < L -> psi_h wrf z L = psi_m wrf z L /\ psi_m wrf z' L <= psi_m wrf z L < 0) /\
    (L = 0 -> psi_m wrf z L = 0 /\ psi_h wrf z L = 0) /\
    (L < 0 -> 0 < psi_h wrf z L) /\
    psi_stable wrf 1 = -5 /\ -4 * (1 + ln 1) - 1 = -5.
Proof.
  intros wrf z z' L Hz. split; [apply phi_m_exact; lra|]. split; [apply phi_tq_exact; lra|].
  split.
  { intros H. unfold psi_m, psi_h. destruct (Rlt_dec 0 L); [|contradiction]. split; [reflexivity|].
    rewrite <- !psi_stable_eq. assert (0 < z / L) by (apply Rdiv_lt_0_compat; lra).
    split; [|apply stable_value_neg; assumption]. apply stable_value_mono. split; [assumption|].
    apply Rmult_le_compat_r; [left; apply Rinv_0_lt_compat; exact H|lra]. }
  split.
  { intros ->. unfold psi_m, psi_h. destruct (Rlt_dec 0 0); [lra|]. split; reflexivity. }
  split.
  { intros H. unfold psi_h. destruct (Rlt_dec 0 L); [lra|]. destruct (Rlt_dec L 0); [|contradiction].
    assert (Q : 1 < 1 - 19.3 * z / L).
    { assert (19.3 * z / L < 0); [|lra]. unfold Rdiv. assert (/ L < 0) by (apply Rinv_lt_0_compat; exact H). nra. }
    assert (1 < sqrt (1 - 19.3 * z / L)) by (rewrite <- sqrt_1 at 1; apply sqrt_lt_1; lra).
    assert (0 < ln ((1 + sqrt (1 - 19.3 * z / L)) / 2)) by (apply ln_pos; lra). lra. }
  split; [unfold psi_stable; destruct (Rle_dec 1 1); lra|rewrite ln_1; lra].
Qed.

(** ** One pass *)

Lemma sqrt_drag d : d <> 0 -> sqrt (0.41 ^ 2 / d ^ 2) = 0.41 / Rabs d.
Proof.
  intros H. assert (0 < Rabs d) by (apply Rabs_pos_lt; exact H).
  replace (0.41 ^ 2 / d ^ 2) with ((0.41 / Rabs d) ^ 2).
  - apply sqrt_pow2. apply Rle_mult_inv_pos; lra.
  - rewrite <- (pow2_abs d). field. lra.
Qed.

(*@ C135 One pass of the iteration for the Obukhov length, exactly.  The transfer coefficients follow from the
   logarithmic profile and the stability functions; the roughness lengths of heat and moisture are a hundredth and
   a tenth of that of momentum.  The code subtracts the stability function at the roughness length from the profile
   of the wind, where the integrated profile has its difference. *)
Lemma obukhov_pass_exact_lem :
  forall (c : Consts) (wrf : bool) (a : Atm) (T0 rho Lv q0 q2 cs : R) (s s' : MOstate),
    0 < a_z0 a < a_z a ->
    mo_pass c wrf a T0 rho Lv q0 q2 cs s = Ok s' ->
    let L := mo_L s in
    let wind := ln (a_z a / a_z0 a) - psi_m wrf (a_z a) L - psi_m wrf (a_z0 a) L in
    let heat := psi_h wrf (a_z a) L - psi_h wrf (a_z0 a) L in
    let ust := 0.41 * a_u2 a / (ln (a_z a / a_z0 a) - psi_m wrf (a_z a) L) in
    wind <> 0 /\
    mo_Cs_t s' = 0.41 ^ 2 / (Rabs wind * (ln (100 * (a_z a / a_z0 a)) - heat)) /\
    mo_Cs_q s' = 0.41 ^ 2 / (Rabs wind * (ln (10 * (a_z a / a_z0 a)) - heat)) /\
    mo_H s' = rho * c_spec_heat_air c * mo_Cs_t s' * a_u2 a * (a_T2 a - T0) * cs /\
    mo_LE s' = rho * Lv * mo_Cs_q s' * a_u2 a * (q2 - q0) * cs /\
    (mo_H s' = 0 -> mo_L s' = 0) /\
    (mo_H s' <> 0 -> mo_L s' = rho * c_spec_heat_air c * ust ^ 3 * a_T2 a / (0.41 * 9.81 * mo_H s')).
Proof.
  intros c wrf a T0 rho Lv q0 q2 cs s s' Hz W L wind heat ust.
  destruct (mo_pass_inv _ _ _ _ _ _ _ _ _ _ _ Hz W) as (_ & _ & EH & ELE & _).
  assert (L1 : 1 < a_z a / a_z0 a) by (apply ratio_gt1; lra).
  assert (L2 : 1 < a_z a / (a_z0 a / 100)) by (apply ratio_gt1; lra).
  assert (L3 : 1 < a_z a / (a_z0 a / 10)) by (apply ratio_gt1; lra).
  unfold mo_pass, ustar in W. cbv zeta in W. fold L in W.
  rewrite !phi_m_exact, !phi_tq_exact in W by lra.
  rewrite (fdiv_ok (a_z a) (a_z0 a)) in W by lra. cbn [bind] in W. rewrite np_log_ok in W by lra. cbn [bind] in W.
  apply bind_ok in W as (us & Eu & W). apply fdiv_inv in Eu as (_ & Eu). change (us = ust) in Eu.
  apply bind_ok in W as (Cd & Ed & W). apply fdiv_inv in Ed as (Nd & Ed). change (wind ^ 2 <> 0) in Nd. change (Cd = 0.41 ^ 2 / wind ^ 2) in Ed.
  assert (NW: wind <> 0) by (intros Z; apply Nd; rewrite Z; ring).
  rewrite (fdiv_ok (a_z a) (a_z0 a / 100)) in W by lra. cbn [bind] in W. rewrite np_log_ok in W by lra. cbn [bind] in W.
  apply bind_ok in W as (Ct & Et & W). apply fdiv_inv in Et as (Nt & Et).
  rewrite (fdiv_ok (a_z a) (a_z0 a / 10)) in W by lra. cbn [bind] in W. rewrite np_log_ok in W by lra. cbn [bind] in W.
  apply bind_ok in W as (Cq & Eq & W). apply fdiv_inv in Eq as (Nq & Eq).
  apply bind_ok in W as (L' & EL & W). injection W as <-. cbn [mo_Cs_t mo_Cs_q mo_H mo_LE mo_L] in *.
  assert (AW: Rabs wind <> 0) by (apply Rabs_no_R0; exact NW).
  split; [exact NW|].
  replace (a_z a / (a_z0 a / 100)) with (100 * (a_z a / a_z0 a)) in * by (field; lra).
  replace (a_z a / (a_z0 a / 10)) with (10 * (a_z a / a_z0 a)) in * by (field; lra).
  change (psi_h wrf (a_z a) L - psi_h wrf (a_z0 a) L) with heat in Et, Eq, Nt, Nq.
  rewrite Ed, sqrt_drag in Et, Eq by exact NW.
  split; [rewrite Et; field; split; assumption|]. split; [rewrite Eq; field; split; assumption|].
  split; [exact EH|]. split; [exact ELE|]. rewrite <- Eu.
  unfold MO in EL. destruct (Reqb_spec (get_sensible_heat_flux c rho Ct (a_u2 a) (a_T2 a - T0) cs) 0) as [Z|Z]; cbn [negb] in EL.
  - injection EL as <-. split; [reflexivity|contradiction].
  - split; [contradiction|]. intros _. unfold adiv in EL. destruct (Req_EM_T _ 0) in EL; [discriminate|]. injection EL as <-. reflexivity.
Qed.

(** ** Stable air *)

Lemma obukhov_reached c wrf a T0 rho Lv q0 q2 cs : 0 < a_z0 a < a_z a ->
  0 <= rho -> 0 <= c_spec_heat_air c -> 0 <= a_u2 a -> 0 < a_T2 a -> T0 <= a_T2 a -> 0 <= cs ->
  forall fuel s s', 0 <= mo_L s -> mo_optim s = true ->
    while_loop fuel (fun s => Ok (mo_optim s)) (mo_pass c wrf a T0 rho Lv q0 q2 cs) s = Ok s' ->
    exists before, 0 <= mo_L before /\ mo_pass c wrf a T0 rho Lv q0 q2 cs before = Ok s'.
Proof.
  intros Hz Hrho Hcp Hu HT HT0 Hcs. induction fuel as [|fuel IH]; intros s s' HL HO W; cbn [while_loop bind] in W; [discriminate|].
  rewrite HO in W. destruct (mo_pass_stable c wrf a T0 rho Lv q0 q2 cs s Hz Hrho Hcp Hu HT HT0 Hcs HL) as (s1 & E & HL').
  rewrite E in W. cbn [bind] in W. destruct (mo_optim s1) eqn:O1.
  - exact (IH s1 s' HL' O1 W).
  - destruct fuel; cbn [while_loop bind] in W; [discriminate|]. rewrite O1 in W. injection W as <-. eauto.
Qed.

(*@ C135 In stable or neutral air the correction only damps: the transfer coefficients of the result are positive
   and at most those of neutral air.  In stable air
   (L > 0 in the last pass) they are below the ones that the integrated profile gives, because the stability function
   at the roughness length is subtracted instead of added. *)
Lemma stable_air_damps_lem :
  forall (c : Consts) (wrf : bool) (a : Atm) (T0 rho Lv q0 q2 cs : R),
    0 < a_z0 a < a_z a ->
    0 <= rho -> 0 <= c_spec_heat_air c -> 0 <= a_u2 a -> 0 < a_T2 a -> T0 <= a_T2 a -> 0 <= cs ->
    exists s before, mo_loop 8 c wrf a T0 rho Lv q0 q2 cs = Ok s /\
      mo_pass c wrf a T0 rho Lv q0 q2 cs before = Ok s /\ 0 <= mo_L before /\
      let lnz := ln (a_z a / a_z0 a) in
      let lnt := ln (100 * (a_z a / a_z0 a)) in
      let lnq := ln (10 * (a_z a / a_z0 a)) in
      0 < mo_Cs_t s <= 0.41 ^ 2 / (lnz * lnt) /\ 0 < mo_Cs_q s <= 0.41 ^ 2 / (lnz * lnq) /\
      (0 < mo_L before ->
        let L := mo_L before in
        let wind := lnz - (psi_m wrf (a_z a) L - psi_m wrf (a_z0 a) L) in
        let heat := psi_h wrf (a_z a) L - psi_h wrf (a_z0 a) L in
        mo_Cs_t s < 0.41 ^ 2 / (wind * (lnt - heat)) /\ mo_Cs_q s < 0.41 ^ 2 / (wind * (lnq - heat))).
Proof.
  intros c wrf a T0 rho Lv q0 q2 cs Hz Hrho Hcp Hu HT HT0 Hcs.
  destruct (mo_loop_stable c wrf a T0 rho Lv q0 q2 cs Hz Hrho Hcp Hu HT HT0 Hcs) as (s & Es).
  destruct (obukhov_reached c wrf a T0 rho Lv q0 q2 cs Hz Hrho Hcp Hu HT HT0 Hcs 8 (mkMO 0 None true 0 0 0 0 0) s (Rle_refl 0) eq_refl Es) as (b & HL & Eb).
  exists s, b. split; [exact Es|]. split; [exact Eb|]. split; [exact HL|]. intros lnz lnt lnq.
  destruct (obukhov_pass_exact_lem _ _ _ _ _ _ _ _ _ _ _ Hz Eb) as (_ & Et & Eq & _). fold lnz lnt lnq in Et, Eq.
  set (L := mo_L b) in *.
  assert (L1 : 1 < a_z a / a_z0 a) by (apply ratio_gt1; lra).
  assert (N1: 0 < lnz) by (apply ln_pos, L1).
  assert (N2: lnz < lnt) by (apply ln_increasing; lra).
  assert (N3: lnz < lnq) by (apply ln_increasing; lra).
  assert (PS: psi_m wrf (a_z a) L <= psi_m wrf (a_z0 a) L <= 0 /\ psi_h wrf (a_z a) L - psi_h wrf (a_z0 a) L <= 0 /\
              (0 < L -> psi_m wrf (a_z0 a) L < 0)).
  { assert (H0: 0 < a_z0 a <= a_z a) by lra. assert (H1: 0 < a_z a <= a_z a) by lra.
    destruct (stability_functions_lem wrf (a_z0 a) (a_z a) L H0) as (_ & _ & S1 & S0 & _).
    destruct (stability_functions_lem wrf (a_z a) (a_z a) L H1) as (_ & _ & U1 & U0 & _).
    destruct (Req_dec L 0) as [Z|Z].
    - destruct (S0 Z), (U0 Z). split; [lra|]. split; [lra|]. intros; lra.
    - assert (P: 0 < L) by lra. destruct (S1 P), (U1 P). split; [lra|]. split; [lra|]. intros _; lra. }
  destruct PS as (PS1 & PS2 & PS3).
  set (m := psi_m wrf (a_z a) L) in *. set (m0 := psi_m wrf (a_z0 a) L) in *.
  set (heat := psi_h wrf (a_z a) L - psi_h wrf (a_z0 a) L) in *.
  rewrite Rabs_right in Et, Eq by lra.
  assert (INV: forall x y, 0 < x <= y -> 0.41 ^ 2 / y <= 0.41 ^ 2 / x).
  { intros x y H. apply Rmult_le_compat_l; [lra|]. apply Rinv_le_contravar; lra. }
  assert (INS: forall x y, 0 < x < y -> 0.41 ^ 2 / y < 0.41 ^ 2 / x).
  { intros x y H. apply Rmult_lt_compat_l; [lra|]. apply Rinv_lt_contravar; [apply Rmult_lt_0_compat|]; lra. }
  assert (POS: forall x y, 0 < x -> 0 < y -> 0 < 0.41 ^ 2 / (x * y)).
  { intros x y Hx Hy. apply Rdiv_lt_0_compat; [lra|]. apply Rmult_lt_0_compat; assumption. }
  rewrite Et, Eq.
  split; [split; [apply POS; lra|]|].
  { apply INV. split; [apply Rmult_lt_0_compat; lra|]. apply Rmult_le_compat; lra. }
  split; [split; [apply POS; lra|]|].
  { apply INV. split; [apply Rmult_lt_0_compat; lra|]. apply Rmult_le_compat; lra. }
  intros P L0 wind heat0. specialize (PS3 P).
  assert (EW: wind = lnz - (m - m0)) by reflexivity. assert (EQ: heat0 = heat) by reflexivity. rewrite EQ.
  assert (W: 0 < wind < lnz - m - m0) by (rewrite EW; lra).
  split; apply INS; (split; [apply Rmult_lt_0_compat; lra|]; apply Rmult_lt_compat_r; lra).
Qed.

(** ** Roughness and irreducible water *)

(*@ C89 The irreducible water content: a hyperbola in the ice fraction up to 0.23, a line up to 0.812, nothing
   above. *)
Lemma irreducible_formula_lem :
  forall n : Node,
    (n_ice n <= 0.23 -> n_ice n <> 0 -> layer_irreducible n = Ok (0.0264 + 0.0099 * (1 - n_ice n) / n_ice n)) /\
    (0.23 < n_ice n <= 0.812 -> layer_irreducible n = Ok (0.08 - 0.1023 * (n_ice n - 0.03))) /\
    (0.812 < n_ice n -> layer_irreducible n = Ok 0).
Proof.
  intros n. unfold layer_irreducible, Rleb, Rltb. split; [|split].
  - intros H N. destruct (Rle_dec (n_ice n) 0.23); [|contradiction]. rewrite fdiv_ok by exact N. cbn [bind]. f_equal. unfold Rdiv. ring.
  - intros H. destruct (Rle_dec (n_ice n) 0.23); [lra|]. destruct (Rlt_dec 0.23 (n_ice n)); [|lra]. destruct (Rle_dec (n_ice n) 0.812); [|lra]. reflexivity.
  - intros H. destruct (Rle_dec (n_ice n) 0.23); [lra|]. destruct (Rlt_dec 0.23 (n_ice n)); [|lra]. destruct (Rle_dec (n_ice n) 0.812); [lra|]. reflexivity.
Qed.

(*@ C31 The roughness length in metres: on snow it grows linearly with the age of the snow in hours from the value
   of fresh snow and is cut at the value of firn; on ice it is that of ice. *)
Lemma roughness_exact_lem :
  forall (c : Consts) (g : Grid) (top : Node) (below : list Node), g_nodes g = top :: below ->
    (layer_density c top <= c_snow_ice_threshold c ->
       method_Moelg c g = Ok (Rmin (c_roughness_fresh_snow c + c_aging_factor_roughness c * (g_new_snow_timestamp g / 3600))
                                   (c_roughness_firn c) / 1000)) /\
    (c_snow_ice_threshold c < layer_density c top -> method_Moelg c g = Ok (c_roughness_ice c / 1000)).
Proof.
  intros c g top below E. unfold method_Moelg, get_fresh_snow_props, get_node_density.
  rewrite (get_node_mid g [] top below E : get_node g 0 = _). cbn [bind]. unfold Rleb.
  destruct (Rle_dec (layer_density c top) (c_snow_ice_threshold c)); split; intros; try reflexivity; lra.
Qed.

(** ** Example *)

(*@ex C135 A stable hour at -3 degrees in the air and -10 at the surface. *)
Lemma stable_air_example_lem :
  exists s, mo_loop 8 default_constants false (mkAtm 3600 2 0.001 270 80 600 3 0 0 (Some 250) None) 263 0.8 2.8e6 0.002 0.003 1 = Ok s /\
    0 < mo_H s.
Proof.
  set (a := mkAtm 3600 2 0.001 270 80 600 3 0 0 (Some 250) None).
  destruct (stable_air_damps_lem default_constants false a 263 0.8 2.8e6 0.002 0.003 1) as (s & b & E & Eb & _ & P & _);
    try (cbn; lra).
  exists s. split; [exact E|].
  assert (Hz: 0 < a_z0 a < a_z a) by (cbn; lra).
  destruct (mo_pass_inv _ _ _ _ _ _ _ _ _ _ _ Hz Eb) as (_ & _ & EH & _). rewrite EH. cbn [a a_u2 a_T2 default_constants c_spec_heat_air].
  destruct P as [P _]. assert (0 < 0.8 * 1004.67 * mo_Cs_t s * 3 * (270 - 263) * 1) by lra. exact H.
Qed.
