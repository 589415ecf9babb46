(** * The stability correction of Monin and Obukhov in unstable air *)
From Verif Require Import ModelPy ModelConstants ModelNode ModelGrid ModelSurface.
From Verif Require Import LemPy LemGridBase LemSurface LemFinSurface LemFinObukhov.
From Coq Require Import Ranalysis5.

Definition psi_u (x : R) : R := 2 * ln ((1 + x) / 2) + ln ((1 + x ^ 2) / 2) - 2 * atan x + PI / 2.
Definition zx (z L : R) : R := sqrt (sqrt (1 - 16 * z / L)).

Lemma ln_half x : 0 < x -> ln (x / 2) = ln x - ln 2.
Proof. intros H. unfold Rdiv. rewrite ln_mult by lra. rewrite ln_Rinv by lra. ring. Qed.

Lemma psi_u_split x : 0 < x -> psi_u x = 2 * ln (1 + x) + ln (1 + x * x) - 2 * atan x + (PI / 2 - 3 * ln 2).
Proof.
  intros H. unfold psi_u. assert (0 < x * x) by nra. replace (x ^ 2) with (x * x) by ring.
  rewrite !ln_half by lra. ring.
Qed.

Lemma psi_u_derive x : 0 < x ->
  derivable_pt_lim (fun t => 2 * ln (1 + t) + ln (1 + t * t) - 2 * atan t + (PI / 2 - 3 * ln 2)) x
    (4 * (x * x) / ((1 + x) * (1 + x * x))).
Proof.
  intros H. assert (P: 0 < x * x) by nra.
  replace (4 * (x * x) / ((1 + x) * (1 + x * x)))
    with (2 * (/ (1 + x) * (0 + 1)) + / (1 + x * x) * (0 + (1 * x + x * 1)) - 2 * / (1 + x ^ 2) + 0)
    by (field; lra).
  assert (I: derivable_pt_lim (fun t => t) x 1) by apply derivable_pt_lim_id.
  apply (derivable_pt_lim_plus (fun t => 2 * ln (1 + t) + ln (1 + t * t) - 2 * atan t) (fun _ => PI / 2 - 3 * ln 2));
    [|apply derivable_pt_lim_const].
  apply (derivable_pt_lim_minus (fun t => 2 * ln (1 + t) + ln (1 + t * t)) (fun t => 2 * atan t)).
  - apply (derivable_pt_lim_plus (fun t => 2 * ln (1 + t)) (fun t => ln (1 + t * t))).
    + apply (derivable_pt_lim_scal (fun t => ln (1 + t))).
      apply (derivable_pt_lim_comp (fun t => 1 + t) ln).
      * apply (derivable_pt_lim_plus (fun _ => 1) (fun t => t)); [apply derivable_pt_lim_const|exact I].
      * apply derivable_pt_lim_ln. lra.
    + apply (derivable_pt_lim_comp (fun t => 1 + t * t) ln).
      * apply (derivable_pt_lim_plus (fun _ => 1) (fun t => t * t)); [apply derivable_pt_lim_const|].
        apply (derivable_pt_lim_mult (fun t => t) (fun t => t)); exact I.
      * apply derivable_pt_lim_ln. lra.
  - apply (derivable_pt_lim_scal atan). apply derivable_pt_lim_atan.
Qed.

Lemma psi_u_increasing x y : 0 < x < y -> psi_u x < psi_u y.
Proof.
  intros H. rewrite !psi_u_split by lra.
  destruct (MVT_cor2 (fun t => 2 * ln (1 + t) + ln (1 + t * t) - 2 * atan t + (PI / 2 - 3 * ln 2))
              (fun t => 4 * (t * t) / ((1 + t) * (1 + t * t))) x y) as [c [E C]]; [lra| |].
  - intros c C. apply psi_u_derive. lra.
  - assert (P: 0 < c * c) by nra.
    assert (0 < 4 * (c * c) / ((1 + c) * (1 + c * c))).
    { apply Rdiv_lt_0_compat; [lra|]. apply Rmult_lt_0_compat; lra. }
    assert (0 < 4 * (c * c) / ((1 + c) * (1 + c * c)) * (y - x)) by (apply Rmult_lt_0_compat; lra).
    lra.
Qed.

Lemma psi_u_one : psi_u 1 = 0.
Proof.
  unfold psi_u. rewrite atan_1. replace ((1 + 1) / 2) with 1 by field. replace ((1 + 1 ^ 2) / 2) with 1 by field.
  rewrite ln_1. field.
Qed.

Lemma psi_u_reaches v : 0 < v -> exists x, 1 < x /\ psi_u x = v.
Proof.
  intros V. set (X := 2 * exp (PI / 2 + v)).
  pose proof PI_RGT_0 as PP. pose proof (exp_ineq1_le (PI / 2 + v)) as E.
  assert (HX: 2 < X) by (unfold X; lra).
  set (f := fun t => 2 * ln (1 + t) + ln (1 + t * t) - 2 * atan t + (PI / 2 - 3 * ln 2) - v).
  assert (F: forall t, 0 < t -> f t = psi_u t - v) by (intros t Ht; unfold f; rewrite psi_u_split by exact Ht; reflexivity).
  destruct (IVT_interv f 1 X) as [x [B Z]].
  - intros t Ht. apply (continuity_pt_minus (fun t => 2 * ln (1 + t) + ln (1 + t * t) - 2 * atan t + (PI / 2 - 3 * ln 2))
      (fun _ => v)).
    + apply derivable_continuous_pt. exists (4 * (t * t) / ((1 + t) * (1 + t * t))). apply psi_u_derive. lra.
    + apply continuity_pt_const. intros a b. reflexivity.
  - lra.
  - rewrite F, psi_u_one by lra. lra.
  - rewrite F by lra. unfold psi_u. pose proof (atan_bound X) as A.
    assert (L1: 0 < ln ((1 + X) / 2)) by (apply ln_pos; lra).
    assert (L2: PI / 2 + v < ln ((1 + X ^ 2) / 2)).
    { rewrite <- (ln_exp (PI / 2 + v)) at 1. apply ln_increasing; [apply exp_pos|].
      assert (exp (PI / 2 + v) = X / 2) by (unfold X; field). cbn [pow]. nra. }
    lra.
  - exists x. rewrite F in Z by lra. split; [|lra]. destruct B as [[B|B] _]; [exact B|].
    subst x. rewrite psi_u_one in Z. lra.
Qed.

Lemma arg_gt z L : 0 < z -> L < 0 -> 1 < 1 - 16 * z / L.
Proof.
  intros Hz HL. assert (16 * z / L < 0); [|lra]. unfold Rdiv.
  assert (/ L < 0) by (apply Rinv_lt_0_compat; exact HL). nra.
Qed.

Lemma zx_gt1 z L : 0 < z -> L < 0 -> 1 < zx z L.
Proof.
  intros Hz HL. pose proof (arg_gt z L Hz HL). unfold zx.
  assert (1 < sqrt (1 - 16 * z / L)) by (rewrite <- sqrt_1 at 1; apply sqrt_lt_1; lra).
  rewrite <- sqrt_1 at 1. apply sqrt_lt_1; lra.
Qed.

Lemma zx_fourth z L : 0 < z -> L < 0 -> zx z L * zx z L * (zx z L * zx z L) = 1 - 16 * z / L.
Proof.
  intros Hz HL. pose proof (arg_gt z L Hz HL). unfold zx.
  rewrite sqrt_sqrt by apply sqrt_pos. apply sqrt_sqrt. lra.
Qed.

Lemma zx_lt z z' L L' : 1 < 1 - 16 * z / L -> 1 - 16 * z / L < 1 - 16 * z' / L' -> zx z L < zx z' L'.
Proof.
  intros A B. unfold zx. assert (0 <= sqrt (1 - 16 * z / L)) by apply sqrt_pos.
  apply sqrt_lt_1; [assumption|apply sqrt_pos|]. apply sqrt_lt_1; lra.
Qed.

Lemma phi_m_unstable wrf z L : 0 < z -> L < 0 -> phi_m wrf z L = Ok (psi_u (zx z L)).
Proof.
  intros Hz HL. rewrite phi_m_exact by exact Hz. unfold psi_m. destruct (Rlt_dec 0 L); [lra|].
  destruct (Rlt_dec L 0); [reflexivity|lra].
Qed.

Lemma arg_lt_L z L L' : 0 < z -> L < L' -> L' < 0 -> 1 - 16 * z / L < 1 - 16 * z / L'.
Proof.
  intros Hz H HL. assert (/ L' < / L). { apply Rinv_lt_contravar; [nra|exact H]. }
  unfold Rdiv. nra.
Qed.

Lemma arg_lt_z z z' L : 0 < z < z' -> L < 0 -> 1 - 16 * z / L < 1 - 16 * z' / L.
Proof.
  intros Hz HL. assert (/ L < 0) by (apply Rinv_lt_0_compat; exact HL). unfold Rdiv. nra.
Qed.

Lemma ustar_unstable wrf u z z0 L : 0 < z0 < z -> L < 0 ->
  ustar wrf u z z0 L = fdiv (0.41 * u) (ln (z / z0) - psi_u (zx z L)).
Proof.
  intros Hz HL. unfold ustar. rewrite fdiv_ok by lra. cbn [bind].
  assert (1 < z / z0) by (apply ratio_gt1; lra). rewrite np_log_ok by lra. cbn [bind].
  rewrite phi_m_unstable by lra. reflexivity.
Qed.

(*@ C136 The friction velocity of unstable air.  The code takes the stability function at the height of the
   measurement without its counterpart at the roughness length.  So for every wind, height and roughness
   length there is exactly one negative Obukhov length at which the friction velocity divides by zero;
   it is positive for lengths below it and negative for lengths between it and zero. *)
Lemma friction_velocity_unstable_lem :
  forall (wrf : bool) (u z z0 : R), 0 < u -> 0 < z0 < z ->
    exists L0 : R, L0 < 0 /\
      ustar wrf u z z0 L0 = Err ZeroDivisionError /\
      (forall L, L < L0 -> exists v, ustar wrf u z z0 L = Ok v /\ 0 < v) /\
      (forall L, L0 < L < 0 -> exists v, ustar wrf u z z0 L = Ok v /\ v < 0).
Proof.
  intros wrf u z z0 U Hz. assert (G: 0 < ln (z / z0)) by (apply ln_pos; apply ratio_gt1; lra).
  destruct (psi_u_reaches _ G) as [x [X E]].
  assert (X2: 1 < x * x) by nra. assert (X4: 1 < x * x * (x * x)) by nra.
  set (L0 := - (16 * z / (x * x * (x * x) - 1))).
  assert (N: L0 < 0). { unfold L0. assert (0 < 16 * z / (x * x * (x * x) - 1)) by (apply Rdiv_lt_0_compat; lra). lra. }
  assert (ZX: zx z L0 = x).
  { unfold zx. replace (1 - 16 * z / L0) with (x * x * (x * x)) by (unfold L0; field; lra).
    rewrite sqrt_square by lra. apply sqrt_square. lra. }
  exists L0. split; [exact N|]. split; [|split].
  - rewrite ustar_unstable by assumption. rewrite ZX, E. unfold fdiv.
    destruct (Req_EM_T _ 0) as [_|C]; [reflexivity|exfalso; apply C; ring].
  - intros L H. assert (LT: zx z L < x).
    { rewrite <- ZX. apply zx_lt; [apply arg_gt; lra|apply arg_lt_L; lra]. }
    assert (P: psi_u (zx z L) < ln (z / z0)).
    { rewrite <- E. apply psi_u_increasing. pose proof (zx_gt1 z L). lra. }
    rewrite ustar_unstable by lra. rewrite fdiv_ok by lra. eexists. split; [reflexivity|].
    apply Rdiv_lt_0_compat; lra.
  - intros L H. assert (LT: x < zx z L).
    { rewrite <- ZX. apply zx_lt; [apply arg_gt; lra|apply arg_lt_L; lra]. }
    assert (P: ln (z / z0) < psi_u (zx z L)) by (rewrite <- E; apply psi_u_increasing; lra).
    rewrite ustar_unstable by lra. rewrite fdiv_ok by lra. eexists. split; [reflexivity|].
    assert (0 < 0.41 * u / - (ln (z / z0) - psi_u (zx z L))) by (apply Rdiv_lt_0_compat; lra).
    replace (0.41 * u / (ln (z / z0) - psi_u (zx z L)))
      with (- (0.41 * u / - (ln (z / z0) - psi_u (zx z L)))) by (field; lra). lra.
Qed.

Lemma profile_split x : 1 < x ->
  ln (x * x * (x * x) - 1) - psi_u x = ln ((x - 1) / (x + 1)) + 2 * atan x - (PI / 2 - 3 * ln 2).
Proof.
  intros X. rewrite psi_u_split by lra. assert (0 < x * x) by nra.
  replace (x * x * (x * x) - 1) with ((x - 1) * ((1 + x) * (1 + x * x))) by ring.
  rewrite !ln_mult; try lra; [|apply Rmult_lt_0_compat; lra].
  unfold Rdiv. rewrite ln_mult, ln_Rinv; try lra; [|apply Rinv_0_lt_compat; lra].
  replace (x + 1) with (1 + x) by ring. ring.
Qed.

(*@ C136 With the difference of the stability functions at the height of the measurement and at the roughness
   length, as the integrated profile has it, this cannot happen: in unstable air the functions for
   momentum and for heat are positive, increase with height, and their differences stay below the
   logarithm of the ratio of the heights.  (For heat and moisture the code uses the difference.) *)
Lemma integrated_profile_positive_lem :
  forall (wrf : bool) (z z0 L : R), 0 < z0 < z -> L < 0 ->
    exists m m0 h h0 : R,
      phi_m wrf z L = Ok m /\ phi_m wrf z0 L = Ok m0 /\ phi_tq wrf z L = Ok h /\ phi_tq wrf z0 L = Ok h0 /\
      0 < m0 < m /\ m - m0 < ln (z / z0) /\
      0 < h0 < h /\ h - h0 < ln (z / z0).
Proof.
  intros wrf z z0 L Hz HL.
  exists (psi_u (zx z L)), (psi_u (zx z0 L)), (2 * ln ((1 + sqrt (1 - 19.3 * z / L)) / 2)),
    (2 * ln ((1 + sqrt (1 - 19.3 * z0 / L)) / 2)).
  rewrite !phi_m_unstable by lra. rewrite !phi_tq_unstable by lra.
  do 4 (split; [reflexivity|]).
  assert (IL: / L < 0) by (apply Rinv_lt_0_compat; exact HL).
  assert (Q0: 1 < zx z0 L) by (apply zx_gt1; lra).
  assert (QQ: zx z0 L < zx z L) by (apply zx_lt; [apply arg_gt; lra|apply arg_lt_z; lra]).
  split; [|split].
  - split; [rewrite <- psi_u_one|]; apply psi_u_increasing; lra.
  - pose proof (zx_fourth z L ltac:(lra) HL) as F1. pose proof (zx_fourth z0 L ltac:(lra) HL) as F0.
    set (x := zx z L) in *. set (y := zx z0 L) in *.
    pose proof (profile_split x ltac:(lra)) as S1. pose proof (profile_split y ltac:(lra)) as S0.
    rewrite F1 in S1. rewrite F0 in S0.
    assert (R1: 1 - 16 * z / L - 1 = (z / z0) * (1 - 16 * z0 / L - 1)) by (field; lra).
    assert (P0: 0 < 1 - 16 * z0 / L - 1). { pose proof (arg_gt z0 L ltac:(lra) HL). lra. }
    assert (1 < z / z0) by (apply ratio_gt1; lra).
    rewrite R1, ln_mult in S1 by lra.
    assert (A: atan y < atan x) by (apply atan_increasing; lra).
    assert (B: ln ((y - 1) / (y + 1)) < ln ((x - 1) / (x + 1))).
    { apply ln_increasing; [apply Rdiv_lt_0_compat; lra|].
      replace ((y - 1) / (y + 1)) with (1 - 2 / (y + 1)) by (field; lra).
      replace ((x - 1) / (x + 1)) with (1 - 2 / (x + 1)) by (field; lra).
      assert (/ (x + 1) < / (y + 1)) by (apply Rinv_lt_contravar; [nra|lra]). unfold Rdiv. lra. }
    lra.
  - assert (A0: 1 < 1 - 19.3 * z0 / L) by (unfold Rdiv; nra).
    assert (A1: 1 - 19.3 * z0 / L < 1 - 19.3 * z / L) by (unfold Rdiv; nra).
    assert (B0: 1 < sqrt (1 - 19.3 * z0 / L)) by (rewrite <- sqrt_1 at 1; apply sqrt_lt_1; lra).
    assert (B1: sqrt (1 - 19.3 * z0 / L) < sqrt (1 - 19.3 * z / L)) by (apply sqrt_lt_1; lra).
    pose proof (sqrt_sqrt (1 - 19.3 * z0 / L) ltac:(lra)) as T0.
    pose proof (sqrt_sqrt (1 - 19.3 * z / L) ltac:(lra)) as T1.
    set (s := sqrt (1 - 19.3 * z / L)) in *. set (t := sqrt (1 - 19.3 * z0 / L)) in *.
    assert (C0: 0 < ln ((1 + t) / 2)) by (apply ln_pos; lra).
    assert (C1: ln ((1 + t) / 2) < ln ((1 + s) / 2)) by (apply ln_increasing; lra).
    split; [lra|].
    assert (Z: z / z0 = (s - 1) * (s + 1) / ((t - 1) * (t + 1))).
    { replace ((s - 1) * (s + 1)) with (s * s - 1) by ring. replace ((t - 1) * (t + 1)) with (t * t - 1) by ring.
      rewrite T0, T1. field. lra. }
    rewrite Z. unfold Rdiv at 3. rewrite ln_mult, ln_Rinv, !ln_mult, !ln_half; try lra;
      try (apply Rmult_lt_0_compat; lra); [|apply Rinv_0_lt_compat, Rmult_lt_0_compat; lra].
    assert (D: ln ((t - 1) / (t + 1)) < ln ((s - 1) / (s + 1))).
    { apply ln_increasing; [apply Rdiv_lt_0_compat; lra|].
      replace ((t - 1) / (t + 1)) with (1 - 2 / (t + 1)) by (field; lra).
      replace ((s - 1) / (s + 1)) with (1 - 2 / (s + 1)) by (field; lra).
      assert (/ (s + 1) < / (t + 1)) by (apply Rinv_lt_contravar; [nra|lra]). unfold Rdiv. lra. }
    unfold Rdiv in D. rewrite !ln_mult, !ln_Rinv in D; try lra; try (apply Rinv_0_lt_compat; lra).
    replace (1 + s) with (s + 1) by ring. replace (1 + t) with (t + 1) by ring. lra.
Qed.

(*@ C136 A pass of the iteration over a surface warmer than the air.  There is a negative Obukhov length from which
   it raises ZeroDivisionError.  If it starts from a length between this and zero, that is, from very unstable air, the
   heat flux is still directed upwards, but the next Obukhov length is positive: the next pass takes the air to be
   stable. *)
Lemma obukhov_pass_unstable_lem :
  forall (c : Consts) (wrf : bool) (a : Atm) (T0 rho Lv q0 q2 cs : R),
    0 < a_u2 a -> 0 < a_z0 a < a_z a -> 0 < rho -> 0 < c_spec_heat_air c -> 0 < a_T2 a < T0 -> 0 < cs ->
    exists L0 : R, L0 < 0 /\
      (forall s : MOstate, mo_L s = L0 ->
         mo_pass c wrf a T0 rho Lv q0 q2 cs s = Err ZeroDivisionError) /\
      (forall s : MOstate, L0 < mo_L s < 0 ->
         exists s', mo_pass c wrf a T0 rho Lv q0 q2 cs s = Ok s' /\ mo_H s' < 0 /\ 0 < mo_L s').
Proof.
  intros c wrf a T0 rho Lv q0 q2 cs U Z Hrho Hcp HT Hcs.
  destruct (friction_velocity_unstable_lem wrf (a_u2 a) (a_z a) (a_z0 a) U Z) as [L0 [N [E [_ W]]]].
  exists L0. split; [exact N|]. split.
  { intros s <-. unfold mo_pass. cbv zeta. rewrite E. reflexivity. }
  intros s HL. destruct (W _ HL) as [v [Ev V]].
  destruct (integrated_profile_positive_lem wrf (a_z a) (a_z0 a) (mo_L s) Z ltac:(lra))
    as (m & m0 & h & h0 & Em & Em0 & Eh & Eh0 & M & M' & H & H').
  assert (L1 : 1 < a_z a / a_z0 a) by (apply ratio_gt1; lra).
  assert (L2 : 1 < a_z a / (a_z0 a / 100)) by (apply ratio_gt1; lra).
  assert (L3 : 1 < a_z a / (a_z0 a / 10)) by (apply ratio_gt1; lra).
  pose proof (ln_scaled (a_z a) (a_z0 a) 100 Z ltac:(lra)) as S2.
  pose proof (ln_scaled (a_z a) (a_z0 a) 10 Z ltac:(lra)) as S3.
  assert (D: ln (a_z a / a_z0 a) - m < 0).
  { unfold ustar in Ev. rewrite fdiv_ok in Ev by lra. cbn [bind] in Ev. rewrite np_log_ok in Ev by lra. cbn [bind] in Ev.
    rewrite Em in Ev. cbn [bind] in Ev. apply fdiv_inv in Ev as [Nz Ev].
    destruct (Rle_or_lt 0 (ln (a_z a / a_z0 a) - m)) as [P|P]; [exfalso|exact P].
    assert (0 < 0.41 * a_u2 a / (ln (a_z a / a_z0 a) - m)) by (apply Rdiv_lt_0_compat; lra). lra. }
  assert (D2: 0 < (ln (a_z a / a_z0 a) - m - m0) ^ 2) by (replace ((ln (a_z a / a_z0 a) - m - m0) ^ 2) with (Rsqr (ln (a_z a / a_z0 a) - m - m0)) by (unfold Rsqr; ring); apply Rsqr_pos_lt; lra).
  unfold mo_pass. cbv zeta. rewrite Ev. cbn [bind]. rewrite Eh, Eh0. cbn [bind].
  rewrite (fdiv_ok (a_z a) (a_z0 a)) by lra. cbn [bind]. rewrite np_log_ok by lra. cbn [bind].
  rewrite Em, Em0. cbn [bind]. rewrite fdiv_ok by lra. cbn [bind].
  rewrite (fdiv_ok (a_z a) (a_z0 a / 100)) by lra. cbn [bind]. rewrite np_log_ok by lra. cbn [bind].
  rewrite fdiv_ok by lra. cbn [bind].
  rewrite (fdiv_ok (a_z a) (a_z0 a / 10)) by lra. cbn [bind]. rewrite np_log_ok by lra. cbn [bind].
  rewrite fdiv_ok by lra. cbn [bind].
  set (Cd := 0.41 ^ 2 / (ln (a_z a / a_z0 a) - m - m0) ^ 2).
  assert (PC: 0 < sqrt Cd) by (apply sqrt_lt_R0; apply Rdiv_lt_0_compat; lra).
  set (Ct := 0.41 * sqrt Cd / (ln (a_z a / (a_z0 a / 100)) - (h - h0))).
  assert (PT: 0 < Ct) by (apply Rdiv_lt_0_compat; lra). clearbody Ct.
  set (F := get_sensible_heat_flux c rho Ct (a_u2 a) (a_T2 a - T0) cs).
  assert (NF: F < 0).
  { unfold F, get_sensible_heat_flux.
    replace (rho * c_spec_heat_air c * Ct * a_u2 a * (a_T2 a - T0) * cs)
      with (- (rho * c_spec_heat_air c * Ct * a_u2 a * (T0 - a_T2 a) * cs)) by ring.
    assert (0 < rho * c_spec_heat_air c * Ct * a_u2 a * (T0 - a_T2 a) * cs); [|lra].
    repeat apply Rmult_lt_0_compat; first [assumption | lra]. }
  unfold MO. destruct (Reqb_spec F 0) as [Q|Q]; cbn [negb]; [lra|].
  unfold adiv. destruct (Req_EM_T (0.41 * 9.81 * F) 0) as [Q'|Q']; [lra|]. cbn [bind].
  eexists. split; [reflexivity|]. cbn [mo_H mo_L]. split; [exact NF|].
  replace (rho * c_spec_heat_air c * v ^ 3 * a_T2 a / (0.41 * 9.81 * F))
    with (rho * c_spec_heat_air c * (- v) ^ 3 * a_T2 a / (0.41 * 9.81 * - F)) by (field; lra).
  apply Rdiv_lt_0_compat; [|lra]. assert (0 < (- v) ^ 3) by (apply pow_lt; lra).
  repeat apply Rmult_lt_0_compat; first [assumption | lra].
Qed.

(*@ex C136 a wind of 1 m/s at 2 m above ice with a roughness length of 1.7 mm and air of 270 K above a surface at
   the melting point; there is an Obukhov length from which the iteration goes on to stable air *)
Lemma unstable_example_lem :
  forall c wrf a, 0 < c_spec_heat_air c -> a_u2 a = 1 -> a_z a = 2 -> a_z0 a = 0.0017 -> a_T2 a = 270 ->
    exists s s', mo_L s < 0 /\ mo_pass c wrf a 273.16 1 2500000 0.004 0.003 1 s = Ok s' /\ 0 < mo_L s'.
Proof.
  intros c wrf a H U Z Z0 T.
  destruct (obukhov_pass_unstable_lem c wrf a 273.16 1 2500000 0.004 0.003 1) as (L0 & N & _ & W); try lra.
  destruct (W (mkMO (L0 / 2) None true 0 0 0 0 0)) as (s' & E & _ & P); [cbn; lra|].
  exists (mkMO (L0 / 2) None true 0 0 0 0 0), s'. split; [cbn; lra|]. split; [exact E|exact P].
Qed.
