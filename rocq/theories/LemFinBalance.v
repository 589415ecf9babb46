(** * How many surface temperatures balance the energy (C123) *)
From Verif Require Import ModelPy ModelConstants ModelNode ModelGrid ModelSurface Spec SpecSurface.
From Coq Require Import Ranalysis5.
From Verif Require Import LemPy LemGridBase LemDensification LemFinSecant LemSurface LemFinSurface.

Lemma mixing_mono rH e e' p : 0 <= rH -> 0 < e <= e' -> e' < p -> mixing_ratio rH e p <= mixing_ratio rH e' p.
Proof.
  intros H He Hp. unfold mixing_ratio. apply Rmult_le_compat_l; [lra|]. apply Rmult_le_compat_l; [lra|].
  unfold Rdiv. apply Rmult_le_compat; [lra|left; apply Rinv_0_lt_compat; lra|lra|apply Rinv_le_contravar; lra].
Qed.

Lemma bulk_pos z z0 zx : 0 < z0 < z -> 0 < zx < z -> 0 < bulk_transfer z z0 zx.
Proof.
  intros H1 H2. unfold bulk_transfer.
  assert (0 < ln (z / z0)) by (apply ln_pos, ratio_gt1; lra).
  assert (0 < ln (z / zx)) by (apply ln_pos, ratio_gt1; lra).
  apply Rdiv_lt_0_compat; [lra|apply Rmult_lt_0_compat; assumption].
Qed.

Lemma richardson_falls z T T' T2 u : 0 < z -> 0 < T2 -> T <= T' -> richardson z T' T2 u <= richardson z T T2 u.
Proof.
  intros Hz H2 H. unfold richardson. destruct (Req_EM_T u 0) as [|N]; [lra|].
  assert (0 < T2 * u ^ 2) by (apply Rmult_lt_0_compat; [assumption|]; nra).
  apply Rmult_le_compat_r; [left; apply Rinv_0_lt_compat; assumption|]. apply Rmult_le_compat_r; lra.
Qed.

(** at equal damping and equal latent heat the sum of the fluxes falls *)
Lemma sum_falls c a lam B SWnet T T' : flux_constants_ok c -> forcing_ok c a T' -> 0 < lam -> 0.55 < T < T' ->
  (T' < c_zero_temperature c \/ c_zero_temperature c <= T) ->
  stability_factor (richardson (a_z a) T (a_T2 a) (a_u2 a)) = stability_factor (richardson (a_z a) T' (a_T2 a) (a_u2 a)) ->
  flux_sum SWnet (ri_fluxes c lam T' a B) < flux_sum SWnet (ri_fluxes c lam T a B).
Proof.
  intros Hc Hf Hl HT HL HS.
  assert (Hr := air_density_pos a T' c Hf). assert (Hs := cos_slope_nonneg c a T' Hf).
  assert (Lh := latent_heat_pos c T Hc).
  assert (EL : latent_heat c T' = latent_heat c T).
  { unfold latent_heat. destruct (Rle_dec (c_zero_temperature c) T'); destruct (Rle_dec (c_zero_temperature c) T); lra. }
  assert (PT := sonntag_pos T). assert (SM := sonntag_mono T T' HT).
  destruct (stability_factor_range (richardson (a_z a) T' (a_T2 a) (a_u2 a))) as [P0 _].
  destruct Hf. destruct Hc.
  assert (B1 := bulk_pos (a_z a) (a_z0 a) (a_z0 a / 100) ltac:(lra) ltac:(lra)).
  assert (B2 := bulk_pos (a_z a) (a_z0 a) (a_z0 a / 10) ltac:(lra) ltac:(lra)).
  assert (MM : surface_mixing a T <= surface_mixing a T') by (apply mixing_mono; lra).
  unfold flux_sum, ri_fluxes. cbv zeta. cbn [f_Li f_Lo f_H f_LE f_B f_QRR]. rewrite HS, EL.
  clear HS. set (phi := stability_factor _) in *. set (Ct := bulk_transfer _ _ (a_z0 a / 100)) in *. set (Cq := bulk_transfer _ _ (a_z0 a / 10)) in *.
  set (rho := density_of_air a) in *. set (cs := cos_slope a) in *. set (L := latent_heat c T) in *.
  clearbody phi Ct Cq rho cs L.
  assert (K1 : 0 <= phi * (rho * c_spec_heat_air c * Ct * a_u2 a * cs)) by (repeat apply Rmult_le_pos; lra).
  assert (K2 : 0 <= phi * (rho * L * Cq * a_u2 a * cs)) by (repeat apply Rmult_le_pos; lra).
  assert (K3 : 0 <= c_water_density c * c_spec_heat_water c * (a_rain a / 1000 / a_dt a)).
  { apply Rmult_le_pos; [apply Rmult_le_pos; lra|]. apply Rle_mult_inv_pos; lra. }
  assert (KT : forall d, phi * (rho * c_spec_heat_air c * Ct * a_u2 a * d * cs)
     = phi * (rho * c_spec_heat_air c * Ct * a_u2 a * cs) * d) by (intros; ring).
  assert (KL : forall d, phi * (rho * L * Cq * a_u2 a * d * cs)
     = phi * (rho * L * Cq * a_u2 a * cs) * d) by (intros; ring).
  rewrite !KT, !KL. clear KT KL. set (k1 := phi * (rho * c_spec_heat_air c * _ * _ * _)) in *.
  set (k2 := phi * (rho * L * _ * _ * _)) in *.
  set (k3 := c_water_density c * c_spec_heat_water c * _) in *. clearbody k1 k2 k3.
  assert (P4 := pow4_lt T T' ltac:(lra)).
  assert (0 < c_surface_emission_coeff c * c_sigma c) by (apply Rmult_lt_0_compat; lra).
  assert (E1 : - c_surface_emission_coeff c * c_sigma c * T' ^ 4 < - c_surface_emission_coeff c * c_sigma c * T ^ 4) by nra.
  assert (E2 : k1 * (a_T2 a - T') <= k1 * (a_T2 a - T)) by nra.
  assert (E3 : k3 * (a_T2 a - T') <= k3 * (a_T2 a - T)) by nra.
  assert (E4 : k2 * (air_mixing a - surface_mixing a T') <= k2 * (air_mixing a - surface_mixing a T)) by nra.
  assert (Z1 : 0 < (c_zlt2 c - c_zlt1 c) / c_zlt2 c) by (apply Rdiv_lt_0_compat; lra).
  assert (Z2 : (fst B - T') / c_zlt1 c < (fst B - T) / c_zlt1 c) by (apply Rmult_lt_compat_r; [apply Rinv_0_lt_compat; lra|lra]).
  set (w := (c_zlt2 c - c_zlt1 c) / c_zlt2 c) in *. set (d' := (fst B - T') / _) in *. set (d := (fst B - T) / _) in *.
  assert (Z3 : lam * (w * d') < lam * (w * d)) by (apply Rmult_lt_compat_l; [exact Hl|]; apply Rmult_lt_compat_l; assumption).
  rewrite !Rmult_plus_distr_l. lra.
Qed.

(*@ C123 With the Richardson correction the sum of the fluxes falls with the surface temperature as long as the damping of turbulence does not set in or is complete and the surface stays on one side of the melting point. Two temperatures of such a range never both balance the energy. *)
Lemma balance_falls_lem :
  forall c wrf g a q B top below T T' b b',
  flux_constants_ok c -> c_stability_correction c = "Ri"%string ->
  In (c_sfc_temperature_method c) ["Newton"; "Secant"]%string ->
  g_nodes g = top :: below -> 0 < n_ice top -> 0 <= n_lwc top ->
  forcing_ok c a T' -> 0.55 < T < T' ->
  (T' < c_zero_temperature c \/ c_zero_temperature c <= T) ->
  (richardson (a_z a) T (a_T2 a) (a_u2 a) <= 0.01 \/ 0.2 < richardson (a_z a) T' (a_T2 a) (a_u2 a)) ->
  eb_optim c wrf g a q B T = Ok b -> eb_optim c wrf g a q B T' = Ok b' -> b' < b.
Proof.
  intros c wrf g a q B top below T T' b b' Hc HS HM Hn Hi Hw Hf HT HL HR E E'.
  destruct (conductivity_ok c top Hc) as (lam & Hlam).
  assert (Hpos := conductivity_pos c top lam Hc Hi Hw Hlam).
  assert (Hf0 : forcing_ok c a T) by (apply (forcing_between c a T T' Hf); lra).
  unfold eb_optim in E, E'. rewrite (eb_fluxes_ri c wrf g T a B top below lam) in E by assumption.
  rewrite (eb_fluxes_ri c wrf g T' a B top below lam) in E' by assumption.
  assert (RF : root_finder c = true) by (unfold root_finder; destruct HM as [<-|[<-|[]]]; reflexivity).
  cbn [bind] in E, E'. rewrite RF in E, E'. injection E as <-. injection E' as <-.
  apply sum_falls; try assumption.
  assert (RM := richardson_falls (a_z a) T T' (a_T2 a) (a_u2 a)). destruct Hf.
  specialize (RM ltac:(lra) ltac:(lra) ltac:(lra)). unfold stability_factor.
  repeat (match goal with |- context[Rle_dec ?x ?y] => destruct (Rle_dec x y) end); lra.
Qed.

(** ** Two balances *)

(** a cold night with wind: air of 274.68 K, 60 %, 700 hPa, 7 m/s, no rain *)
Definition windy_night (L : R) : Atm := mkAtm 3600 2 0.001 274.68 60 700 7 0 0 (Some L) None.
Definition cold_layer (h : R) : Node := mkNode h 267.82 0 0.4 0.
Definition cold_column : Grid := mkGrid [cold_layer 0.05; cold_layer 0.1; cold_layer 1] 3 0 0 0.

Lemma exp_lower x : 1 + x <= exp x.
Proof. destruct (Req_dec x 0) as [->|N]; [rewrite exp_0; lra|]. left. apply exp_ineq1. exact N. Qed.

Lemma exp_upper x : x < 1 -> exp x <= / (1 - x).
Proof.
  intros H. assert (L := exp_lower (- x)). rewrite exp_Ropp in L. assert (P := exp_pos x).
  rewrite <- (Rinv_inv (exp x)). apply Rinv_le_contravar; lra.
Qed.

Lemma exp_nat n : exp (INR n) = exp 1 ^ n.
Proof.
  induction n as [|n IH]; [apply exp_0|]. rewrite S_INR, exp_plus, IH. cbn [pow]. ring.
Qed.

Lemma e_bounds : 2.59 <= exp 1 <= 2.87.
Proof.
  assert (H : exp 1 = exp (1 / 10) ^ 10).
  { cbn [pow]. rewrite Rmult_1_r, <- !exp_plus. f_equal. lra. }
  rewrite H. assert (L := exp_lower (1 / 10)). assert (U := exp_upper (1 / 10) ltac:(lra)).
  assert (1.1 <= exp (1 / 10) <= 10 / 9) by lra. split.
  - apply Rle_trans with (1.1 ^ 10); [lra|]. apply pow_incr. lra.
  - apply Rle_trans with ((10 / 9) ^ 10); [|lra]. apply pow_incr. lra.
Qed.

Lemma ln_between n x m : 2.87 ^ n <= x <= 2.59 ^ m -> INR n <= ln x <= INR m.
Proof.
  intros H. destruct e_bounds as [L U].
  assert (P : 0 < 2.87 ^ n) by (apply pow_lt; lra).
  assert (exp (INR n) <= x). { rewrite exp_nat. apply Rle_trans with (2.87 ^ n); [|lra]. apply pow_incr. assert (X := exp_pos 1). lra. }
  assert (x <= exp (INR m)). { rewrite exp_nat. apply Rle_trans with (2.59 ^ m); [lra|]. apply pow_incr. lra. }
  split.
  - rewrite <- (ln_exp (INR n)). destruct (Req_dec (exp (INR n)) x) as [->|N]; [lra|left; apply ln_increasing; [apply exp_pos|lra]].
  - rewrite <- (ln_exp (INR m)). destruct (Req_dec x (exp (INR m))) as [->|N]; [lra|left; apply ln_increasing; lra].
Qed.

Definition frost (T : R) : R := 6.112 * exp (22.46 * (T - 273.16) / (T - 0.55)).
Definition frost_mixing (T : R) : R := 0.622 * (frost T / (700 - frost T)).

Lemma sonntag_frost T : T < 273.16 -> sonntag T = frost T.
Proof. intros H. unfold sonntag. destruct (Rle_dec 273.16 T); [lra|reflexivity]. Qed.

Lemma exp_m4 x : 0 < 1 + x / 4 -> (1 + x / 4) ^ 4 <= exp x.
Proof.
  intros H. replace (exp x) with (exp (x / 4) ^ 4).
  - apply pow_incr. split; [lra|apply exp_lower].
  - cbn [pow]. rewrite Rmult_1_r, <- !exp_plus. f_equal. lra.
Qed.

Lemma frost_a : 3.79 <= frost 267.82 <= 3.998.
Proof.
  unfold frost. set (x := 22.46 * (267.82 - 273.16) / (267.82 - 0.55)).
  assert (X : -0.4488 <= x <= -0.4487) by (unfold x; lra). clearbody x. split.
  - assert (L := exp_m4 x ltac:(lra)). assert (0.6212 <= (1 + x / 4) ^ 4); [|lra].
    apply Rle_trans with (0.8878 ^ 4); [lra|]. apply pow_incr. lra.
  - assert (L := exp_m4 (- x) ltac:(lra)). rewrite exp_Ropp in L.
    assert (1.5298 <= (1 + - x / 4) ^ 4). { apply Rle_trans with (1.11217 ^ 4); [lra|]. apply pow_incr. lra. }
    assert (P := exp_pos x). assert (exp x * / exp x = 1) by (apply Rinv_r; lra).
    assert (exp x <= 0.654) by nra. lra.
Qed.

Lemma frost_b : frost 267.82 - 0.0035 <= frost 267.81 <= frost 267.82.
Proof.
  assert (A := frost_a). split.
  - unfold frost in *. set (x := 22.46 * (267.82 - 273.16) / (267.82 - 0.55)) in *.
    replace (22.46 * (267.81 - 273.16) / (267.81 - 0.55)) with (x + (22.46 * (267.81 - 273.16) / (267.81 - 0.55) - x)) by ring.
    rewrite exp_plus. assert (L := exp_lower (22.46 * (267.81 - 273.16) / (267.81 - 0.55) - x)).
    assert (-0.00086 <= 22.46 * (267.81 - 273.16) / (267.81 - 0.55) - x) by (unfold x; lra).
    set (d := exp (22.46 * _ / _ - x)) in *. assert (1 - 0.00086 <= d) by lra. set (e := exp x) in *. clearbody d e. nra.
  - left. rewrite <- !sonntag_frost by lra. apply sonntag_mono. lra.
Qed.

Lemma moist_air : 6.8 <= sonntag 274.68 <= 6.866.
Proof.
  unfold sonntag. destruct (Rle_dec 273.16 274.68); [|lra]. set (x := 17.67 * (274.68 - 273.16) / (274.68 - 29.66)).
  assert (X : 0.1096 <= x <= 0.1097) by (unfold x; lra). clearbody x. split.
  - assert (L := exp_m4 x ltac:(lra)). assert (1.1141 <= (1 + x / 4) ^ 4); [|lra].
    apply Rle_trans with (1.0274 ^ 4); [lra|]. apply pow_incr. lra.
  - assert (U := exp_upper x ltac:(lra)). assert (/ (1 - x) <= / (1 - 0.1097)) by (apply Rinv_le_contravar; lra). lra.
Qed.

Lemma quotient_between e lo hi : 0 < lo -> lo <= e <= hi -> hi < 700 -> lo / (700 - lo) <= e / (700 - e) <= hi / (700 - hi).
Proof.
  intros P H Q. split; unfold Rdiv; (apply Rmult_le_compat; [lra|left; apply Rinv_0_lt_compat; lra|lra|apply Rinv_le_contravar; lra]).
Qed.

Definition night_moisture : R := mixing_ratio 60 (sonntag 274.68) 700.

Lemma moisture_bounds : 0.00366 <= night_moisture <= 0.0037.
Proof.
  assert (B := quotient_between _ 6.8 6.866 ltac:(lra) moist_air ltac:(lra)). unfold night_moisture, mixing_ratio.
  set (x := sonntag 274.68 / _) in *. lra.
Qed.

Lemma frost_mixing_a : 0.00338 <= frost_mixing 267.82 <= 0.0036.
Proof.
  assert (B := quotient_between _ 3.79 3.998 ltac:(lra) frost_a ltac:(lra)). unfold frost_mixing. set (x := frost 267.82 / _) in *. lra.
Qed.

Lemma frost_mixing_b : frost_mixing 267.82 - 0.000004 <= frost_mixing 267.81 <= frost_mixing 267.82.
Proof.
  assert (A := frost_a). assert (B := frost_b). unfold frost_mixing. set (x := frost 267.82) in *. set (y := frost 267.81) in *. clearbody x y.
  assert (Q : x / (700 - x) - y / (700 - y) = 700 * (x - y) * (/ (700 - x) * / (700 - y))) by (field; lra).
  assert (I1 : 0 < / (700 - x) <= / 696) by (split; [apply Rinv_0_lt_compat; lra|apply Rinv_le_contravar; lra]).
  assert (I2 : 0 < / (700 - y) <= / 696) by (split; [apply Rinv_0_lt_compat; lra|apply Rinv_le_contravar; lra]).
  set (i := / (700 - x)) in *. set (j := / (700 - y)) in *. clearbody i j.
  assert (IJ : 0 < i * j <= 0.00000208) by (split; [apply Rmult_lt_0_compat; lra|]; apply Rle_trans with (/ 696 * / 696); [apply Rmult_le_compat; lra|lra]).
  set (u := x / (700 - x)) in *. set (v := y / (700 - y)) in *. assert (0 <= x - y <= 0.0035) by lra.
  assert (0 <= 700 * (x - y) * (i * j) <= 700 * 0.0035 * 0.00000208) by (split; [apply Rmult_le_pos; [lra|lra]|apply Rmult_le_compat; lra]).
  lra.
Qed.

Lemma frost_mixing_low : 0 <= frost_mixing 220 <= frost_mixing 267.82.
Proof.
  assert (A := frost_a). assert (M : frost 220 < frost 267.82) by (rewrite <- !sonntag_frost by lra; apply sonntag_mono; lra).
  assert (P : 0 < frost 220) by (unfold frost; assert (X := exp_pos (22.46 * (220 - 273.16) / (220 - 0.55))); lra).
  unfold frost_mixing. split.
  - apply Rmult_le_pos; [lra|]. apply Rle_mult_inv_pos; lra.
  - apply Rmult_le_compat_l; [lra|]. apply (quotient_between (frost 220) (frost 220) (frost 267.82)); lra.
Qed.

(** sum of the fluxes without the incoming radiation, undamped and damped *)
Definition turbulence (K M T : R) : R := K * (274.68 - T) + M * (night_moisture - frost_mixing T).
Definition outgoing (lam T : R) : R := - 0.99 * 0.0000000567 * T ^ 4 + lam * (267.82 - T).
Definition damped_sum (K M lam T : R) : R := outgoing lam T + (1 - 5 * ((274.68 - T) / 686)) ^ 2 * turbulence K M T.

Lemma frost_range T : 0.55 < T <= 267.82 -> 0 < frost T <= 4.
Proof.
  intros H. split; [unfold frost; assert (X := exp_pos (22.46 * (T - 273.16) / (T - 0.55))); lra|].
  assert (A := frost_a). destruct (Req_dec T 267.82) as [->|N]; [lra|].
  assert (frost T < frost 267.82) by (rewrite <- !sonntag_frost by lra; apply sonntag_mono; lra). lra.
Qed.

Lemma frost_continuous T : 0.55 < T -> continuity_pt frost T.
Proof. intros H. unfold frost. reg. lra. Qed.

Lemma damped_continuous K M lam T : 0.55 < T <= 267.82 -> continuity_pt (damped_sum K M lam) T.
Proof.
  intros H. assert (F := frost_range T H). assert (C := frost_continuous T ltac:(lra)).
  unfold damped_sum, outgoing, turbulence, frost_mixing. reg. lra.
Qed.

Lemma second_zero K M lam : 8 <= K <= 15 -> 0 <= M <= 4240 * K -> 0 <= lam <= 7 ->
  exists T, 220 <= T <= 267.81 /\ damped_sum K M lam T = outgoing lam 267.82 + turbulence K M 267.82.
Proof.
  intros HK HM Hl. set (S0 := outgoing lam 267.82 + turbulence K M 267.82).
  assert (Q2 := moisture_bounds). assert (QA := frost_mixing_a). assert (QB := frost_mixing_b). assert (QL := frost_mixing_low).
  destruct (IVT_interv (fun T => S0 - damped_sum K M lam T) 220 267.81) as (T & HT & Z).
  - intros t Ht. apply continuity_pt_minus; [apply continuity_pt_const; intros x y; reflexivity|]. apply damped_continuous. lra.
  - lra.
  - unfold S0, damped_sum, outgoing, turbulence. set (q := night_moisture) in *. set (qa := frost_mixing 267.82) in *. set (ql := frost_mixing 220) in *.
    clearbody q qa ql. set (f := (1 - 5 * ((274.68 - 220) / 686)) ^ 2).
    assert (F : 0.3617 <= f <= 0.3618) by (unfold f; lra). clearbody f.
    assert (H1 : 0 <= M * (q - ql)) by (apply Rmult_le_pos; lra).
    assert (H2 : M * (q - qa) <= 4240 * K * 0.00032) by (apply Rmult_le_compat; lra).
    assert (H3 : 0 <= f * (M * (q - ql))) by (apply Rmult_le_pos; lra).
    assert (H4 : 19.77 * K <= f * (K * (274.68 - 220))) by nra.
    rewrite Rmult_plus_distr_l. nra.
  - unfold S0, damped_sum, outgoing, turbulence. set (q := night_moisture) in *. set (qa := frost_mixing 267.82) in *. set (qb := frost_mixing 267.81) in *.
    clearbody q qa qb. set (f := (1 - 5 * ((274.68 - 267.81) / 686)) ^ 2).
    assert (F : 0.9023 <= f <= 0.9024) by (unfold f; lra). clearbody f.
    assert (H1 : 0 <= M * (q - qa)) by (apply Rmult_le_pos; lra).
    assert (H2 : M * (qa - qb) <= 4240 * K * 0.000004) by (apply Rmult_le_compat; lra).
    assert (H2' : 0 <= M * (qa - qb)) by (apply Rmult_le_pos; lra).
    assert (H3 : f * (M * (q - qb)) <= M * (q - qa) + 4240 * K * 0.000004).
    { replace (M * (q - qb)) with (M * (q - qa) + M * (qa - qb)) by ring. nra. }
    assert (H4 : f * (K * (274.68 - 267.81)) <= 6.2 * K) by nra.
    rewrite Rmult_plus_distr_l. nra.
  - exists T. split; [lra|]. lra.
Qed.

Definition night_K : R := density_of_air (windy_night 0) * 1004.67 * bulk_transfer 2 0.001 (0.001 / 100) * 7.
Definition night_M : R := density_of_air (windy_night 0) * 2834000 * bulk_transfer 2 0.001 (0.001 / 10) * 7.

Lemma night_coefficients : 8 <= night_K <= 15 /\ 0 <= night_M <= 4240 * night_K.
Proof.
  assert (Q := moisture_bounds).
  assert (D : 0.88 <= density_of_air (windy_night 0) <= 0.89).
  { unfold density_of_air. change (air_mixing (windy_night 0)) with night_moisture. cbn [windy_night a_p a_T2].
    set (q := night_moisture) in *. clearbody q.
    assert (I : / (287.058 * (274.68 * (1 + 0.608 * 0.0037))) <= / (287.058 * (274.68 * (1 + 0.608 * q))) <= / (287.058 * (274.68 * 1)))
      by (split; apply Rinv_le_contravar; lra).
    unfold Rdiv. set (i := / (287.058 * (274.68 * (1 + 0.608 * q)))) in *. lra. }
  unfold night_K, night_M. set (rho := density_of_air _) in *. clearbody rho.
  unfold bulk_transfer.
  replace (2 / 0.001) with 2000 by lra. replace (2 / (0.001 / 100)) with 200000 by lra. replace (2 / (0.001 / 10)) with 20000 by lra.
  assert (L1 := ln_between 7 2000 8 ltac:(cbn [pow]; lra)).
  assert (L2 := ln_between 11 200000 13 ltac:(cbn [pow]; lra)).
  cbn [INR] in L1, L2.
  assert (L3 : ln 200000 = ln 20000 + ln 10) by (rewrite <- ln_mult by lra; f_equal; lra).
  assert (L4 : ln 20000 = ln 2000 + ln 10) by (rewrite <- ln_mult by lra; f_equal; lra).
  assert (L5 : ln 10 < ln 2000) by (apply ln_increasing; lra).
  assert (L6 : 0 < ln 10) by (rewrite <- ln_1; apply ln_increasing; lra).
  set (l := ln 2000) in *. set (lt := ln 200000) in *. set (lq := ln 20000) in *. set (l10 := ln 10) in *. clearbody l lt lq l10.
  assert (P1 : 77 <= l * lt <= 104) by (split; nra).
  assert (P2 : 0 < l * lq) by (apply Rmult_lt_0_compat; lra).
  assert (P3 : l * lt <= 1.5 * (l * lq)) by nra.
  set (u := l * lt) in *. set (v := l * lq) in *. clearbody u v.
  assert (I1 : / 104 <= / u <= / 77) by (split; apply Rinv_le_contravar; lra).
  assert (I2 : / v <= 1.5 * / u).
  { replace (1.5 * / u) with (/ (u / 1.5)) by (field; lra). apply Rinv_le_contravar; lra. }
  assert (I3 : 0 < / v) by (apply Rinv_0_lt_compat; lra).
  unfold Rdiv. set (iu := / u) in *. set (iv := / v) in *. clearbody iu iv.
  assert (R1 : 0.00846 <= rho * iu <= 0.01157).
  { split; [apply Rle_trans with (0.88 * / 104); [lra|]; apply Rmult_le_compat; lra|apply Rle_trans with (0.89 * / 77); [|lra]; apply Rmult_le_compat; lra]. }
  assert (R2 : 0 <= rho * iv <= 1.5 * (rho * iu)).
  { split; [apply Rmult_le_pos; lra|]. replace (1.5 * (rho * iu)) with (rho * (1.5 * iu)) by ring. apply Rmult_le_compat_l; lra. }
  replace (rho * 1004.67 * (0.41 ^ 2 * iu) * 7) with (1004.67 * 0.41 ^ 2 * 7 * (rho * iu)) by ring.
  replace (rho * 2834000 * (0.41 ^ 2 * iv) * 7) with (2834000 * 0.41 ^ 2 * 7 * (rho * iv)) by ring.
  set (x := rho * iu) in *. set (y := rho * iv) in *. clearbody x y. cbn [pow]. lra.
Qed.

Lemma night_sum L lam q T : 0.55 < T < 273.16 ->
  flux_sum q (ri_fluxes default_constants lam T (windy_night L) (267.82, 267.82)) =
  q + L + outgoing (lam * (20 / 3)) T
  + stability_factor ((274.68 - T) / 686) * turbulence night_K night_M T.
Proof.
  intros H. unfold flux_sum, ri_fluxes. cbv zeta. cbn [f_Li f_Lo f_H f_LE f_B f_QRR].
  assert (RI : richardson (a_z (windy_night L)) T (a_T2 (windy_night L)) (a_u2 (windy_night L)) = (274.68 - T) / 686).
  { cbn [windy_night a_z a_T2 a_u2]. unfold richardson. destruct (Req_EM_T 7 0); [lra|]. lra. }
  rewrite RI. change (longwave_in default_constants (windy_night L)) with L.
  assert (CS : cos_slope (windy_night L) = 1).
  { unfold cos_slope. cbn [windy_night a_slope]. replace (0 * PI / 180) with 0 by lra. apply cos_0. }
  rewrite CS. change (air_mixing (windy_night L)) with night_moisture.
  change (density_of_air (windy_night L)) with (density_of_air (windy_night 0)).
  assert (SM : surface_mixing (windy_night L) T = frost_mixing T).
  { unfold surface_mixing, mixing_ratio, frost_mixing. cbn [windy_night a_p]. rewrite sonntag_frost by lra. lra. }
  rewrite SM. assert (LH : latent_heat default_constants T = 2834000).
  { unfold latent_heat. cbn [default_constants c_zero_temperature]. destruct (Rle_dec 273.16 T); [lra|reflexivity]. }
  rewrite LH. cbn [windy_night a_z a_z0 a_T2 a_u2 a_rain a_dt default_constants c_surface_emission_coeff c_sigma c_spec_heat_air
    c_zlt1 c_zlt2 c_water_density c_spec_heat_water fst snd].
  unfold outgoing, turbulence, night_K, night_M. set (rho := density_of_air _). set (Ct := bulk_transfer _ _ (0.001 / 100)).
  set (Cq := bulk_transfer _ _ (0.001 / 10)). set (f := stability_factor _). set (qs := frost_mixing T). set (qa := night_moisture).
  clearbody rho Ct Cq f qs qa.
  set (T4 := T ^ 4). clearbody T4.
  replace (0 / 1000 / 3600) with 0 by lra.
  replace (f * (rho * 1004.67 * Ct * 7 * (274.68 - T) * 1)) with (f * (rho * 1004.67 * Ct * 7 * (274.68 - T))) by ring.
  lra.
Qed.

(*@ C123 Where the damping sets in, two surface temperatures may balance the energy. With the shipped constants and the Richardson correction, in a night with air of 274.68 K, 60 % and 700 hPa, wind of 7 m/s and incoming longwave radiation between 160 and 240 W/m2, over a snow column of 267.82 K, the sum of the fluxes vanishes at 267.82 K and at a second temperature at least 0.01 K below. *)
Lemma two_balances_refuted_lem :
  exists L T B, 160 < L < 240 /\ 220 <= T <= 267.81 /\
    flux_constants_ok default_constants /\ layers_ok (g_nodes cold_column) /\
    forcing_ok default_constants (windy_night L) 273.16 /\
    interp_subT default_constants cold_column = Ok B /\
    forall wrf, eb_optim default_constants wrf cold_column (windy_night L) 0 B 267.82 = Ok 0 /\
                eb_optim default_constants wrf cold_column (windy_night L) 0 B T = Ok 0.
Proof.
  assert (F1 : flux_constants_ok default_constants) by (constructor; cbn; try lra; tauto).
  destruct (conductivity_ok default_constants (cold_layer 0.05) F1) as (lam & EL).
  assert (Hlam : lam = 0.4 * 2.22 + 0.6 * 0.024).
  { unfold layer_thermal_conductivity in EL. cbn in EL. injection EL as <-. unfold layer_air_porosity. cbn [cold_layer n_lwc n_ice].
    rewrite Rmax_right by lra. lra. }
  destruct night_coefficients as [HK HM].
  destruct (second_zero night_K night_M (lam * (20 / 3)) HK HM ltac:(lra)) as (T & HT & E).
  exists (- (outgoing (lam * (20 / 3)) 267.82 + turbulence night_K night_M 267.82)), T, (267.82, 267.82).
  set (L := - (outgoing _ _ + _)) in *.
  assert (QA := frost_mixing_a). assert (Q2 := moisture_bounds).
  split.
  { assert (H1 : 0 <= night_M * (night_moisture - frost_mixing 267.82)) by (apply Rmult_le_pos; lra).
    assert (H2 : night_M * (night_moisture - frost_mixing 267.82) <= 4240 * night_K * 0.00032) by (apply Rmult_le_compat; lra).
    unfold L, outgoing, turbulence. set (x := night_M * _) in *. clearbody x. lra. }
  split; [exact HT|]. split; [exact F1|]. split.
  { constructor; [cbn; lra|]; constructor; [cbn; lra|]; constructor; [cbn; lra|constructor]. }
  assert (FO : forall t, 0.55 < t <= 330 -> forcing_ok default_constants (windy_night L) t).
  { intros t Ht. constructor; cbn [windy_night a_dt a_z a_z0 a_T2 a_rH2 a_p a_u2 a_rain a_slope a_LWin a_N]; try lra.
    - assert (X := ew_bound 274.68 ltac:(lra)). lra.
    - assert (X := ew_bound t Ht). lra.
    - left. discriminate. }
  split; [apply FO; lra|]. split.
  { assert (P0 : Forall (fun n => 0 < n_height n) (g_nodes cold_column)) by (repeat constructor; cbn; lra).
    unfold interp_subT.
    rewrite (subsurface_between cold_column (c_zlt1 default_constants) 0 (cold_layer 0.05) (cold_layer 0.1) P0 eq_refl eq_refl)
      by (unfold depth_to, column_height; cbn [firstn cold_column g_nodes]; rewrite !total_cons, !total_nil; cbn; lra).
    cbn [bind].
    rewrite (subsurface_between cold_column (c_zlt2 default_constants) 0 (cold_layer 0.05) (cold_layer 0.1) P0 eq_refl eq_refl)
      by (unfold depth_to, column_height; cbn [firstn cold_column g_nodes]; rewrite !total_cons, !total_nil; cbn; lra).
    cbn [bind]. cbn [n_temperature cold_layer]. do 2 f_equal; lra. }
  intros wrf. unfold eb_optim.
  assert (FX : forall t, 0.55 < t <= 330 -> eb_fluxes default_constants wrf cold_column t (windy_night L) (267.82, 267.82)
     = Ok (ri_fluxes default_constants lam t (windy_night L) (267.82, 267.82))).
  { intros t Ht. apply (eb_fluxes_ri _ wrf cold_column t _ _ (cold_layer 0.05) [cold_layer 0.1; cold_layer 1] lam F1 (FO t Ht) eq_refl eq_refl EL). }
  rewrite (FX 267.82), (FX T) by lra. cbn [bind]. change (root_finder default_constants) with true. cbv iota.
  rewrite !night_sum by lra. split; f_equal.
  - unfold stability_factor. destruct (Rle_dec ((274.68 - 267.82) / 686) 0.01); [|lra]. unfold L. lra.
  - unfold stability_factor. destruct (Rle_dec ((274.68 - T) / 686) 0.01); [lra|]. destruct (Rle_dec ((274.68 - T) / 686) 0.2); [|lra].
    unfold damped_sum in E. unfold L. lra.
Qed.

(*@ex C123 The night and the column meet the hypotheses of the first theorem at 268 K and 270 K. *)
Lemma balance_case_lem :
  flux_constants_ok default_constants /\ c_stability_correction default_constants = "Ri"%string /\
  In (c_sfc_temperature_method default_constants) ["Newton"; "Secant"]%string /\
  forcing_ok default_constants (windy_night 200) 270 /\
  richardson (a_z (windy_night 200)) 268 (a_T2 (windy_night 200)) (a_u2 (windy_night 200)) <= 0.01.
Proof.
  split; [constructor; cbn; try lra; tauto|]. split; [reflexivity|]. split; [cbn; tauto|]. split.
  - constructor; cbn [windy_night a_dt a_z a_z0 a_T2 a_rH2 a_p a_u2 a_rain a_slope a_LWin a_N]; try lra.
    + assert (X := ew_bound 274.68 ltac:(lra)). lra.
    + assert (X := ew_bound 270 ltac:(lra)). lra.
    + left. discriminate.
  - cbn [windy_night a_z a_T2 a_u2]. unfold richardson. destruct (Req_EM_T 7 0); [lra|]. lra.
Qed.
