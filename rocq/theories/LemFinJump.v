(** * The melting point and the sum of the fluxes (C126) *)
From Verif Require Import ModelPy ModelConstants ModelNode ModelGrid ModelSurface Spec SpecSurface.
From Coq Require Import Ranalysis5.
From Verif Require Import LemPy LemGridBase LemDensification LemFinSecant LemSurface LemFinSurface LemFinBalance.

(** the sum of the fluxes with damping [phi] and latent heat [LH] *)
Definition sum_with (c : Consts) (lam : R) (a : Atm) (B : R * R) (q phi LH T : R) : R :=
  q + longwave_in c a + - c_surface_emission_coeff c * c_sigma c * T ^ 4
  + phi * (density_of_air a * c_spec_heat_air c * bulk_transfer (a_z a) (a_z0 a) (a_z0 a / 100) * a_u2 a * (a_T2 a - T) * cos_slope a)
  + phi * (density_of_air a * LH * bulk_transfer (a_z a) (a_z0 a) (a_z0 a / 10) * a_u2 a
           * (air_mixing a - surface_mixing a T) * cos_slope a)
  + lam * (c_zlt1 c / c_zlt2 c * ((snd B - fst B) / (c_zlt2 c - c_zlt1 c))
           + (c_zlt2 c - c_zlt1 c) / c_zlt2 c * ((fst B - T) / c_zlt1 c))
  + c_water_density c * c_spec_heat_water c * (a_rain a / 1000 / a_dt a) * (a_T2 a - T).

Lemma sum_is_with c lam a B q T :
  flux_sum q (ri_fluxes c lam T a B)
  = sum_with c lam a B q (stability_factor (richardson (a_z a) T (a_T2 a) (a_u2 a))) (latent_heat c T) T.
Proof. reflexivity. Qed.

Lemma with_falls c a lam B q LH T T' : flux_constants_ok c -> forcing_ok c a T' -> 0 < lam -> 0.55 < T < T' -> 0 < LH ->
  sum_with c lam a B q 1 LH T' < sum_with c lam a B q 1 LH T.
Proof.
  intros Hc Hf Hl HT Lh.
  assert (Hr := air_density_pos a T' c Hf). assert (Hs := cos_slope_nonneg c a T' Hf).
  assert (PT := sonntag_pos T). assert (SM := sonntag_mono T T' HT).
  destruct Hf. destruct Hc.
  assert (B1 := bulk_pos (a_z a) (a_z0 a) (a_z0 a / 100) ltac:(lra) ltac:(lra)).
  assert (B2 := bulk_pos (a_z a) (a_z0 a) (a_z0 a / 10) ltac:(lra) ltac:(lra)).
  assert (MM : surface_mixing a T <= surface_mixing a T') by (apply mixing_mono; lra).
  unfold sum_with. set (Ct := bulk_transfer _ _ (a_z0 a / 100)) in *. set (Cq := bulk_transfer _ _ (a_z0 a / 10)) in *.
  set (rho := density_of_air a) in *. set (cs := cos_slope a) in *.
  clearbody Ct Cq rho cs.
  assert (K1 : 0 <= 1 * (rho * c_spec_heat_air c * Ct * a_u2 a * cs)) by (repeat apply Rmult_le_pos; lra).
  assert (K2 : 0 <= 1 * (rho * LH * Cq * a_u2 a * cs)) by (repeat apply Rmult_le_pos; lra).
  assert (K3 : 0 <= c_water_density c * c_spec_heat_water c * (a_rain a / 1000 / a_dt a)).
  { apply Rmult_le_pos; [apply Rmult_le_pos; lra|]. apply Rle_mult_inv_pos; lra. }
  assert (KT : forall d, 1 * (rho * c_spec_heat_air c * Ct * a_u2 a * d * cs)
     = 1 * (rho * c_spec_heat_air c * Ct * a_u2 a * cs) * d) by (intros; ring).
  assert (KL : forall d, 1 * (rho * LH * Cq * a_u2 a * d * cs)
     = 1 * (rho * LH * Cq * a_u2 a * cs) * d) by (intros; ring).
  rewrite !KT, !KL. clear KT KL. set (k1 := 1 * (rho * c_spec_heat_air c * _ * _ * _)) in *.
  set (k2 := 1 * (rho * LH * _ * _ * _)) in *.
  set (k3 := c_water_density c * c_spec_heat_water c * _) in *. clearbody k1 k2 k3.
  assert (P4 := pow4_lt T T' ltac:(lra)).
  assert (0 < c_surface_emission_coeff c * c_sigma c) by (apply Rmult_lt_0_compat; lra).
  assert (E1 : - c_surface_emission_coeff c * c_sigma c * T' ^ 4 < - c_surface_emission_coeff c * c_sigma c * T ^ 4) by nra.
  assert (E2 : k1 * (a_T2 a - T') <= k1 * (a_T2 a - T)) by nra.
  assert (E3 : k3 * (a_T2 a - T') <= k3 * (a_T2 a - T)) by nra.
  assert (E4 : k2 * (air_mixing a - surface_mixing a T') <= k2 * (air_mixing a - surface_mixing a T)) by nra.
  assert (Z1 : 0 < (c_zlt2 c - c_zlt1 c) / c_zlt2 c) by (apply Rdiv_lt_0_compat; lra).
  assert (Z2 : (fst B - T') / c_zlt1 c < (fst B - T) / c_zlt1 c) by (apply Rmult_lt_compat_r; [apply Rinv_0_lt_compat; lra|lra]).
  set (w := (c_zlt2 c - c_zlt1 c) / c_zlt2 c) in *. set (d' := (fst B - T') / _) in *. set (d := (fst B - T) / _) in *.
  assert (Z3 : lam * (w * d') < lam * (w * d)) by (apply Rmult_lt_compat_l; [exact Hl|]; apply Rmult_lt_compat_l; assumption).
  rewrite !Rmult_plus_distr_l. lra.
Qed.

(** what the change of the latent heat adds *)
Lemma with_latent c lam a B q L1 L2 T : L1 <> 0 ->
  sum_with c lam a B q 1 L2 T = sum_with c lam a B q 1 L1 T
    + (L2 / L1 - 1) * (1 * (density_of_air a * L1 * bulk_transfer (a_z a) (a_z0 a) (a_z0 a / 10) * a_u2 a
           * (air_mixing a - surface_mixing a T) * cos_slope a)).
Proof.
  intros H. unfold sum_with. set (rho := density_of_air a). set (Cq := bulk_transfer _ _ (a_z0 a / 10)).
  set (d := air_mixing a - surface_mixing a T). set (cs := cos_slope a).
  replace ((L2 / L1 - 1) * (1 * (rho * L1 * Cq * a_u2 a * d * cs)))
    with (1 * (rho * L2 * Cq * a_u2 a * d * cs) - 1 * (rho * L1 * Cq * a_u2 a * d * cs)) by (field; exact H).
  ring.
Qed.

Lemma undamped z T T2 u : richardson z T T2 u <= 0.01 -> stability_factor (richardson z T T2 u) = 1.
Proof. intros H. unfold stability_factor. destruct (Rle_dec _ 0.01); [reflexivity|lra]. Qed.

Lemma sonntag_below T : T <= 273.16 -> sonntag T = frost T.
Proof.
  intros H. destruct (Req_dec T 273.16) as [->|N]; [|apply sonntag_frost; lra].
  unfold sonntag, frost. destruct (Rle_dec 273.16 273.16); [|lra]. f_equal. f_equal. lra.
Qed.

(** the sum written with the vapour pressure over ice, and its continuity *)
Definition ice_with (c : Consts) (lam : R) (a : Atm) (B : R * R) (k0 k1 k2 k3 T : R) : R :=
  k0 + - c_surface_emission_coeff c * c_sigma c * T ^ 4 + k1 * (a_T2 a - T)
  + k2 * (air_mixing a - 0.622 * (frost T / (a_p a - frost T)))
  + lam * (c_zlt1 c / c_zlt2 c * ((snd B - fst B) / (c_zlt2 c - c_zlt1 c))
           + (c_zlt2 c - c_zlt1 c) / c_zlt2 c * ((fst B - T) * / c_zlt1 c))
  + k3 * (a_T2 a - T).

Lemma with_is_ice c lam a B q LH : exists k0 k1 k2 k3, forall T, T <= 273.16 ->
  sum_with c lam a B q 1 LH T = ice_with c lam a B k0 k1 k2 k3 T.
Proof.
  exists (q + longwave_in c a), (density_of_air a * c_spec_heat_air c * bulk_transfer (a_z a) (a_z0 a) (a_z0 a / 100) * a_u2 a * cos_slope a),
    (density_of_air a * LH * bulk_transfer (a_z a) (a_z0 a) (a_z0 a / 10) * a_u2 a * cos_slope a),
    (c_water_density c * c_spec_heat_water c * (a_rain a / 1000 / a_dt a)).
  intros T H. unfold sum_with, ice_with, surface_mixing, mixing_ratio. rewrite sonntag_below by exact H.
  replace (100 / 100 * (0.622 * (frost T / (a_p a - frost T)))) with (0.622 * (frost T / (a_p a - frost T))) by lra.
  unfold Rdiv. ring.
Qed.

Lemma ice_continuous c lam a B k0 k1 k2 k3 T : 0.55 < T -> frost T < a_p a -> continuity_pt (ice_with c lam a B k0 k1 k2 k3) T.
Proof.
  intros H P. assert (C := frost_continuous T H). unfold ice_with.
  reg. lra.
Qed.

(** the sum and its part below the melting point *)
Lemma optim_with c wrf g a q B top below lam T : flux_constants_ok c -> c_stability_correction c = "Ri"%string ->
  In (c_sfc_temperature_method c) ["Newton"; "Secant"]%string ->
  g_nodes g = top :: below -> layer_thermal_conductivity c top = Ok lam -> forcing_ok c a T ->
  richardson (a_z a) T (a_T2 a) (a_u2 a) <= 0.01 ->
  eb_optim c wrf g a q B T = Ok (sum_with c lam a B q 1 (latent_heat c T) T).
Proof.
  intros Hc HS HM Hn Hl Hf HR. unfold eb_optim. rewrite (eb_fluxes_ri c wrf g T a B top below lam) by assumption. cbn [bind].
  assert (RF : root_finder c = true) by (unfold root_finder; destruct HM as [<-|[<-|[]]]; reflexivity).
  rewrite RF, sum_is_with, undamped by exact HR. reflexivity.
Qed.

Lemma latent_below c T : T < c_zero_temperature c -> latent_heat c T = c_lat_heat_sublimation c.
Proof. intros H. unfold latent_heat. destruct (Rle_dec _ T); [lra|reflexivity]. Qed.

Lemma latent_above c T : c_zero_temperature c <= T -> latent_heat c T = c_lat_heat_vaporize c.
Proof. intros H. unfold latent_heat. destruct (Rle_dec _ T); [reflexivity|lra]. Qed.

Lemma jump_value c wrf g a q B top below lam f b : flux_constants_ok c -> c_stability_correction c = "Ri"%string ->
  In (c_sfc_temperature_method c) ["Newton"; "Secant"]%string ->
  g_nodes g = top :: below -> layer_thermal_conductivity c top = Ok lam -> forcing_ok c a (c_zero_temperature c) ->
  richardson (a_z a) (c_zero_temperature c) (a_T2 a) (a_u2 a) <= 0.01 ->
  eb_fluxes c wrf g (c_zero_temperature c) a B = Ok f -> eb_optim c wrf g a q B (c_zero_temperature c) = Ok b ->
  sum_with c lam a B q 1 (c_lat_heat_sublimation c) (c_zero_temperature c)
  = b + (c_lat_heat_sublimation c / c_lat_heat_vaporize c - 1) * f_LE f.
Proof.
  intros Hc HS HM Hn Hl Hf HR EF EB.
  rewrite (optim_with c wrf g a q B top below lam) in EB by assumption. injection EB as <-.
  rewrite (eb_fluxes_ri c wrf g _ a B top below lam) in EF by assumption. injection EF as <-.
  rewrite latent_above by lra. unfold ri_fluxes. cbv zeta. cbn [f_LE]. rewrite undamped by exact HR. rewrite latent_above by lra.
  apply with_latent. destruct Hc. lra.
Qed.

(*@ C126 At the melting point the latent heat changes from sublimation to evaporation, and the sum of the fluxes jumps. With the Richardson correction and without damping, every colder surface has a sum above the sum at the melting point plus (sublimation / evaporation - 1) times the latent heat flux there, and close to the melting point the sum comes as near to this value as wanted. *)
Lemma melting_jump_lem :
  forall c wrf g a q B top below f b,
  flux_constants_ok c -> c_stability_correction c = "Ri"%string ->
  In (c_sfc_temperature_method c) ["Newton"; "Secant"]%string ->
  g_nodes g = top :: below -> 0 < n_ice top -> 0 <= n_lwc top ->
  c_zero_temperature c <= 273.16 -> forcing_ok c a (c_zero_temperature c) ->
  richardson (a_z a) (c_zero_temperature c) (a_T2 a) (a_u2 a) < 0.01 ->
  eb_fluxes c wrf g (c_zero_temperature c) a B = Ok f -> eb_optim c wrf g a q B (c_zero_temperature c) = Ok b ->
  (forall T, 0.55 < T < c_zero_temperature c -> richardson (a_z a) T (a_T2 a) (a_u2 a) <= 0.01 ->
     exists b', eb_optim c wrf g a q B T = Ok b'
                /\ b + (c_lat_heat_sublimation c / c_lat_heat_vaporize c - 1) * f_LE f < b') /\
  (forall eps, 0 < eps -> exists d, 0 < d /\ forall T, c_zero_temperature c - d < T < c_zero_temperature c ->
     exists b', eb_optim c wrf g a q B T = Ok b'
                /\ b' < b + (c_lat_heat_sublimation c / c_lat_heat_vaporize c - 1) * f_LE f + eps).
Proof.
  intros c wrf g a q B top below f b Hc HS HM Hn Hi Hw HZ Hf HR EF EB.
  destruct (conductivity_ok c top Hc) as (lam & Hlam).
  assert (Hpos := conductivity_pos c top lam Hc Hi Hw Hlam).
  rewrite <- (jump_value c wrf g a q B top below lam f b) by (assumption || lra).
  assert (LS : 0 < c_lat_heat_sublimation c) by (destruct Hc; lra).
  assert (Hz0 : 0.55 < c_zero_temperature c) by (destruct Hf; lra).
  assert (OP : forall T, 0.55 < T < c_zero_temperature c -> richardson (a_z a) T (a_T2 a) (a_u2 a) <= 0.01 ->
     eb_optim c wrf g a q B T = Ok (sum_with c lam a B q 1 (c_lat_heat_sublimation c) T)).
  { intros T HT R1. rewrite (optim_with c wrf g a q B top below lam T); try assumption.
    - rewrite latent_below by lra. reflexivity.
    - apply (forcing_between c a T _ Hf). lra. }
  split.
  - intros T HT R1. eexists. split; [apply OP; assumption|]. apply with_falls; assumption.
  - intros eps He. set (Tm := c_zero_temperature c) in *.
    destruct (with_is_ice c lam a B q (c_lat_heat_sublimation c)) as (k0 & k1 & k2 & k3 & EI).
    assert (C := ice_continuous c lam a B k0 k1 k2 k3 Tm Hz0).
    assert (FP : frost Tm < a_p a) by (rewrite <- sonntag_below by exact HZ; destruct Hf; assumption).
    specialize (C FP). destruct (C eps He) as (d1 & D1 & C1).
    assert (RC : exists d2, 0 < d2 /\ forall T, Tm - d2 < T < Tm -> richardson (a_z a) T (a_T2 a) (a_u2 a) <= 0.01).
    { unfold richardson in HR |- *. destruct (Req_EM_T (a_u2 a) 0); [exists 1; split; [lra|]; intros; lra|].
      assert (D : 0 < a_T2 a * a_u2 a ^ 2). { destruct Hf. apply Rmult_lt_0_compat; [lra|]. nra. }
      assert (Z : 0 < a_z a) by (destruct Hf; lra).
      set (v := a_T2 a * a_u2 a ^ 2) in *. set (z := a_z a) in *. clearbody v z.
      assert (HR2 : 9.81 * (a_T2 a - Tm) * z < 0.01 * v).
      { apply Rmult_lt_reg_r with (/ v); [apply Rinv_0_lt_compat; exact D|]. rewrite (Rmult_assoc 0.01), Rinv_r by lra.
        rewrite Rmult_1_r. exact HR. }
      exists ((0.01 * v - 9.81 * (a_T2 a - Tm) * z) / (9.81 * z)). split; [apply Rdiv_lt_0_compat; lra|].
      intros T HT. apply Rmult_le_reg_r with v; [exact D|]. unfold Rdiv. rewrite Rmult_assoc, Rinv_l by lra.
      assert (X : Tm - T < (0.01 * v - 9.81 * (a_T2 a - Tm) * z) / (9.81 * z)) by lra.
      apply Rmult_lt_compat_r with (r := 9.81 * z) in X; [|lra]. unfold Rdiv in X. rewrite (Rmult_assoc (0.01 * v - _)), Rinv_l in X by lra.
      lra. }
    destruct RC as (d2 & D2 & C2).
    exists (Rmin (Rmin d1 d2) (Tm - 0.55)). split; [repeat apply Rmin_glb_lt; lra|].
    intros T HT. assert (M1 := Rmin_l (Rmin d1 d2) (Tm - 0.55)). assert (M2 := Rmin_r (Rmin d1 d2) (Tm - 0.55)).
    assert (M3 := Rmin_l d1 d2). assert (M4 := Rmin_r d1 d2).
    eexists. split; [apply OP; [lra|apply C2; lra]|].
    rewrite !EI by lra.
    specialize (C1 T). cbn [dist R_met] in C1. unfold D_x, no_cond, R_dist in C1.
    assert (X : Rabs (ice_with c lam a B k0 k1 k2 k3 T - ice_with c lam a B k0 k1 k2 k3 Tm) < eps).
    { apply C1. split; [split; [exact I|lra]|]. change (Rabs (T - Tm) < d1). unfold Rabs. destruct (Rcase_abs (T - Tm)); lra. }
    apply Rabs_def2 in X. lra.
Qed.

(*@ C126 In humid air the sum jumps down at the melting point. If it is negative there, but smaller than the jump, no surface temperature balances the energy: the sum is positive at every colder temperature without damping and negative at every warmer one. *)
Lemma no_balance_lem :
  forall c wrf g a q B top below f b,
  flux_constants_ok c -> c_stability_correction c = "Ri"%string ->
  In (c_sfc_temperature_method c) ["Newton"; "Secant"]%string ->
  g_nodes g = top :: below -> 0 < n_ice top -> 0 <= n_lwc top ->
  c_zero_temperature c <= 273.16 -> forcing_ok c a (c_zero_temperature c) ->
  richardson (a_z a) (c_zero_temperature c) (a_T2 a) (a_u2 a) < 0.01 ->
  eb_fluxes c wrf g (c_zero_temperature c) a B = Ok f -> eb_optim c wrf g a q B (c_zero_temperature c) = Ok b ->
  - ((c_lat_heat_sublimation c / c_lat_heat_vaporize c - 1) * f_LE f) <= b < 0 ->
  (forall T, 0.55 < T < c_zero_temperature c -> richardson (a_z a) T (a_T2 a) (a_u2 a) <= 0.01 ->
     exists b', eb_optim c wrf g a q B T = Ok b' /\ 0 < b') /\
  (forall T, c_zero_temperature c <= T -> forcing_ok c a T ->
     exists b', eb_optim c wrf g a q B T = Ok b' /\ b' < 0).
Proof.
  intros c wrf g a q B top below f b Hc HS HM Hn Hi Hw HZ Hf HR EF EB Hb. split.
  - intros T HT R1. destruct (melting_jump_lem c wrf g a q B top below f b) as [J _]; try assumption.
    destruct (J T HT R1) as (b' & E & L). exists b'. split; [exact E|]. lra.
  - intros T HT HF. destruct (Req_dec T (c_zero_temperature c)) as [->|N]; [exists b; split; [exact EB|lra]|].
    destruct (conductivity_ok c top Hc) as (lam & Hlam).
    assert (Hz0 : 0.55 < c_zero_temperature c) by (destruct Hf; lra).
    assert (RT : richardson (a_z a) T (a_T2 a) (a_u2 a) <= 0.01).
    { eapply Rle_trans; [apply (richardson_falls _ (c_zero_temperature c)); destruct Hf; lra|lra]. }
    eexists. split; [apply (optim_with c wrf g a q B top below lam T); assumption|].
    assert (Hpos := conductivity_pos c top lam Hc Hi Hw Hlam).
    rewrite (optim_with c wrf g a q B top below lam) in EB by (assumption || lra). injection EB as <-.
    rewrite latent_above in * by lra.
    assert (F := with_falls c a lam B q (c_lat_heat_vaporize c) (c_zero_temperature c) T Hc HF Hpos ltac:(lra) ltac:(destruct Hc; lra)).
    lra.
Qed.

(*@ C126 In dry air the sum jumps up at the melting point. If it is positive there, but smaller than the jump, and not negative at some colder temperature without damping, then a frozen surface balances the energy although the melting surface has energy left for melt. *)
Lemma frozen_and_melting_lem :
  forall c wrf g a q B top below f b T1 b1,
  flux_constants_ok c -> c_stability_correction c = "Ri"%string ->
  In (c_sfc_temperature_method c) ["Newton"; "Secant"]%string ->
  g_nodes g = top :: below -> 0 < n_ice top -> 0 <= n_lwc top ->
  c_zero_temperature c <= 273.16 -> forcing_ok c a (c_zero_temperature c) ->
  richardson (a_z a) T1 (a_T2 a) (a_u2 a) <= 0.01 ->
  eb_fluxes c wrf g (c_zero_temperature c) a B = Ok f -> eb_optim c wrf g a q B (c_zero_temperature c) = Ok b ->
  0 < b < - ((c_lat_heat_sublimation c / c_lat_heat_vaporize c - 1) * f_LE f) ->
  0.55 < T1 < c_zero_temperature c -> eb_optim c wrf g a q B T1 = Ok b1 -> 0 <= b1 ->
  exists T, T1 <= T < c_zero_temperature c /\ eb_optim c wrf g a q B T = Ok 0.
Proof.
  intros c wrf g a q B top below f b T1 b1 Hc HS HM Hn Hi Hw HZ Hf HR EF EB Hb HT1 E1 H1.
  destruct (conductivity_ok c top Hc) as (lam & Hlam).
  assert (RD : forall T, T1 <= T -> richardson (a_z a) T (a_T2 a) (a_u2 a) <= 0.01).
  { intros T H. eapply Rle_trans; [apply (richardson_falls _ T1); destruct Hf; lra|lra]. }
  assert (J := jump_value c wrf g a q B top below lam f b Hc HS HM Hn Hlam Hf (RD (c_zero_temperature c) ltac:(lra)) EF EB).
  assert (OP : forall T, T1 <= T < c_zero_temperature c ->
     eb_optim c wrf g a q B T = Ok (sum_with c lam a B q 1 (c_lat_heat_sublimation c) T)).
  { intros T HT. rewrite (optim_with c wrf g a q B top below lam T); try assumption.
    - rewrite latent_below by lra. reflexivity.
    - apply (forcing_between c a T _ Hf). lra.
    - apply RD. lra. }
  rewrite OP in E1 by lra. injection E1 as <-.
  destruct (with_is_ice c lam a B q (c_lat_heat_sublimation c)) as (k0 & k1 & k2 & k3 & EI).
  rewrite EI in J, H1 by lra.
  set (F := ice_with c lam a B k0 k1 k2 k3) in *. set (Tm := c_zero_temperature c) in *.
  destruct (Req_dec (F T1) 0) as [Z|NZ].
  { exists T1. split; [lra|]. rewrite OP, EI by lra. f_equal. exact Z. }
  destruct (IVT_interv (fun T => - F T) T1 Tm) as (T & HT & Z).
  - intros t Ht. apply continuity_pt_opp. apply ice_continuous; [lra|].
    rewrite <- sonntag_below by lra. destruct (forcing_between c a t Tm Hf ltac:(lra)); assumption.
  - lra.
  - lra.
  - lra.
  - assert (T <> Tm) by (intros ->; lra). exists T. split; [lra|]. rewrite OP, EI by lra. f_equal. fold F. lra.
Qed.

(** ** Two days with the shipped constants *)

(** a storm with saturated air of 273.5 K and 30 m/s at night *)
Definition storm (L : R) : Atm := mkAtm 3600 2 0.001 273.5 100 700 30 0 0 (Some L) None.
(** a sunny day with air of 272 K, 50 % and 5 m/s *)
Definition dry_day (L : R) : Atm := mkAtm 3600 2 0.001 272 50 700 5 0 0 (Some L) None.
Definition melting_layer (h : R) : Node := mkNode h 273.16 0 0.4 0.
Definition melting_column : Grid := mkGrid [melting_layer 0.05; melting_layer 0.1; melting_layer 1] 3 0 0 0.

Lemma bulk_bounds : 0.0016 <= bulk_transfer 2 0.001 (0.001 / 100) <= 0.00219
  /\ 0 < bulk_transfer 2 0.001 (0.001 / 10) <= 1.5 * bulk_transfer 2 0.001 (0.001 / 100)
  /\ bulk_transfer 2 0.001 (0.001 / 100) <= bulk_transfer 2 0.001 (0.001 / 10).
Proof.
  unfold bulk_transfer.
  replace (2 / 0.001) with 2000 by lra. replace (2 / (0.001 / 100)) with 200000 by lra. replace (2 / (0.001 / 10)) with 20000 by lra.
  assert (L1 := ln_between 7 2000 8 ltac:(cbn [pow]; lra)).
  assert (L2 := ln_between 11 200000 13 ltac:(cbn [pow]; lra)).
  cbn [INR] in L1, L2.
  assert (L3 : ln 200000 = ln 20000 + ln 10) by (rewrite <- ln_mult by lra; f_equal; lra).
  assert (L4 : ln 20000 = ln 2000 + ln 10) by (rewrite <- ln_mult by lra; f_equal; lra).
  assert (L5 : ln 10 < ln 2000) by (apply ln_increasing; lra).
  assert (L6 : 0 < ln 10) by (rewrite <- ln_1; apply ln_increasing; lra).
  set (l := ln 2000) in *. set (lt := ln 200000) in *. set (lq := ln 20000) in *. set (l10 := ln 10) in *. clearbody l lt lq l10.
  assert (P1 : 77 <= l * lt <= 104) by (split; nra).
  assert (P2 : 0 < l * lq) by (apply Rmult_lt_0_compat; lra).
  assert (P3 : l * lq <= l * lt <= 1.5 * (l * lq)) by (split; nra).
  set (u := l * lt) in *. set (v := l * lq) in *. clearbody u v.
  assert (I1 : / 104 <= / u <= / 77) by (split; apply Rinv_le_contravar; lra).
  assert (I2 : / v <= 1.5 * / u).
  { replace (1.5 * / u) with (/ (u / 1.5)) by (field; lra). apply Rinv_le_contravar; lra. }
  assert (I3 : 0 < / v) by (apply Rinv_0_lt_compat; lra).
  assert (I4 : / u <= / v) by (apply Rinv_le_contravar; lra).
  unfold Rdiv. set (iu := / u) in *. set (iv := / v) in *. clearbody iu iv. cbn [pow]. lra.
Qed.

Lemma melting_pressure : sonntag 273.16 = 6.112.
Proof.
  rewrite sonntag_below by lra. unfold frost. replace (22.46 * (273.16 - 273.16) / (273.16 - 0.55)) with 0 by lra. rewrite exp_0. lra.
Qed.

Lemma storm_pressure : 6.26 <= sonntag 273.5 <= 6.267.
Proof.
  unfold sonntag. destruct (Rle_dec 273.16 273.5); [|lra]. set (x := 17.67 * (273.5 - 273.16) / (273.5 - 29.66)).
  assert (X : 0.0246 <= x <= 0.0247) by (unfold x; lra). clearbody x. split.
  - assert (L := exp_lower x). lra.
  - assert (U := exp_upper x ltac:(lra)). assert (/ (1 - x) <= / (1 - 0.0247)) by (apply Rinv_le_contravar; lra). lra.
Qed.

Lemma dry_pressure : 5 <= sonntag 272 <= 6.112.
Proof.
  split; [|rewrite <- melting_pressure; left; apply sonntag_mono; lra].
  rewrite sonntag_below by lra. unfold frost.
  set (x := 22.46 * (272 - 273.16) / (272 - 0.55)). assert (X : -0.1 <= x) by (unfold x; lra). clearbody x.
  assert (L := exp_lower x). lra.
Qed.

Definition melting_moisture : R := mixing_ratio 100 (sonntag 273.16) 700.

Lemma moisture_differences :
  0.0001 <= mixing_ratio 100 (sonntag 273.5) 700 - melting_moisture <= 0.00015 /\
  -0.0035 <= mixing_ratio 50 (sonntag 272) 700 - melting_moisture <= -0.0027 /\
  0 <= mixing_ratio 50 (sonntag 272) 700 <= 0.006 /\ 0 <= mixing_ratio 100 (sonntag 273.5) 700 <= 0.006.
Proof.
  assert (B1 := quotient_between _ 6.26 6.267 ltac:(lra) storm_pressure ltac:(lra)).
  assert (B2 := quotient_between _ 5 6.112 ltac:(lra) dry_pressure ltac:(lra)).
  unfold melting_moisture, mixing_ratio. rewrite melting_pressure.
  set (x := sonntag 273.5 / _) in *. set (y := sonntag 272 / _) in *. clearbody x y. lra.
Qed.

Lemma density_bounds T2 q : 272 <= T2 <= 273.5 -> 0 <= q <= 0.006 -> 0.88 <= 700 * 100 / (287.058 * (T2 * (1 + 0.608 * q))) <= 0.9.
Proof.
  intros HT HQ.
  assert (T2 <= T2 * (1 + 0.608 * q)) by nra. assert (T2 * (1 + 0.608 * q) <= 273.5 * (1 + 0.608 * 0.006)) by (apply Rmult_le_compat; lra).
  set (x := T2 * _) in *. clearbody x.
  assert (I : / (287.058 * (273.5 * (1 + 0.608 * 0.006))) <= / (287.058 * x) <= / (287.058 * 272)) by (split; apply Rinv_le_contravar; lra).
  unfold Rdiv. set (i := / (287.058 * x)) in *. lra.
Qed.

Definition storm_K : R := density_of_air (storm 0) * bulk_transfer 2 0.001 (0.001 / 100).
Definition storm_M : R := density_of_air (storm 0) * bulk_transfer 2 0.001 (0.001 / 10).
Definition dry_K : R := density_of_air (dry_day 0) * bulk_transfer 2 0.001 (0.001 / 100).
Definition dry_M : R := density_of_air (dry_day 0) * bulk_transfer 2 0.001 (0.001 / 10).

Lemma exchange_bounds rho : 0.88 <= rho <= 0.9 ->
  0 <= rho * bulk_transfer 2 0.001 (0.001 / 100) <= 0.00198 /\
  0.0014 <= rho * bulk_transfer 2 0.001 (0.001 / 10) <= 0.00297.
Proof.
  intros H. destruct bulk_bounds as (B1 & B2 & B3). set (t := bulk_transfer _ _ (0.001 / 100)) in *. set (m := bulk_transfer _ _ (0.001 / 10)) in *.
  clearbody t m. split; split.
  - apply Rmult_le_pos; lra.
  - apply Rle_trans with (0.9 * 0.00219); [apply Rmult_le_compat; lra|lra].
  - apply Rle_trans with (0.88 * 0.0016); [lra|apply Rmult_le_compat; lra].
  - apply Rle_trans with (0.9 * (1.5 * 0.00219)); [apply Rmult_le_compat; lra|lra].
Qed.

Lemma storm_bounds : 0 <= storm_K <= 0.00198 /\ 0.0014 <= storm_M <= 0.00297.
Proof. destruct moisture_differences as (_ & _ & _ & Q). exact (exchange_bounds _ (density_bounds 273.5 _ ltac:(lra) Q)). Qed.

Lemma dry_bounds : 0 <= dry_K <= 0.00198 /\ 0.0014 <= dry_M <= 0.00297.
Proof. destruct moisture_differences as (_ & _ & Q & _). exact (exchange_bounds _ (density_bounds 272 _ ltac:(lra) Q)). Qed.

Definition emitted (T : R) : R := 0.99 * 5.67e-8 * T ^ 4.

Lemma level_cos (x : R) : cos (0 * PI / 180) = 1.
Proof. replace (0 * PI / 180) with 0 by lra. apply cos_0. Qed.

Lemma storm_sum lam L LH : sum_with default_constants lam (storm L) (273.16, 273.16) 0 1 LH 273.16
  = L - emitted 273.16 + 1004.67 * 30 * 0.34 * storm_K + LH * 30 * storm_M * (mixing_ratio 100 (sonntag 273.5) 700 - melting_moisture).
Proof.
  unfold sum_with, emitted, storm_K, storm_M. change (longwave_in default_constants (storm L)) with L.
  change (density_of_air (storm L)) with (density_of_air (storm 0)).
  change (air_mixing (storm L)) with (mixing_ratio 100 (sonntag 273.5) 700). change (surface_mixing (storm L) 273.16) with melting_moisture.
  unfold cos_slope. cbn [storm a_slope a_z a_z0 a_T2 a_u2 a_rain a_dt default_constants c_surface_emission_coeff c_sigma c_spec_heat_air
    c_zlt1 c_zlt2 c_water_density c_spec_heat_water fst snd]. rewrite (level_cos 0).
  set (rho := density_of_air _). set (Ct := bulk_transfer _ _ (0.001 / 100)). set (Cq := bulk_transfer _ _ (0.001 / 10)).
  set (q := mixing_ratio _ _ _). set (qm := melting_moisture). set (T4 := 273.16 ^ 4). clearbody rho Ct Cq q qm T4.
  replace (273.16 - 273.16) with 0 by lra. replace (0 / 1000 / 3600) with 0 by lra. replace (273.5 - 273.16) with 0.34 by lra. lra.
Qed.

Lemma dry_sum lam L LH T : sum_with default_constants lam (dry_day L) (273.16, 273.16) 150 1 LH T
  = 150 + L - emitted T + 1004.67 * 5 * (272 - T) * dry_K
    + LH * 5 * dry_M * (mixing_ratio 50 (sonntag 272) 700 - mixing_ratio 100 (sonntag T) 700) + lam * (20 / 3) * (273.16 - T).
Proof.
  unfold sum_with, emitted, dry_K, dry_M. change (longwave_in default_constants (dry_day L)) with L.
  change (density_of_air (dry_day L)) with (density_of_air (dry_day 0)).
  change (air_mixing (dry_day L)) with (mixing_ratio 50 (sonntag 272) 700).
  change (surface_mixing (dry_day L) T) with (mixing_ratio 100 (sonntag T) 700).
  unfold cos_slope. cbn [dry_day a_slope a_z a_z0 a_T2 a_u2 a_rain a_dt default_constants c_surface_emission_coeff c_sigma c_spec_heat_air
    c_zlt1 c_zlt2 c_water_density c_spec_heat_water fst snd]. rewrite (level_cos 0).
  set (rho := density_of_air _). set (Ct := bulk_transfer _ _ (0.001 / 100)). set (Cq := bulk_transfer _ _ (0.001 / 10)).
  set (q := mixing_ratio 50 _ _). set (qm := mixing_ratio 100 _ _). set (T4 := T ^ 4). clearbody rho Ct Cq q qm T4.
  replace (273.16 - 273.16) with 0 by lra. replace (0 / 1000 / 3600) with 0 by lra. lra.
Qed.

Lemma melting_interp : interp_subT default_constants melting_column = Ok (273.16, 273.16).
Proof.
  assert (P0 : Forall (fun n => 0 < n_height n) (g_nodes melting_column)) by (repeat constructor; cbn; lra).
  unfold interp_subT.
  rewrite (subsurface_between melting_column (c_zlt1 default_constants) 0 (melting_layer 0.05) (melting_layer 0.1) P0 eq_refl eq_refl)
    by (unfold depth_to, column_height; cbn [firstn melting_column g_nodes]; rewrite !total_cons, !total_nil; cbn; lra).
  cbn [bind].
  rewrite (subsurface_between melting_column (c_zlt2 default_constants) 0 (melting_layer 0.05) (melting_layer 0.1) P0 eq_refl eq_refl)
    by (unfold depth_to, column_height; cbn [firstn melting_column g_nodes]; rewrite !total_cons, !total_nil; cbn; lra).
  cbn [bind]. cbn [n_temperature melting_layer]. do 2 f_equal; lra.
Qed.

Lemma default_ok : flux_constants_ok default_constants.
Proof. constructor; cbn; try lra; tauto. Qed.

Lemma default_method : In (c_sfc_temperature_method default_constants) ["Newton"; "Secant"]%string.
Proof. cbn. tauto. Qed.

Lemma storm_ok L t : 0.55 < t <= 330 -> forcing_ok default_constants (storm L) t.
Proof.
  intros Ht. constructor; cbn [storm a_dt a_z a_z0 a_T2 a_rH2 a_p a_u2 a_rain a_slope a_LWin a_N]; try lra.
  - assert (X := ew_bound 273.5 ltac:(lra)). lra.
  - assert (X := ew_bound t Ht). lra.
  - left. discriminate.
Qed.

Lemma dry_ok L t : 0.55 < t <= 330 -> forcing_ok default_constants (dry_day L) t.
Proof.
  intros Ht. constructor; cbn [dry_day a_dt a_z a_z0 a_T2 a_rH2 a_p a_u2 a_rain a_slope a_LWin a_N]; try lra.
  - assert (X := ew_bound 272 ltac:(lra)). lra.
  - assert (X := ew_bound t Ht). lra.
  - left. discriminate.
Qed.

Lemma storm_richardson L T : 220 <= T -> richardson (a_z (storm L)) T (a_T2 (storm L)) (a_u2 (storm L)) < 0.01.
Proof. intros H. cbn [storm a_z a_T2 a_u2]. unfold richardson. destruct (Req_EM_T 30 0); [lra|]. lra. Qed.

Lemma dry_richardson L T : 270 <= T -> richardson (a_z (dry_day L)) T (a_T2 (dry_day L)) (a_u2 (dry_day L)) < 0.01.
Proof. intros H. cbn [dry_day a_z a_T2 a_u2]. unfold richardson. destruct (Req_EM_T 5 0); [lra|]. lra. Qed.

(*@ C126 With the shipped constants there is a forcing which no surface temperature from 220 K to 330 K balances: a storm of 30 m/s with saturated air of 273.5 K and incoming longwave radiation between 250 and 320 W/m2 over a column at the melting point. *)
Lemma unbalanced_storm_refuted_lem :
  exists L B, 250 < L < 320 /\ flux_constants_ok default_constants /\ layers_ok (g_nodes melting_column) /\
    forcing_ok default_constants (storm L) 330 /\ interp_subT default_constants melting_column = Ok B /\
    forall wrf T, 220 <= T <= 330 ->
      exists b, eb_optim default_constants wrf melting_column (storm L) 0 B T = Ok b /\ b <> 0.
Proof.
  assert (F1 := default_ok).
  destruct (conductivity_ok default_constants (melting_layer 0.05) F1) as (lam & EL).
  destruct storm_bounds as [HK HM]. destruct moisture_differences as (HQ & _ & _).
  set (K := storm_K) in *. set (M := storm_M) in *. set (dq := mixing_ratio 100 (sonntag 273.5) 700 - melting_moisture) in *.
  assert (X : 0.0014 * 0.0001 <= M * dq <= 0.00297 * 0.00015) by (split; apply Rmult_le_compat; lra).
  set (L := emitted 273.16 - 1004.67 * 30 * 0.34 * K - (2500000 + 2834000) / 2 * 30 * (M * dq)).
  exists L, (273.16, 273.16). split; [unfold L, emitted; lra|]. split; [exact F1|]. split.
  { constructor; [cbn; lra|]; constructor; [cbn; lra|]; constructor; [cbn; lra|constructor]. }
  split; [apply storm_ok; lra|]. split; [exact melting_interp|].
  intros wrf T HT.
  assert (EB := optim_with default_constants wrf melting_column (storm L) 0 (273.16, 273.16) (melting_layer 0.05)
     [melting_layer 0.1; melting_layer 1] lam 273.16 F1 eq_refl default_method eq_refl EL (storm_ok L 273.16 ltac:(lra))
     (Rlt_le _ _ (storm_richardson L 273.16 ltac:(lra)))).
  assert (EF := eb_fluxes_ri default_constants wrf melting_column 273.16 (storm L) (273.16, 273.16) (melting_layer 0.05)
     [melting_layer 0.1; melting_layer 1] lam F1 (storm_ok L 273.16 ltac:(lra)) eq_refl eq_refl EL).
  assert (J := jump_value default_constants wrf melting_column (storm L) 0 (273.16, 273.16) (melting_layer 0.05)
     [melting_layer 0.1; melting_layer 1] lam _ _ F1 eq_refl default_method eq_refl EL (storm_ok L 273.16 ltac:(lra))
     (Rlt_le _ _ (storm_richardson L 273.16 ltac:(lra))) EF EB).
  rewrite latent_above in EB, J by (cbn [default_constants c_zero_temperature]; lra).
  cbn [default_constants c_zero_temperature c_lat_heat_vaporize c_lat_heat_sublimation] in J, EB.
  fold default_constants in J, EB.
  assert (S1 := storm_sum lam L 2500000). assert (S2 := storm_sum lam L 2834000).
  fold K M dq in S1, S2. set (s1 := sum_with _ _ _ _ _ _ 2500000 _) in *. set (s2 := sum_with _ _ _ _ _ _ 2834000 _) in *.
  destruct (no_balance_lem default_constants wrf melting_column (storm L) 0 (273.16, 273.16) (melting_layer 0.05)
     [melting_layer 0.1; melting_layer 1] _ _ F1 eq_refl default_method eq_refl ltac:(cbn; lra) ltac:(cbn; lra)
     ltac:(cbn; lra) (storm_ok L 273.16 ltac:(lra)) (storm_richardson L 273.16 ltac:(lra)) EF EB) as [NB NA].
  - cbn [default_constants c_lat_heat_vaporize c_lat_heat_sublimation]. fold default_constants.
    set (le := (2834000 / 2500000 - 1) * _) in *. unfold L in S1, S2. lra.
  - destruct (Rlt_dec T 273.16) as [Lt|Ge].
    + destruct (NB T) as (b & E & P); [cbn; lra|apply Rlt_le, storm_richardson; lra|]. exists b. split; [exact E|lra].
    + destruct (NA T) as (b & E & P); [cbn; lra|apply storm_ok; lra|]. exists b. split; [exact E|lra].
Qed.

(*@ C126 With the shipped constants there is a day on which a frozen surface balances the energy although at the melting point at least 3 W/m2 are left for melt: air of 272 K and 50 %, wind of 5 m/s, absorbed sunlight of 150 W/m2 and incoming longwave radiation between 200 and 320 W/m2 over a column at the melting point. *)
Lemma frozen_or_melting_refuted_lem :
  exists L B T b, 200 < L < 320 /\ flux_constants_ok default_constants /\ layers_ok (g_nodes melting_column) /\
    forcing_ok default_constants (dry_day L) 273.16 /\ interp_subT default_constants melting_column = Ok B /\
    270 <= T < 273.16 /\ 3 <= b /\
    forall wrf, eb_optim default_constants wrf melting_column (dry_day L) 150 B T = Ok 0 /\
                eb_optim default_constants wrf melting_column (dry_day L) 150 B 273.16 = Ok b.
Proof.
  assert (F1 := default_ok).
  destruct (conductivity_ok default_constants (melting_layer 0.05) F1) as (lam & EL).
  assert (Hpos := conductivity_pos default_constants (melting_layer 0.05) lam F1 ltac:(cbn; lra) ltac:(cbn; lra) EL).
  destruct dry_bounds as [HK HM]. destruct moisture_differences as (_ & HQ & _).
  set (K := dry_K) in *. set (M := dry_M) in *. set (dq := mixing_ratio 50 (sonntag 272) 700 - melting_moisture) in *.
  assert (X : 0.0014 * 0.0027 <= M * - dq <= 0.00297 * 0.0035) by (split; apply Rmult_le_compat; lra).
  assert (X' : M * - dq = - (M * dq)) by ring. rewrite X' in X. clear X'.
  set (L := emitted 273.16 - 150 - 1004.67 * 5 * (272 - 273.16) * K - (2500000 + 2834000) / 2 * 5 * (M * dq)).
  assert (EB := fun wrf => optim_with default_constants wrf melting_column (dry_day L) 150 (273.16, 273.16) (melting_layer 0.05)
     [melting_layer 0.1; melting_layer 1] lam 273.16 F1 eq_refl default_method eq_refl EL (dry_ok L 273.16 ltac:(lra))
     (Rlt_le _ _ (dry_richardson L 273.16 ltac:(lra)))).
  assert (EF := eb_fluxes_ri default_constants false melting_column 273.16 (dry_day L) (273.16, 273.16) (melting_layer 0.05)
     [melting_layer 0.1; melting_layer 1] lam F1 (dry_ok L 273.16 ltac:(lra)) eq_refl eq_refl EL).
  assert (J := jump_value default_constants false melting_column (dry_day L) 150 (273.16, 273.16) (melting_layer 0.05)
     [melting_layer 0.1; melting_layer 1] lam _ _ F1 eq_refl default_method eq_refl EL (dry_ok L 273.16 ltac:(lra))
     (Rlt_le _ _ (dry_richardson L 273.16 ltac:(lra))) EF (EB false)).
  rewrite latent_above in J by (cbn [default_constants c_zero_temperature]; lra).
  assert (EB' : forall wrf, eb_optim default_constants wrf melting_column (dry_day L) 150 (273.16, 273.16) 273.16
     = Ok (sum_with default_constants lam (dry_day L) (273.16, 273.16) 150 1 2500000 273.16)).
  { intros wrf. rewrite EB. rewrite latent_above by (cbn [default_constants c_zero_temperature]; lra). reflexivity. }
  change (c_zero_temperature default_constants) with 273.16 in J. change (c_lat_heat_vaporize default_constants) with 2500000 in J.
  change (c_lat_heat_sublimation default_constants) with 2834000 in J.
  assert (S1 := dry_sum lam L 2500000 273.16). assert (S2 := dry_sum lam L 2834000 273.16). assert (S3 := dry_sum lam L 2834000 270).
  change (mixing_ratio 100 (sonntag 273.16) 700) with melting_moisture in S1, S2. fold K M dq in S1, S2, S3.
  assert (MM : mixing_ratio 100 (sonntag 270) 700 <= melting_moisture).
  { apply mixing_mono; [lra| |rewrite melting_pressure; lra]. split; [apply sonntag_pos|left; apply sonntag_mono; lra]. }
  assert (MQ : M * dq <= M * (mixing_ratio 50 (sonntag 272) 700 - mixing_ratio 100 (sonntag 270) 700)) by (apply Rmult_le_compat_l; unfold dq; lra).
  assert (E3 : eb_optim default_constants false melting_column (dry_day L) 150 (273.16, 273.16) 270
     = Ok (sum_with default_constants lam (dry_day L) (273.16, 273.16) 150 1 2834000 270)).
  { rewrite (optim_with default_constants false melting_column (dry_day L) 150 (273.16, 273.16) (melting_layer 0.05)
     [melting_layer 0.1; melting_layer 1] lam 270 F1 eq_refl default_method eq_refl EL (dry_ok L 270 ltac:(lra))
     (Rlt_le _ _ (dry_richardson L 270 ltac:(lra)))). rewrite latent_below by (cbn [default_constants c_zero_temperature]; lra). reflexivity. }
  set (s1 := sum_with _ _ _ _ _ _ 2500000 _) in *. set (s2 := sum_with _ _ _ _ _ _ 2834000 273.16) in *.
  set (s3 := sum_with _ _ _ _ _ _ 2834000 270) in *.
  assert (V1 : s1 = - (334000 / 2 * 5 * (M * dq))) by (rewrite S1; unfold L; lra).
  assert (V2 : s2 = 334000 / 2 * 5 * (M * dq)) by (rewrite S2; unfold L; lra).
  assert (V3 : 0 <= s3).
  { rewrite S3. set (m3 := M * (_ - _)) in MQ.
    replace (2834000 * 5 * M * (mixing_ratio 50 (sonntag 272) 700 - mixing_ratio 100 (sonntag 270) 700)) with (2834000 * 5 * m3) by (unfold m3; ring).
    clearbody m3. unfold L, emitted. assert (0 <= lam * (20 / 3) * (273.16 - 270)) by (apply Rmult_le_pos; lra). lra. }
  destruct (frozen_and_melting_lem default_constants false melting_column (dry_day L) 150 (273.16, 273.16) (melting_layer 0.05)
     [melting_layer 0.1; melting_layer 1] _ _ 270 s3 F1 eq_refl default_method eq_refl ltac:(cbn; lra) ltac:(cbn; lra)
     ltac:(cbn; lra) (dry_ok L 273.16 ltac:(lra)) (Rlt_le _ _ (dry_richardson L 270 ltac:(lra))) EF (EB' false)) as (T & HT & ET).
  - change (c_lat_heat_vaporize default_constants) with 2500000. change (c_lat_heat_sublimation default_constants) with 2834000.
    set (le := (2834000 / 2500000 - 1) * _) in *. fold s1. lra.
  - cbn. lra.
  - exact E3.
  - exact V3.
  - change (c_zero_temperature default_constants) with 273.16 in HT.
    exists L, (273.16, 273.16), T, s1. split; [unfold L, emitted; lra|]. split; [exact F1|]. split.
    { constructor; [cbn; lra|]; constructor; [cbn; lra|]; constructor; [cbn; lra|constructor]. }
    split; [apply dry_ok; lra|]. split; [exact melting_interp|]. split; [lra|]. split; [lra|].
    intros wrf. split; [|apply EB'].
    rewrite <- ET. rewrite !(optim_with default_constants _ melting_column (dry_day L) 150 (273.16, 273.16) (melting_layer 0.05)
     [melting_layer 0.1; melting_layer 1] lam T F1 eq_refl default_method eq_refl EL (dry_ok L T ltac:(lra))
     (Rlt_le _ _ (dry_richardson L T ltac:(lra)))). reflexivity.
Qed.
