(** * Modelled radiation between zero and the top of the atmosphere *)
From Verif Require Import ModelPy ModelConstants ModelNode ModelGrid ModelHeat ModelSurface ModelInit
  ModelCore ModelConfig ModelIO ModelMain ModelRadCor Spec SpecIO SpecRadCor LemPy LemGridBase LemDict
  LemIO LemIO5 LemSim LemHeat LemSurface LemRadCor LemShad LemShad2 LemShad3 LemShad4 LemShad5 LemShad6
  LemFinShade LemFinRad.

(** ** Powers *)

Lemma root_29 : Rpower 29 0.01 <= 30 / 29.
Proof.
  destruct (Rle_or_lt (Rpower 29 0.01) (30 / 29)) as [L|L]; [exact L|exfalso].
  assert (P: (30 / 29) ^ 100 <= Rpower 29 0.01 ^ 100) by (apply pow_incr; lra).
  rewrite <- (Rpower_pow 100 (Rpower 29 0.01)) in P by (unfold Rpower; apply exp_pos).
  rewrite Rpower_mult in P. replace (0.01 * INR 100) with 1 in P by (rewrite INR_IZR_INZ; cbn [Z.of_nat Pos.of_succ_nat Pos.succ]; lra).
  rewrite Rpower_1 in P by lra. lra.
Qed.

Lemma power_step x a : 0 < x -> Rpower x (1 + a) = x * Rpower x a.
Proof. intros H. rewrite Rpower_plus, Rpower_1 by assumption. reflexivity. Qed.

Lemma power_101 x : 0 < x -> x <= 29 -> Rpower x 1.01 <= 1 + x.
Proof.
  intros H L. replace 1.01 with (1 + 0.01) by lra. rewrite power_step by exact H.
  assert (A: Rpower x 0.01 <= Rpower 29 0.01) by (apply Rle_Rpower_l; lra).
  pose proof root_29. assert (x * Rpower x 0.01 <= x * (30 / 29)) by (apply Rmult_le_compat_l; lra). lra.
Qed.

Lemma power_106 x : 0 < x -> x <= 29 -> Rpower x 1.06 <= x + 9.
Proof.
  intros H L. replace 1.06 with (1 + 0.06) by lra. rewrite power_step by exact H.
  assert (A: Rpower x 0.06 <= Rpower 29 0.06) by (apply Rle_Rpower_l; lra).
  assert (B: Rpower 29 0.06 <= (30 / 29) ^ 6).
  { replace 0.06 with (0.01 * INR 6) by (rewrite INR_IZR_INZ; cbn [Z.of_nat Pos.of_succ_nat Pos.succ]; lra).
    rewrite <- Rpower_mult, Rpower_pow by (unfold Rpower; apply exp_pos). apply pow_incr. split; [left; unfold Rpower; apply exp_pos|apply root_29]. }
  assert (C: (30 / 29) ^ 6 <= 1 + 9 / 29) by lra.
  assert (x * Rpower x 0.06 <= x * (1 + 9 / 29)) by (apply Rmult_le_compat_l; lra). lra.
Qed.

(** [1 - x + x ** a] for exponents between one and two *)
Lemma power_dip x a : 0 < x -> 1 <= a <= 2 -> 3 / 4 <= 1 - x + Rpower x a.
Proof.
  intros H A. destruct (Rle_or_lt 1 x) as [L|L].
  - assert (Rpower x 1 <= Rpower x a) by (apply Rle_Rpower; lra). rewrite Rpower_1 in H0 by exact H. lra.
  - assert (B: Rpower x 2 <= Rpower x a).
    { unfold Rpower. assert (ln x < 0) by (rewrite <- ln_1; apply ln_increasing; lra).
      destruct (Req_dec a 2) as [->|N]; [lra|]. left. apply exp_increasing.
      assert (0 < (2 - a) * - ln x) by (apply Rmult_lt_0_compat; lra). lra. }
    replace 2 with (INR 2) in B by (cbn; lra). rewrite Rpower_pow in B by exact H.
    pose proof (pow2_ge_0 (x - 1 / 2)). set (y := Rpower x a) in *. lra.
Qed.

Lemma np_power_ok x a : 0 <= x -> exists v, np_power x a = Ok v /\ 0 <= v /\ (0 < x -> v = Rpower x a) /\ (x = 0 -> v = 0).
Proof.
  intros H. unfold np_power. destruct (Rlt_dec 0 x) as [P|P].
  - eexists. split; [reflexivity|]. split; [left; unfold Rpower; apply exp_pos|]. split; intros; [reflexivity|lra].
  - destruct (Req_EM_T x 0) as [Z|Z]; [|lra]. exists 0. split; [reflexivity|]. split; [lra|]. split; intros; [lra|reflexivity].
Qed.

Lemma exp_neg x : x <= 0 -> 0 < exp x <= 1.
Proof.
  intros H. split; [apply exp_pos|]. rewrite <- exp_0. destruct (Req_dec x 0) as [->|N]; [lra|]. left. apply exp_increasing. lra.
Qed.

Lemma air_mass up q : 0.01 < up -> 0 <= q -> q <= 835 \/ q <= 1020 /\ 0.02 <= up ->
  0 < 35 * / sqrt (1224 * up ^ 2 + 1) /\ 0 <= q / 1013.25 * (35 * / sqrt (1224 * up ^ 2 + 1)) <= 29.
Proof.
  intros U Q C. set (s := sqrt (1224 * up ^ 2 + 1)).
  assert (S1: 1 <= s) by (unfold s; rewrite <- sqrt_1 at 1; apply sqrt_le_1; nra).
  assert (I: 0 < / s) by (apply Rinv_0_lt_compat; lra).
  assert (E: s * / s = 1) by (apply Rinv_r; lra).
  split; [lra|]. split; [apply Rmult_le_pos; lra|].
  apply (Rmult_le_reg_r s); [lra|]. replace (q / 1013.25 * (35 * / s) * s) with (q / 1013.25 * 35 * (s * / s)) by ring.
  rewrite E. destruct C as [C|[C D]]; [lra|].
  assert (S2: 1.22 <= s).
  { unfold s. replace 1.22 with (sqrt (1.22 * 1.22)) by (apply sqrt_square; lra). apply sqrt_le_1; nra. }
  lra.
Qed.

(** ** Clear sky *)

(*@ C134 Without clouds, direct and diffuse radiation on a horizontal surface exist, are not negative and
   together not more than the radiation on a horizontal surface at the top of the atmosphere: for air above zero
   kelvin with a vapour pressure that is not negative, at any elevation above -35 km, if the pressure is at most
   835 hPa, or at most 1020 hPa and the sun stands higher than 1.15 degrees.  The transmissivity of the beam is
   between 0 and 1. *)
Lemma clear_sky_within_top_of_atmosphere_lem :
  forall ecc up q t z vp,
    0 < ecc -> 0.01 < up -> 0 < t -> 0 <= vp -> -35000 <= z ->
    0 <= q -> q <= 835 \/ q <= 1020 /\ 0.02 <= up ->
    exists tau direct diffuse,
      clear_sky ecc up (35 * / sqrt (1224 * up ^ 2 + 1)) q t z vp = Ok (tau, direct, diffuse) /\
      0 <= tau <= 1 /\ 0 <= direct /\ 0 <= diffuse /\ direct + diffuse <= 1367 * ecc * up.
Proof.
  intros ecc up q t z vp He Hu Ht Hv Hz Hq Hc. destruct (air_mass up q Hu Hq Hc) as (Mp & Pm).
  set (mo := 35 * / sqrt (1224 * up ^ 2 + 1)) in *. unfold clear_sky. cbv zeta. set (pm := q / 1013.25 * mo) in *.
  destruct (np_power_ok pm 0.84 (proj1 Pm)) as (a84 & -> & N84 & _). cbn [bind].
  destruct (np_power_ok pm 1.01 (proj1 Pm)) as (a101 & -> & N101 & P101 & Z101). cbn [bind].
  assert (Mo: 0 <= mo) by lra.
  destruct (np_power_ok mo 0.26 Mo) as (m26 & -> & N26 & _). cbn [bind].
  set (k := if Rltb 1 (0.000024845 * z + 0.87764) then 1 else 0.000024845 * z + 0.87764).
  assert (K: 0 < k <= 1) by (unfold k; destruct (Rltb_spec 1 (0.000024845 * z + 0.87764)); lra).
  assert (K0: 0 <= k) by lra.
  destruct (np_power_ok k mo K0) as (ta & -> & Nta & Pta & _). cbn [bind].
  specialize (Pta (proj1 K)).
  destruct (np_power_ok pm 1.06 (proj1 Pm)) as (a106 & -> & N106 & P106 & Z106). cbn [bind].
  unfold adiv at 1. destruct (Req_EM_T t 0) as [X|_]; [lra|]. cbn [bind].
  set (w := 46.5 * vp / t).
  assert (W: 0 <= w) by (unfold w; apply Rmult_le_pos; [lra|]; left; apply Rinv_0_lt_compat, Ht).
  assert (MW: 0 <= mo * w) by (apply Rmult_le_pos; lra).
  assert (A1: 0 <= 1 + 79.034 * mo * w) by lra.
  destruct (np_power_ok _ 0.6828 A1) as (w68 & -> & Nw & Pw & _). cbn [bind].
  assert (Dw: 0 < w68 + 6.385 * mo * w) by (rewrite Pw by lra; pose proof (exp_pos (0.6828 * ln (1 + 79.034 * mo * w))); unfold Rpower; lra).
  unfold adiv at 1. destruct (Req_EM_T (w68 + 6.385 * mo * w) 0) as [X|_]; [lra|]. cbn [bind].
  set (tw := 1 - 2.4959 * mo * w / (w68 + 6.385 * mo * w)).
  assert (TW: 0 <= tw <= 1).
  { unfold tw. set (d := w68 + 6.385 * mo * w) in *.
    assert (0 <= 2.4959 * mo * w / d) by (apply Rmult_le_pos; [lra|]; left; apply Rinv_0_lt_compat; lra).
    assert (2.4959 * mo * w / d <= 1) by (apply (Rmult_le_reg_r d); [exact Dw|]; unfold Rdiv; rewrite Rmult_assoc, Rinv_l by lra; unfold d in *; lra). lra. }
  (* the factors *)
  assert (TR: 0 < exp (-0.0903 * a84 * (1 + pm - a101)) <= 1).
  { apply exp_neg. assert (0 <= 1 + pm - a101).
    { destruct (Req_dec pm 0) as [Z|Z]; [rewrite (Z101 Z); lra|]. rewrite P101 by lra. pose proof (power_101 pm). lra. }
    assert (0 <= a84 * (1 + pm - a101)) by (apply Rmult_le_pos; assumption). lra. }
  set (tr := exp (-0.0903 * a84 * (1 + pm - a101))) in *.
  assert (TG: 0 < exp (-0.0127 * m26) <= 1) by (apply exp_neg; lra).
  set (tg := exp (-0.0127 * m26)) in *.
  assert (TA: 0 < ta <= 1).
  { rewrite Pta. unfold Rpower. apply exp_neg. assert (ln k <= 0).
    { destruct (Req_dec k 1) as [->|N]; [rewrite ln_1; lra|]. rewrite <- ln_1. left. apply ln_increasing; lra. }
    nra. }
  assert (AA: 0 <= 1 - pm + a106 <= 10).
  { destruct (Req_dec pm 0) as [Z|Z]; [rewrite (Z106 Z); lra|]. rewrite P106 by lra.
    pose proof (power_106 pm). pose proof (power_dip pm 1.06). lra. }
  set (b := 1 - pm + a106) in *.
  replace ((1 - 0.9) * b * (1 - ta)) with (0.1 * b * (1 - ta)) by (replace (1 - 0.9) with 0.1 by lra; ring).
  set (taa := 1 - 0.1 * b * (1 - ta)).
  assert (TAA: ta <= taa <= 1).
  { assert (0 <= b * (1 - ta)) by (apply Rmult_le_pos; lra). assert (b * (1 - ta) <= 10 * (1 - ta)) by (apply Rmult_le_compat_r; lra).
    unfold taa. lra. }
  unfold adiv at 1. destruct (Req_EM_T taa 0) as [X|_]; [lra|]. cbn [bind].
  destruct (np_power_ok pm 1.02 (proj1 Pm)) as (a102 & -> & N102 & P102 & Z102). cbn [bind].
  assert (D: 3 / 4 <= 1 - pm + a102).
  { destruct (Req_dec pm 0) as [Z|Z]; [rewrite (Z102 Z); lra|]. rewrite P102 by lra. apply power_dip; lra. }
  set (d := 1 - pm + a102) in *.
  unfold adiv. destruct (Req_EM_T d 0) as [X|_]; [lra|]. cbn [bind].
  assert (RA: 0 <= tr * ta <= ta) by nra.
  assert (GW: 0 <= tg * tw <= 1) by nra.
  assert (TAU: 0 <= tr * tg * ta * tw <= 1).
  { replace (tr * tg * ta * tw) with ((tr * ta) * (tg * tw)) by ring. nra. }
  assert (TOA: 0 < 1367 * ecc * up) by (apply Rmult_lt_0_compat; lra).
  set (toa := 1367 * ecc * up) in *.
  replace (0.66 * 1367 * ecc * up * tg * tw * taa * (1 - tr * ta / taa) / d)
    with (toa * ((tg * tw) * (0.66 * (taa - tr * ta) / d))) by (unfold toa; field; lra).
  do 3 eexists. split; [reflexivity|]. split; [exact TAU|].
  set (sc := 0.66 * (taa - tr * ta) / d).
  assert (SC: 0 <= sc <= taa - tr * ta).
  { unfold sc. split.
    - apply Rmult_le_pos; [lra|]. left. apply Rinv_0_lt_compat. lra.
    - apply (Rmult_le_reg_r d); [lra|]. replace (0.66 * (taa - tr * ta) / d * d) with ((taa - tr * ta) * 0.66) by (field; lra). apply Rmult_le_compat_l; lra. }
  split; [apply Rmult_le_pos; lra|]. split; [apply Rmult_le_pos; [lra|]; apply Rmult_le_pos; lra|].
  replace (toa * (tr * tg * ta * tw) + toa * (tg * tw * sc)) with (toa * ((tg * tw) * (tr * ta + sc))) by ring.
  rewrite <- (Rmult_1_r toa) at 2. apply Rmult_le_compat_l; [lra|].
  rewrite <- (Rmult_1_r 1). apply Rmult_le_compat; lra.
Qed.

(*@ C134 Beyond these limits the formula fails: just above the horizon and at the pressure of sea level the
   Rayleigh transmissivity exceeds one, and where the aerosol factor reaches its limit of one the modelled beam
   is stronger than the radiation at the top of the atmosphere. *)
Lemma beam_exceeds_top_of_atmosphere_refuted_lem :
  exists up q t z vp tau direct diffuse,
    0.01 < up < 0.0101 /\ 1010 < q < 1013.25 /\ 0 < t /\ 0 <= vp /\ -35000 <= z /\
    clear_sky 1 up (35 * / sqrt (1224 * up ^ 2 + 1)) q t z vp = Ok (tau, direct, diffuse) /\
    1 < tau /\ 1367 * 1 * up < direct.
Proof.
  set (up := sqrt (0.1236 / 1224)).
  assert (U2: up ^ 2 = 0.1236 / 1224) by (unfold up; apply pow2_sqrt; lra).
  assert (U: 0.01 < up < 0.0101).
  { assert (0 <= up) by apply sqrt_pos. split; apply Rnot_le_lt; intros L.
    - assert (up ^ 2 <= 0.01 ^ 2) by (apply pow_incr; lra). lra.
    - assert (0.0101 ^ 2 <= up ^ 2) by (apply pow_incr; lra). lra. }
  assert (Sq: sqrt (1224 * up ^ 2 + 1) = 1.06).
  { rewrite U2. replace (1224 * (0.1236 / 1224) + 1) with (1.06 * 1.06) by lra. apply sqrt_square. lra. }
  set (q := 1013.25 * (33 * 1.06 / 35)).
  exists up, q, 273, 5000, 0. rewrite Sq. set (mo := 35 * / 1.06).
  assert (Mo: 33 < mo < 33.02) by (unfold mo; lra).
  assert (PM: q / 1013.25 * mo = 33) by (unfold q, mo; lra).
  unfold clear_sky. cbv zeta. rewrite PM. clear PM.
  assert (N: forall x a, 0 < x -> np_power x a = Ok (Rpower x a)) by (intros x a L; unfold np_power; destruct (Rlt_dec 0 x); [reflexivity|lra]).
  rewrite !N by lra. cbn [bind].
  destruct (Rltb_spec 1 (0.000024845 * 5000 + 0.87764)) as [_|X]; [|lra].
  rewrite N by lra. cbn [bind].
  assert (O: forall a, Rpower 1 a = 1) by (intros a; unfold Rpower; rewrite ln_1, Rmult_0_r; apply exp_0).
  rewrite O. unfold adiv at 1. destruct (Req_EM_T 273 0) as [X|_]; [lra|]. cbn [bind].
  rewrite (N 33 1.06) by lra. cbn [bind].
  replace (46.5 * 0 / 273) with 0 by lra. rewrite (N (1 + 79.034 * mo * 0) 0.6828) by lra. cbn [bind].
  replace (Rpower (1 + 79.034 * mo * 0) 0.6828) with 1 by (rewrite Rmult_0_r, Rplus_0_r, O; reflexivity).
  rewrite !Rmult_0_r.
  unfold adiv at 1. destruct (Req_EM_T (1 + 0) 0) as [X|_]; [lra|]. cbn [bind].
  set (tr := exp (-0.0903 * Rpower 33 0.84 * (1 + 33 - Rpower 33 1.01))).
  set (tg := exp (-0.0127 * Rpower mo 0.26)).
  unfold adiv at 1. match goal with |- context [Req_EM_T ?a 0] => destruct (Req_EM_T a 0) as [X|_]; [lra|] end. cbn [bind].
  rewrite N by lra. cbn [bind].
  unfold adiv. destruct (Req_EM_T (1 - 33 + Rpower 33 1.02) 0) as [X|_].
  { exfalso. pose proof (power_dip 33 1.02). lra. }
  cbn [bind]. do 3 eexists. split; [exact U|]. split; [unfold q; lra|]. do 3 (split; [lra|]). split; [reflexivity|].
  assert (T: 1 < tr * tg).
  { unfold tr, tg. rewrite <- exp_plus. rewrite <- exp_0 at 1. apply exp_increasing.
    (* 33 ** 1.01 is more than 34.1 *)
    assert (A: 1.0334 <= Rpower 33 0.01).
    { destruct (Rle_or_lt 1.0334 (Rpower 33 0.01)) as [L|L]; [exact L|exfalso].
      assert (P: Rpower 33 0.01 ^ 100 <= 1.0334 ^ 100) by (apply pow_incr; split; [left; unfold Rpower; apply exp_pos|lra]).
      rewrite <- (Rpower_pow 100 (Rpower 33 0.01)) in P by (unfold Rpower; apply exp_pos).
      rewrite Rpower_mult in P. replace (0.01 * INR 100) with 1 in P by (rewrite INR_IZR_INZ; cbn [Z.of_nat Pos.of_succ_nat Pos.succ]; lra).
      rewrite Rpower_1 in P by lra. lra. }
    assert (B: 34.1 <= Rpower 33 1.01) by (replace 1.01 with (1 + 0.01) by lra; rewrite power_step by lra; lra).
    (* 33 ** 0.84 is more than 5 *)
    assert (C: 5 <= Rpower 33 0.84).
    { apply Rle_trans with (Rpower 33 (/ 2)); [|apply Rle_Rpower; lra]. rewrite Rpower_sqrt by lra.
      replace 5 with (sqrt (5 * 5)) by (apply sqrt_square; lra). apply sqrt_le_1; lra. }
    assert (D: Rpower mo 0.26 <= 3).
    { apply Rnot_lt_le. intros L. assert (P: 3 ^ 100 <= Rpower mo 0.26 ^ 100) by (apply pow_incr; lra).
      rewrite <- (Rpower_pow 100 (Rpower mo 0.26)) in P by (unfold Rpower; apply exp_pos). rewrite Rpower_mult in P.
      replace (0.26 * INR 100) with (INR 26) in P by (rewrite !INR_IZR_INZ; cbn [Z.of_nat Pos.of_succ_nat Pos.succ]; lra).
      rewrite Rpower_pow in P by lra. assert (mo ^ 26 <= 34 ^ 26) by (apply pow_incr; lra). lra. }
    assert (5 * 0.1 <= Rpower 33 0.84 * (Rpower 33 1.01 - 34)) by (apply Rmult_le_compat; lra).
    set (e := Rpower 33 0.84) in *. set (f := Rpower 33 1.01) in *. lra. }
  replace (tr * tg * 1 * (1 - 0 / (1 + 0))) with (tr * tg) by (field; lra).
  split; [exact T|]. rewrite <- (Rmult_1_r (1367 * 1 * up)) at 1. apply Rmult_lt_compat_l; lra.
Qed.

(** ** All sky *)

Lemma dot_flat lat dec st aspect : dot (sun lat dec st) (normal (radians 0) aspect) = sin lat * sin dec + cos lat * cos dec * cos st.
Proof.
  unfold dot, sun, normal, radians. replace (0 * PI / 180) with 0 by (field; apply PI_neq0). rewrite sin_0, cos_0. cbn. ring.
Qed.

(*@ C134 The radiation of a cell by day is not negative and not more than the solar constant times eccentricity
   factor and one plus the sine of the elevation of the sun; on a flat cell it exceeds the radiation at the top of
   the atmosphere by at most 4.6 percent, and not at all under a clear sky.  Cloud fraction and sky view factor
   are between 0 and 1. *)
Lemma day_radiation_bounded_lem :
  forall vapour pars times doy hour lat T p rh cld dem mask slopes aspects table svf STEP TCART out
    ecc dec tcorr y x z t q u vp c v,
    calcRad vapour pars times doy hour lat T p rh cld dem mask slopes aspects table svf STEP TCART = Ok out ->
    raster_get pars (doy - 1) 2 = Ok ecc ->
    raster_get pars (doy - 1) 3 = Ok dec -> raster_get times (doy - 1) 3 = Ok tcorr ->
    let stime := 180 + STEP / 3600 * 15 / 2 - hour * 15 - tcorr + TCART in
    let up := sin (radians lat) * sin dec + cos (radians lat) * cos dec * cos (radians stime) in
    0.01 < up -> 0 < ecc ->
    cell_at dem y x = Some z -> -35000 <= z ->
    cell_at T y x = Some (Some t) -> 0 < t -> cell_at rh y x = Some (Some u) ->
    cell_at p y x = Some (Some q) -> 0 <= q -> q <= 835 \/ q <= 1020 /\ 0.02 <= up ->
    cell_at cld y x = Some (Some c) -> 0 <= c <= 1 -> cell_at svf y x = Some (Some v) -> 0 <= v <= 1 ->
    vapour u t q = Some vp -> 0 <= vp ->
    exists r, cell_at out (Z.of_nat (length dem) - 1 - y) x = Some (Some r) /\
      0 <= r <= 1367 * ecc * (1 + up) /\
      (cell_at slopes y x = Some 0 -> r <= 1.046 * (1367 * ecc * up) /\ (c = 0 -> r <= 1367 * ecc * up)).
Proof.
  intros vapour pars times doy hour lat T p rh cld dem mask slopes aspects table svf STEP TCART out
    ecc dec tcorr y x z t q u vp c v H Ee Ed Et stime up Hup He Ez Hz ET Ht Eu Ep Hq Hl Ec Hc Ev Hv Evp Hvp.
  destruct (clear_sky_within_top_of_atmosphere_lem ecc up q t z vp He Hup Ht Hvp Hz Hq Hl) as (tau & direct & diffuse & Ecs & Htau & Hdir & Hdif & Hsum).
  destruct (clear_sky_transmissivity_lem _ _ _ _ _ _ _ _ _ Ht Hvp Hup Ecs) as [_ Edir].
  destruct (day_radiation_lem _ _ _ _ _ _ _ _ _ _ _ _ _ _ _ _ _ _ _ _ _ _ _ _ _ _ _ _ _ _ _ _ _ _
              H Ee Ed Et Hup Ez ET Ep Eu Ec Ev (proj1 Hc) Evp Ecs)
    as (slot & i & slope & aspect & _ & _ & Es & _ & Hcos & beam & sky & Eo & B0 & B1 & S0 & S1).
  fold stime in Hcos, B0, B1.
  exists (beam * (1 - c) + sky * v). split; [exact Eo|].
  set (cosine := dot (sun (radians lat) dec (radians stime)) (normal (radians slope) (radians aspect))) in *.
  set (toa := 1367 * ecc * up) in *.
  assert (Htoa: 0 < toa) by (unfold toa; apply Rmult_lt_0_compat; lra).
  assert (BM: 0 <= beam <= 1367 * ecc /\ (slope = 0 -> beam <= direct)).
  { assert (Z: beam = 0 -> 0 <= beam <= 1367 * ecc /\ (slope = 0 -> beam <= direct)) by (intros ->; split; [split; lra|intros; exact Hdir]).
    destruct i as [w|].
    - destruct (Req_dec w 0) as [->|N]; [apply Z, B0; left; reflexivity|].
      destruct (Rlt_or_le cosine 0) as [L|L]; [apply Z, B0; right; exact L|].
      assert (N': Some w <> Some 0) by congruence. rewrite (B1 N' L). clear Z.
      assert (CT: 0 <= cosine * tau <= 1) by (split; [apply Rmult_le_pos; lra|rewrite <- (Rmult_1_r 1); apply Rmult_le_compat; lra]).
      rewrite (Rmult_assoc (1367 * ecc)). split; [split; [apply Rmult_le_pos; lra|rewrite <- (Rmult_1_r (1367 * ecc)) at 2; apply Rmult_le_compat_l; lra]|].
      intros E. right. rewrite Edir. unfold cosine. rewrite E, dot_flat. fold up. unfold toa. ring.
    - destruct (Rlt_or_le cosine 0) as [L|L]; [apply Z, B0; right; exact L|].
      assert (N': (None : number) <> Some 0) by discriminate. rewrite (B1 N' L). clear Z.
      assert (CT: 0 <= cosine * tau <= 1) by (split; [apply Rmult_le_pos; lra|rewrite <- (Rmult_1_r 1); apply Rmult_le_compat; lra]).
      rewrite (Rmult_assoc (1367 * ecc)). split; [split; [apply Rmult_le_pos; lra|rewrite <- (Rmult_1_r (1367 * ecc)) at 2; apply Rmult_le_compat_l; lra]|].
      intros E. right. rewrite Edir. unfold cosine. rewrite E, dot_flat. fold up. unfold toa. ring. }
  destruct BM as [BM BF].
  assert (SK: 0 <= sky /\ (c = 0 -> sky <= toa - direct) /\ (0 < c -> sky <= toa * (0.304 * c + 0.046))).
  { destruct (Req_dec c 0) as [E|E].
    - rewrite (S0 E). split; [lra|]. split; intros; lra.
    - assert (P: 0 < c) by lra. rewrite (S1 P). split; [apply Rmult_le_pos; lra|]. split; intros; [lra|].
      apply Rmult_le_compat_r; lra. }
  destruct SK as (SK0 & SK1 & SK2).
  assert (SV: 0 <= sky * v <= sky) by (split; [apply Rmult_le_pos; lra|rewrite <- (Rmult_1_r sky) at 2; apply Rmult_le_compat_l; lra]).
  assert (BC: 0 <= beam * (1 - c) <= beam) by (split; [apply Rmult_le_pos; lra|rewrite <- (Rmult_1_r beam) at 2; apply Rmult_le_compat_l; lra]).
  assert (ST: sky <= toa).
  { destruct (Req_dec c 0) as [E|E]; [specialize (SK1 E); lra|]. assert (P: 0 < c) by lra. specialize (SK2 P).
    assert (toa * (0.304 * c + 0.046) <= toa * 1) by (apply Rmult_le_compat_l; lra). lra. }
  split; [unfold toa in *; split; lra|].
  intros Ef. rewrite Ef in Es. injection Es as <-. specialize (BF eq_refl).
  destruct (Req_dec c 0) as [E|E].
  - specialize (SK1 E). split; [|intros _]; lra.
  - assert (P: 0 < c) by lra. specialize (SK2 P). split; [|contradiction].
    assert (B2: beam * (1 - c) <= toa * (1 - c)) by (apply Rmult_le_compat_r; lra).
    assert (0 <= toa * c) by (apply Rmult_le_pos; lra). lra.
Qed.

(** ** The parameters of a day *)

Lemma nth_zseq n lo k : (k < n)%nat -> nth_error (zseq lo n) k = Some (lo + Z.of_nat k)%Z.
Proof.
  revert lo k; induction n as [|n IH]; intros lo k H; [lia|]. destruct k as [|k]; cbn [zseq nth_error].
  - f_equal. lia.
  - rewrite IH by lia. f_equal. lia.
Qed.

(*@ C75 Day angle, eccentricity factor and declination of a day are those of the Fourier series in the day
   angle, the hour angle of sunset and the day length belong to that declination, and the time correction is the
   equation of time in degrees, at most 4.4 degrees; day 366 is treated as day 365. *)
Lemma solar_parameters_of_day_lem :
  forall lat pars times day,
    Rabs lat < 90 -> solpars lat = Ok (pars, times) -> (1 <= day <= 366)%Z ->
    let d := IZR (Z.min day 365) in
    let tau := 2 * PI * (d - 1) / 365 in
    let ecc := 1.00011 + 0.034221 * cos tau + 0.00128 * sin tau + 0.000719 * cos (2 * tau) + 0.000077 * sin (2 * tau) in
    let dec := 0.006918 - 0.399912 * cos tau + 0.070257 * sin tau - 0.006758 * cos (2 * tau)
               + 0.000907 * sin (2 * tau) - 0.002697 * cos (3 * tau) + 0.00148 * sin (3 * tau) in
    let anomaly := radians (0.9856 * d - 2.72) in
    let minutes := - (7.66 * sin anomaly + 9.87 * sin (2 * anomaly + radians 24.99 + radians 3.83 * sin anomaly)) in
    raster_get pars (day - 1) 0 = Ok tau /\ raster_get pars (day - 1) 2 = Ok ecc /\
    raster_get pars (day - 1) 3 = Ok dec /\
    (exists h, raster_get pars (day - 1) 5 = Ok h /\ raster_get pars (day - 1) 6 = Ok (h * 2 / 15) /\
       0 <= h <= 180 /\ cos (radians h) = - tan (radians lat) * tan dec) /\
    raster_get times (day - 1) 0 = Ok d /\ raster_get times (day - 1) 2 = Ok minutes /\
    raster_get times (day - 1) 3 = Ok (minutes / 4) /\ -4.4 <= minutes / 4 <= 4.4.
Proof.
  intros lat pars times day _ H Hd d tau ecc dec anomaly minutes.
  unfold solpars in H. apply bind_ok in H as (rows & ER & H). cbv zeta in H.
  remember (map timecorr_row (zrange 0 365)) as tms eqn:Etm.
  apply bind_ok in H as (last & EL & H). apply bind_ok in H as (tlast & ET & H). injection H as <- <-.
  assert (LR: length rows = 365%nat) by (rewrite (map_res_length _ _ _ ER); reflexivity).
  assert (LT: length tms = 365%nat) by (rewrite Etm, map_length; reflexivity).
  rewrite py_get_nonneg in EL, ET by lia.
  set (j := (Z.min day 365 - 1)%Z). assert (Hj: (0 <= j < 365)%Z) by lia.
  assert (NZ: nth_error (zrange 0 365) (Z.to_nat j) = Some j).
  { unfold zrange. rewrite nth_zseq by lia. f_equal. lia. }
  assert (R1: exists row, nth_error (rows ++ [last]) (Z.to_nat (day - 1)) = Some row /\ solparam_row lat j = Ok row).
  { assert (Q: nth_error (rows ++ [last]) (Z.to_nat (day - 1)) = nth_error rows (Z.to_nat j)).
    { destruct (Z.eq_dec day 366) as [->|N].
      - rewrite nth_error_app2 by lia. rewrite LR. unfold j. change (Z.to_nat (366 - 1) - 365)%nat with 0%nat. cbn [nth_error].
        change (Z.to_nat (Z.min 366 365 - 1)) with (Z.to_nat 364). destruct (nth_error rows (Z.to_nat 364)) as [r|]; [|discriminate]. injection EL as ->. reflexivity.
      - rewrite nth_error_app1 by lia. f_equal. lia. }
    rewrite Q. destruct (nth_error rows (Z.to_nat j)) as [row|] eqn:E1; [|apply nth_error_None in E1; lia].
    destruct (map_res_nth _ _ _ _ _ ER E1) as (a & E2 & E3). exists row. split; [reflexivity|]. congruence. }
  assert (R2: nth_error (tms ++ [tlast]) (Z.to_nat (day - 1)) = Some (timecorr_row j)).
  { assert (Q: nth_error (tms ++ [tlast]) (Z.to_nat (day - 1)) = nth_error tms (Z.to_nat j)).
    { destruct (Z.eq_dec day 366) as [->|N].
      - rewrite nth_error_app2 by lia. rewrite LT. unfold j. change (Z.to_nat (366 - 1) - 365)%nat with 0%nat. cbn [nth_error].
        change (Z.to_nat (Z.min 366 365 - 1)) with (Z.to_nat 364). destruct (nth_error tms (Z.to_nat 364)) as [r|]; [|discriminate]. injection ET as ->. reflexivity.
      - rewrite nth_error_app1 by lia. f_equal. lia. }
    rewrite Q, Etm, nth_error_map, NZ. reflexivity. }
  destruct R1 as (row & E1 & E2).
  assert (Ej: IZR j = d - 1) by (unfold j, d; rewrite minus_IZR; reflexivity).
  unfold raster_get. rewrite !py_get_nonneg by lia. rewrite E1, R2. cbn [bind]. clear E1 R2.
  unfold solparam_row in E2. cbv zeta in E2. rewrite Ej in E2. change (2 * PI * (d - 1) / 365) with tau in E2.
  change (0.006918 - 0.399912 * cos tau + 0.070257 * sin tau - 0.006758 * cos (2 * tau)
               + 0.000907 * sin (2 * tau) - 0.002697 * cos (3 * tau) + 0.00148 * sin (3 * tau)) with dec in E2.
  apply bind_ok in E2 as (h & Eh & E2). injection E2 as <-. unfold timecorr_row. cbv zeta. rewrite Ej.
  replace (d - 1 + 1) with d by ring. change (radians (0.9856 * d - 2.72)) with anomaly.
  split; [reflexivity|]. split; [reflexivity|]. split; [reflexivity|]. split.
  { exists (h * 180 / PI). pose proof PI_RGT_0 as PP. split; [reflexivity|]. split; [transitivity (Ok (2 / 15 * (h * 180 / PI))); [reflexivity|f_equal; field; lra]|].
    unfold py_acos in Eh. destruct (Rle_dec (Rabs (- tan (lat * PI / 180) * tan dec)) 1) as [L|L]; [|discriminate]. injection Eh as <-.
    change (lat * PI / 180) with (radians lat) in *. split.
    - pose proof (acos_bound (- tan (radians lat) * tan dec)) as [A1 A2]. set (w := acos _) in *.
      assert (E: w * 180 / PI * PI = w * 180) by (field; lra). split; apply (Rmult_le_reg_r PI); try lra.
    - unfold radians at 1. replace (acos (- tan (radians lat) * tan dec) * 180 / PI * PI / 180) with (acos (- tan (radians lat) * tan dec)) by (field; lra).
      apply cos_acos. apply abs_inv in L. exact L. }
  set (s1 := sin anomaly) in *. set (s2 := sin (2 * anomaly + radians 24.99 + radians 3.83 * s1)) in *.
  assert (M: -7.66 * s1 - 9.87 * s2 = minutes) by (unfold minutes; lra).
  rewrite M. split; [reflexivity|]. split; [reflexivity|]. split; [transitivity (Ok (minutes * 15 / 60)); [reflexivity|f_equal; lra]|].
  assert (-1 <= s1 <= 1) by apply SIN_bound. assert (-1 <= s2 <= 1) by apply SIN_bound. rewrite <- M. lra.
Qed.

Lemma map_res_err {A B} (f : A -> res B) e l : (forall a, In a l -> (exists b, f a = Ok b) \/ f a = Err e) ->
  (exists r, map_res f l = Ok r) \/ map_res f l = Err e.
Proof.
  induction l as [|a l IH]; intros H; cbn [map_res]; [eauto|].
  destruct (H a (or_introl eq_refl)) as [(b & ->)| ->]; cbn [bind]; [|auto].
  destruct IH as [(r & ->)| ->]; cbn [bind]; [intros x I; apply H; right; exact I|eauto|auto].
Qed.

(*@ C75 The parameters exist exactly if the sun rises and sets on every day, that is if the product of the
   tangents of latitude and declination is between -1 and 1 for all 365 days; otherwise solpars raises
   ValueError. *)
Lemma solar_parameters_exist_iff_lem :
  forall lat, Rabs lat < 90 ->
    let dec := fun day => let tau := 2 * PI * (IZR day - 1) / 365 in
      0.006918 - 0.399912 * cos tau + 0.070257 * sin tau - 0.006758 * cos (2 * tau)
      + 0.000907 * sin (2 * tau) - 0.002697 * cos (3 * tau) + 0.00148 * sin (3 * tau) in
    ((exists pars times, solpars lat = Ok (pars, times)) <->
     forall day, (1 <= day <= 365)%Z -> -1 <= tan (radians lat) * tan (dec day) <= 1) /\
    ((exists pars times, solpars lat = Ok (pars, times)) \/ solpars lat = Err ValueError).
Proof.
  intros lat _ dec.
  assert (ROW: forall j, (exists row, solparam_row lat j = Ok row) /\ Rabs (- tan (radians lat) * tan (dec (j + 1)%Z)) <= 1 \/
                         solparam_row lat j = Err ValueError /\ ~ Rabs (- tan (radians lat) * tan (dec (j + 1)%Z)) <= 1).
  { intros j. unfold solparam_row, dec. cbv zeta. rewrite plus_IZR. replace (IZR j + 1 - 1) with (IZR j) by ring.
    change (lat * PI / 180) with (radians lat). set (x := - tan (radians lat) * _). unfold py_acos.
    destruct (Rle_dec (Rabs x) 1) as [L|L]; cbn [bind]; [left|right]; eauto. }
  assert (SOL: forall rows, map_res (solparam_row lat) (zrange 0 365) = Ok rows -> exists pars times, solpars lat = Ok (pars, times)).
  { intros rows E. unfold solpars. rewrite E. cbn [bind].
    assert (LR: length rows = 365%nat) by (rewrite (map_res_length _ _ _ E); reflexivity).
    assert (LT: length (map timecorr_row (zrange 0 365)) = 365%nat) by (rewrite map_length; reflexivity).
    set (tms := map timecorr_row (zrange 0 365)) in *. clearbody tms. rewrite !py_get_nonneg by lia.
    destruct (nth_error rows (Z.to_nat 364)) eqn:E1; [|apply nth_error_None in E1; lia].
    destruct (nth_error tms (Z.to_nat 364)) eqn:E2; [|apply nth_error_None in E2; lia]. cbn [bind]. eauto. }
  assert (ALT: (exists pars times, solpars lat = Ok (pars, times)) \/ solpars lat = Err ValueError).
  { destruct (map_res_err (solparam_row lat) ValueError (zrange 0 365)) as [(rows & E)|E].
    - intros j _. destruct (ROW j) as [[X _]|[X _]]; [left|right]; exact X.
    - left. exact (SOL rows E).
    - right. unfold solpars. rewrite E. reflexivity. }
  split; [|exact ALT]. split.
  - intros (pars & times & H) day Hd. unfold solpars in H. apply bind_ok in H as (rows & ER & _).
    assert (I: In (day - 1)%Z (zrange 0 365)) by (apply in_zrange; lia).
    destruct (ROW (day - 1)%Z) as [[_ L]|[X _]].
    + replace (day - 1 + 1)%Z with day in L by lia. apply abs_inv in L. lra.
    + exfalso. apply map_res_forall2 in ER. clear -ER I X. induction ER as [|a b l rs E _ IH]; [destruct I|].
      destruct I as [->|I]; [congruence|exact (IH I)].
  - intros H. destruct (map_res_progress (solparam_row lat) (zrange 0 365)) as (rows & E); [|exact (SOL rows E)].
    intros j I. apply in_zrange in I. destruct (ROW j) as [[X _]|[_ X]]; [exact X|]. exfalso. apply X.
    specialize (H (j + 1)%Z ltac:(lia)). apply Rabs_le. lra.
Qed.

(** ** Example *)

(*@ex C134 At 600 hPa in 4000 m and at a solar elevation of 30 degrees. *)
Lemma clear_sky_example_lem :
  exists tau direct diffuse,
    clear_sky 1.03 0.5 (35 * / sqrt (1224 * 0.5 ^ 2 + 1)) 600 268 4000 3 = Ok (tau, direct, diffuse) /\
    direct + diffuse <= 1367 * 1.03 * 0.5.
Proof.
  destruct (clear_sky_within_top_of_atmosphere_lem 1.03 0.5 600 268 4000 3) as (a & b & d & E & _ & _ & _ & L); try lra.
  exists a, b, d. split; [exact E|exact L].
Qed.
