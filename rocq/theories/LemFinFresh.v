(** * Fresh snow and the split of precipitation *)
From Verif Require Import ModelPy ModelConstants ModelNode ModelGrid ModelWater ModelHeat ModelDensification ModelRadiation ModelAlbedo ModelSurface ModelInit ModelCore Spec SpecCore.
From Verif Require Import LemPy LemFinCore.

(*@ C114 Without the method constant, the density of fresh snow is 109 + 6 (T2 - 273.16) + 26 sqrt(U2), but never less than 50; it never falls with a higher air temperature or a stronger wind. *)
Lemma fresh_density_formula_lem :
  forall (c : Consts) (T2 T2' U2 U2' : R),
    c_densification_method c <> "constant"%string -> T2 <= T2' -> 0 <= U2 <= U2' ->
    exists rho rho', fresh_snow_density c T2 U2 = Ok rho /\ fresh_snow_density c T2' U2' = Ok rho' /\
      50 <= rho <= rho' /\
      (50 <= 109 + 6 * (T2 - 273.16) + 26 * sqrt U2 -> rho = 109 + 6 * (T2 - 273.16) + 26 * sqrt U2) /\
      (109 + 6 * (T2 - 273.16) + 26 * sqrt U2 < 50 -> rho = 50).
Proof.
  intros c T2 T2' U2 U2' M HT HU. unfold fresh_snow_density. apply String.eqb_neq in M. rewrite M.
  rewrite (Rltb_false U2 0), (Rltb_false U2' 0) by lra.
  eexists. eexists. split; [reflexivity|]. split; [reflexivity|].
  assert (S' : sqrt U2 <= sqrt U2') by (apply sqrt_le_1; lra).
  split; [split; [apply Rmax_r|apply Rle_max_compat_r; lra]|].
  split; intros H; [apply Rmax_left; lra|apply Rmax_right; lra].
Qed.

(*@ C114 With the method constant the density of fresh snow is the constant density, whatever the weather. *)
Lemma fresh_density_constant_lem :
  forall (c : Consts) (T2 U2 : R), c_densification_method c = "constant"%string ->
    fresh_snow_density c T2 U2 = Ok (c_constant_density c).
Proof. intros c T2 U2 M. unfold fresh_snow_density. rewrite M. reflexivity. Qed.

(*@ C114 A negative wind speed has no root: without the method constant no density comes out. *)
Lemma fresh_density_wind_lem :
  forall (c : Consts) (T2 U2 : R), c_densification_method c <> "constant"%string ->
    ((exists rho, fresh_snow_density c T2 U2 = Ok rho) <-> 0 <= U2).
Proof.
  intros c T2 U2 M. unfold fresh_snow_density. apply String.eqb_neq in M. rewrite M.
  destruct (Rlt_dec U2 0) as [L|L].
  - rewrite Rltb_true by lra. split; [intros (r & H); discriminate|lra].
  - rewrite Rltb_false by lra. split; [intros _; lra|intros _; eexists; reflexivity].
Qed.

(*@ C38 With snowfall and total precipitation as inputs the snowfall is taken as given, and the rain is the rest of the total: both add up to the total exactly, and the rain is not negative unless the snowfall exceeds the total. *)
Lemma precipitation_both_exact_lem :
  forall (c : Consts) (rho T2 s r : R), 0 < c_water_density c ->
    exists rain, snow_and_rain c rho T2 (Some s) (Some r) = Ok (s, Some rain) /\
      snow_mass c rho s + rain = r /\ (0 <= rain <-> snow_mass c rho s <= r).
Proof.
  intros c rho T2 s r W. unfold snow_and_rain. rewrite fdiv_ok by lra. cbn [bind]. eexists. split; [reflexivity|].
  unfold snow_mass. split; [lra|]. split; intros; lra.
Qed.

(*@ex C114 At -3.16 degrees and 4 m/s fresh snow has 142.04 kg/m3, at -20 degrees without wind 50. *)
Lemma fresh_density_example_lem :
  fresh_snow_density default_constants 270 4 = Ok 142.04 /\ fresh_snow_density default_constants 253.16 0 = Ok 50.
Proof.
  split; unfold fresh_snow_density; cbn [c_densification_method default_constants String.eqb Ascii.eqb Bool.eqb].
  - rewrite Rltb_false by lra. replace 4 with (2 * 2) at 1 by lra. rewrite sqrt_square by lra.
    rewrite Rmax_left by lra. f_equal. lra.
  - rewrite Rltb_false by lra. rewrite sqrt_0. rewrite Rmax_right by lra. reflexivity.
Qed.
