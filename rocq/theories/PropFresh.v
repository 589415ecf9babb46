(** * Fresh snow and the split of precipitation

    Theorems only; the proofs are in LemFinFresh.v and the files it uses. *)

From Verif Require Import ModelPy ModelConstants ModelNode ModelGrid ModelWater ModelHeat ModelDensification ModelRadiation ModelAlbedo ModelSurface ModelInit ModelCore Spec SpecCore.
From Verif Require Import LemFinFresh.

(** C114.  Without the method constant, the density of fresh snow is 109 + 6 (T2 - 273.16) + 26 sqrt(U2), but never less than 50; it never falls with a higher air temperature or a stronger wind. *)
Theorem fresh_density_formula :
  forall (c : Consts) (T2 T2' U2 U2' : R),
    c_densification_method c <> "constant"%string -> T2 <= T2' -> 0 <= U2 <= U2' ->
    exists rho rho', fresh_snow_density c T2 U2 = Ok rho /\ fresh_snow_density c T2' U2' = Ok rho' /\
      50 <= rho <= rho' /\
      (50 <= 109 + 6 * (T2 - 273.16) + 26 * sqrt U2 -> rho = 109 + 6 * (T2 - 273.16) + 26 * sqrt U2) /\
      (109 + 6 * (T2 - 273.16) + 26 * sqrt U2 < 50 -> rho = 50).
Proof. exact fresh_density_formula_lem. Qed.
Print Assumptions fresh_density_formula.

(** C114.  With the method constant the density of fresh snow is the constant density, whatever the weather. *)
Theorem fresh_density_constant :
  forall (c : Consts) (T2 U2 : R), c_densification_method c = "constant"%string ->
    fresh_snow_density c T2 U2 = Ok (c_constant_density c).
Proof. exact fresh_density_constant_lem. Qed.
Print Assumptions fresh_density_constant.

(** C114.  A negative wind speed has no root: without the method constant no density comes out. *)
Theorem fresh_density_wind :
  forall (c : Consts) (T2 U2 : R), c_densification_method c <> "constant"%string ->
    ((exists rho, fresh_snow_density c T2 U2 = Ok rho) <-> 0 <= U2).
Proof. exact fresh_density_wind_lem. Qed.
Print Assumptions fresh_density_wind.

(** C38.  With snowfall and total precipitation as inputs the snowfall is taken as given, and the rain is the rest of the total: both add up to the total exactly, and the rain is not negative unless the snowfall exceeds the total. *)
Theorem precipitation_both_exact :
  forall (c : Consts) (rho T2 s r : R), 0 < c_water_density c ->
    exists rain, snow_and_rain c rho T2 (Some s) (Some r) = Ok (s, Some rain) /\
      snow_mass c rho s + rain = r /\ (0 <= rain <-> snow_mass c rho s <= r).
Proof. exact precipitation_both_exact_lem. Qed.
Print Assumptions precipitation_both_exact.

(** C114 At -3.16 degrees and 4 m/s fresh snow has 142.04 kg/m3, at -20 degrees without wind 50. *)
Example fresh_density_example :
  fresh_snow_density default_constants 270 4 = Ok 142.04 /\ fresh_snow_density default_constants 253.16 0 = Ok 50.
Proof. exact fresh_density_example_lem. Qed.
