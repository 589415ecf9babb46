(** * The stability correction of Monin and Obukhov in unstable air

    Theorems only; the proofs are in LemFinUnstable.v and the files it uses. *)

From Verif Require Import ModelPy ModelConstants ModelNode ModelGrid ModelSurface.
From Verif Require Import LemFinUnstable.

From Coq Require Import Ranalysis5.

(** C136.  The friction velocity of unstable air.  The code takes the stability function at the height of the
   measurement without its counterpart at the roughness length.  So for every wind, height and roughness
   length there is exactly one negative Obukhov length at which the friction velocity divides by zero;
   it is positive for lengths below it and negative for lengths between it and zero. *)
Theorem friction_velocity_unstable :
  forall (wrf : bool) (u z z0 : R), 0 < u -> 0 < z0 < z ->
    exists L0 : R, L0 < 0 /\
      ustar wrf u z z0 L0 = Err ZeroDivisionError /\
      (forall L, L < L0 -> exists v, ustar wrf u z z0 L = Ok v /\ 0 < v) /\
      (forall L, L0 < L < 0 -> exists v, ustar wrf u z z0 L = Ok v /\ v < 0).
Proof. exact friction_velocity_unstable_lem. Qed.
Print Assumptions friction_velocity_unstable.

(** C136.  With the difference of the stability functions at the height of the measurement and at the roughness
   length, as the integrated profile has it, this cannot happen: in unstable air the functions for
   momentum and for heat are positive, increase with height, and their differences stay below the
   logarithm of the ratio of the heights.  (For heat and moisture the code uses the difference.) *)
Theorem integrated_profile_positive :
  forall (wrf : bool) (z z0 L : R), 0 < z0 < z -> L < 0 ->
    exists m m0 h h0 : R,
      phi_m wrf z L = Ok m /\ phi_m wrf z0 L = Ok m0 /\ phi_tq wrf z L = Ok h /\ phi_tq wrf z0 L = Ok h0 /\
      0 < m0 < m /\ m - m0 < ln (z / z0) /\
      0 < h0 < h /\ h - h0 < ln (z / z0).
Proof. exact integrated_profile_positive_lem. Qed.
Print Assumptions integrated_profile_positive.

(** C136.  A pass of the iteration over a surface warmer than the air.  There is a negative Obukhov length from which
   it raises ZeroDivisionError.  If it starts from a length between this and zero, that is, from very unstable air, the
   heat flux is still directed upwards, but the next Obukhov length is positive: the next pass takes the air to be
   stable. *)
Theorem obukhov_pass_unstable :
  forall (c : Consts) (wrf : bool) (a : Atm) (T0 rho Lv q0 q2 cs : R),
    0 < a_u2 a -> 0 < a_z0 a < a_z a -> 0 < rho -> 0 < c_spec_heat_air c -> 0 < a_T2 a < T0 -> 0 < cs ->
    exists L0 : R, L0 < 0 /\
      (forall s : MOstate, mo_L s = L0 ->
         mo_pass c wrf a T0 rho Lv q0 q2 cs s = Err ZeroDivisionError) /\
      (forall s : MOstate, L0 < mo_L s < 0 ->
         exists s', mo_pass c wrf a T0 rho Lv q0 q2 cs s = Ok s' /\ mo_H s' < 0 /\ 0 < mo_L s').
Proof. exact obukhov_pass_unstable_lem. Qed.
Print Assumptions obukhov_pass_unstable.

(** C136 a wind of 1 m/s at 2 m above ice with a roughness length of 1.7 mm and air of 270 K above a surface at
   the melting point; there is an Obukhov length from which the iteration goes on to stable air *)
Example unstable_example :
  forall c wrf a, 0 < c_spec_heat_air c -> a_u2 a = 1 -> a_z a = 2 -> a_z0 a = 0.0017 -> a_T2 a = 270 ->
    exists s s', mo_L s < 0 /\ mo_pass c wrf a 273.16 1 2500000 0.004 0.003 1 s = Ok s' /\ 0 < mo_L s'.
Proof. exact unstable_example_lem. Qed.
