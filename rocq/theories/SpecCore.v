(** * Vocabulary for the properties of the time loop *)
From Verif Require Import ModelPy ModelConstants ModelNode ModelGrid ModelSurface ModelInit
  ModelCore Spec.
From Coq Require Import Rtrigo_def.

(** ** Snow clock *)

(** the ages are not negative, the old snow is not younger than the fresh snow, and the
    tracked fresh snow height is positive unless both ages are the same *)
Definition clock_ok (g : Grid) : Prop :=
  0 <= g_new_snow_timestamp g <= g_old_snow_timestamp g /\
  (0 < g_new_snow_height g \/ g_new_snow_timestamp g = g_old_snow_timestamp g).

(** it has snowed (enough to be accepted) in the step with output [o] *)
Definition snowed (o : Output) : Prop := 0 < o_SNOWFALL o.

(** ages of fresh and old snow *)
Definition ages (g : Grid) : R * R := (g_new_snow_timestamp g, g_old_snow_timestamp g).

(** two layers that agree in everything the physics uses (the refreezing diagnostic may
    differ) *)
Definition same_layer (n n' : Node) : Prop :=
  n_height n' = n_height n /\ n_temperature n' = n_temperature n /\
  n_lwc n' = n_lwc n /\ n_ice n' = n_ice n.
Definition same_layers (g g' : Grid) : Prop := Forall2 same_layer (g_nodes g) (g_nodes g').

(** ** Precipitation *)

(** share of the precipitation that falls as snow at air temperature [T2] *)
Definition snow_share (c : Consts) (T2 : R) : R :=
  (1 - tanh ((T2 - c_zero_temperature c - c_center_snow_transfer_function c)
             * c_spread_snow_transfer_function c)) / 2.

(** mass [kg m^-2], or mm w.e., of a depth [s] (m) of snow of density [rho] *)
Definition snow_mass (c : Consts) (rho s : R) : R := s * (rho / c_water_density c) * 1000.

(** ** Column budget *)

(** air in the pores, as the density of a layer counts it [m] *)
Definition column_air (l : list Node) : R :=
  total (fun n => Rmax 0 (1 - n_lwc n - n_ice n) * n_height n) l.

(** positive heights and ice contents, no negative water *)
Definition column_good (l : list Node) : Prop :=
  Forall (fun n => 0 < n_height n /\ 0 < n_ice n /\ 0 <= n_lwc n) l.

(** sum of [f] over the outputs of a run *)
Definition sum_outputs (f : Output -> R) (os : list Output) : R :=
  fold_right (fun o acc => f o + acc) 0 os.
