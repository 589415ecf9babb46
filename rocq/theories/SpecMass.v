(** * Specification vocabulary for the mass of a whole step *)
From Verif Require Import ModelPy ModelConstants ModelNode ModelGrid ModelCore Spec SpecCore.

(** what the reported fluxes bring to the column over some steps [kg m^-2]: snow, rain,
    condensation and what the vapour exchange leaves (deposition only as far as it is
    balanced by melt), minus runoff *)
Definition reported_gain (c : Consts) (os : list Output) : R :=
  c_water_density c * sum_outputs (fun o =>
    o_SNOWFALL o + o_RAIN o / 1000 + o_CONDENSATION o
    + Rmin (o_surfM o) (o_SUBLIMATION o + o_DEPOSITION o) - o_Q o) os.

(** what no reported flux accounts for: layers dropped for being thin, layers melted away by
    penetrating radiation, the water of layers melted away at the surface (counted twice),
    the air in melted snow, the air in fresh snow, compaction *)
Record Residuals : Type := mkResiduals {
  r_thin : list Node; r_sun : list Node; r_top : list Node; r_air : R; r_fresh : R; r_compaction : R
}.
Definition unaccounted (c : Consts) (r : Residuals) : R :=
  - column_mass c (r_thin r) - column_mass c (r_sun r) + c_water_density c * column_water (r_top r)
  + r_air r - r_fresh r + r_compaction r.

Record residuals_ok (c : Consts) (before : list Node) (o : Output) (r : Residuals) : Prop := {
  rs_thin : Forall (fun n => 0 < n_height n <= c_minimum_snow_layer_height c) (r_thin r);
  rs_thin_one : c_remesh_method c <> "adaptive_profile"%string -> (length (r_thin r) <= 1)%nat;
  rs_sun : column_good (r_sun r) /\ c_ice_density c * column_ice (r_sun r) <= c_water_density c * o_subM o;
  rs_top : column_good (r_top r);
  rs_no_melt : o_surfM o <= o_SUBLIMATION o + o_DEPOSITION o -> r_top r = [] /\ r_air r = 0;
  rs_air : 0 <= r_air r;
  rs_fresh : exists h, 0 <= h /\ c_air_density c * h <= c_water_density c * o_SNOWFALL o /\
    r_fresh r = c_air_density c * (h - c_water_density c * o_SNOWFALL o / c_ice_density c) /\
    r_air r <= c_air_density c * (column_height before + h);
  rs_constant : c_densification_method c = "constant"%string -> r_compaction r = 0;
  rs_boone : c_densification_method c = "Boone"%string -> r_compaction r <= 0
}.

(** the residuals of several steps together *)
Definition add_residuals (r r' : Residuals) : Residuals :=
  mkResiduals (r_thin r ++ r_thin r') (r_sun r ++ r_sun r') (r_top r ++ r_top r')
    (r_air r + r_air r') (r_fresh r + r_fresh r') (r_compaction r + r_compaction r').
Definition no_residuals : Residuals := mkResiduals [] [] [] 0 0 0.
