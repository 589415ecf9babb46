(** * Specification vocabulary for whole runs *)
From Verif Require Import ModelPy ModelConstants ModelNode ModelGrid ModelSurface ModelInit ModelCore Spec SpecSurface.

(** a layer as physics allows it: it has a height and holds ice, no negative water, and its
    temperature lies between [lo] and [hi] *)
Definition sound_layer (lo hi : R) (n : Node) : Prop :=
  0 < n_height n /\ 0 < n_ice n /\ 0 <= n_lwc n /\ lo <= n_temperature n <= hi.
Definition sound_column (lo hi : R) (l : list Node) : Prop := Forall (sound_layer lo hi) l.

(** constants for which a run is meaningful with [lo] as lowest temperature: the lower bound
    of the search for the surface temperature is not below [lo]; warming a layer by
    refreezing from [lo] to the melting point never uses up the latent heat; new snow is
    heavier than air *)
Record run_constants_ok (c : Consts) (lo : R) : Prop := {
  rc_ok : constants_ok c;
  rc_lo : 0 <= lo <= 220;
  rc_zero : 220 <= c_zero_temperature c;
  rc_cold : (c_zero_temperature c - lo) * (c_spec_heat_water c - c_spec_heat_ice c) < c_lat_heat_melting c;
  rc_air : c_air_density c < 50;
  rc_fresh : c_air_density c < c_constant_density c
}.

(** the values stored for one step are physically possible *)
Record sound_report (lo hi : R) (o : Output) : Prop := {
  sr_Ts : 220 <= o_TS o <= hi;
  sr_rain : 0 <= o_RAIN o;
  sr_snowfall : 0 <= o_SNOWFALL o;
  sr_melt_energy : 0 <= o_ME o;
  sr_melt : 0 <= o_surfM o;
  sr_sub_melt : 0 <= o_subM o;
  sr_runoff : 0 <= o_Q o;
  sr_refreeze : 0 <= o_REFREEZE o;
  sr_sublimation : o_SUBLIMATION o <= 0;
  sr_evaporation : o_EVAPORATION o <= 0;
  sr_deposition : 0 <= o_DEPOSITION o;
  sr_condensation : 0 <= o_CONDENSATION o;
  sr_heights : 0 <= o_SNOWHEIGHT o <= o_TOTALHEIGHT o;
  sr_layers : (3 <= o_NLAYERS o)%Z;
  sr_profiles : forall p, o_profiles o = Some p ->
    Forall (fun h => 0 < h) (lf_HEIGHT p) /\ Forall (fun t => lo <= t <= hi) (lf_T p) /\
    Forall (fun w => 0 <= w) (lf_LWC p) /\ Forall (fun f => 0 < f) (lf_ICE_FRACTION p) /\
    Forall (fun r => 0 < r) (lf_RHO p)
}.
