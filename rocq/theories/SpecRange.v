(** * Vocabulary for the ranges of what is reported *)
From Verif Require Import ModelPy ModelConstants ModelNode ModelGrid ModelSurface ModelInit
  ModelCore ModelConfig ModelIO ModelMain Spec SpecIO SpecRun SpecCell.

(** albedo between ice and fresh snow, roughness between fresh snow and firn, or that of ice *)
Definition surface_range (c : Consts) (o : Output) : Prop :=
  c_albedo_ice c <= o_ALBEDO o <= c_albedo_fresh_snow c /\
  (c_roughness_fresh_snow c / 1000 <= o_Z0 o <= c_roughness_firn c / 1000 \/
   o_Z0 o = c_roughness_ice c / 1000).

(** the constants of the initial column *)
Record initial_constants_ok (c : Consts) (lo : R) : Prop := {
  ic_height : 0 < c_initial_glacier_height c;
  ic_layer : 0 < c_initial_glacier_layer_heights c;
  ic_top : c_air_density c < c_initial_top_density_snowpack c <= c_ice_density c;
  ic_bottom : c_air_density c < c_initial_bottom_density_snowpack c <= c_ice_density c;
  ic_temp : lo <= c_temperature_bottom c <= c_zero_temperature c
}.

(** the densification keeps heights and ice positive in every step of a run of the column *)
Definition densification_safe (fuel : nat) (c : Consts) (sw : Switches) (sv : Solvers) (d : Data) : Prop :=
  c_densification_method c = "constant"%string \/
  forall T0 g inp k s os,
    py_get (d_T2 d) 0 = Ok T0 -> init_snowpack c (d_SNOWHEIGHT d) T0 = Ok g ->
    select_inputs c sw d = Ok inp -> (k <= nt d)%nat ->
    core_loop fuel c sw sv (c_dt c, c_max_layers c, c_z c) d inp k 0 (start_state c sw g) = Ok (s, os) ->
    layers_ok (g_nodes (s_grid s)).

(** the values that a variable of the list of the atmosphere may have in the result file *)
Definition atm_range (c : Consts) (name : string) : option (R -> Prop) :=
  dict_find
    [("RAIN", fun v => 0 <= v); ("SNOWFALL", fun v => 0 <= v);
     ("TS", fun v => 220 <= v <= c_zero_temperature c);
     ("ALBEDO", fun v => c_albedo_ice c <= v <= c_albedo_fresh_snow c);
     ("Z0", fun v => c_roughness_fresh_snow c / 1000 <= v <= c_roughness_firn c / 1000 \/
                     v = c_roughness_ice c / 1000)]%string name.

(** ... and one of the list of internal variables *)
Definition internal_range (name : string) : option (R -> Prop) :=
  dict_find
    [("Q", fun v => 0 <= v); ("SNOWHEIGHT", fun v => 0 <= v); ("TOTALHEIGHT", fun v => 0 <= v);
     ("LAYERS", fun v => 3 <= v); ("ME", fun v => 0 <= v); ("EVAPORATION", fun v => v <= 0);
     ("SUBLIMATION", fun v => v <= 0); ("CONDENSATION", fun v => 0 <= v);
     ("DEPOSITION", fun v => 0 <= v); ("REFREEZE", fun v => 0 <= v); ("subM", fun v => 0 <= v);
     ("surfM", fun v => 0 <= v)]%string name.

(** ... and one of the list of layer variables *)
Definition layer_range (c : Consts) (lo : R) (name : string) : option (R -> Prop) :=
  dict_find
    [("HEIGHT", fun v => 0 < v); ("RHO", fun v => 0 < v);
     ("T", fun v => lo <= v <= c_zero_temperature c); ("LWC", fun v => 0 <= v);
     ("ICE_FRACTION", fun v => 0 < v)]%string name.

(** the profile of a layer variable in a cell at step [k] *)
Definition file_profile (ds : dict variable) (name : string) (y x : Z) (k : nat) (row : list number) : Prop :=
  exists var l, dict_find ds name = Some var /\ cell_at (v_data var) y x = Some (Layers l) /\
    nth_error l k = Some row.
