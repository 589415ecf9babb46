(** * Node: one layer (cosipy/cpkernel/node.py) *)
From Verif Require Import ModelPy ModelConstants.

(** node.py:22-30 (spec) and node.py:56-67: the stored attributes *)
Record Node : Type := mkNode {
  n_height : R;
  n_temperature : R;
  n_lwc : R;
  n_ice : R;
  n_refreeze : R
}.

(** node.py:47-67 [Node.__init__]; [ice_fraction = None] computes the fraction
    from the density by removing the weight of the air. *)
Definition new_node (c : Consts) (height snow_density temperature lwc : R)
  (ice_fraction : option R) : Node :=
  {| n_height := height;
     n_temperature := temperature;
     n_lwc := lwc;
     n_ice := match ice_fraction with
              | None =>
                  (snow_density - (1 - snow_density / c_ice_density c) * c_air_density c)
                  / c_ice_density c
              | Some f => f
              end;
     n_refreeze := 0 |}.

(** node.py:122-128 [get_layer_air_porosity] *)
Definition layer_air_porosity (n : Node) : R := Rmax 0 (1 - n_lwc n - n_ice n).

(** node.py:110-120 [get_layer_density] *)
Definition layer_density (c : Consts) (n : Node) : R :=
  n_ice n * c_ice_density c + n_lwc n * c_water_density c
  + layer_air_porosity n * c_air_density c.

(** node.py:130-136 [get_layer_specific_heat] *)
Definition layer_specific_heat (c : Consts) (n : Node) : R :=
  n_ice n * c_spec_heat_ice c + layer_air_porosity n * c_spec_heat_air c
  + n_lwc n * c_spec_heat_water c.

(** node.py:146-160 [get_layer_irreducible_water_content]; the first branch
    divides by the ice fraction (ZeroDivisionError for 0). *)
Definition layer_irreducible (n : Node) : res R :=
  if Rleb (n_ice n) 0.23 then
    (q <- fdiv (1 - n_ice n) (n_ice n) ;; Ok (0.0264 + 0.0099 * q))
  else if Rltb 0.23 (n_ice n) && Rleb (n_ice n) 0.812 then
    Ok (0.08 - 0.1023 * (n_ice n - 0.03))
  else Ok 0.

(** node.py:162-168 [get_layer_cold_content] *)
Definition layer_cold_content (c : Consts) (n : Node) : R :=
  - layer_specific_heat c n * layer_density c n * n_height n
  * (n_temperature n - c_zero_temperature c).

(** node.py:170-176 [get_layer_porosity] *)
Definition layer_porosity (n : Node) : R := 1 - n_ice n - n_lwc n.

(** node.py:178-195 [get_layer_thermal_conductivity] *)
Definition layer_thermal_conductivity (c : Consts) (n : Node) : res R :=
  if String.eqb (c_thermal_conductivity_method c) "bulk"%string then
    Ok (n_ice n * c_k_i c + layer_air_porosity n * c_k_a c + n_lwc n * c_k_w c)
  else if String.eqb (c_thermal_conductivity_method c) "empirical"%string then
    Ok (0.021 + 2.5 * (layer_density c n / 1000) ^ 2)
  else Err ValueError.

(** node.py:197-204 [get_layer_thermal_diffusivity] *)
Definition layer_thermal_diffusivity (c : Consts) (n : Node) : res R :=
  k <- layer_thermal_conductivity c n ;;
  fdiv k (layer_density c n * layer_specific_heat c n).

(** node.py:211-249, setters: one attribute changes, the others stay *)
Definition set_layer_height (h : R) (n : Node) : Node :=
  mkNode h (n_temperature n) (n_lwc n) (n_ice n) (n_refreeze n).
Definition set_layer_temperature (t : R) (n : Node) : Node :=
  mkNode (n_height n) t (n_lwc n) (n_ice n) (n_refreeze n).
Definition set_layer_lwc (w : R) (n : Node) : Node :=
  mkNode (n_height n) (n_temperature n) w (n_ice n) (n_refreeze n).
Definition set_layer_ice (f : R) (n : Node) : Node :=
  mkNode (n_height n) (n_temperature n) (n_lwc n) f (n_refreeze n).
Definition set_layer_refreeze (r : R) (n : Node) : Node :=
  mkNode (n_height n) (n_temperature n) (n_lwc n) (n_ice n) r.
