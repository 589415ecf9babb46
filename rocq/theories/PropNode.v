(** * Properties of one layer

    Theorems only; the proofs are in LemFinNode.v and the files it uses. *)

From Verif Require Import ModelPy ModelConstants ModelNode ModelGrid.
From Verif Require Import LemFinNode.

(** C88.  Density, specific heat and bulk conductivity of a layer lie between the smallest and largest value of ice, water and air. *)
Theorem layer_mixture :
  forall (c : Consts) (n : Node) lo hi,
    0 <= n_ice n -> 0 <= n_lwc n -> n_ice n + n_lwc n <= 1 ->
    (lo <= c_ice_density c <= hi -> lo <= c_water_density c <= hi -> lo <= c_air_density c <= hi -> lo <= layer_density c n <= hi) /\
    (lo <= c_spec_heat_ice c <= hi -> lo <= c_spec_heat_water c <= hi -> lo <= c_spec_heat_air c <= hi -> lo <= layer_specific_heat c n <= hi) /\
    (c_thermal_conductivity_method c = "bulk"%string ->
     lo <= c_k_i c <= hi -> lo <= c_k_w c <= hi -> lo <= c_k_a c <= hi ->
     exists k, layer_thermal_conductivity c n = Ok k /\ lo <= k <= hi).
Proof. exact layer_mixture_lem. Qed.
Print Assumptions layer_mixture.

(** C88.  They are the volume-weighted means of ice, water and air; the empirical conductivity is 0.021 + 2.5 (density/1000)^2. *)
Theorem layer_mixture_formula :
  forall (c : Consts) (n : Node),
    0 <= n_ice n -> 0 <= n_lwc n -> n_ice n + n_lwc n <= 1 ->
    layer_density c n = n_ice n * c_ice_density c + n_lwc n * c_water_density c + (1 - n_ice n - n_lwc n) * c_air_density c /\
    layer_specific_heat c n = n_ice n * c_spec_heat_ice c + n_lwc n * c_spec_heat_water c + (1 - n_ice n - n_lwc n) * c_spec_heat_air c /\
    (c_thermal_conductivity_method c = "bulk"%string ->
     layer_thermal_conductivity c n = Ok (n_ice n * c_k_i c + n_lwc n * c_k_w c + (1 - n_ice n - n_lwc n) * c_k_a c)) /\
    (c_thermal_conductivity_method c = "empirical"%string ->
     layer_thermal_conductivity c n = Ok (0.021 + 2.5 * (layer_density c n / 1000) ^ 2)).
Proof. exact layer_mixture_formula_lem. Qed.
Print Assumptions layer_mixture_formula.

(** C88.  A layer that is more than full holds no air. *)
Theorem overfull_layer :
  forall (c : Consts) (n : Node),
    1 <= n_ice n + n_lwc n ->
    layer_density c n = n_ice n * c_ice_density c + n_lwc n * c_water_density c /\
    layer_specific_heat c n = n_ice n * c_spec_heat_ice c + n_lwc n * c_spec_heat_water c.
Proof. exact overfull_layer_lem. Qed.
Print Assumptions overfull_layer.

(** C88.  The thermal diffusivity is conductivity over heat capacity per volume, and positive. *)
Theorem layer_diffusivity :
  forall (c : Consts) (n : Node),
    0 <= n_ice n -> 0 <= n_lwc n -> n_ice n + n_lwc n <= 1 ->
    0 < c_ice_density c -> 0 < c_water_density c -> 0 < c_air_density c ->
    0 < c_spec_heat_ice c -> 0 < c_spec_heat_water c -> 0 < c_spec_heat_air c ->
    0 < c_k_i c -> 0 < c_k_w c -> 0 < c_k_a c ->
    (c_thermal_conductivity_method c = "bulk"%string \/ c_thermal_conductivity_method c = "empirical"%string) ->
    exists k d, layer_thermal_conductivity c n = Ok k /\ 0 < k /\
      layer_thermal_diffusivity c n = Ok d /\ 0 < d /\ d * (layer_density c n * layer_specific_heat c n) = k.
Proof. exact layer_diffusivity_lem. Qed.
Print Assumptions layer_diffusivity.

(** C88.  The cold content of a layer is the heat per area that brings it to the melting point: specific heat times mass times the distance to the melting point, positive exactly for layers below it.  The reported profile has one value per layer from the top. *)
Theorem cold_content :
  forall (c : Consts) (n : Node),
    0 <= n_ice n -> 0 <= n_lwc n -> n_ice n + n_lwc n <= 1 ->
    layer_cold_content c n =
      (n_ice n * c_spec_heat_ice c + n_lwc n * c_spec_heat_water c + (1 - n_ice n - n_lwc n) * c_spec_heat_air c) *
      ((n_ice n * c_ice_density c + n_lwc n * c_water_density c + (1 - n_ice n - n_lwc n) * c_air_density c) * n_height n) *
      (c_zero_temperature c - n_temperature n) /\
    (0 < layer_specific_heat c n -> 0 < layer_density c n -> 0 < n_height n ->
       (0 < layer_cold_content c n <-> n_temperature n < c_zero_temperature c) /\
       (layer_cold_content c n = 0 <-> n_temperature n = c_zero_temperature c)).
Proof. exact cold_content_lem. Qed.
Print Assumptions cold_content.

(** C88.  Profiles have one entry per layer, from the surface down. *)
Theorem cold_content_profile :
  forall (c : Consts) (g : Grid),
    g_number_nodes g = Z.of_nat (length (g_nodes g)) ->
    get_cold_content c g = Ok (map (layer_cold_content c) (g_nodes g)) /\
    get_density c g = Ok (map (layer_density c) (g_nodes g)) /\
    get_porosity g = Ok (map (fun n => 1 - n_ice n - n_lwc n) (g_nodes g)) /\
    get_specific_heat c g = Ok (map (layer_specific_heat c) (g_nodes g)).
Proof. exact cold_content_profile_lem. Qed.
Print Assumptions cold_content_profile.

(** C89.  The irreducible water content exists for every layer with ice, is not negative, and does not grow with the ice fraction. *)
Theorem irreducible_decreases :
  forall a b : Node, 0 < n_ice a -> n_ice a <= n_ice b -> n_ice b <= 1 ->
    exists wa wb, layer_irreducible a = Ok wa /\ layer_irreducible b = Ok wb /\ 0 <= wb <= wa /\
      (n_ice a <= 0.812 -> 0 < wa).
Proof. exact irreducible_decreases_lem. Qed.
Print Assumptions irreducible_decreases.

(** C89.  A layer without ice stops the simulation as soon as its irreducible water content is needed. *)
Theorem irreducible_without_ice :
  forall n : Node, n_ice n = 0 -> layer_irreducible n = Err ZeroDivisionError.
Proof. exact irreducible_without_ice_lem. Qed.
Print Assumptions irreducible_without_ice.

(** A snow layer of 300 kg/m3, 0.1 m thick and 5 K below melting has a positive cold content. *)
Example cold_content_example :
  0 < layer_cold_content default_constants (new_node default_constants 0.1 300 (273.16 - 5) 0 None).
Proof. exact cold_content_example_lem. Qed.
