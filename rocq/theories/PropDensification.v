(** * Snow densification (C24, C25, C58, C59, C60)

    Theorems only; the proofs are in LemFinDensification.v and the files it uses. *)

From Verif Require Import ModelPy ModelConstants ModelNode ModelGrid ModelDensification Spec.
From Verif Require Import LemFinDensification.

(** C24,C25.  What Boone compaction does, exactly: going down through the snow layers
    with the load accumulated so far, every snow layer above the minimum thickness is
    compacted by the rate of Essery et al. times the time step, all other layers and the
    clock stay.  It never fails. *)
Theorem boone_exact :
  forall (c : Consts) (g : Grid) (dt : R), counted g ->
  exists top load,
    method_Boone c g dt = Ok (with_nodes g (top ++ skipn (nsnow c (g_nodes g)) (g_nodes g))) /\
    swept (boone_step c dt) None 0 (firstn (nsnow c (g_nodes g)) (g_nodes g)) top load.
Proof. exact boone_exact_lem. Qed.
Print Assumptions boone_exact.

(** C24.  The exact change of mass: a dry layer compacted by d keeps the fraction 1-d^2 of its
    mass, a wet layer only (1+d/2)(1-d). *)
Theorem boone_layer_mass :
  forall (c : Consts) (g : Grid) (dt : R),
  constants_ok c -> counted g -> layers_ok (g_nodes g) -> 0 < dt ->
  exists g', method_Boone c g dt = Ok g' /\
    Forall2 (fun x x' => x' = x \/
      exists d, 0 < d /\ n_height x' = (1 - d) * n_height x /\
        (n_lwc x = 0 -> layer_mass c x' = (1 - d * d) * layer_mass c x) /\
        (n_lwc x <> 0 -> layer_mass c x' = (1 + d / 2) * (1 - d) * layer_mass c x))
      (g_nodes g) (g_nodes g').
Proof. exact boone_layer_mass_lem. Qed.
Print Assumptions boone_layer_mass.

(** C24.  Boone compaction never adds mass to the column, and it loses mass in every column
    with at least one layer to compact. *)
Theorem boone_loses_mass :
  forall (c : Consts) (g : Grid) (dt : R),
  constants_ok c -> counted g -> layers_ok (g_nodes g) -> 0 < dt ->
  exists g', method_Boone c g dt = Ok g' /\
    column_mass c (g_nodes g') <= column_mass c (g_nodes g) /\
    (Exists (compactable c) (firstn (nsnow c (g_nodes g)) (g_nodes g)) ->
     column_mass c (g_nodes g') < column_mass c (g_nodes g)).
Proof. exact boone_loses_mass_lem. Qed.
Print Assumptions boone_loses_mass.

(** C25.  Boone compaction makes no layer thicker, and every compacted layer strictly
    thinner; temperatures, refrozen amounts, the number of layers, the clock and every
    layer that is not snow or not thicker than the minimum stay as they are. *)
Theorem boone_only_thins :
  forall (c : Consts) (g : Grid) (dt : R),
  constants_ok c -> counted g -> layers_ok (g_nodes g) -> 0 < dt ->
  exists g', method_Boone c g dt = Ok g' /\
    Forall2 (fun x x' => n_height x' <= n_height x /\ n_temperature x' = n_temperature x /\
                         n_refreeze x' = n_refreeze x /\ n_ice x <= n_ice x' /\ n_lwc x <= n_lwc x' /\
                         (~ compactable c x -> x' = x))
      (g_nodes g) (g_nodes g') /\
    Forall2 (fun x x' => compactable c x -> n_height x' < n_height x)
      (firstn (nsnow c (g_nodes g)) (g_nodes g)) (firstn (nsnow c (g_nodes g)) (g_nodes g')) /\
    column_height (g_nodes g') <= column_height (g_nodes g) /\
    counted g' /\ g_number_nodes g' = g_number_nodes g /\ same_clock g g'.
Proof. exact boone_only_thins_lem. Qed.
Print Assumptions boone_only_thins.

(** C25.  Heights stay positive when the time step is small for the weight of the snow
    pack: the sufficient bound uses one and a half times that weight. *)
Theorem boone_heights_positive :
  forall (c : Consts) (g : Grid) (dt : R),
  constants_ok c -> counted g -> layers_ok (g_nodes g) -> 0 < dt ->
  Forall (fun n => n_temperature n <= c_zero_temperature c) (g_nodes g) ->
  (1.5 * column_weight c (firstn (nsnow c (g_nodes g)) (g_nodes g)) * 9.81 / 3.7e7 + 2.8e-6) * dt < 1 ->
  exists g', method_Boone c g dt = Ok g' /\ layers_ok (g_nodes g').
Proof. exact boone_heights_positive_lem. Qed.
Print Assumptions boone_heights_positive.

(** C58.  The load used for the layer at position i of a snow pack of thick layers is the
    weight of all layers above it plus half the weight of the top layer: from the second
    layer on the top layer counts one and a half times. *)
Theorem boone_overburden :
  forall (c : Consts) (g : Grid) (dt : R) (top x : Node) (i : nat),
  counted g -> Forall (compactable c) (firstn (nsnow c (g_nodes g)) (g_nodes g)) ->
  hd_error (g_nodes g) = Some top -> nth_error (firstn (nsnow c (g_nodes g)) (g_nodes g)) i = Some x ->
  exists g' x', method_Boone c g dt = Ok g' /\ nth_error (g_nodes g') i = Some x' /\
    n_height x' = (1 - boone_rate c (column_weight c (firstn i (g_nodes g)) + layer_weight c top / 2) x * dt)
                  * n_height x.
Proof. exact boone_overburden_lem. Qed.
Print Assumptions boone_overburden.

(** C58.  A thin snow layer hides load: below a layer that is not thicker than the minimum,
    half the weight of the layer on top of it is missing. *)
Theorem boone_thin_layer_hides_load :
  forall (c : Consts) (g : Grid) (dt : R) (a b x : Node) (rest : list Node),
  counted g -> g_nodes g = a :: b :: x :: rest -> is_snow c a -> is_snow c b -> is_snow c x ->
  c_minimum_snow_layer_height c < n_height a -> n_height b <= c_minimum_snow_layer_height c ->
  c_minimum_snow_layer_height c < n_height x ->
  exists g' a' x' rest', method_Boone c g dt = Ok g' /\ g_nodes g' = a' :: b :: x' :: rest' /\
    n_height x' = (1 - boone_rate c (column_weight c [a; b] - layer_weight c a / 2) x * dt) * n_height x.
Proof. exact boone_thin_layer_hides_load_lem. Qed.
Print Assumptions boone_thin_layer_hides_load.

(** C25.  The bound on the time step is needed: with daily steps a ten metre layer of light
    snow at melting temperature gets a negative height. *)
Theorem boone_negative_height_refuted :
  exists (g : Grid) (dt : R) g' x', counted g /\ layers_ok (g_nodes g) /\ dt = 86400 /\
    Forall (fun n => n_temperature n <= c_zero_temperature default_constants) (g_nodes g) /\
    method_Boone default_constants g dt = Ok g' /\ In x' (g_nodes g') /\ n_height x' < 0.
Proof. exact boone_negative_height_refuted_lem. Qed.
Print Assumptions boone_negative_height_refuted.

(** C25.  The warning about fractions adding up to more than one can never be printed: the
    porosity is computed from the two other fractions. *)
Theorem densification_warning_never :
  forall (g : Grid) (i : Z) (x : Node),
  get_node g i = Ok x -> log_fraction_warning g i = Ok false.
Proof. exact densification_warning_never_lem. Qed.
Print Assumptions densification_warning_never.

(** C59.  What the Vionnet scheme does, exactly. *)
Theorem vionnet_exact :
  forall (c : Consts) (g : Grid) (slope dt : R),
  constants_ok c -> counted g -> layers_ok (g_nodes g) ->
  exists top stress,
    method_Vionnet c g slope dt = Ok (with_nodes g (top ++ skipn (nsnow c (g_nodes g)) (g_nodes g))) /\
    swept (vionnet_step c slope dt) None 0 (firstn (nsnow c (g_nodes g)) (g_nodes g)) top stress.
Proof. exact vionnet_exact_lem. Qed.
Print Assumptions vionnet_exact.

(** C59.  The slope reaches this scheme in degrees but its cosine is taken as if it were in
    radians.  The sign of that cosine decides: if positive every thick snow layer gets
    thinner, if negative every thick snow layer gets thicker. *)
Theorem vionnet_sign :
  forall (c : Consts) (g : Grid) (slope dt : R),
  constants_ok c -> counted g -> layers_ok (g_nodes g) -> 0 < dt ->
  exists g', method_Vionnet c g slope dt = Ok g' /\
    Forall2 (fun x x' => compactable c x ->
               (0 < cos slope -> n_height x' < n_height x) /\ (cos slope < 0 -> n_height x < n_height x'))
      (firstn (nsnow c (g_nodes g)) (g_nodes g)) (firstn (nsnow c (g_nodes g)) (g_nodes g')) /\
    Forall2 (fun x x' => n_temperature x' = n_temperature x /\ n_refreeze x' = n_refreeze x /\
                         (~ compactable c x -> x' = x)) (g_nodes g) (g_nodes g') /\
    skipn (nsnow c (g_nodes g)) (g_nodes g') = skipn (nsnow c (g_nodes g)) (g_nodes g) /\
    counted g' /\ same_clock g g'.
Proof. exact vionnet_sign_lem. Qed.
Print Assumptions vionnet_sign.

(** C59.  So on every slope between 2 and 4.5 degrees the Vionnet scheme makes snow thicker. *)
Theorem vionnet_thickens_gentle_slopes :
  forall (c : Consts) (g : Grid) (slope dt : R),
  constants_ok c -> counted g -> layers_ok (g_nodes g) -> 0 < dt -> 2 < slope <= 4.5 ->
  exists g', method_Vionnet c g slope dt = Ok g' /\
    Forall2 (fun x x' => compactable c x -> n_height x < n_height x')
      (firstn (nsnow c (g_nodes g)) (g_nodes g)) (firstn (nsnow c (g_nodes g)) (g_nodes g')).
Proof. exact vionnet_thickens_gentle_slopes_lem. Qed.
Print Assumptions vionnet_thickens_gentle_slopes.

(** C60.  What the empirical scheme does, exactly. *)
Theorem empirical_exact :
  forall (c : Consts) (g : Grid) (dt : R),
  constants_ok c -> 0 < dt -> counted g -> layers_ok (g_nodes g) ->
  exists top, method_empirical c g dt
      = Ok (with_nodes g (top ++ skipn (nsnow c (g_nodes g)) (g_nodes g))) /\
    Forall2 (empirical_step c dt) (firstn (nsnow c (g_nodes g)) (g_nodes g)) top.
Proof. exact empirical_exact_lem. Qed.
Print Assumptions empirical_exact.

(** C60.  The empirical scheme turns the whole density of a light layer, water and air
    included, into ice and leaves the water where it is: however short the step, the
    density of a wet layer jumps by the weight of its water. *)
Theorem empirical_density_jump :
  forall (c : Consts) (g : Grid) (dt : R),
  constants_ok c -> 0 < dt -> counted g -> layers_ok (g_nodes g) ->
  exists g', method_empirical c g dt = Ok g' /\
    Forall2 (fun x x' => layer_density c x < 600 ->
               n_lwc x' = n_lwc x /\ layer_density c x + c_water_density c * n_lwc x <= layer_density c x')
      (firstn (nsnow c (g_nodes g)) (g_nodes g)) (firstn (nsnow c (g_nodes g)) (g_nodes g')) /\
    Forall2 (fun x x' => n_temperature x' = n_temperature x /\ n_refreeze x' = n_refreeze x /\
                         n_lwc x' = n_lwc x /\ (600 <= layer_density c x -> x' = x))
      (g_nodes g) (g_nodes g') /\
    skipn (nsnow c (g_nodes g)) (g_nodes g') = skipn (nsnow c (g_nodes g)) (g_nodes g) /\
    counted g' /\ same_clock g g'.
Proof. exact empirical_density_jump_lem. Qed.
Print Assumptions empirical_density_jump.

(** C60.  Mass conservation is therefore refuted: one hour of empirical compaction increases
    the mass of a wet snow layer by more than a quarter. *)
Theorem empirical_creates_mass_refuted :
  exists (g g' : Grid) (dt : R), counted g /\ layers_ok (g_nodes g) /\ dt = 3600 /\
    method_empirical default_constants g dt = Ok g' /\
    1.25 * column_mass default_constants (g_nodes g) < column_mass default_constants (g_nodes g').
Proof. exact empirical_creates_mass_refuted_lem. Qed.
Print Assumptions empirical_creates_mass_refuted.

(** C25.  Densification leaves the grid alone with the method "constant" and raises
    ValueError for every unknown method. *)
Theorem densification_dispatch :
  forall (c : Consts) (g : Grid) (slope dt : R),
  (c_densification_method c = "Boone"%string -> densification c g slope dt = method_Boone c g dt) /\
  (c_densification_method c = "Vionnet"%string -> densification c g slope dt = method_Vionnet c g slope dt) /\
  (c_densification_method c = "empirical"%string -> densification c g slope dt = method_empirical c g dt) /\
  (c_densification_method c = "constant"%string -> densification c g slope dt = Ok g) /\
  (~ In (c_densification_method c) ["Boone"; "Vionnet"; "empirical"; "constant"]%string ->
   densification c g slope dt = Err ValueError).
Proof. exact densification_dispatch_lem. Qed.
Print Assumptions densification_dispatch.

(** The hypotheses hold for a snow pack of wet fresh snow and dry snow over ice, with
    both snow layers compactable and an hourly step small enough. *)
Example densification_case :
  counted ex_dens_grid /\ layers_ok (g_nodes ex_dens_grid) /\
  nsnow default_constants (g_nodes ex_dens_grid) = 2%nat /\
  Forall (compactable default_constants) (firstn 2 (g_nodes ex_dens_grid)) /\
  Forall (fun n => n_temperature n <= c_zero_temperature default_constants) (g_nodes ex_dens_grid) /\
  (1.5 * column_weight default_constants (firstn 2 (g_nodes ex_dens_grid)) * 9.81 / 3.7e7 + 2.8e-6) * 3600 < 1.
Proof. exact densification_case_lem. Qed.
