(** * Percolation and refreezing (C18-C21)

    Theorems only; the proofs are in LemFinWater.v and the files it uses. *)

From Verif Require Import ModelPy ModelConstants ModelNode ModelGrid ModelWater Spec.
From Verif Require Import LemFinWater.

(** C18.  Percolation never fails on a column with positive heights and ice contents.
    The water put on top plus the water stored before equals the water stored
    after plus the runoff; of every layer only the water content changes; the
    number of layers and the fresh-snow clock stay. *)
Theorem percolation_conserves_water :
  forall (g : Grid) (water : R),
  counted g -> column_ok (g_nodes g) -> g_nodes g <> [] ->
  exists g' runoff,
    percolation g water = Ok (g', runoff) /\
    column_water (g_nodes g) + water = column_water (g_nodes g') + runoff /\
    Forall2 only_lwc (g_nodes g) (g_nodes g') /\
    column_ice (g_nodes g') = column_ice (g_nodes g) /\
    column_height (g_nodes g') = column_height (g_nodes g) /\
    column_heat (g_nodes g') = column_heat (g_nodes g) /\
    counted g' /\ g_number_nodes g' = g_number_nodes g /\ same_clock g g'.
Proof. exact percolation_conserves_water_lem. Qed.
Print Assumptions percolation_conserves_water.

(** C18,C19.  Percolation is exactly the bucket scheme: from the top down every layer but the
    last keeps what it has and receives up to its irreducible water content and
    passes the rest on; the last layer passes on everything, which is the runoff. *)
Theorem percolation_is_bucket_scheme :
  forall (g : Grid) (water : R),
  counted g -> column_ok (g_nodes g) -> g_nodes g <> [] ->
  exists g' runoff,
    percolation g water = Ok (g', runoff) /\
    bucket water (g_nodes g) (g_nodes g') runoff.
Proof. exact percolation_is_bucket_scheme_lem. Qed.
Print Assumptions percolation_is_bucket_scheme.

(** C19.  After percolation every layer but the last holds at most its irreducible water
    content and the last layer holds none; with non-negative input no layer's water
    and no runoff is negative. *)
Theorem percolation_leaves_irreducible_water :
  forall (g g' : Grid) (water runoff : R),
  counted g -> column_ok (g_nodes g) -> percolation g water = Ok (g', runoff) ->
  (exists upper last, g_nodes g' = upper ++ [last] /\ n_lwc last = 0 /\
     Forall (fun n => n_lwc n <= irreducible_content (n_ice n)) upper) /\
  (wet_column (g_nodes g) -> 0 <= water ->
     Forall (fun n => 0 <= n_lwc n) (g_nodes g') /\ 0 <= runoff).
Proof. exact percolation_leaves_irreducible_water_lem. Qed.
Print Assumptions percolation_leaves_irreducible_water.

(** C19.  Where no layer holds more than its irreducible content, percolation without input
    only empties the last layer. *)
Theorem percolation_at_rest :
  forall (g : Grid) (upper : list Node) (last : Node),
  counted g -> column_ok (g_nodes g) -> g_nodes g = upper ++ [last] ->
  Forall (fun n => n_lwc n <= irreducible_content (n_ice n)) upper ->
  exists g', percolation g 0 = Ok (g', n_lwc last * n_height last) /\
    g_nodes g' = upper ++ [set_layer_lwc 0 last] /\ same_clock g g'.
Proof. exact percolation_at_rest_lem. Qed.
Print Assumptions percolation_at_rest.

(** the example column meets the hypotheses, and water does run through it *)
Example percolation_example :
  counted ex_water_grid /\ column_ok (g_nodes ex_water_grid) /\ wet_column (g_nodes ex_water_grid) /\
  g_nodes ex_water_grid <> [] /\
  irreducible_content (n_ice ex_w1) < n_lwc ex_w1.
Proof. exact percolation_example_lem. Qed.

(** C20.  Refreezing succeeds on every column with fractions in range that is not absurdly
    cold.  In every layer the mass of ice plus water is unchanged, as is the height;
    the layer's diagnostic is the water that froze in it; the returned amount is the
    column's loss of liquid water. *)
Theorem refreezing_conserves_mass :
  forall (c : Consts) (g : Grid),
  constants_ok c -> counted g -> freezing_column c (g_nodes g) ->
  exists g' refrozen,
    refreezing c g = Ok (g', refrozen) /\
    Forall2 (fun x x' =>
      n_height x' = n_height x /\
      c_ice_density c * n_ice x' + c_water_density c * n_lwc x'
        = c_ice_density c * n_ice x + c_water_density c * n_lwc x /\
      n_refreeze x' = (n_lwc x - n_lwc x') * n_height x) (g_nodes g) (g_nodes g') /\
    column_mass c (g_nodes g') = column_mass c (g_nodes g) /\
    column_height (g_nodes g') = column_height (g_nodes g) /\
    refrozen = column_water (g_nodes g) - column_water (g_nodes g') /\
    refrozen = total n_refreeze (g_nodes g') /\
    counted g' /\ same_clock g g'.
Proof. exact refreezing_conserves_mass_lem. Qed.
Print Assumptions refreezing_conserves_mass.

(** C21.  In every layer refreezing keeps the water non-negative, does not reduce the ice,
    does not raise the ice fraction above the larger of its old value and the pore
    close-off fraction, does not cool, and does not warm a layer at or below the
    melting temperature past it; layers above the melting temperature are untouched. *)
Theorem refreezing_stays_frozen :
  forall (c : Consts) (g : Grid),
  constants_ok c -> counted g -> freezing_column c (g_nodes g) ->
  exists g' refrozen,
    refreezing c g = Ok (g', refrozen) /\ 0 <= refrozen /\
    Forall2 (fun x x' =>
      0 <= n_lwc x' <= n_lwc x /\
      n_ice x <= n_ice x' <= Rmax (n_ice x) (close_off c) /\
      n_ice x' <= 1 /\
      n_temperature x <= n_temperature x' /\
      (n_temperature x <= c_zero_temperature c -> n_temperature x' <= c_zero_temperature c) /\
      (c_zero_temperature c < n_temperature x ->
         n_temperature x' = n_temperature x /\ n_lwc x' = n_lwc x /\ n_ice x' = n_ice x))
      (g_nodes g) (g_nodes g').
Proof. exact refreezing_stays_frozen_lem. Qed.
Print Assumptions refreezing_stays_frozen.

(** C21.  Refreezing alone can overfill a layer, because ice takes more room than the water
    it comes from: a saturated layer at 263.16 K holds more than 100 % ice plus water
    afterwards. *)
Theorem refreezing_fits_refuted :
  exists (g g' : Grid) (q : R) (x' : Node),
    constants_ok default_constants /\ counted g /\
    freezing_column default_constants (g_nodes g) /\
    refreezing default_constants g = Ok (g', q) /\ g_nodes g' = [x'] /\
    1 < n_ice x' + n_lwc x'.
Proof. exact refreezing_fits_refuted_lem. Qed.
Print Assumptions refreezing_fits_refuted.

(** C21.  In the order of the time step, percolation followed by refreezing, this cannot
    happen: as long as every layer is at least 5 % ice, neither step fails and
    afterwards every layer has its fractions in range. *)
Theorem percolation_then_refreezing_fits :
  forall (c : Consts) (g : Grid) (water : R),
  constants_ok c -> 11 * c_water_density c <= 12 * c_ice_density c ->
  counted g -> g_nodes g <> [] -> 0 <= water ->
  Forall (fun n => 0 < n_height n /\ 0.05 <= n_ice n <= 1 /\ 0 <= n_lwc n /\ cold_ok c n)
    (g_nodes g) ->
  exists g1 runoff g2 refrozen,
    percolation g water = Ok (g1, runoff) /\ refreezing c g1 = Ok (g2, refrozen) /\
    0 <= runoff /\ 0 <= refrozen /\
    Forall fractions_ok (g_nodes g1) /\ Forall fractions_ok (g_nodes g2) /\
    column_mass c (g_nodes g2) + c_water_density c * runoff
      = column_mass c (g_nodes g) + c_water_density c * water.
Proof. exact percolation_then_refreezing_fits_lem. Qed.
Print Assumptions percolation_then_refreezing_fits.

(** the example column meets the hypotheses; its second layer is cold and wet *)
Example refreezing_example :
  constants_ok default_constants /\ 11 * c_water_density default_constants <= 12 * c_ice_density default_constants /\
  freezing_column default_constants (g_nodes ex_water_grid) /\
  Forall (fun n => 0 < n_height n /\ 0.05 <= n_ice n <= 1 /\ 0 <= n_lwc n /\ cold_ok default_constants n)
    (g_nodes ex_water_grid) /\
  0 < freezable default_constants ex_w2.
Proof. exact refreezing_example_lem. Qed.
