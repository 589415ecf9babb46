(** * The order of merging does not matter, and what merging does to the heat (C129)

    Theorems only; the proofs are in LemFinMerging.v and the files it uses. *)

From Verif Require Import ModelPy ModelConstants ModelNode ModelGrid Spec.
From Verif Require Import LemFinMerging.

(** C129.  However the neighbouring layers of a column are merged, the layers that are left depend only on their heights: two runs of merges that leave the same heights leave the same column, with the same temperatures, ice, water and refreezing, the same count and the same clock. *)
Theorem merged_heights_decide :
  forall (positions positions' : list Z) (g g1 g2 : Grid),
    positive_heights (g_nodes g) -> Forall (fun i => 0 <= i)%Z positions -> Forall (fun i => 0 <= i)%Z positions' ->
    merges positions g = Ok g1 -> merges positions' g = Ok g2 ->
    map n_height (g_nodes g1) = map n_height (g_nodes g2) ->
    g1 = g2.
Proof. exact merged_heights_decide_lem. Qed.
Print Assumptions merged_heights_decide.

(** C129.  Merging at two places commutes.  Merging layer j+1 with the layer below it and then layer i with the layer below it (i at most j) succeeds and gives the same column as merging at i first, after which the other pair has moved up to j; for i = j these are the two ways to merge three neighbours into one. *)
Theorem merging_commutes :
  forall (g : Grid) (i j : Z),
    positive_heights (g_nodes g) -> (0 <= i <= j)%Z -> (j + 2 < Z.of_nat (length (g_nodes g)))%Z ->
    exists g', merges [(j + 1)%Z; i] g = Ok g' /\ merges [i; j] g = Ok g' /\
      (length (g_nodes g') + 2 = length (g_nodes g))%nat.
Proof. exact merging_commutes_lem. Qed.
Print Assumptions merging_commutes.

(** C129.  What merging does to the cold content that the column reports.  For two neighbours whose ice and water fill at most the layer, the merged layer reports the sum of both plus the product of the heights over their sum times: the difference of the heat capacities per volume times the difference of the temperatures, less the difference of the specific heats times the difference of the densities times the distance of the mean temperature from the melting point.  All other layers report what they did. *)
Theorem merging_cold_content :
  forall (c : Consts) (g : Grid) (above : list Node) (a b : Node) (below : list Node),
    g_nodes g = above ++ a :: b :: below -> 0 < n_height a -> 0 < n_height b ->
    0 <= n_ice a -> 0 <= n_lwc a -> n_ice a + n_lwc a <= 1 ->
    0 <= n_ice b -> 0 <= n_lwc b -> n_ice b + n_lwc b <= 1 ->
    exists g' m, merge_nodes g (Z.of_nat (length above)) = Ok g' /\ g_nodes g' = above ++ m :: below /\
      column_cold c (g_nodes g') = column_cold c (g_nodes g) +
        n_height a * n_height b / (n_height a + n_height b) *
        ((layer_specific_heat c a * layer_density c a - layer_specific_heat c b * layer_density c b) * (n_temperature a - n_temperature b) -
         (layer_specific_heat c a - layer_specific_heat c b) * (layer_density c a - layer_density c b) *
         (c_zero_temperature c - (n_temperature a * n_height a + n_temperature b * n_height b) / (n_height a + n_height b))).
Proof. exact merging_cold_content_lem. Qed.
Print Assumptions merging_cold_content.

(** C129.  So merging two dry layers of the same temperature below the melting point but of different ice fraction always loses cold content, although the layers have the same temperature and no ice is lost: the specific heat of a layer is weighted by volume and multiplied by the density once more. *)
Theorem merging_loses_cold :
  forall (c : Consts) (g g' : Grid) (above : list Node) (a b : Node) (below : list Node),
    c_spec_heat_air c < c_spec_heat_ice c -> c_air_density c < c_ice_density c ->
    g_nodes g = above ++ a :: b :: below -> 0 < n_height a -> 0 < n_height b ->
    n_lwc a = 0 -> n_lwc b = 0 -> 0 <= n_ice a <= 1 -> 0 <= n_ice b <= 1 -> n_ice a <> n_ice b ->
    n_temperature a = n_temperature b -> n_temperature a < c_zero_temperature c ->
    merge_nodes g (Z.of_nat (length above)) = Ok g' ->
    column_cold c (g_nodes g') < column_cold c (g_nodes g) /\
    column_ice (g_nodes g') = column_ice (g_nodes g) /\
    (exists m, g_nodes g' = above ++ m :: below /\ n_temperature m = n_temperature a).
Proof. exact merging_loses_cold_lem. Qed.
Print Assumptions merging_loses_cold.

(** C129.  Merging does not conserve the reported cold content, with the delivered constants: new snow on firn, both five degrees below the melting point. *)
Theorem merging_conserves_cold_refuted :
  exists (g g' : Grid),
    positive_heights (g_nodes g) /\ merge_nodes g 0 = Ok g' /\
    column_cold default_constants (g_nodes g') < column_cold default_constants (g_nodes g).
Proof. exact merging_conserves_cold_refuted_lem. Qed.
Print Assumptions merging_conserves_cold_refuted.

(** C129 Both orders of merging three layers succeed and satisfy the assumptions. *)
Example merging_example :
  exists (g g1 g2 : Grid),
    positive_heights (g_nodes g) /\ length (g_nodes g) = 3%nat /\ merges [1; 0]%Z g = Ok g1 /\ merges [0; 0]%Z g = Ok g2 /\
    map n_height (g_nodes g1) = map n_height (g_nodes g2).
Proof. exact merging_example_lem. Qed.
