(** * Properties of the layer grid (C01-C16, C56)

    Theorems only; the proofs are in LemFinGrid.v and the files it uses. *)

From Verif Require Import ModelPy ModelConstants ModelNode ModelGrid Spec.
From Verif Require Import LemFinGrid.

(** C01.  Merging layer i with the layer below it succeeds for every valid index, removes
    exactly one layer, conserves height, ice, water and heat, gives a layer whose
    fractions and temperature lie between those of the two layers, and touches
    nothing else. *)
Theorem merge_nodes_conserves_column :
  forall (g : Grid) (i : Z),
  positive_heights (g_nodes g) ->
  (0 <= i < Z.of_nat (length (g_nodes g)) - 1)%Z ->
  exists g' above a b m below,
    merge_nodes g i = Ok g' /\
    g_nodes g = above ++ a :: b :: below /\ Z.of_nat (length above) = i /\
    g_nodes g' = above ++ m :: below /\
    merger a b m /\
    between (n_temperature m) (n_temperature a) (n_temperature b) /\
    between (n_ice m) (n_ice a) (n_ice b) /\
    between (n_lwc m) (n_lwc a) (n_lwc b) /\
    conserved (g_nodes g) (g_nodes g') /\
    g_number_nodes g' = (g_number_nodes g - 1)%Z /\ same_clock g g'.
Proof. exact merge_nodes_conserves_column_lem. Qed.
Print Assumptions merge_nodes_conserves_column.

(** the hypotheses are met by a concrete case *)
Example merge_nodes_conserves_column_ex :
  positive_heights (g_nodes ex_grid) /\ (0 <= 1 < Z.of_nat (length (g_nodes ex_grid)) - 1)%Z.
Proof. exact merge_nodes_conserves_column_ex_lem. Qed.

(** C02.  Out of range indices raise IndexError. *)
Theorem merge_nodes_index_error :
  forall (g : Grid) (i : Z),
  (Z.of_nat (length (g_nodes g)) - 1 <= i \/ i < - Z.of_nat (length (g_nodes g)))%Z ->
  i <> (-1)%Z ->
  merge_nodes g i = Err IndexError.
Proof. exact merge_nodes_index_error_lem. Qed.
Print Assumptions merge_nodes_index_error.

(** C02.  Index -1 is accepted: it merges the bottom layer with the surface layer and
    puts the result at the bottom. *)
Theorem merge_nodes_minus_one_wraps :
  forall (g : Grid) (top bottom : Node) (mid : list Node),
  g_nodes g = top :: mid ++ [bottom] -> 0 < n_height top -> 0 < n_height bottom ->
  exists g' m, merge_nodes g (-1) = Ok g' /\ merger bottom top m /\ g_nodes g' = mid ++ [m].
Proof. exact merge_nodes_minus_one_wraps_lem. Qed.
Print Assumptions merge_nodes_minus_one_wraps.

(** C02.  On a single-layer grid index -1 merges the layer with itself and then
    deletes it: the grid is empty afterwards. *)
Theorem merge_nodes_minus_one_single :
  forall (g : Grid) (a : Node),
  g_nodes g = [a] -> n_height a <> 0 ->
  exists g', merge_nodes g (-1) = Ok g' /\ g_nodes g' = [].
Proof. exact merge_nodes_minus_one_single_lem. Qed.
Print Assumptions merge_nodes_minus_one_single.

(** the hypotheses are met by a concrete case *)
Example merge_nodes_minus_one_ex :
  g_nodes ex_grid = ex_wet :: [ex_dry] ++ [ex_ice] /\ 0 < n_height ex_wet /\ 0 < n_height ex_ice.
Proof. exact merge_nodes_minus_one_ex_lem. Qed.

(** C03.  In every state reachable from a constructed grid by public operations that do
    not raise, the layer counter equals the number of stored layers. *)
Theorem layer_counter_invariant :
  forall fuel c rows nsh nst ost ops g',
  run_ops fuel c (new_grid c rows nsh nst ost) ops = Ok g' ->
  get_number_layers g' = Z.of_nat (length (g_nodes g')).
Proof. exact layer_counter_invariant_lem. Qed.
Print Assumptions layer_counter_invariant.

(** C03.  The same from every state in which the counter is right. *)
Theorem layer_counter_preserved :
  forall fuel c g ops g', counted g -> run_ops fuel c g ops = Ok g' -> counted g'.
Proof. exact layer_counter_preserved_lem. Qed.
Print Assumptions layer_counter_preserved.

(** C03.  Calling init_grid again on a constructed grid always breaks the counter. *)
Theorem layer_counter_init_twice_refuted :
  forall c rows nsh nst ost,
  rows <> [] ->
  get_number_layers (init_grid c rows (new_grid c rows nsh nst ost))
  <> Z.of_nat (length (g_nodes (init_grid c rows (new_grid c rows nsh nst ost)))).
Proof. exact layer_counter_init_twice_refuted_lem. Qed.
Print Assumptions layer_counter_init_twice_refuted.

(** a run of several operations that does not raise *)
Example layer_counter_ex :
  exists g',
  run_ops 10 default_constants
    (new_grid default_constants
       [mkLayer 0.1 300 270 0 None; mkLayer 0.2 400 268 0 None] None None None)
    [OpAddSnow 0.05 100 272 0 3600; OpMerge 1; OpRemove (Some [0%Z])] = Ok g' /\
  get_number_layers g' = 1%Z.
Proof. exact layer_counter_ex_lem. Qed.

(** C04.  correct_layer(i, h): the layers above i are untouched; layer i absorbs layers
    of its own class from below while it is thinner than h; if it is then thicker
    than h it is split into a layer of exactly h and a rest; it stays thinner than
    h only at the bottom or above a layer of the other class. *)
Theorem correct_layer_resizes :
  forall fuel c g i h,
  counted g -> column_ok (g_nodes g) -> 0 < h ->
  (0 <= i < Z.of_nat (length (g_nodes g)))%Z ->
  (length (g_nodes g) < fuel)%nat ->
  exists g' above a taken rest m out,
    correct_layer fuel c g i h = Ok g' /\
    g_nodes g = above ++ a :: taken ++ rest /\ Z.of_nat (length above) = i /\
    g_nodes g' = above ++ out ++ rest /\
    absorbs c h a taken m /\
    ((h < n_height m /\ exists x0 x1, out = [x0; x1] /\ parts h m x0 x1)
     \/ (n_height m = h /\ out = [m])
     \/ (n_height m < h /\ out = [m] /\
         (rest = [] \/ exists y t, rest = y :: t /\ ~ same_class c m y))) /\
    conserved (g_nodes g) (g_nodes g') /\ counted g' /\ same_clock g g'.
Proof. exact correct_layer_resizes_lem. Qed.
Print Assumptions correct_layer_resizes.

(** C04.  Indices outside the column raise IndexError. *)
Theorem correct_layer_index_error :
  forall fuel c g i h,
  (Z.of_nat (length (g_nodes g)) <= i \/ i < - Z.of_nat (length (g_nodes g)))%Z ->
  correct_layer fuel c g i h = Err IndexError.
Proof. exact correct_layer_index_error_lem. Qed.
Print Assumptions correct_layer_index_error.

(** the hypotheses are met by a concrete case *)
Example correct_layer_ex :
  counted ex_grid /\ column_ok (g_nodes ex_grid) /\ 0 < 0.12 /\
  (0 <= 0 < Z.of_nat (length (g_nodes ex_grid)))%Z /\ (length (g_nodes ex_grid) < 10)%nat /\
  same_class default_constants ex_wet ex_dry.
Proof. exact correct_layer_ex_lem. Qed.

(** C04.  Finding: the part of the water that goes to the upper part is not limited by its
    pore space; splitting a saturated thick layer yields a layer with more than 100 %
    liquid water. *)
Theorem correct_layer_overfills_refuted :
  exists fuel c g h g' x rest,
  column_ok (g_nodes g) /\ counted g /\
  Forall fractions_ok (g_nodes g) /\
  correct_layer fuel c g 0 h = Ok g' /\ g_nodes g' = x :: rest /\ 1 < n_lwc x.
Proof. exact correct_layer_overfills_refuted_lem. Qed.
Print Assumptions correct_layer_overfills_refuted.

(** C05.  Logarithmic remeshing terminates for every column of layers with positive
    height and ice content; whenever a layer is left, height, ice, water and heat are
    conserved; a layer is left whenever the column is at least as high as the first
    layer and as the stretched snow height. *)
Theorem log_profile_conserves_column :
  forall c g,
  0 < c_first_layer_height c -> 1 <= c_layer_stretching c ->
  counted g -> column_ok (g_nodes g) ->
  exists N, forall fuel, (N <= fuel)%nat -> exists g',
    log_profile fuel c g = Ok g' /\ counted g' /\ same_clock g g' /\ column_ok (g_nodes g') /\
    (g_nodes g' <> [] -> conserved (g_nodes g) (g_nodes g')) /\
    (g_nodes g <> [] -> c_first_layer_height c <= column_height (g_nodes g) ->
     c_layer_stretching c * reported_snow c (g_nodes g) <= column_height (g_nodes g) ->
     g_nodes g' <> []).
Proof. exact log_profile_conserves_column_lem. Qed.
Print Assumptions log_profile_conserves_column.

(** the hypotheses are met by a concrete case *)
Example log_profile_ex :
  0 < c_first_layer_height default_constants /\ 1 <= c_layer_stretching default_constants /\
  counted ex_grid /\ column_ok (g_nodes ex_grid) /\ g_nodes ex_grid <> [] /\
  c_first_layer_height default_constants <= column_height (g_nodes ex_grid) /\
  c_layer_stretching default_constants * reported_snow default_constants (g_nodes ex_grid)
  <= column_height (g_nodes ex_grid).
Proof. exact log_profile_ex_lem. Qed.

(** C05.  Finding: a single bare-ice layer thinner than the first layer height is merged
    with itself (index -1) and deleted: the whole column vanishes. *)
Theorem log_profile_deletes_thin_ice_refuted :
  exists g g' fuel,
  counted g /\ column_ok (g_nodes g) /\ 0 < column_height (g_nodes g) /\
  log_profile fuel default_constants g = Ok g' /\ g_nodes g' = [] /\
  update_grid fuel default_constants g = Err IndexError.
Proof. exact log_profile_deletes_thin_ice_refuted_lem. Qed.
Print Assumptions log_profile_deletes_thin_ice_refuted.

(** C06.  With the log profile, update_grid conserves the column, or exactly one surface
    layer thinner than the minimum layer height is missing. *)
Theorem update_grid_log_conserves :
  forall c g,
  c_remesh_method c = "log_profile"%string ->
  0 < c_first_layer_height c -> 1 <= c_layer_stretching c ->
  counted g -> column_ok (g_nodes g) -> g_nodes g <> [] ->
  c_first_layer_height c <= column_height (g_nodes g) ->
  c_layer_stretching c * reported_snow c (g_nodes g) <= column_height (g_nodes g) ->
  exists N, forall fuel, (N <= fuel)%nat -> exists g',
    update_grid fuel c g = Ok g' /\ counted g' /\ same_clock g g' /\ column_ok (g_nodes g') /\
    (conserved (g_nodes g) (g_nodes g') \/
     exists dropped, n_height dropped < c_minimum_snow_layer_height c /\
       conserved (g_nodes g) (dropped :: g_nodes g')).
Proof. exact update_grid_log_conserves_lem. Qed.
Print Assumptions update_grid_log_conserves.

(** C06.  For every column: the profile is found in a bounded number of passes. If it has no layer, update_grid raises.
    Otherwise it conserves the column, and it is the new column, without its top layer exactly if this is thinner
    than the minimum layer height. *)
Theorem update_grid_log_every_column :
  forall c g,
  c_remesh_method c = "log_profile"%string ->
  0 < c_first_layer_height c -> 1 <= c_layer_stretching c ->
  counted g -> column_ok (g_nodes g) ->
  exists N, forall fuel, (N <= fuel)%nat ->
    (update_grid fuel c g = Err IndexError /\
     (g_nodes g = [] \/ column_height (g_nodes g) < c_first_layer_height c \/
      column_height (g_nodes g) < c_layer_stretching c * reported_snow c (g_nodes g))) \/
    exists g' top below, update_grid fuel c g = Ok g' /\ conserved (g_nodes g) (top :: below) /\
      column_ok (top :: below) /\ counted g' /\ same_clock g g' /\
      (c_minimum_snow_layer_height c <= n_height top -> g_nodes g' = top :: below) /\
      (n_height top < c_minimum_snow_layer_height c -> g_nodes g' = below).
Proof. exact update_grid_log_every_column_lem. Qed.
Print Assumptions update_grid_log_every_column.

(** C06.  With any other remeshing name update_grid only drops a too-thin surface layer. *)
Theorem update_grid_other :
  forall fuel c g top below,
  c_remesh_method c <> "log_profile"%string -> c_remesh_method c <> "adaptive_profile"%string ->
  g_nodes g = top :: below ->
  exists g', update_grid fuel c g = Ok g' /\
    (c_minimum_snow_layer_height c <= n_height top -> g' = g) /\
    (n_height top < c_minimum_snow_layer_height c -> g_nodes g' = below /\
       g_number_nodes g' = (g_number_nodes g - 1)%Z /\ same_clock g g').
Proof. exact update_grid_other_lem. Qed.
Print Assumptions update_grid_other.

(** C07.  The number of similarity merges in one adaptive remeshing never exceeds merge_max + 1. *)
Theorem adaptive_merges_bounded :
  forall fuel c g g' i merges,
  (0 <= c_merge_max c)%Z -> adaptive_snow fuel c g = Ok (g', i, merges) ->
  (0 <= merges <= c_merge_max c + 1)%Z.
Proof. exact adaptive_merges_bounded_lem. Qed.
Print Assumptions adaptive_merges_bounded.

(** C07.  The documented limit merge_max is exceeded: with the shipped constants
    (merge_max = 1) a column loses two layers by merging. *)
Theorem adaptive_merge_limit_refuted :
  exists fuel g g' i merges,
  adaptive_snow fuel default_constants g = Ok (g', i, merges) /\
  conserved (g_nodes g) (g_nodes g') /\
  (c_merge_max default_constants < merges)%Z /\
  (c_merge_max default_constants < Z.of_nat (length (g_nodes g)) - Z.of_nat (length (g_nodes g')))%Z.
Proof. exact adaptive_merge_limit_refuted_lem. Qed.
Print Assumptions adaptive_merge_limit_refuted.

(** C08.  split_node halves the height of a layer and keeps its temperature and ice
    fraction; height, ice and heat of the column are conserved and exactly half of
    the layer's liquid water is lost. *)
Theorem split_node_effect :
  forall c g i,
  (0 <= i < Z.of_nat (length (g_nodes g)))%Z ->
  exists g' above x x0 x1 below,
    split_node c g i = Ok g' /\
    g_nodes g = above ++ x :: below /\ Z.of_nat (length above) = i /\
    g_nodes g' = above ++ x0 :: x1 :: below /\
    n_height x0 = n_height x / 2 /\ n_height x1 = n_height x / 2 /\
    n_temperature x0 = n_temperature x /\ n_temperature x1 = n_temperature x /\
    n_ice x0 = n_ice x /\ n_ice x1 = n_ice x /\
    column_height (g_nodes g') = column_height (g_nodes g) /\
    column_ice (g_nodes g') = column_ice (g_nodes g) /\
    column_heat (g_nodes g') = column_heat (g_nodes g) /\
    column_water (g_nodes g') = column_water (g_nodes g) - n_lwc x * n_height x / 2 /\
    g_number_nodes g' = (g_number_nodes g + 1)%Z /\ same_clock g g'.
Proof. exact split_node_effect_lem. Qed.
Print Assumptions split_node_effect.

(** C08.  Hence splitting a wet layer does not conserve water. *)
Theorem split_node_conserves_refuted :
  exists c g i g',
  counted g /\ column_ok (g_nodes g) /\ split_node c g i = Ok g' /\
  column_water (g_nodes g') < column_water (g_nodes g).
Proof. exact split_node_conserves_refuted_lem. Qed.
Print Assumptions split_node_conserves_refuted.

(** C09.  merge_snow_with_glacier replaces a snow layer and the ice layer below it by one
    layer with the ice layer's temperature and ice fraction and no water; the weight is
    conserved if the ice layer is pure and dry. *)
Theorem merge_snow_with_glacier_effect :
  forall c g above snow ice below,
  c_ice_density c <> 0 ->
  g_nodes g = above ++ snow :: ice :: below -> is_snow c snow -> ~ is_snow c ice ->
  exists g' m,
    merge_snow_with_glacier c g (Z.of_nat (length above)) = Ok g' /\
    g_nodes g' = above ++ m :: below /\
    n_temperature m = n_temperature ice /\ n_ice m = n_ice ice /\ n_lwc m = 0 /\
    n_height m = n_height ice + n_height snow * layer_density c snow / c_ice_density c /\
    (n_ice ice = 1 -> n_lwc ice = 0 ->
     column_weight c (g_nodes g') = column_weight c (g_nodes g)).
Proof. exact merge_snow_with_glacier_effect_lem. Qed.
Print Assumptions merge_snow_with_glacier_effect.

(** C09.  The water of the ice layer is lost. *)
Theorem merge_snow_with_glacier_refuted :
  exists g g',
  counted g /\ column_ok (g_nodes g) /\ Forall fractions_ok (g_nodes g) /\
  merge_snow_with_glacier default_constants g 0 = Ok g' /\
  column_mass default_constants (g_nodes g') < column_mass default_constants (g_nodes g).
Proof. exact merge_snow_with_glacier_refuted_lem. Qed.
Print Assumptions merge_snow_with_glacier_refuted.

(** C10.  remove_node with distinct valid indices deletes exactly the layers at these
    positions and keeps the others in order. *)
Theorem remove_node_exactly :
  forall g ids,
  NoDup ids -> ids <> [] ->
  Forall (fun i => (0 <= i < Z.of_nat (length (g_nodes g)))%Z) ids ->
  exists g', remove_node g (Some ids) = Ok g' /\
    g_nodes g' = without ids (g_nodes g) /\
    g_number_nodes g' = (g_number_nodes g - Z.of_nat (length ids))%Z /\ same_clock g g'.
Proof. exact remove_node_exactly_lem. Qed.
Print Assumptions remove_node_exactly.

(** C10.  Without indices the surface layer is removed; an empty grid is left alone. *)
Theorem remove_node_default :
  forall g ids,
  ids = None \/ ids = Some [] ->
  (g_nodes g = [] -> remove_node g ids = Ok g) /\
  (forall top below, g_nodes g = top :: below -> exists g',
     remove_node g ids = Ok g' /\ g_nodes g' = below /\
     g_number_nodes g' = (g_number_nodes g - 1)%Z /\ same_clock g g').
Proof. exact remove_node_default_lem. Qed.
Print Assumptions remove_node_default.

(** the hypotheses are met by a concrete case *)
Example remove_node_ex :
  NoDup [2%Z; 0%Z] /\
  Forall (fun i => (0 <= i < Z.of_nat (length (g_nodes ex_grid)))%Z) [2%Z; 0%Z] /\
  without [2%Z; 0%Z] (g_nodes ex_grid) = [ex_dry].
Proof. exact remove_node_ex_lem. Qed.

(** C11.  Removing melt terminates and takes exactly min(m, column) m w.e. from the
    top: either layers [gone] disappear, the next one becomes thinner and everything
    below is untouched, or the whole column melts.  The returned water is that of the
    removed layers. *)
Theorem remove_melt_exact :
  forall c g m fuel,
  0 < c_water_density c -> 0 <= m -> counted g ->
  Forall (fun n => 0 < n_height n /\ 0 < layer_density c n) (g_nodes g) ->
  (length (g_nodes g) + 2 <= fuel)%nat ->
  exists g' w, remove_melt_weq fuel c g m 0 = Ok (g', w) /\ counted g' /\
    column_weq c (g_nodes g') = column_weq c (g_nodes g) - Rmin m (column_weq c (g_nodes g)) /\
    ((exists gone x x' below,
        g_nodes g = gone ++ x :: below /\ g_nodes g' = x' :: below /\
        only_height x x' /\ 0 < n_height x' <= n_height x /\ w = column_water gone)
     \/ (g_nodes g' = [] /\ column_weq c (g_nodes g) <= m /\ w = column_water (g_nodes g))).
Proof. exact remove_melt_exact_lem. Qed.
Print Assumptions remove_melt_exact.

(** the hypotheses are met by a concrete case *)
Example remove_melt_ex :
  0 < c_water_density default_constants /\ counted ex_grid /\
  Forall (fun n => 0 < n_height n /\ 0 < layer_density default_constants n) (g_nodes ex_grid) /\
  0 < column_weq default_constants (g_nodes ex_grid).
Proof. exact remove_melt_ex_lem. Qed.

(** C12.  The tracked fresh snow height is left unchanged by every melt that does not
    consume the whole column; otherwise it is reduced by the melt that found nothing to melt. *)
Theorem fresh_snow_height_ignores_melt :
  forall c g m fuel,
  0 < c_water_density c -> 0 <= m -> counted g ->
  Forall (fun n => 0 < n_height n /\ 0 < layer_density c n) (g_nodes g) ->
  (length (g_nodes g) + 2 <= fuel)%nat ->
  exists g' w, remove_melt_weq fuel c g m 0 = Ok (g', w) /\
    (m <= column_weq c (g_nodes g) -> g_new_snow_height g' = g_new_snow_height g) /\
    (column_weq c (g_nodes g) < m ->
       g_new_snow_height g' = g_new_snow_height g - (m - column_weq c (g_nodes g)) /\ g_nodes g' = []).
Proof. exact fresh_snow_height_ignores_melt_lem. Qed.
Print Assumptions fresh_snow_height_ignores_melt.

(** C12.  So melting 5 cm of fresh snow away does not reduce the tracked fresh snow height. *)
Theorem melt_reduces_fresh_snow_refuted :
  exists g g' m w fuel,
  counted g /\ column_ok (g_nodes g) /\ 0 < m /\ 0 < g_new_snow_height g /\
  remove_melt_weq fuel default_constants g m 0 = Ok (g', w) /\
  column_height (g_nodes g') < column_height (g_nodes g) - g_new_snow_height g / 2 /\
  g_new_snow_height g' = g_new_snow_height g.
Proof. exact melt_reduces_fresh_snow_refuted_lem. Qed.
Print Assumptions melt_reduces_fresh_snow_refuted.

(** C12.  A negative amount (deposition exceeding melt) leaves every layer unchanged and
    makes the tracked fresh snow height grow. *)
Theorem negative_melt_only_raises_fresh_snow :
  forall c g m fuel,
  m < 0 -> (0 < fuel)%nat ->
  exists g', remove_melt_weq fuel c g m 0 = Ok (g', 0) /\ g_nodes g' = g_nodes g /\
    g_number_nodes g' = g_number_nodes g /\
    g_new_snow_height g < g_new_snow_height g' /\
    g_new_snow_timestamp g' = g_new_snow_timestamp g /\
    g_old_snow_timestamp g' = g_old_snow_timestamp g.
Proof. exact negative_melt_only_raises_fresh_snow_lem. Qed.
Print Assumptions negative_melt_only_raises_fresh_snow.

(** C13.  The two depth getters agree; each depth is the total height of the layers above
    plus half the own height. *)
Theorem depths_are_midpoints :
  forall g,
  counted g -> g_nodes g <> [] ->
  exists zs, get_depth g = Ok zs /\ length zs = length (g_nodes g) /\
    forall above x below, g_nodes g = above ++ x :: below ->
      nth_error zs (length above) = Some (column_height above + n_height x / 2) /\
      get_node_depth g (Z.of_nat (length above)) = Ok (column_height above + n_height x / 2).
Proof. exact depths_are_midpoints_lem. Qed.
Print Assumptions depths_are_midpoints.

(** C13.  With positive heights depths increase strictly downwards and lie inside the column. *)
Theorem depths_increase :
  forall g above x y below zx zy,
  positive_heights (g_nodes g) -> g_nodes g = above ++ x :: y :: below ->
  get_node_depth g (Z.of_nat (length above)) = Ok zx ->
  get_node_depth g (Z.of_nat (length above) + 1) = Ok zy ->
  0 < zx < zy /\ zy < column_height (g_nodes g).
Proof. exact depths_increase_lem. Qed.
Print Assumptions depths_increase.

(** C14.  When no snow lies below ice the getters report exactly the snow. *)
Theorem snow_getters_report_snow :
  forall c g snow ice,
  counted g -> g_nodes g = snow ++ ice -> snow_over_ice c snow ice ->
  get_number_snow_layers c g = Ok (Z.of_nat (length snow)) /\
  get_snow_heights c g = Ok (map n_height snow) /\
  get_total_snowheight c g = Ok (column_height snow) /\
  get_ice_heights c g = Ok (map n_height ice).
Proof. exact snow_getters_report_snow_lem. Qed.
Print Assumptions snow_getters_report_snow.

(** the hypotheses are met by a concrete case *)
Example snow_getters_ex :
  counted ex_grid /\ g_nodes ex_grid = [ex_wet; ex_dry] ++ [ex_ice] /\
  snow_over_ice default_constants [ex_wet; ex_dry] [ex_ice].
Proof. exact snow_getters_ex_lem. Qed.

(** C14.  With an ice lens on top of snow the reported snow height is the height of the
    lens, not of the snow. *)
Theorem buried_snow_misreported_refuted :
  exists g h,
  counted g /\ column_ok (g_nodes g) /\
  get_total_snowheight default_constants g = Ok h /\
  h <> total n_height (filter (fun n => Rltb (layer_density default_constants n) 900) (g_nodes g)).
Proof. exact buried_snow_misreported_refuted_lem. Qed.
Print Assumptions buried_snow_misreported_refuted.

(** C15.  The density a dry layer reports differs from the density it was created with by
    at most air_density^2/ice_density, is never smaller, and is equal only for pure ice. *)
Theorem density_round_trip :
  forall c h rho t,
  0 < c_ice_density c -> 0 < c_air_density c -> 0 <= rho <= c_ice_density c ->
  c_air_density c <= c_ice_density c ->
  let d := layer_density c (new_node c h rho t 0 None) in
  rho <= d <= rho + c_air_density c * c_air_density c / c_ice_density c /\
  (d = rho <-> rho = c_ice_density c).
Proof. exact density_round_trip_lem. Qed.
Print Assumptions density_round_trip.

(** the hypotheses are met by a concrete case *)
Example density_round_trip_ex :
  0 < c_ice_density default_constants /\ 0 < c_air_density default_constants /\
  0 <= 300 <= c_ice_density default_constants /\
  c_air_density default_constants <= c_ice_density default_constants.
Proof. exact density_round_trip_ex_lem. Qed.

(** C16.  add_fresh_snow puts one dry layer on top, keeps all others, counts it, and adds
    the weight height*density up to the density round-trip error. *)
Theorem add_fresh_snow_effect :
  forall c g h rho t dt,
  0 < c_ice_density c -> 0 < c_air_density c -> 0 <= rho <= c_ice_density c ->
  c_air_density c <= c_ice_density c -> 0 <= h ->
  let g' := add_fresh_snow c g h rho t 0 dt in
  exists top, g_nodes g' = top :: g_nodes g /\
    n_height top = h /\ n_temperature top = t /\ n_lwc top = 0 /\ n_refreeze top = 0 /\
    g_number_nodes g' = (g_number_nodes g + 1)%Z /\
    h * rho <= column_weight c (g_nodes g') - column_weight c (g_nodes g)
    <= h * (rho + c_air_density c * c_air_density c / c_ice_density c) /\
    (c_minimum_snowfall c <= h ->
       g_new_snow_height g' = h /\ g_new_snow_timestamp g' = 0 /\
       g_old_snow_timestamp g' = g_new_snow_timestamp g) /\
    (h < c_minimum_snowfall c ->
       g_new_snow_height g' = g_new_snow_height g /\
       g_new_snow_timestamp g' = g_new_snow_timestamp g + dt /\
       g_old_snow_timestamp g' = g_old_snow_timestamp g + dt).
Proof. exact add_fresh_snow_effect_lem. Qed.
Print Assumptions add_fresh_snow_effect.

(** C56.  Adaptive remeshing terminates on every admissible column; what is missing
    afterwards is a list of layers each no thicker than the minimum layer height;
    the only failure is an IndexError on a column that has shrunk to one layer
    thinner than the first layer height. *)
Theorem adaptive_profile_loses_only_thin_layers :
  forall c g fuel,
  0 < c_first_layer_height c ->
  counted g -> column_ok (g_nodes g) -> g_nodes g <> [] ->
  (length (g_nodes g) + 2 < fuel)%nat ->
  (exists g' removed, adaptive_profile fuel c g = Ok g' /\ counted g' /\ same_clock g g' /\
     column_ok (g_nodes g') /\ g_nodes g' <> [] /\
     Forall (fun n => 0 < n_height n <= c_minimum_snow_layer_height c) removed /\
     conserved (g_nodes g) (removed ++ g_nodes g'))
  \/ (adaptive_profile fuel c g = Err IndexError /\
      exists removed x,
        Forall (fun n => 0 < n_height n <= c_minimum_snow_layer_height c) removed /\
        n_height x < c_first_layer_height c /\ conserved (g_nodes g) (removed ++ [x])).
Proof. exact adaptive_profile_loses_only_thin_layers_lem. Qed.
Print Assumptions adaptive_profile_loses_only_thin_layers.

(** C56.  Removing thin layers loses mass: adaptive remeshing does not conserve the column
    in general. *)
Theorem adaptive_profile_conserves_refuted :
  exists g g' i k fuel,
  counted g /\ column_ok (g_nodes g) /\
  adaptive_snow fuel default_constants g = Ok (g', i, k) /\
  column_ice (g_nodes g') < column_ice (g_nodes g).
Proof. exact adaptive_profile_conserves_refuted_lem. Qed.
Print Assumptions adaptive_profile_conserves_refuted.
