(** * Properties of the layer grid (C01-C16, C56) *)
From Verif Require Import ModelPy ModelConstants ModelNode ModelGrid Spec LemPy LemGridBase
  LemMerge LemCorrect LemLog LemGridOps LemGridMore LemAdapt.

(** ** Concrete columns used as examples *)
(** wet snow, dry snow, glacier ice *)
Definition ex_wet : Node := mkNode 0.05 273 0.02 0.3 0.
Definition ex_dry : Node := mkNode 0.1 268 0 0.4 0.
Definition ex_ice : Node := mkNode 1 265 0 1 0.
Definition ex_grid : Grid := mkGrid [ex_wet; ex_dry; ex_ice] 3 0.05 0 7200.

Ltac compute_density :=
  unfold layer_density, layer_air_porosity; cbn;
  repeat (rewrite Rmax_right by lra || rewrite Rmax_left by lra).

Lemma ex_wet_density : layer_density default_constants ex_wet = 0.3 * 917 + 0.02 * 1000 + 0.68 * 1.1.
Proof. compute_density. lra. Qed.
Lemma ex_dry_density : layer_density default_constants ex_dry = 0.4 * 917 + 0.6 * 1.1.
Proof. compute_density. lra. Qed.
Lemma ex_ice_density : layer_density default_constants ex_ice = 917.
Proof. compute_density. lra. Qed.

Lemma ex_grid_ok : counted ex_grid /\ column_ok (g_nodes ex_grid).
Proof. split; [reflexivity|]. repeat constructor; cbn; lra. Qed.

Lemma ex_snow_over_ice : snow_over_ice default_constants [ex_wet; ex_dry] [ex_ice].
Proof.
  split; repeat constructor; unfold is_snow; rewrite ?ex_wet_density, ?ex_dry_density, ?ex_ice_density;
    cbn; lra.
Qed.

Lemma ex_reported_snow : reported_snow default_constants (g_nodes ex_grid) = 0.15.
Proof.
  unfold reported_snow. change (g_nodes ex_grid) with ([ex_wet; ex_dry] ++ [ex_ice]).
  rewrite (nsnow_split _ _ _ ex_snow_over_ice). cbn [length firstn app].
  unfold column_height; cbn; lra.
Qed.

(*@ C01 Merging layer i with the layer below it succeeds for every valid index, removes
    exactly one layer, conserves height, ice, water and heat, gives a layer whose
    fractions and temperature lie between those of the two layers, and touches
    nothing else. *)
Lemma merge_nodes_conserves_column_lem : forall (g : Grid) (i : Z),
  positive_heights (g_nodes g) ->
  (0 <= i < Z.of_nat (length (g_nodes g)) - 1)%Z ->
  exists g' above a b m below,
    merge_nodes g i = Ok g' /\
    g_nodes g = above ++ a :: b :: below /\ Z.of_nat (length above) = i /\
    g_nodes g' = above ++ m :: below /\
    merger a b m /\
    between (n_temperature m) (n_temperature a) (n_temperature b) /\
    between (n_ice m) (n_ice a) (n_ice b) /\
    between (n_lwc m) (n_lwc a) (n_lwc b) /\
    conserved (g_nodes g) (g_nodes g') /\
    g_number_nodes g' = (g_number_nodes g - 1)%Z /\ same_clock g g'.
Proof.
  intros g i Hpos Hi.
  destruct (split_at (g_nodes g) (Z.to_nat i)) as (pre & a & post & E & L); [lia|].
  destruct post as [|b post]. { rewrite E, app_length in Hi. cbn [length] in Hi. lia. }
  assert (P := Hpos). rewrite E in P. apply positive_app in P. destruct P as [_ P].
  assert (Pa := Forall_inv P). assert (Pb := Forall_inv (Forall_inv_tail P)). cbn in Pa, Pb.
  assert (M : merger a b (merged a b)) by (apply merged_merger; lra).
  assert (Hm : merge_nodes g i = Ok (with_number (with_nodes g (pre ++ merged a b :: post)) (g_number_nodes g - 1))).
  { replace i with (Z.of_nat (length pre)) by lia. apply merge_nodes_mid; [exact E|lra]. }
  exists (with_number (with_nodes g (pre ++ merged a b :: post)) (g_number_nodes g - 1)), pre, a, b, (merged a b), post.
  destruct (merger_between a b (merged a b) Pa Pb M) as (B1 & B2 & B3).
  split; [exact Hm|]. split; [exact E|]. split; [lia|]. split; [reflexivity|].
  split; [exact M|]. split; [exact B1|]. split; [exact B2|]. split; [exact B3|].
  split; [|split; [reflexivity|repeat split]].
  apply (merge_nodes_conserves g i); auto. cbn. destruct pre; discriminate.
Qed.

(*@ex *)
Lemma merge_nodes_conserves_column_ex_lem :
  positive_heights (g_nodes ex_grid) /\ (0 <= 1 < Z.of_nat (length (g_nodes ex_grid)) - 1)%Z.
Proof. split; [apply column_ok_positive, ex_grid_ok|cbn; lia]. Qed.

(*@ C02 Out of range indices raise IndexError. *)
Lemma merge_nodes_index_error_lem : forall (g : Grid) (i : Z),
  (Z.of_nat (length (g_nodes g)) - 1 <= i \/ i < - Z.of_nat (length (g_nodes g)))%Z ->
  i <> (-1)%Z ->
  merge_nodes g i = Err IndexError.
Proof. exact merge_nodes_oob. Qed.

(*@ C02 Index -1 is accepted: it merges the bottom layer with the surface layer and
    puts the result at the bottom. *)
Lemma merge_nodes_minus_one_wraps_lem : forall (g : Grid) (top bottom : Node) (mid : list Node),
  g_nodes g = top :: mid ++ [bottom] -> 0 < n_height top -> 0 < n_height bottom ->
  exists g' m, merge_nodes g (-1) = Ok g' /\ merger bottom top m /\ g_nodes g' = mid ++ [m].
Proof.
  intros g top bottom mid E Ht Hb.
  assert (E2 : g_nodes g = (top :: mid) ++ bottom :: []) by exact E.
  eexists; exists (merged bottom top).
  rewrite (merge_nodes_at g (-1) (top :: mid) bottom [] [] top (mid ++ [bottom]) E2); auto.
  - cbn [app].
    rewrite (remove_one_at _ [] top (mid ++ [merged bottom top])) by (reflexivity || (left; reflexivity)).
    split; [reflexivity|]. split; [apply merged_merger; lra|reflexivity].
  - right. rewrite E. cbn [length]. rewrite app_length. cbn [length]. lia.
  - left; reflexivity.
  - lra.
Qed.

(*@ C02 On a single-layer grid index -1 merges the layer with itself and then
    deletes it: the grid is empty afterwards. *)
Lemma merge_nodes_minus_one_single_lem : forall (g : Grid) (a : Node),
  g_nodes g = [a] -> n_height a <> 0 ->
  exists g', merge_nodes g (-1) = Ok g' /\ g_nodes g' = [].
Proof.
  intros g a E Ha.
  rewrite (merge_nodes_at g (-1) [] a [] [] a []); auto.
  - cbn [app]. rewrite (remove_one_at _ [] (merged a a) []) by (reflexivity || (left; reflexivity)).
    eexists; split; reflexivity.
  - right. rewrite E. reflexivity.
  - left; reflexivity.
  - lra.
Qed.

(*@ex *)
Lemma merge_nodes_minus_one_ex_lem :
  g_nodes ex_grid = ex_wet :: [ex_dry] ++ [ex_ice] /\ 0 < n_height ex_wet /\ 0 < n_height ex_ice.
Proof. split; [reflexivity|]; cbn; lra. Qed.

(*@ C03 In every state reachable from a constructed grid by public operations that do
    not raise, the layer counter equals the number of stored layers. *)
Lemma layer_counter_invariant_lem :
  forall fuel c rows nsh nst ost ops g',
  run_ops fuel c (new_grid c rows nsh nst ost) ops = Ok g' ->
  get_number_layers g' = Z.of_nat (length (g_nodes g')).
Proof.
  intros fuel c rows a b d ops g' H. eapply run_ops_counted; [exact H|]. apply new_grid_counted.
Qed.

(*@ C03 The same from every state in which the counter is right. *)
Lemma layer_counter_preserved_lem :
  forall fuel c g ops g', counted g -> run_ops fuel c g ops = Ok g' -> counted g'.
Proof. intros fuel c g ops g' Hc H. eapply run_ops_counted; eassumption. Qed.

(*@ C03 Calling init_grid again on a constructed grid always breaks the counter. *)
Lemma layer_counter_init_twice_refuted_lem : forall c rows nsh nst ost,
  rows <> [] ->
  get_number_layers (init_grid c rows (new_grid c rows nsh nst ost))
  <> Z.of_nat (length (g_nodes (init_grid c rows (new_grid c rows nsh nst ost)))).
Proof. exact init_grid_twice. Qed.

(*@ex a run of several operations that does not raise *)
Lemma layer_counter_ex_lem : exists g',
  run_ops 10 default_constants
    (new_grid default_constants
       [mkLayer 0.1 300 270 0 None; mkLayer 0.2 400 268 0 None] None None None)
    [OpAddSnow 0.05 100 272 0 3600; OpMerge 1; OpRemove (Some [0%Z])] = Ok g' /\
  get_number_layers g' = 1%Z.
Proof.
  cbn [run_ops run_op bind].
  set (g1 := add_fresh_snow _ _ _ _ _ _ _).
  assert (E : exists n0 n1 n2, g_nodes g1 = [n0] ++ n1 :: n2 :: [] /\ n_height n1 + n_height n2 <> 0).
  { unfold g1. rewrite add_fresh_snow_nodes. do 3 eexists. split; [reflexivity|]. cbn; lra. }
  destruct E as (n0 & n1 & n2 & E & Hh).
  rewrite (merge_nodes_mid g1 [n0] n1 n2 [] E Hh : merge_nodes g1 1 = _). cbn [bind].
  set (g2 := with_number _ _).
  rewrite (remove_one_mid g2 [] n0 [merged n1 n2] eq_refl : remove_node g2 (Some [0%Z]) = _). cbn [bind].
  eexists; split; [reflexivity|]. unfold g2, g1, add_fresh_snow.
  cbn [c_minimum_snowfall default_constants]. rewrite Rltb_false by lra. reflexivity.
Qed.

(*@ C04 correct_layer(i, h): the layers above i are untouched; layer i absorbs layers
    of its own class from below while it is thinner than h; if it is then thicker
    than h it is split into a layer of exactly h and a rest; it stays thinner than
    h only at the bottom or above a layer of the other class. *)
Lemma correct_layer_resizes_lem : forall fuel c g i h,
  counted g -> column_ok (g_nodes g) -> 0 < h ->
  (0 <= i < Z.of_nat (length (g_nodes g)))%Z ->
  (length (g_nodes g) < fuel)%nat ->
  exists g' above a taken rest m out,
    correct_layer fuel c g i h = Ok g' /\
    g_nodes g = above ++ a :: taken ++ rest /\ Z.of_nat (length above) = i /\
    g_nodes g' = above ++ out ++ rest /\
    absorbs c h a taken m /\
    ((h < n_height m /\ exists x0 x1, out = [x0; x1] /\ parts h m x0 x1)
     \/ (n_height m = h /\ out = [m])
     \/ (n_height m < h /\ out = [m] /\
         (rest = [] \/ exists y t, rest = y :: t /\ ~ same_class c m y))) /\
    conserved (g_nodes g) (g_nodes g') /\ counted g' /\ same_clock g g'.
Proof.
  intros fuel c g i h Hc Hok Hh Hi Hf.
  destruct (split_at (g_nodes g) (Z.to_nat i)) as (pre & a & post & E & L); [lia|].
  assert (Hlen : length (g_nodes g) = (length pre + S (length post))%nat)
    by (rewrite E, app_length; reflexivity).
  assert (Hap : column_ok (a :: post)) by (rewrite E in Hok; apply Forall_app in Hok; tauto).
  destruct (correct_layer_spec fuel c g pre a post h E Hc Hap Hh) as
    (g' & m & taken & rest & out & W & C & K & E2 & A & G & F); [lia|].
  destruct (correct_layer_good fuel c g pre a post h E Hc Hok Hh) as
    (g2 & W2 & _ & _ & Co & _); [lia|].
  rewrite W in W2. injection W2 as <-.
  exists g', pre, a, taken, rest, m, out.
  replace i with (Z.of_nat (length pre)) by lia.
  split; [exact W|]. split; [now rewrite E, E2|]. split; [reflexivity|]. split; [exact G|].
  split; [exact A|]. split; [exact F|]. split; [exact Co|]. split; [exact C|exact K].
Qed.

(*@ C04 Indices outside the column raise IndexError. *)
Lemma correct_layer_index_error_lem : forall fuel c g i h,
  (Z.of_nat (length (g_nodes g)) <= i \/ i < - Z.of_nat (length (g_nodes g)))%Z ->
  correct_layer fuel c g i h = Err IndexError.
Proof.
  intros fuel c g i h Hi. unfold correct_layer, get_node_height, get_node.
  rewrite py_get_oob by exact Hi. reflexivity.
Qed.

(*@ex *)
Lemma correct_layer_ex_lem :
  counted ex_grid /\ column_ok (g_nodes ex_grid) /\ 0 < 0.12 /\
  (0 <= 0 < Z.of_nat (length (g_nodes ex_grid)))%Z /\ (length (g_nodes ex_grid) < 10)%nat /\
  same_class default_constants ex_wet ex_dry.
Proof.
  destruct ex_grid_ok as [A B]. repeat split; auto; try lra; try (cbn; lia);
    destruct ex_snow_over_ice as [S _]; intros _; [exact (Forall_inv (Forall_inv_tail S))|exact (Forall_inv S)].
Qed.

(*@ C04 Finding: the part of the water that goes to the upper part is not limited by its
    pore space; splitting a saturated thick layer yields a layer with more than 100 %
    liquid water. *)
Lemma correct_layer_overfills_refuted_lem : exists fuel c g h g' x rest,
  column_ok (g_nodes g) /\ counted g /\
  Forall fractions_ok (g_nodes g) /\
  correct_layer fuel c g 0 h = Ok g' /\ g_nodes g' = x :: rest /\ 1 < n_lwc x.
Proof.
  set (x := mkNode 1 273 0.04 0.3 0).
  set (g := mkGrid [x] 1 0 0 0).
  exists 3%nat, default_constants, g, 0.01.
  assert (Hirr : layer_irreducible x = Ok (0.08 - 0.1023 * (0.3 - 0.03))).
  { unfold layer_irreducible; cbn [x n_ice]. rewrite Rleb_false by lra.
    rewrite Rltb_true by lra. rewrite Rleb_true by lra. reflexivity. }
  eexists; exists (updated x 0.01 273 0.3 (n_lwc x * 1 / 0.01)); eexists.
  split; [repeat constructor; cbn; lra|]. split; [reflexivity|].
  split; [repeat constructor; cbn; lra|]. split.
  - unfold correct_layer, get_node_height.
    rewrite (get_node_mid g [] x [] eq_refl : get_node g 0 = _). cbn [bind].
    cbn [while_loop correct_layer_cond bind].
    rewrite (Rltb_false (n_height x) 0.01) by (cbn; lra). cbn [andb negb bind].
    rewrite (Rltb_true 0.01 (n_height x)) by (cbn; lra).
    unfold correct_layer_split, get_node_lwc, get_node_irreducible, get_node_height,
      get_node_ice_fraction, get_node_temperature, get_node_density.
    rewrite (get_node_mid g [] x [] eq_refl : get_node g 0 = _). cbn [bind].
    rewrite Hirr. cbn [bind]. rewrite (Rltb_false 0) by (cbn; lra).
    rewrite (fdiv_ok _ 0.01) by lra. rewrite fdiv_ok by (cbn; lra). cbn [bind].
    rewrite (update_node_mid g [] x [] _ _ _ _ eq_refl : update_node g 0 _ _ _ _ = _). cbn [bind].
    set (g1 := with_nodes g _).
    rewrite (get_node_mid g1 [] (updated x 0.01 273 0.3 (n_lwc x * 1 / 0.01)) [] eq_refl : get_node g1 0 = _).
    cbn [bind]. reflexivity.
  - cbn [g_nodes with_nodes with_number app].
    rewrite (py_insert_mid [updated x 0.01 273 0.3 (n_lwc x * 1 / 0.01)] [] _ : py_insert _ (0 + 1) _ = _).
    split; [reflexivity|]. cbn. lra.
Qed.

(*@ C05 Logarithmic remeshing terminates for every column of layers with positive
    height and ice content; whenever a layer is left, height, ice, water and heat are
    conserved; a layer is left whenever the column is at least as high as the first
    layer and as the stretched snow height. *)
Lemma log_profile_conserves_column_lem : forall c g,
  0 < c_first_layer_height c -> 1 <= c_layer_stretching c ->
  counted g -> column_ok (g_nodes g) ->
  exists N, forall fuel, (N <= fuel)%nat -> exists g',
    log_profile fuel c g = Ok g' /\ counted g' /\ same_clock g g' /\ column_ok (g_nodes g') /\
    (g_nodes g' <> [] -> conserved (g_nodes g) (g_nodes g')) /\
    (g_nodes g <> [] -> c_first_layer_height c <= column_height (g_nodes g) ->
     c_layer_stretching c * reported_snow c (g_nodes g) <= column_height (g_nodes g) ->
     g_nodes g' <> []).
Proof. exact log_profile_spec. Qed.

(*@ex *)
Lemma log_profile_ex_lem :
  0 < c_first_layer_height default_constants /\ 1 <= c_layer_stretching default_constants /\
  counted ex_grid /\ column_ok (g_nodes ex_grid) /\ g_nodes ex_grid <> [] /\
  c_first_layer_height default_constants <= column_height (g_nodes ex_grid) /\
  c_layer_stretching default_constants * reported_snow default_constants (g_nodes ex_grid)
  <= column_height (g_nodes ex_grid).
Proof.
  destruct ex_grid_ok as [A B]. rewrite ex_reported_snow.
  split; [cbn; lra|]. split; [cbn; lra|]. split; [exact A|]. split; [exact B|].
  split; [discriminate|]. unfold column_height; cbn. split; lra.
Qed.

(*@ C05 Finding: a single bare-ice layer thinner than the first layer height is merged
    with itself (index -1) and deleted: the whole column vanishes. *)
Lemma log_profile_deletes_thin_ice_refuted_lem : exists g g' fuel,
  counted g /\ column_ok (g_nodes g) /\ 0 < column_height (g_nodes g) /\
  log_profile fuel default_constants g = Ok g' /\ g_nodes g' = [] /\
  update_grid fuel default_constants g = Err IndexError.
Proof.
  set (x := mkNode 0.005 265 0 1 0). set (g := mkGrid [x] 1 0 0 0).
  assert (Dx : layer_density default_constants x = 917) by (compute_density; lra).
  assert (Ns : nsnow default_constants (g_nodes g) = 0%nat).
  { unfold nsnow; cbn. unfold snowb. rewrite Dx. rewrite Rltb_false by (cbn; lra). reflexivity. }
  assert (W : exists g', log_profile 3 default_constants g = Ok g' /\ g_nodes g' = []).
  { unfold log_profile. rewrite get_total_snowheight_counted by reflexivity. rewrite Ns. cbn [bind firstn].
    cbn [while_loop log_snow_cond]. rewrite get_number_snow_layers_counted by reflexivity. rewrite Ns.
    cbn [bind Z.of_nat Z.ltb Z.compare].
    rewrite get_total_height_counted by reflexivity. cbn [bind].
    rewrite get_total_snowheight_counted by reflexivity. rewrite Ns. cbn [bind firstn].
    rewrite get_number_snow_layers_counted by reflexivity. rewrite Ns. cbn [bind Z.of_nat].
    cbn [log_ice_cond get_number_layers g_number_nodes g bind].
    change (0 <? 1)%Z with true. cbn [log_ice_body].
    assert (Hh : column_height (g_nodes g) - column_height [] = 0.005).
    { unfold column_height; cbn; lra. }
    rewrite Hh. rewrite Rleb_false by (cbn; lra). rewrite Rltb_true by (cbn; lra).
    destruct (merge_nodes_minus_one_single_lem g x eq_refl) as (g1 & Hm & Hn); [cbn; lra|].
    change (0 - 1)%Z with (-1)%Z. fold g. rewrite Hm. cbn [bind].
    assert (Nn : g_number_nodes g1 = 0%Z).
    { destruct (merge_nodes_inv g (-1) g1) as (Hq & _); auto.
      repeat constructor; cbn; lra. }
    cbn [while_loop log_ice_cond bind]. unfold get_number_layers. rewrite Nn.
    change (0 + 1 <? 0)%Z with false. cbn [bind]. exists g1. auto. }
  destruct W as (g' & W & Hn). exists g, g', 3%nat.
  split; [reflexivity|]. split; [repeat constructor; cbn; lra|].
  split; [unfold column_height; cbn; lra|]. split; [exact W|]. split; [exact Hn|].
  unfold update_grid. change (String.eqb _ "log_profile") with true. cbn iota.
  rewrite W. cbn [bind]. unfold get_node_height, get_node. rewrite Hn. reflexivity.
Qed.

(*@ C06 With the log profile, update_grid conserves the column, or exactly one surface
    layer thinner than the minimum layer height is missing. *)
Lemma update_grid_log_conserves_lem : forall c g,
  c_remesh_method c = "log_profile"%string ->
  0 < c_first_layer_height c -> 1 <= c_layer_stretching c ->
  counted g -> column_ok (g_nodes g) -> g_nodes g <> [] ->
  c_first_layer_height c <= column_height (g_nodes g) ->
  c_layer_stretching c * reported_snow c (g_nodes g) <= column_height (g_nodes g) ->
  exists N, forall fuel, (N <= fuel)%nat -> exists g',
    update_grid fuel c g = Ok g' /\ counted g' /\ same_clock g g' /\ column_ok (g_nodes g') /\
    (conserved (g_nodes g) (g_nodes g') \/
     exists dropped, n_height dropped < c_minimum_snow_layer_height c /\
       conserved (g_nodes g) (dropped :: g_nodes g')).
Proof. exact update_grid_log. Qed.

(*@ C06 For every column: the profile is found in a bounded number of passes. If it has no layer, update_grid raises.
    Otherwise it conserves the column, and it is the new column, without its top layer exactly if this is thinner
    than the minimum layer height. *)
Lemma update_grid_log_every_column_lem : forall c g,
  c_remesh_method c = "log_profile"%string ->
  0 < c_first_layer_height c -> 1 <= c_layer_stretching c ->
  counted g -> column_ok (g_nodes g) ->
  exists N, forall fuel, (N <= fuel)%nat ->
    (update_grid fuel c g = Err IndexError /\
     (g_nodes g = [] \/ column_height (g_nodes g) < c_first_layer_height c \/
      column_height (g_nodes g) < c_layer_stretching c * reported_snow c (g_nodes g))) \/
    exists g' top below, update_grid fuel c g = Ok g' /\ conserved (g_nodes g) (top :: below) /\
      column_ok (top :: below) /\ counted g' /\ same_clock g g' /\
      (c_minimum_snow_layer_height c <= n_height top -> g_nodes g' = top :: below) /\
      (n_height top < c_minimum_snow_layer_height c -> g_nodes g' = below).
Proof.
  intros c g Hm Hf Hst Hc Hok.
  destruct (log_profile_spec c g Hf Hst Hc Hok) as [N HN]. exists N. intros fuel Hfuel.
  destruct (HN fuel Hfuel) as (g1 & W & C1 & K1 & O1 & Co1 & Ne1).
  unfold update_grid. rewrite Hm. cbn [String.eqb Ascii.eqb Bool.eqb]. rewrite W. cbn [bind].
  destruct (g_nodes g1) as [|a t] eqn:E.
  - left. split; [unfold get_node_height, get_node; rewrite E; reflexivity|].
    destruct (Rlt_dec (column_height (g_nodes g)) (c_first_layer_height c)) as [|H1]; [auto|].
    destruct (Rlt_dec (column_height (g_nodes g)) (c_layer_stretching c * reported_snow c (g_nodes g))) as [|H2]; [auto|].
    destruct (g_nodes g) as [|b s] eqn:Eg; [auto|]. exfalso. apply Ne1; [discriminate|lra|lra|reflexivity].
  - right. unfold get_node_height. rewrite (get_node_mid g1 [] a t E : get_node g1 0 = _). cbn [bind].
    specialize (Co1 ltac:(discriminate)).
    destruct (Rltb_spec (n_height a) (c_minimum_snow_layer_height c)) as [L|L].
    + rewrite (remove_one_mid g1 [] a t E : remove_node g1 (Some [0%Z]) = _).
      eexists; exists a, t. split; [reflexivity|]. cbn [g_nodes with_nodes with_number app].
      split; [exact Co1|]. split; [exact O1|]. split.
      { unfold counted in *; cbn [g_nodes with_nodes with_number g_number_nodes].
        rewrite E in C1; cbn [length] in C1; lia. }
      split; [eapply same_clock_trans; [exact K1|repeat split]|]. split; [lra|reflexivity].
    + exists g1, a, t. split; [reflexivity|]. split; [exact Co1|]. split; [exact O1|]. split; [exact C1|].
      split; [exact K1|]. rewrite E. split; [reflexivity|lra].
Qed.

(*@ C06 With any other remeshing name update_grid only drops a too-thin surface layer. *)
Lemma update_grid_other_lem : forall fuel c g top below,
  c_remesh_method c <> "log_profile"%string -> c_remesh_method c <> "adaptive_profile"%string ->
  g_nodes g = top :: below ->
  exists g', update_grid fuel c g = Ok g' /\
    (c_minimum_snow_layer_height c <= n_height top -> g' = g) /\
    (n_height top < c_minimum_snow_layer_height c -> g_nodes g' = below /\
       g_number_nodes g' = (g_number_nodes g - 1)%Z /\ same_clock g g').
Proof.
  intros fuel c g top below H1 H2 E. unfold update_grid.
  apply String.eqb_neq in H1. apply String.eqb_neq in H2. rewrite H1, H2. cbn [bind].
  unfold get_node_height. rewrite (get_node_mid g [] top below E : get_node g 0 = _). cbn [bind].
  destruct (Rltb_spec (n_height top) (c_minimum_snow_layer_height c)) as [L|L].
  - rewrite (remove_one_mid g [] top below E : remove_node g (Some [0%Z]) = _).
    eexists; split; [reflexivity|]. split; [lra|]. intros _. split; [reflexivity|].
    split; [reflexivity|repeat split].
  - exists g. split; [reflexivity|]. split; [reflexivity|lra].
Qed.

(*@ C07 The number of similarity merges in one adaptive remeshing never exceeds merge_max + 1. *)
Lemma adaptive_merges_bounded_lem : forall fuel c g g' i merges,
  (0 <= c_merge_max c)%Z -> adaptive_snow fuel c g = Ok (g', i, merges) ->
  (0 <= merges <= c_merge_max c + 1)%Z.
Proof. intros fuel c g g' i k H E. eapply adaptive_snow_counter; [lia|exact E]. Qed.

(*@ C07 The documented limit merge_max is exceeded: with the shipped constants
    (merge_max = 1) a column loses two layers by merging. *)
Lemma adaptive_merge_limit_refuted_lem : exists fuel g g' i merges,
  adaptive_snow fuel default_constants g = Ok (g', i, merges) /\
  conserved (g_nodes g) (g_nodes g') /\
  (c_merge_max default_constants < merges)%Z /\
  (c_merge_max default_constants < Z.of_nat (length (g_nodes g)) - Z.of_nat (length (g_nodes g')))%Z.
Proof.
  destruct four_thin_merged_twice as (fuel & g' & i & W & L1 & L2 & Co).
  exists fuel, four_thin, g', i, 2%Z. split; [exact W|]. split; [exact Co|].
  rewrite L1, L2. cbn. lia.
Qed.

(*@ C08 split_node halves the height of a layer and keeps its temperature and ice
    fraction; height, ice and heat of the column are conserved and exactly half of
    the layer's liquid water is lost. *)
Lemma split_node_effect_lem : forall c g i,
  (0 <= i < Z.of_nat (length (g_nodes g)))%Z ->
  exists g' above x x0 x1 below,
    split_node c g i = Ok g' /\
    g_nodes g = above ++ x :: below /\ Z.of_nat (length above) = i /\
    g_nodes g' = above ++ x0 :: x1 :: below /\
    n_height x0 = n_height x / 2 /\ n_height x1 = n_height x / 2 /\
    n_temperature x0 = n_temperature x /\ n_temperature x1 = n_temperature x /\
    n_ice x0 = n_ice x /\ n_ice x1 = n_ice x /\
    column_height (g_nodes g') = column_height (g_nodes g) /\
    column_ice (g_nodes g') = column_ice (g_nodes g) /\
    column_heat (g_nodes g') = column_heat (g_nodes g) /\
    column_water (g_nodes g') = column_water (g_nodes g) - n_lwc x * n_height x / 2 /\
    g_number_nodes g' = (g_number_nodes g + 1)%Z /\ same_clock g g'.
Proof.
  intros c g i Hi.
  destruct (split_at (g_nodes g) (Z.to_nat i)) as (pre & x & post & E & L); [lia|].
  exists (with_number (with_nodes g (pre ++ half_of c x (n_refreeze x) :: half_of c x 0 :: post))
        (g_number_nodes g + 1)), pre, x, (half_of c x (n_refreeze x)), (half_of c x 0), post.
  replace i with (Z.of_nat (length pre)) by lia.
  split; [now apply split_node_spec|]. split; [exact E|].
  rewrite E. cbn [g_nodes with_nodes with_number g_number_nodes].
  do 8 (split; [reflexivity|]).
  unfold column_height, column_ice, column_heat, column_water.
  rewrite !total_app, !total_cons. cbn.
  split; [lra|]. split; [lra|]. split; [lra|]. split; [lra|]. split; [reflexivity|repeat split].
Qed.

(*@ C08 Hence splitting a wet layer does not conserve water. *)
Lemma split_node_conserves_refuted_lem : exists c g i g',
  counted g /\ column_ok (g_nodes g) /\ split_node c g i = Ok g' /\
  column_water (g_nodes g') < column_water (g_nodes g).
Proof.
  exists default_constants, ex_grid, 0%Z. eexists.
  split; [reflexivity|]. split; [apply ex_grid_ok|].
  split; [exact (split_node_spec default_constants ex_grid [] ex_wet [ex_dry; ex_ice] eq_refl)|].
  unfold column_water; cbn. lra.
Qed.

(*@ C09 merge_snow_with_glacier replaces a snow layer and the ice layer below it by one
    layer with the ice layer's temperature and ice fraction and no water; the weight is
    conserved if the ice layer is pure and dry. *)
Lemma merge_snow_with_glacier_effect_lem : forall c g above snow ice below,
  c_ice_density c <> 0 ->
  g_nodes g = above ++ snow :: ice :: below -> is_snow c snow -> ~ is_snow c ice ->
  exists g' m,
    merge_snow_with_glacier c g (Z.of_nat (length above)) = Ok g' /\
    g_nodes g' = above ++ m :: below /\
    n_temperature m = n_temperature ice /\ n_ice m = n_ice ice /\ n_lwc m = 0 /\
    n_height m = n_height ice + n_height snow * layer_density c snow / c_ice_density c /\
    (n_ice ice = 1 -> n_lwc ice = 0 ->
     column_weight c (g_nodes g') = column_weight c (g_nodes g)).
Proof.
  intros c g pre s i post Hi E Hs Hni.
  rewrite (merge_snow_spec c g pre s i post Hi E Hs Hni).
  eexists; eexists. split; [reflexivity|]. split; [reflexivity|].
  cbn [n_temperature n_ice n_lwc n_height].
  split; [reflexivity|]. split; [reflexivity|]. split; [reflexivity|].
  split; [field; exact Hi|].
  intros H1 H0. rewrite E. cbn [g_nodes with_nodes with_number]. unfold column_weight.
  rewrite !total_app, !total_cons. unfold layer_weight.
  assert (Di : layer_density c i = c_ice_density c).
  { unfold layer_density, layer_air_porosity. rewrite H1, H0. rewrite Rmax_left by lra. ring. }
  rewrite Di. cbn [n_height].
  set (d := layer_density c (mkNode _ _ _ _ _)).
  assert (Dd : d = c_ice_density c).
  { unfold d, layer_density, layer_air_porosity. cbn [n_ice n_lwc]. rewrite H1.
    rewrite Rmax_left by lra. ring. }
  rewrite Dd. field. exact Hi.
Qed.

(*@ C09 The water of the ice layer is lost. *)
Lemma merge_snow_with_glacier_refuted_lem : exists g g',
  counted g /\ column_ok (g_nodes g) /\ Forall fractions_ok (g_nodes g) /\
  merge_snow_with_glacier default_constants g 0 = Ok g' /\
  column_mass default_constants (g_nodes g') < column_mass default_constants (g_nodes g).
Proof.
  set (i := mkNode 1 273 0.02 0.98 0). set (g := mkGrid [ex_dry; i] 2 0 0 0).
  exists g.
  assert (Hi : ~ is_snow default_constants i).
  { unfold is_snow. replace (layer_density default_constants i) with (0.98 * 917 + 20).
    - cbn; lra.
    - compute_density. lra. }
  assert (Hs : is_snow default_constants ex_dry) by (unfold is_snow; rewrite ex_dry_density; cbn; lra).
  eexists. split; [reflexivity|]. split; [repeat constructor; cbn; lra|].
  split; [repeat constructor; cbn; lra|].
  split. { apply (merge_snow_spec default_constants g [] ex_dry i []); auto. cbn; lra. }
  cbn [g_nodes with_nodes with_number app]. rewrite ex_dry_density.
  unfold column_mass, column_ice, column_water; cbn. lra.
Qed.

(*@ C10 remove_node with distinct valid indices deletes exactly the layers at these
    positions and keeps the others in order. *)
Lemma remove_node_exactly_lem : forall g ids,
  NoDup ids -> ids <> [] ->
  Forall (fun i => (0 <= i < Z.of_nat (length (g_nodes g)))%Z) ids ->
  exists g', remove_node g (Some ids) = Ok g' /\
    g_nodes g' = without ids (g_nodes g) /\
    g_number_nodes g' = (g_number_nodes g - Z.of_nat (length ids))%Z /\ same_clock g g'.
Proof.
  intros g ids H1 H2 H3. rewrite remove_node_exact by assumption.
  eexists; split; [reflexivity|]. split; [reflexivity|]. split; [reflexivity|repeat split].
Qed.

(*@ C10 Without indices the surface layer is removed; an empty grid is left alone. *)
Lemma remove_node_default_lem : forall g ids,
  ids = None \/ ids = Some [] ->
  (g_nodes g = [] -> remove_node g ids = Ok g) /\
  (forall top below, g_nodes g = top :: below -> exists g',
     remove_node g ids = Ok g' /\ g_nodes g' = below /\
     g_number_nodes g' = (g_number_nodes g - 1)%Z /\ same_clock g g').
Proof.
  intros g ids H. rewrite (remove_node_default g ids H). split.
  - intros ->. reflexivity.
  - intros top below ->. eexists; split; [reflexivity|]. split; [reflexivity|].
    split; [reflexivity|repeat split].
Qed.

(*@ex *)
Lemma remove_node_ex_lem :
  NoDup [2%Z; 0%Z] /\
  Forall (fun i => (0 <= i < Z.of_nat (length (g_nodes ex_grid)))%Z) [2%Z; 0%Z] /\
  without [2%Z; 0%Z] (g_nodes ex_grid) = [ex_dry].
Proof.
  split; [repeat constructor; cbn; intuition lia|]. split; [repeat constructor; cbn; lia|reflexivity].
Qed.

(*@ C11 Removing melt terminates and takes exactly min(m, column) m w.e. from the
    top: either layers [gone] disappear, the next one becomes thinner and everything
    below is untouched, or the whole column melts.  The returned water is that of the
    removed layers. *)
Lemma remove_melt_exact_lem : forall c g m fuel,
  0 < c_water_density c -> 0 <= m -> counted g ->
  Forall (fun n => 0 < n_height n /\ 0 < layer_density c n) (g_nodes g) ->
  (length (g_nodes g) + 2 <= fuel)%nat ->
  exists g' w, remove_melt_weq fuel c g m 0 = Ok (g', w) /\ counted g' /\
    column_weq c (g_nodes g') = column_weq c (g_nodes g) - Rmin m (column_weq c (g_nodes g)) /\
    ((exists gone x x' below,
        g_nodes g = gone ++ x :: below /\ g_nodes g' = x' :: below /\
        only_height x x' /\ 0 < n_height x' <= n_height x /\ w = column_water gone)
     \/ (g_nodes g' = [] /\ column_weq c (g_nodes g) <= m /\ w = column_water (g_nodes g))).
Proof.
  intros c g m fuel Hw Hm Hc Hwt Hf.
  destruct (remove_melt_spec c g m fuel Hw Hm Hc Hwt) as (g' & w & m' & W & C & M & _); [lia|].
  exists g', w. split; [exact W|]. split; [exact C|].
  assert (App : forall l1 l2, column_weq c (l1 ++ l2) = column_weq c l1 + column_weq c l2).
  { intros l1 l2. unfold column_weq, column_weight. rewrite total_app. field. lra. }
  destruct M as [(gone & x & x' & below & E1 & E2 & E3 & E4 & E5 & E6 & E7)|(E1 & E2 & E3 & E4)].
  - split; [|left; exists gone, x, x', below; auto].
    rewrite E1, E2.
    replace (gone ++ x :: below) with ((gone ++ [x]) ++ below) by (rewrite <- app_assoc; reflexivity).
    change (x' :: below) with ([x'] ++ below). rewrite (App (gone ++ [x])), (App [x']).
    assert (Hnn : forall l, Forall (fun n => 0 < n_height n /\ 0 < layer_density c n) l -> 0 <= column_weq c l).
    { intros l Hl. unfold column_weq, column_weight. apply Rmult_le_pos; [|apply Rlt_le, Rinv_0_lt_compat; lra].
      apply total_nonneg. eapply Forall_impl; [|exact Hl]. intros n [Hn1 Hn2]; unfold layer_weight; nra. }
    assert (Hbx : 0 <= column_weq c below /\ 0 <= column_weq c [x']).
    { rewrite E1 in Hwt. apply Forall_app in Hwt. destruct Hwt as [_ Hwt].
      split; [apply Hnn; exact (Forall_inv_tail Hwt)|]. apply Hnn. constructor; [|constructor].
      split; [tauto|]. destruct E3 as (_ & E3 & E3' & _). unfold layer_density, layer_air_porosity.
      rewrite E3, E3'. exact (proj2 (Forall_inv Hwt)). }
    rewrite Rmin_left by lra. lra.
  - split; [|right; auto]. rewrite E1. rewrite weq_nil. rewrite Rmin_right by lra. lra.
Qed.

(*@ex *)
Lemma remove_melt_ex_lem :
  0 < c_water_density default_constants /\ counted ex_grid /\
  Forall (fun n => 0 < n_height n /\ 0 < layer_density default_constants n) (g_nodes ex_grid) /\
  0 < column_weq default_constants (g_nodes ex_grid).
Proof.
  split; [cbn; lra|]. split; [reflexivity|]. split.
  - repeat constructor; rewrite ?ex_wet_density, ?ex_dry_density, ?ex_ice_density; cbn; lra.
  - unfold column_weq, column_weight. cbn [g_nodes ex_grid]. rewrite !total_cons, total_nil.
    unfold layer_weight. rewrite ex_wet_density, ex_dry_density, ex_ice_density. cbn. lra.
Qed.

(*@ C12 The tracked fresh snow height is left unchanged by every melt that does not
    consume the whole column; otherwise it is reduced by the melt that found nothing to melt. *)
Lemma fresh_snow_height_ignores_melt_lem : forall c g m fuel,
  0 < c_water_density c -> 0 <= m -> counted g ->
  Forall (fun n => 0 < n_height n /\ 0 < layer_density c n) (g_nodes g) ->
  (length (g_nodes g) + 2 <= fuel)%nat ->
  exists g' w, remove_melt_weq fuel c g m 0 = Ok (g', w) /\
    (m <= column_weq c (g_nodes g) -> g_new_snow_height g' = g_new_snow_height g) /\
    (column_weq c (g_nodes g) < m ->
       g_new_snow_height g' = g_new_snow_height g - (m - column_weq c (g_nodes g)) /\ g_nodes g' = []).
Proof.
  intros c g m fuel Hw Hm Hc Hwt Hf.
  destruct (remove_melt_spec c g m fuel Hw Hm Hc Hwt) as (g' & w & m' & W & C & M & H & _); [lia|].
  destruct (remove_melt_exact_lem c g m fuel Hw Hm Hc Hwt) as (g2 & w2 & W2 & _ & Q & _); [lia|].
  rewrite W in W2. injection W2 as <- <-.
  exists g', w. split; [exact W|]. rewrite H.
  assert (Hnn : forall l, Forall (fun n => 0 < n_height n /\ 0 < layer_density c n) l -> 0 <= column_weq c l).
  { intros l Hl. unfold column_weq, column_weight. apply Rmult_le_pos; [|apply Rlt_le, Rinv_0_lt_compat; lra].
    apply total_nonneg. eapply Forall_impl; [|exact Hl]. intros n [Hn1 Hn2]; unfold layer_weight; nra. }
  destruct M as [(gone & x & x' & below & E1 & E2 & E3 & E4 & E5 & E6 & E7)|(E1 & E2 & E3 & E4)].
  - split; [lra|]. intros L. exfalso. rewrite Rmin_right in Q by lra.
    assert (0 < column_weq c (g_nodes g')); [|lra]. rewrite E2, weq_cons by lra.
    rewrite E1 in Hwt. apply Forall_app in Hwt. destruct Hwt as [_ Hwt].
    assert (B := Hnn _ (Forall_inv_tail Hwt)). assert (D := proj2 (Forall_inv Hwt)).
    destruct E3 as (_ & E3 & E3' & _). unfold layer_density, layer_air_porosity in *. rewrite E3, E3' in *.
    assert (0 < n_height x' * (( n_ice x * c_ice_density c + n_lwc x * c_water_density c + Rmax 0 (1 - n_lwc x - n_ice x) * c_air_density c) / c_water_density c)).
    { apply Rmult_lt_0_compat; [lra|]. apply Rdiv_lt_0_compat; lra. }
    lra.
  - split; intros; [lra|split; [lra|exact E1]].
Qed.

(*@ C12 So melting 5 cm of fresh snow away does not reduce the tracked fresh snow height. *)
Lemma melt_reduces_fresh_snow_refuted_lem : exists g g' m w fuel,
  counted g /\ column_ok (g_nodes g) /\ 0 < m /\ 0 < g_new_snow_height g /\
  remove_melt_weq fuel default_constants g m 0 = Ok (g', w) /\
  column_height (g_nodes g') < column_height (g_nodes g) - g_new_snow_height g / 2 /\
  g_new_snow_height g' = g_new_snow_height g.
Proof.
  destruct remove_melt_ex_lem as (H1 & H2 & H3 & H4).
  set (m := 0.05 * (0.3 * 917 + 0.02 * 1000 + 0.68 * 1.1) / 1000).
  assert (Hm : m = 0.05 * ((0.3 * 917 + 0.02 * 1000 + 0.68 * 1.1) / 1000)) by (unfold m; field).
  assert (Hm0 : 0 < m) by (unfold m; lra).
  assert (Hw : column_weq default_constants (g_nodes ex_grid) =
    m + column_weq default_constants [ex_dry; ex_ice]).
  { cbn [g_nodes ex_grid]. rewrite (weq_cons default_constants ex_wet) by (cbn; lra).
    rewrite ex_wet_density. cbn [n_height ex_wet c_water_density default_constants]. rewrite Hm. ring. }
  assert (Hpos2 : 0 < column_weq default_constants [ex_dry; ex_ice]).
  { rewrite !weq_cons, weq_nil by (cbn; lra). rewrite ex_dry_density, ex_ice_density. cbn. lra. }
  destruct (remove_melt_spec default_constants ex_grid m 5 H1 (Rlt_le _ _ Hm0) H2 H3) as
    (g' & w & m' & W & C & M & Hh & _); [cbn; lia|].
  exists ex_grid, g', m, w, 5%nat.
  split; [reflexivity|]. split; [apply ex_grid_ok|]. split; [exact Hm0|]. split; [cbn; lra|].
  split; [exact W|].
  destruct M as [(gone & x & x' & below & E1 & E2 & E3 & E4 & E5 & E6 & E7)|(E1 & E2 & E3 & E4)].
  2:{ exfalso. lra. }
  split; [|rewrite Hh, E7; ring].
  rewrite E2.
  assert (Wx : forall l, Forall (fun n => 0 < n_height n /\ 0 < layer_density default_constants n) l ->
     0 <= column_weq default_constants l).
  { intros l Hl. unfold column_weq, column_weight. apply Rmult_le_pos; [|cbn; lra].
    apply total_nonneg. eapply Forall_impl; [|exact Hl]. intros n [Hn1 Hn2]; unfold layer_weight; nra. }
  destruct gone as [|a gone].
  - (* nothing removed: then x = ex_wet and its new height would be zero *)
    exfalso. cbn [app g_nodes ex_grid] in E1, E5. injection E1 as <- <-.
    rewrite !weq_cons, weq_nil in E5 by (cbn; lra).
    replace (layer_density default_constants x') with (layer_density default_constants ex_wet) in E5.
    + rewrite ex_wet_density in E5. cbn [n_height ex_wet c_water_density default_constants] in E5.
      rewrite Hm in E5. assert (0 < n_height x') by tauto. nra.
    + destruct E3 as (_ & E3 & E3' & _). unfold layer_density, layer_air_porosity. now rewrite E3, E3'.
  - cbn [app g_nodes ex_grid] in E1. injection E1 as <- E1.
    unfold column_height. cbn [g_nodes ex_grid]. rewrite (total_cons n_height ex_wet).
    rewrite E1. rewrite total_app, !total_cons.
    assert (0 <= total n_height gone).
    { apply total_nonneg. rewrite Forall_forall. intros n Hn.
      assert (Hin : In n [ex_dry; ex_ice]) by (rewrite E1; apply in_or_app; left; exact Hn).
      destruct Hin as [<-|[<-|[]]]; cbn; lra. }
    cbn [n_height ex_wet ex_grid g_new_snow_height]. lra.
Qed.

(*@ C12 A negative amount (deposition exceeding melt) leaves every layer unchanged and
    makes the tracked fresh snow height grow. *)
Lemma negative_melt_only_raises_fresh_snow_lem : forall c g m fuel,
  m < 0 -> (0 < fuel)%nat ->
  exists g', remove_melt_weq fuel c g m 0 = Ok (g', 0) /\ g_nodes g' = g_nodes g /\
    g_number_nodes g' = g_number_nodes g /\
    g_new_snow_height g < g_new_snow_height g' /\
    g_new_snow_timestamp g' = g_new_snow_timestamp g /\
    g_old_snow_timestamp g' = g_old_snow_timestamp g.
Proof.
  intros c g m fuel Hm Hf. rewrite remove_melt_negative by (lra || assumption).
  eexists; split; [reflexivity|]. cbn. repeat split. lra.
Qed.

(*@ C13 The two depth getters agree; each depth is the total height of the layers above
    plus half the own height. *)
Lemma depths_are_midpoints_lem : forall g,
  counted g -> g_nodes g <> [] ->
  exists zs, get_depth g = Ok zs /\ length zs = length (g_nodes g) /\
    forall above x below, g_nodes g = above ++ x :: below ->
      nth_error zs (length above) = Some (column_height above + n_height x / 2) /\
      get_node_depth g (Z.of_nat (length above)) = Ok (column_height above + n_height x / 2).
Proof.
  intros g Hc Hne. exists (midpoints 0 (map n_height (g_nodes g))).
  split; [now apply get_depth_spec|]. split; [rewrite midpoints_length; apply map_length|].
  intros above x below E. split; [|now apply get_node_depth_spec with below].
  rewrite E, midpoints_nth. f_equal. lra.
Qed.

(*@ C13 With positive heights depths increase strictly downwards and lie inside the column. *)
Lemma depths_increase_lem : forall g above x y below zx zy,
  positive_heights (g_nodes g) -> g_nodes g = above ++ x :: y :: below ->
  get_node_depth g (Z.of_nat (length above)) = Ok zx ->
  get_node_depth g (Z.of_nat (length above) + 1) = Ok zy ->
  0 < zx < zy /\ zy < column_height (g_nodes g).
Proof.
  intros g pre x y post zx zy Hp E Ex Ey.
  rewrite (get_node_depth_spec g pre x (y :: post) E) in Ex. injection Ex as <-.
  assert (E2 : g_nodes g = (pre ++ [x]) ++ y :: post) by (rewrite E, <- app_assoc; reflexivity).
  replace (Z.of_nat (length pre) + 1)%Z with (Z.of_nat (length (pre ++ [x]))) in Ey
    by (rewrite app_length; cbn [length]; lia).
  rewrite (get_node_depth_spec g (pre ++ [x]) y post E2) in Ey. injection Ey as <-.
  rewrite E in *. apply positive_app in Hp. destruct Hp as [Hp1 Hp2].
  assert (Px := Forall_inv Hp2). assert (Py := Forall_inv (Forall_inv_tail Hp2)).
  assert (Ppost := column_height_nonneg _ (Forall_inv_tail (Forall_inv_tail Hp2))).
  assert (Ppre := column_height_nonneg _ Hp1). cbn in Px, Py.
  unfold column_height in *. rewrite !total_app, !total_cons, total_nil. lra.
Qed.

(*@ C14 When no snow lies below ice the getters report exactly the snow. *)
Lemma snow_getters_report_snow_lem : forall c g snow ice,
  counted g -> g_nodes g = snow ++ ice -> snow_over_ice c snow ice ->
  get_number_snow_layers c g = Ok (Z.of_nat (length snow)) /\
  get_snow_heights c g = Ok (map n_height snow) /\
  get_total_snowheight c g = Ok (column_height snow) /\
  get_ice_heights c g = Ok (map n_height ice).
Proof.
  intros c g s i Hc E Hs. destruct (snow_getters c g s i Hc E Hs) as (A & B & D).
  split; [exact A|]. split; [exact B|]. split; [exact D|].
  rewrite get_ice_heights_spec by exact Hc. rewrite E, filter_app. destruct Hs as [H1 H2].
  assert (F1 : filter (fun n => negb (snowb c n)) s = []).
  { clear -H1. induction H1 as [|n l Hn _ IH]; cbn; [reflexivity|].
    unfold snowb at 1. rewrite Rltb_true by exact Hn. exact IH. }
  assert (F2 : filter (fun n => negb (snowb c n)) i = i).
  { clear -H2. induction H2 as [|n l Hn _ IH]; cbn; [reflexivity|].
    unfold is_snow in Hn. unfold snowb at 1. rewrite Rltb_false by lra. cbn. now rewrite IH. }
  now rewrite F1, F2.
Qed.

(*@ex *)
Lemma snow_getters_ex_lem :
  counted ex_grid /\ g_nodes ex_grid = [ex_wet; ex_dry] ++ [ex_ice] /\
  snow_over_ice default_constants [ex_wet; ex_dry] [ex_ice].
Proof. split; [reflexivity|]. split; [reflexivity|exact ex_snow_over_ice]. Qed.

(*@ C14 With an ice lens on top of snow the reported snow height is the height of the
    lens, not of the snow. *)
Lemma buried_snow_misreported_refuted_lem : exists g h,
  counted g /\ column_ok (g_nodes g) /\
  get_total_snowheight default_constants g = Ok h /\
  h <> total n_height (filter (fun n => Rltb (layer_density default_constants n) 900) (g_nodes g)).
Proof.
  set (lens := mkNode 0.02 270 0 1 0). set (g := mkGrid [lens; ex_dry; ex_ice] 3 0 0 0).
  assert (Dl : layer_density default_constants lens = 917) by (compute_density; lra).
  assert (F : filter (snowb default_constants) (g_nodes g) = [ex_dry]).
  { cbn [g_nodes g filter]. unfold snowb. rewrite Dl, ex_dry_density, ex_ice_density.
    rewrite Rltb_false by (cbn; lra). rewrite Rltb_true by (cbn; lra).
    reflexivity. }
  exists g, 0.02. split; [reflexivity|]. split; [repeat constructor; cbn; lra|]. split.
  - rewrite get_total_snowheight_counted by reflexivity. unfold nsnow. rewrite F. cbn [length firstn g_nodes g].
    unfold column_height; cbn. f_equal. lra.
  - change (fun n => Rltb (layer_density default_constants n) 900) with (snowb default_constants).
    rewrite F. cbn. lra.
Qed.

(*@ C15 The density a dry layer reports differs from the density it was created with by
    at most air_density^2/ice_density, is never smaller, and is equal only for pure ice. *)
Lemma density_round_trip_lem : forall c h rho t,
  0 < c_ice_density c -> 0 < c_air_density c -> 0 <= rho <= c_ice_density c ->
  c_air_density c <= c_ice_density c ->
  let d := layer_density c (new_node c h rho t 0 None) in
  rho <= d <= rho + c_air_density c * c_air_density c / c_ice_density c /\
  (d = rho <-> rho = c_ice_density c).
Proof. exact new_node_density_bounds. Qed.

(*@ex *)
Lemma density_round_trip_ex_lem :
  0 < c_ice_density default_constants /\ 0 < c_air_density default_constants /\
  0 <= 300 <= c_ice_density default_constants /\
  c_air_density default_constants <= c_ice_density default_constants.
Proof. cbn; lra. Qed.

(*@ C16 add_fresh_snow puts one dry layer on top, keeps all others, counts it, and adds
    the weight height*density up to the density round-trip error. *)
Lemma add_fresh_snow_effect_lem : forall c g h rho t dt,
  0 < c_ice_density c -> 0 < c_air_density c -> 0 <= rho <= c_ice_density c ->
  c_air_density c <= c_ice_density c -> 0 <= h ->
  let g' := add_fresh_snow c g h rho t 0 dt in
  exists top, g_nodes g' = top :: g_nodes g /\
    n_height top = h /\ n_temperature top = t /\ n_lwc top = 0 /\ n_refreeze top = 0 /\
    g_number_nodes g' = (g_number_nodes g + 1)%Z /\
    h * rho <= column_weight c (g_nodes g') - column_weight c (g_nodes g)
    <= h * (rho + c_air_density c * c_air_density c / c_ice_density c) /\
    (c_minimum_snowfall c <= h ->
       g_new_snow_height g' = h /\ g_new_snow_timestamp g' = 0 /\
       g_old_snow_timestamp g' = g_new_snow_timestamp g) /\
    (h < c_minimum_snowfall c ->
       g_new_snow_height g' = g_new_snow_height g /\
       g_new_snow_timestamp g' = g_new_snow_timestamp g + dt /\
       g_old_snow_timestamp g' = g_old_snow_timestamp g + dt).
Proof.
  intros c g h rho t dt Hi Ha Hr Hai Hh g'.
  exists (new_node c h rho t 0 None). unfold g'.
  rewrite add_fresh_snow_nodes.
  split; [reflexivity|]. do 4 (split; [reflexivity|]).
  split. { unfold add_fresh_snow. destruct (Rltb h _); reflexivity. }
  split.
  - unfold column_weight. rewrite total_cons. unfold layer_weight.
    destruct (new_node_density_bounds c h rho t Hi Ha Hr Hai) as [[B1 B2] _].
    change (n_height (new_node c h rho t 0 None)) with h. nra.
  - unfold add_fresh_snow. destruct (Rltb_spec h (c_minimum_snowfall c)) as [L|L]; cbn.
    + split; [lra|auto].
    + split; [auto|lra].
Qed.

(*@ C56 Adaptive remeshing terminates on every admissible column; what is missing
    afterwards is a list of layers each no thicker than the minimum layer height;
    the only failure is an IndexError on a column that has shrunk to one layer
    thinner than the first layer height. *)
Lemma adaptive_profile_loses_only_thin_layers_lem : forall c g fuel,
  0 < c_first_layer_height c ->
  counted g -> column_ok (g_nodes g) -> g_nodes g <> [] ->
  (length (g_nodes g) + 2 < fuel)%nat ->
  (exists g' removed, adaptive_profile fuel c g = Ok g' /\ counted g' /\ same_clock g g' /\
     column_ok (g_nodes g') /\ g_nodes g' <> [] /\
     Forall (fun n => 0 < n_height n <= c_minimum_snow_layer_height c) removed /\
     conserved (g_nodes g) (removed ++ g_nodes g'))
  \/ (adaptive_profile fuel c g = Err IndexError /\
      exists removed x,
        Forall (fun n => 0 < n_height n <= c_minimum_snow_layer_height c) removed /\
        n_height x < c_first_layer_height c /\ conserved (g_nodes g) (removed ++ [x])).
Proof.
  intros c g fuel H1 H2 H3 H4 H5.
  destruct (adaptive_profile_spec c g fuel H1 H2 H3 H4 H5) as [(g' & W & I)|(W & rm & x & P)].
  - left. destruct I as [C K O Ne (rm & Th & Co)]. exists g', rm. auto 10.
  - right. split; [exact W|]. exists rm, x. exact P.
Qed.

(*@ C56 Removing thin layers loses mass: adaptive remeshing does not conserve the column
    in general. *)
Lemma adaptive_profile_conserves_refuted_lem : exists g g' i k fuel,
  counted g /\ column_ok (g_nodes g) /\
  adaptive_snow fuel default_constants g = Ok (g', i, k) /\
  column_ice (g_nodes g') < column_ice (g_nodes g).
Proof.
  set (x := mkNode 0.001 265 0 0.3 0).
  set (g := mkGrid [x; ex_dry; ex_ice] 3 0 0 0).
  assert (Dx : layer_density default_constants x = 0.3 * 917 + 0.7 * 1.1) by (compute_density; lra).
  exists g, (mkGrid [ex_dry; ex_ice] 2 0 0 0), 0%Z, 0%Z, 2%nat.
  split; [reflexivity|]. split; [repeat constructor; cbn; lra|]. split.
  - unfold adaptive_snow. cbn [while_loop adapt_cond].
    rewrite get_number_snow_layers_counted by reflexivity. cbn [bind].
    assert (N : nsnow default_constants (g_nodes g) = 2%nat).
    { unfold nsnow. cbn [g_nodes g filter]. unfold snowb. rewrite Dx, ex_dry_density, ex_ice_density.
      rewrite !Rltb_true by (cbn; lra). rewrite Rltb_false by (cbn; lra). reflexivity. }
    rewrite N. change (0 <? Z.of_nat 2 - 1)%Z with true. cbn [adapt_body].
    unfold get_node_temperature, get_node_density, get_node_height.
    rewrite (get_node_mid g [] x _ eq_refl : get_node g 0 = _).
    rewrite (get_node_mid1 g [] x ex_dry _ eq_refl : get_node g (0 + 1) = _). cbn [bind].
    rewrite Rleb_false. 
    2:{ cbn. unfold Rabs. destruct (Rcase_abs _); lra. }
    cbn [andb]. rewrite Rleb_true by (cbn; lra).
    rewrite (remove_one_mid g [] x _ eq_refl : remove_node g (Some [0%Z]) = _). cbn [bind].
    cbn [while_loop adapt_cond]. rewrite get_number_snow_layers_counted by reflexivity. cbn [bind].
    assert (N2 : nsnow default_constants [ex_dry; ex_ice] = 1%nat).
    { unfold nsnow. cbn [filter]. unfold snowb. rewrite ex_dry_density, ex_ice_density.
      rewrite !Rltb_true by (cbn; lra). rewrite Rltb_false by (cbn; lra). reflexivity. }
    cbn [g_nodes with_nodes with_number app]. rewrite N2. reflexivity.
  - unfold column_ice; cbn. lra.
Qed.
