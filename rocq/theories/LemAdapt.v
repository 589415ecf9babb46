(** * adaptive_profile *)
From Verif Require Import ModelPy ModelConstants ModelNode ModelGrid Spec LemPy LemGridBase
  LemMerge LemCorrect LemLog LemGridOps LemGridMore.

(** the merge counter never exceeds [merge_max + 1] *)
Lemma adaptive_snow_counter fuel c g g' i k :
  (0 <= c_merge_max c + 1)%Z -> adaptive_snow fuel c g = Ok (g', i, k) ->
  (0 <= k <= c_merge_max c + 1)%Z.
Proof.
  unfold adaptive_snow; intros Hm H.
  apply (while_inv (fun s => (0 <= snd s <= c_merge_max c + 1)%Z)) in H; [exact (proj1 H)| |cbn; lia].
  clear. intros [[g i] k] [[g' i'] k'] Hk _ Hb. cbn [adapt_body snd] in *. do 5 (inv_bind Hb).
  match type of Hb with (if ?b then _ else _) = _ => destruct b eqn:Eb end.
  - inv_bind Hb. injection Hb as _ _ <-. apply andb_true_iff in Eb. destruct Eb as [_ Eb].
    apply Z.leb_le in Eb. lia.
  - clear Eb. destruct (Rleb _ _).
    + inv_bind Hb. now injection Hb as _ _ <-.
    + now injection Hb as _ _ <-.
Qed.

Definition thin (c : Consts) (n : Node) : Prop :=
  0 < n_height n <= c_minimum_snow_layer_height c.

Record adapt_inv (c : Consts) (g0 g : Grid) : Prop := {
  ai_counted : counted g;
  ai_clock : same_clock g0 g;
  ai_ok : column_ok (g_nodes g);
  ai_ne : g_nodes g <> [];
  ai_cons : exists removed, Forall (thin c) removed /\
              conserved (g_nodes g0) (removed ++ g_nodes g)
}.

Lemma adapt_merge c g0 g i g1 : adapt_inv c g0 g -> (0 <= i)%Z -> merge_nodes g i = Ok g1 ->
  adapt_inv c g0 g1 /\ length (g_nodes g) = S (length (g_nodes g1)).
Proof.
  intros [C K O Ne (rm & Th & Co)] Hi Hm.
  assert (P := column_ok_positive _ O).
  destruct (merge_nodes_inv _ _ _ P Hm) as (Hn & K1 & Hcase).
  assert (C1 := merge_nodes_counted _ _ _ P C Hm).
  assert (Hlen : length (g_nodes g) = S (length (g_nodes g1))) by (unfold counted in *; destruct (g_nodes g); [congruence|cbn [length] in *; lia]).
  assert (Ne1 : g_nodes g1 <> []).
  { destruct Hcase as [(pre & a & b & post & E1 & _ & E2)|[(E & _)|(E & _)]]; [|lia|lia].
    rewrite E2. destruct pre; discriminate. }
  split; [|exact Hlen]. constructor; auto.
  - eapply same_clock_trans; eauto.
  - exact (merge_nodes_ok _ _ _ O Hm).
  - exists rm. split; [exact Th|]. eapply conserved_trans; [exact Co|].
    apply conserved_app_l. now apply (merge_nodes_conserves g i g1).
Qed.

Lemma conserved_perm_mid a l1 l2 rm : conserved (rm ++ l1 ++ a :: l2) ((rm ++ [a]) ++ l1 ++ l2).
Proof.
  constructor; unfold column_height, column_ice, column_water, column_heat;
    rewrite !total_app, !total_cons, ?total_app, ?total_nil; lra.
Qed.

Lemma adapt_remove c g0 g pre a post : adapt_inv c g0 g -> g_nodes g = pre ++ a :: post ->
  n_height a <= c_minimum_snow_layer_height c -> post <> [] ->
  exists g1, remove_node g (Some [Z.of_nat (length pre)]) = Ok g1 /\
    adapt_inv c g0 g1 /\ length (g_nodes g) = S (length (g_nodes g1)).
Proof.
  intros [C K O Ne (rm & Th & Co)] Hg Hh Hp.
  rewrite (remove_one_mid g pre a post Hg). eexists; split; [reflexivity|].
  cbn [g_nodes with_nodes with_number].
  assert (Oa : 0 < n_height a /\ column_ok (pre ++ post)).
  { rewrite Hg in O. apply Forall_app in O. destruct O as [O1 O2].
    split; [exact (proj1 (Forall_inv O2))|]. apply Forall_app; split; [exact O1|exact (Forall_inv_tail O2)]. }
  split.
  - constructor; cbn [g_nodes with_nodes with_number].
    + unfold counted in *; cbn [g_nodes g_number_nodes with_nodes with_number].
      rewrite C, Hg, !app_length. cbn [length]. lia.
    + eapply same_clock_trans; [exact K|repeat split].
    + exact (proj2 Oa).
    + destruct pre, post; cbn; congruence.
    + exists (rm ++ [a]). split.
      * apply Forall_app; split; [exact Th|]. constructor; [|constructor]. split; [tauto|exact Hh].
      * eapply conserved_trans; [exact Co|]. rewrite Hg. apply conserved_perm_mid.
  - rewrite Hg, !app_length. cbn [length]. lia.
Qed.

Lemma adaptive_snow_spec c g fuel : counted g -> column_ok (g_nodes g) -> g_nodes g <> [] ->
  (length (g_nodes g) < fuel)%nat ->
  exists g1 i k, adaptive_snow fuel c g = Ok (g1, i, k) /\ adapt_inv c g g1 /\
    (length (g_nodes g1) <= length (g_nodes g))%nat.
Proof.
  intros C O Ne Hf. unfold adaptive_snow.
  destruct (while_term
    (fun t : adapt_state => adapt_inv c g (fst (fst t)) /\ (0 <= snd (fst t))%Z /\
       (length (g_nodes (fst (fst t))) <= length (g_nodes g))%nat)
    (fun t => (length (g_nodes (fst (fst t))) - Z.to_nat (snd (fst t)))%nat)
    (adapt_cond c) (adapt_body c)) with (fuel := fuel) (s := (g, 0%Z, 0%Z))
    as ([[g1 i] k] & W & (I & _ & L) & _).
  - intros [[g1 i] k] (I & _). cbn [adapt_cond].
    rewrite get_number_snow_layers_counted by exact (ai_counted _ _ _ I). cbn [bind]; eauto.
  - intros [[g1 i] k] (I & Hi & L) Hc. cbn [adapt_cond fst snd] in *.
    rewrite get_number_snow_layers_counted in Hc by exact (ai_counted _ _ _ I).
    cbn [bind] in Hc. injection Hc as Hc. apply Z.ltb_lt in Hc.
    assert (Hle := nsnow_le c (g_nodes g1)).
    destruct (split_at (g_nodes g1) (Z.to_nat i)) as (pre & a & post & E & Lp); [lia|].
    destruct post as [|b post]. { rewrite E, app_length in Hle. cbn [length] in Hle. rewrite E in Hc. lia. }
    assert (Ei : i = Z.of_nat (length pre)) by lia.
    cbn [adapt_body]. unfold get_node_temperature, get_node_density, get_node_height.
    rewrite Ei. rewrite (get_node_mid g1 pre a _ E), (get_node_mid1 g1 pre a b post E). cbn [bind].
    match goal with |- context [if ?b then _ else _] => destruct b eqn:Eb end.
    + destruct (merge_total g1 (Z.of_nat (length pre))) as [g2 Hm].
      { apply column_ok_positive, I. }
      { apply I. }
      { lia. }
      { rewrite E, app_length. cbn [length]. lia. }
      rewrite Hm. cbn [bind]. eexists; split; [reflexivity|]. cbn [fst snd].
      destruct (adapt_merge c g g1 (Z.of_nat (length pre)) g2 I ltac:(lia) Hm) as [I2 L2].
      split; [split; [exact I2|split; [lia|lia]]|].
      rewrite E, app_length in L2, Hle. cbn [length] in L2, Hle.
      rewrite E, app_length. cbn [length]. lia.
    + destruct (Rleb_spec (n_height a) (c_minimum_snow_layer_height c)) as [Hh|Hh].
      * destruct (adapt_remove c g g1 pre a (b :: post) I E Hh) as (g2 & Hr & I2 & L2); [discriminate|].
        rewrite Hr. cbn [bind]. eexists; split; [reflexivity|]. cbn [fst snd].
        split; [split; [exact I2|split; [lia|lia]]|].
        rewrite E, app_length in L2. cbn [length] in L2. rewrite E, app_length. cbn [length]. lia.
      * eexists; split; [reflexivity|]. cbn [fst snd].
        split; [split; [exact I|split; [lia|lia]]|].
        rewrite E, app_length. cbn [length]. lia.
  - cbn [fst snd]. split; [|split; [lia|lia]]. constructor; auto; [apply same_clock_refl|].
    exists []. split; [constructor|apply conserved_refl].
  - cbn [fst snd]. lia.
  - exists g1, i, k. cbn [fst snd] in *. auto.
Qed.

Lemma adapt_correct c g0 g fuel i h : adapt_inv c g0 g -> (0 <= i < Z.of_nat (length (g_nodes g)))%Z ->
  0 < h -> (length (g_nodes g) < fuel)%nat ->
  exists g1, correct_layer fuel c g i h = Ok g1 /\ adapt_inv c g0 g1 /\
    (length (g_nodes g1) <= S (length (g_nodes g)))%nat /\
    (Z.to_nat i < length (g_nodes g1))%nat.
Proof.
  intros [C K O Ne (rm & Th & Co)] Hi Hh Hf.
  destruct (split_at (g_nodes g) (Z.to_nat i)) as (pre & a & post & E & L); [lia|].
  assert (Hlen : length (g_nodes g) = (length pre + S (length post))%nat)
    by (rewrite E, app_length; reflexivity).
  destruct (correct_layer_good fuel c g pre a post h E C O Hh) as
    (g1 & W & C1 & K1 & Co1 & O1 & L1 & L2); [lia|].
  exists g1. replace i with (Z.of_nat (length pre)) by lia. split; [exact W|]. split.
  - constructor; auto.
    + eapply same_clock_trans; eauto.
    + intros E0. rewrite E0 in L2. cbn in L2. lia.
    + exists rm. split; [exact Th|]. eapply conserved_trans; [exact Co|]. now apply conserved_app_l.
  - split; [exact L1|lia].
Qed.

Lemma adapt_ice_loop c g0 g i fuel : adapt_inv c g0 g -> (0 <= i)%Z ->
  (length (g_nodes g) < fuel)%nat ->
  exists g1 i1, while_loop fuel adapt_ice_cond (adapt_ice_body c) (g, i) = Ok (g1, i1) /\
    adapt_inv c g0 g1 /\ (length (g_nodes g1) <= length (g_nodes g))%nat.
Proof.
  intros I0 Hi0 Hf.
  destruct (while_term
    (fun t : Grid * Z => adapt_inv c g0 (fst t) /\ (0 <= snd t)%Z /\
       (length (g_nodes (fst t)) <= length (g_nodes g))%nat)
    (fun t => (length (g_nodes (fst t)) - Z.to_nat (snd t))%nat)
    adapt_ice_cond (adapt_ice_body c)) with (fuel := fuel) (s := (g, i))
    as ([g1 i1] & W & (I & _ & L) & _).
  - intros [g1 j] _. cbn [adapt_ice_cond]. eauto.
  - intros [g1 j] (I & Hj & L) Hc. cbn [adapt_ice_cond fst snd] in *.
    injection Hc as Hc. apply Z.ltb_lt in Hc. unfold get_number_layers in Hc.
    assert (Cg := ai_counted _ _ _ I). unfold counted in Cg. rewrite Cg in Hc.
    destruct (split_at (g_nodes g1) (Z.to_nat j)) as (pre & a & post & E & Lp); [lia|].
    cbn [adapt_ice_body]. unfold get_node_height.
    replace j with (Z.of_nat (length pre)) by lia.
    rewrite (get_node_mid g1 pre a post E). cbn [bind].
    destruct (Rltb (n_height a) (c_minimum_snow_layer_height c)).
    + destruct (merge_total g1 (Z.of_nat (length pre))) as [g2 Hm].
      { apply column_ok_positive, I. }
      { apply I. }
      { lia. }
      { lia. }
      rewrite Hm. cbn [bind]. eexists; split; [reflexivity|]. cbn [fst snd].
      destruct (adapt_merge c g0 g1 (Z.of_nat (length pre)) g2 I ltac:(lia) Hm) as [I2 L2].
      split; [split; [exact I2|split; [lia|lia]]|]. lia.
    + eexists; split; [reflexivity|]. cbn [fst snd].
      split; [split; [exact I|split; [lia|lia]]|]. lia.
  - cbn [fst snd]. split; [exact I0|split; lia].
  - cbn [fst snd]. lia.
  - exists g1, i1. cbn [fst snd] in *. auto.
Qed.

(** the complete behaviour on admissible columns *)
Lemma adaptive_profile_spec c g fuel :
  0 < c_first_layer_height c ->
  counted g -> column_ok (g_nodes g) -> g_nodes g <> [] ->
  (length (g_nodes g) + 2 < fuel)%nat ->
  (exists g', adaptive_profile fuel c g = Ok g' /\ adapt_inv c g g')
  \/ (adaptive_profile fuel c g = Err IndexError /\
      exists removed x, Forall (thin c) removed /\ n_height x < c_first_layer_height c /\
        conserved (g_nodes g) (removed ++ [x])).
Proof.
  intros Hfh C O Ne Hf.
  destruct (adaptive_snow_spec c g fuel C O Ne) as (g1 & i1 & k1 & W1 & I1 & L1); [lia|].
  unfold adaptive_profile. rewrite W1. cbn [bind].
  rewrite get_number_snow_layers_counted by exact (ai_counted _ _ _ I1). cbn [bind].
  destruct (g_nodes g1) as [|x t] eqn:E1; [exfalso; now apply (ai_ne _ _ _ I1)|].
  unfold get_node_height. rewrite (get_node_mid g1 [] x t E1 : get_node g1 0 = _). cbn [bind].
  set (mi := Z.max 1 (Z.of_nat (nsnow c (x :: t)))).
  assert (Hmi : (1 <= mi)%Z) by (unfold mi; lia).
  assert (Hrest : forall g2 j, adapt_inv c g g2 -> (0 <= j)%Z -> (length (g_nodes g2) <= S (length (g_nodes g1)))%nat ->
    exists g', (' (g3, _) <- while_loop fuel adapt_ice_cond (adapt_ice_body c) (g2, j);;
       correct_layer fuel c g3 0 (c_first_layer_height c)) = Ok g' /\ adapt_inv c g g').
  { intros g2 j I2 Hj L2. rewrite E1 in L2.
    destruct (adapt_ice_loop c g g2 j fuel I2 Hj) as (g3 & j3 & W3 & I3 & L3); [lia|].
    rewrite W3. cbn [bind].
    destruct (adapt_correct c g g3 fuel 0 (c_first_layer_height c) I3) as (g4 & W4 & I4 & _); auto.
    - assert (N3 := ai_ne _ _ _ I3). destruct (g_nodes g3); [congruence|cbn [length]; lia].
    - lia.
    - exists g4. auto. }
  destruct ((mi =? 1)%Z && Rltb (n_height x) (c_first_layer_height c)) eqn:Eb.
  - apply andb_true_iff in Eb. destruct Eb as [Eb1 Eb2]. apply Z.eqb_eq in Eb1.
    destruct (Rltb_spec (n_height x) (c_first_layer_height c)) as [Hx|Hx]; [|discriminate].
    rewrite Eb1.
    destruct t as [|y t].
    + right. unfold correct_layer, get_node_height, get_node. rewrite E1.
      split; [reflexivity|].
      destruct (ai_cons _ _ _ I1) as (rm & Th & Co). exists rm, x. rewrite E1 in Co. auto.
    + left. destruct (adapt_correct c g g1 fuel 1 (c_first_layer_height c) I1) as (g2 & W2 & I2 & L2 & _); auto.
      { rewrite E1. cbn [length]. lia. }
      { rewrite E1. lia. }
      rewrite W2. cbn [bind]. apply Hrest; auto. lia.
  - left. cbn [bind]. apply Hrest; auto; lia.
Qed.

(** ** A column on which two similarity merges happen although merge_max = 1 *)
Definition thin_snow (h : R) : Node := mkNode h 270 0 0.3 0.
Definition bare_ice : Node := mkNode 1 270 0 1 0.

Lemma dens_thin h : layer_density default_constants (thin_snow h) = 0.3 * 917 + 0.7 * 1.1.
Proof.
  unfold layer_density, layer_air_porosity, thin_snow; cbn. rewrite Rmax_right by lra. lra.
Qed.
Lemma dens_bare : layer_density default_constants bare_ice = 917.
Proof.
  unfold layer_density, layer_air_porosity, bare_ice; cbn. rewrite Rmax_left by lra. lra.
Qed.

Lemma merged_thin a b : 0 < a -> 0 < b -> merged (thin_snow a) (thin_snow b) = thin_snow (a + b).
Proof. intros Ha Hb. unfold merged, thin_snow; cbn. f_equal; field; lra. Qed.

Lemma nsnow_thin hs : nsnow default_constants (map thin_snow hs ++ [bare_ice]) = length hs.
Proof.
  rewrite (nsnow_split default_constants (map thin_snow hs) [bare_ice]); [apply map_length|].
  split.
  - apply Forall_forall. intros n Hn. apply in_map_iff in Hn. destruct Hn as (h & <- & _).
    unfold is_snow. rewrite dens_thin. cbn. lra.
  - constructor; [|constructor]. unfold is_snow. rewrite dens_bare. cbn. lra.
Qed.

Lemma adapt_thin_step (merge_count : Z) h1 h2 hs k n o t fuel :
  0 < h1 <= 0.1 -> 0 < h2 -> (merge_count <= 1)%Z -> k = Z.of_nat (S (S (S (length hs)))) ->
  while_loop (S fuel) (adapt_cond default_constants) (adapt_body default_constants)
    (mkGrid (map thin_snow (h1 :: h2 :: hs) ++ [bare_ice]) k n o t, 0%Z, merge_count)
  = while_loop fuel (adapt_cond default_constants) (adapt_body default_constants)
    (mkGrid (map thin_snow ((h1 + h2) :: hs) ++ [bare_ice]) (k - 1) n o t, 0%Z, (merge_count + 1)%Z).
Proof.
  intros H1 H2 Hm ->. cbn [while_loop adapt_cond].
  set (g := mkGrid _ _ _ _ _).
  assert (E : g_nodes g = [] ++ thin_snow h1 :: thin_snow h2 :: (map thin_snow hs ++ [bare_ice])) by reflexivity.
  rewrite get_number_snow_layers_counted.
  2:{ unfold counted, g. cbn [g_number_nodes g_nodes]. rewrite app_length, map_length. cbn [length]. lia. }
  cbn [bind]. change (g_nodes g) with (map thin_snow (h1 :: h2 :: hs) ++ [bare_ice]).
  rewrite nsnow_thin. cbn [length].
  replace (0 <? Z.of_nat (S (S (length hs))) - 1)%Z with true by (symmetry; apply Z.ltb_lt; lia).
  cbn [adapt_body]. unfold get_node_temperature, get_node_density, get_node_height.
  rewrite (get_node_mid g [] _ _ E : get_node g 0 = _).
  rewrite (get_node_mid1 g [] _ _ _ E : get_node g (0 + 1) = _). cbn [bind].
  rewrite !dens_thin. cbn [thin_snow n_temperature n_height].
  rewrite !Rminus_diag_eq by reflexivity. rewrite Rabs_R0.
  rewrite (Rleb_true 0 (c_temperature_threshold_merging default_constants)) by (cbn; lra).
  rewrite (Rleb_true 0 (c_density_threshold_merging default_constants)) by (cbn; lra).
  rewrite (Rleb_true h1 0.1) by lra.
  replace (merge_count <=? c_merge_max default_constants)%Z with true
    by (symmetry; apply Z.leb_le; cbn; lia).
  cbn [andb].
  assert (Hh : n_height (thin_snow h1) + n_height (thin_snow h2) <> 0) by (cbn; lra).
  rewrite (merge_nodes_mid g [] _ _ _ E Hh : merge_nodes g 0 = _).
  cbn [bind]. rewrite merged_thin by lra. reflexivity.
Qed.

(** four 3 cm layers of identical snow over ice *)
Definition four_thin : Grid :=
  mkGrid (map thin_snow [0.03; 0.03; 0.03; 0.2] ++ [bare_ice]) 5 0 0 0.

Lemma four_thin_merged_twice : exists fuel g' i,
  adaptive_snow fuel default_constants four_thin = Ok (g', i, 2%Z) /\
  length (g_nodes four_thin) = 5%nat /\ length (g_nodes g') = 3%nat /\
  conserved (g_nodes four_thin) (g_nodes g').
Proof.
  exists 5%nat. unfold adaptive_snow, four_thin.
  rewrite adapt_thin_step by (try lra; try lia; reflexivity).
  rewrite adapt_thin_step by (try lra; try lia; reflexivity).
  set (g := mkGrid (map thin_snow [0.03 + 0.03 + 0.03; 0.2] ++ [bare_ice]) (5 - 1 - 1) 0 0 0).
  exists g, 1%Z.
  assert (E : g_nodes g = [] ++ thin_snow (0.03 + 0.03 + 0.03) :: thin_snow 0.2 :: [bare_ice]) by reflexivity.
  cbn [while_loop adapt_cond]. rewrite get_number_snow_layers_counted by reflexivity.
  cbn [bind]. change (g_nodes g) with (map thin_snow [0.03 + 0.03 + 0.03; 0.2] ++ [bare_ice]).
  rewrite nsnow_thin. cbn [length]. cbn [Z.of_nat Pos.of_succ_nat Pos.succ Z.sub Z.add Z.opp Z.pos_sub Z.ltb Z.compare].
  cbn [adapt_body]. unfold get_node_temperature, get_node_density, get_node_height.
  rewrite (get_node_mid g [] _ _ E : get_node g 0 = _).
  rewrite (get_node_mid1 g [] _ _ _ E : get_node g (0 + 1) = _). cbn [bind].
  replace (0 + 1 + 1 <=? c_merge_max default_constants)%Z with false by reflexivity.
  rewrite !andb_false_r.
  rewrite Rleb_false by (cbn; lra). cbn [bind].
  cbn [while_loop adapt_cond]. rewrite get_number_snow_layers_counted by reflexivity.
  cbn [bind]. change (g_nodes g) with (map thin_snow [0.03 + 0.03 + 0.03; 0.2] ++ [bare_ice]).
  rewrite nsnow_thin. cbn [length].
  split; [reflexivity|]. split; [reflexivity|]. split; [reflexivity|].
  constructor; unfold column_height, column_ice, column_water, column_heat; cbn; lra.
Qed.
