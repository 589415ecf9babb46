(** * Properties of the remeshed column *)
From Verif Require Import ModelPy ModelConstants ModelNode ModelGrid Spec SpecRemesh.
From Verif Require Import LemPy LemGridBase LemMerge LemCorrect LemLog LemLog2 LemGridOps LemGridMore LemAdapt.

(*@ C90 Dry snow over enough dry ice: after logarithmic remeshing the snow layers have the thicknesses f, fs, fss, ... of the documented profile, the ice layers continue the series, snow and ice are not mixed and keep their heights. *)
Lemma log_profile_layers_lem :
  forall c g snow ice,
    0 < c_first_layer_height c -> 1 <= c_layer_stretching c -> counted g ->
    g_nodes g = snow ++ ice -> Forall dry (snow ++ ice) -> snow_over_ice c snow ice ->
    c_first_layer_height c <= column_height ice -> c_layer_stretching c * column_height snow <= column_height ice ->
    exists N, forall fuel, (N <= fuel)%nat -> exists g' snow' ice' k j,
      log_profile fuel c g = Ok g' /\ g_nodes g' = snow' ++ ice' /\ snow_over_ice c snow' ice' /\ Forall dry (snow' ++ ice') /\
      log_profiled (c_first_layer_height c) (c_layer_stretching c) (column_height snow) k snow' /\
      log_profiled (target (c_first_layer_height c) (c_layer_stretching c) k) (c_layer_stretching c) (column_height ice) j ice' /\
      (0 < j)%nat.
Proof. exact log_profile_heights. Qed.

(*@ex *)
Lemma log_profile_layers_ex_lem :
  let snow := [mkNode 0.005 268 0 0.3 0; mkNode 0.2 268 0 0.4 0] in
  let ice := [mkNode 1 265 0 1 0; mkNode 3 265 0 1 0] in
  let c := default_constants in
  Forall dry (snow ++ ice) /\ snow_over_ice c snow ice /\
  c_first_layer_height c <= column_height ice /\ c_layer_stretching c * column_height snow <= column_height ice /\
  reach (c_first_layer_height c) (c_layer_stretching c) 2 < column_height snow.
Proof.
  cbv zeta. split; [|split; [split|]].
  - repeat constructor; cbn; lra.
  - repeat constructor; unfold is_snow, layer_density, layer_air_porosity; cbn; rewrite Rmax_right by lra; lra.
  - repeat constructor; unfold is_snow, layer_density, layer_air_porosity; cbn; rewrite Rmax_right by lra; lra.
  - unfold column_height, reach, target; cbn. lra.
Qed.

(*@ C90 Finding: where both the snow and the ice below it are thinner than the first layer, remeshing merges them, so that snow and ice are mixed. *)
Lemma log_profile_mixes_lem :
  forall c g x y fuel,
    dry x -> dry y -> is_snow c x -> ~ is_snow c y -> 0 < c_first_layer_height c ->
    n_height x < c_first_layer_height c -> n_height y < c_first_layer_height c ->
    counted g -> g_nodes g = [x; y] -> (3 <= fuel)%nat ->
    exists g' m, log_profile fuel c g = Ok g' /\ g_nodes g' = [m] /\ merger x y m.
Proof.
  intros c g x y fuel Dx Dy Sx Sy Hf Lx Ly Hc Hg HF. destruct fuel as [|[|[|fuel]]]; try lia.
  assert (Ns : nsnow c (g_nodes g) = 1%nat).
  { rewrite Hg. change [x; y] with ([x] ++ [y]). rewrite cls_nsnow; [reflexivity|apply cls_snow; repeat (constructor; auto)|apply cls_ice; repeat (constructor; auto)]. }
  destruct Dx as (Px & _), Dy as (Py & _). pose proof (merge_nodes_mid g [] x y [] Hg ltac:(lra)) as M. cbn [length Z.of_nat app] in M.
  unfold log_profile. rewrite !get_total_snowheight_counted by exact Hc. rewrite Ns. cbn [bind firstn]. rewrite Hg. cbn [firstn].
  replace (column_height [x]) with (n_height x) by (unfold column_height; cbn; lra).
  do 2 (cbn [while_loop log_snow_cond]; rewrite get_number_snow_layers_counted by exact Hc; rewrite Ns;
        cbn [bind Z.of_nat Z.ltb Z.compare Pos.compare Pos.compare_cont Pos.of_succ_nat Z.add Pos.succ log_snow_body];
        rewrite ?(Rleb_false (c_first_layer_height c) (n_height x)) by lra; rewrite ?(Rltb_true (n_height x) (c_first_layer_height c)) by lra; cbn [andb bind]).
  rewrite get_total_height_counted by exact Hc. cbn [bind].
  rewrite get_total_snowheight_counted by exact Hc. rewrite Ns. cbn [bind firstn].
  rewrite get_number_snow_layers_counted by exact Hc. rewrite Ns, Hg. cbn [bind firstn Z.of_nat Pos.of_succ_nat].
  replace (column_height [x; y] - column_height [x]) with (n_height y) by (unfold column_height; cbn; lra).
  cbn [while_loop log_ice_cond]. unfold get_number_layers. rewrite Hc, Hg. cbn [length Z.of_nat Pos.of_succ_nat Pos.succ Z.ltb Z.compare Pos.compare Pos.compare_cont bind log_ice_body].
  rewrite (Rleb_false (c_first_layer_height c) (n_height y)) by lra. rewrite (Rltb_true (n_height y) (c_first_layer_height c)) by lra.
  change (1 - 1)%Z with 0%Z. rewrite M. cbn [bind with_number g_number_nodes]. rewrite Hc, Hg. cbn [length].
  match goal with |- context [log_ice_cond ?t] => change (log_ice_cond t) with (Ok false) end. cbn [bind].
  eexists. exists (merged x y). split; [reflexivity|]. split; [reflexivity|]. apply merged_merger. lra.
Qed.

(*@ C90 Finding: the first layer has not always the defined height.  With a little more snow than one layer, but not enough for two, it is thicker. *)
Lemma first_layer_thickened_lem :
  forall c g snow ice,
    0 < c_first_layer_height c -> 1 <= c_layer_stretching c -> counted g ->
    g_nodes g = snow ++ ice -> Forall dry (snow ++ ice) -> snow_over_ice c snow ice ->
    c_first_layer_height c <= column_height ice -> c_layer_stretching c * column_height snow <= column_height ice ->
    c_first_layer_height c < column_height snow < c_first_layer_height c + c_layer_stretching c * c_first_layer_height c ->
    exists N, forall fuel, (N <= fuel)%nat -> exists g' x below,
      log_profile fuel c g = Ok g' /\ g_nodes g' = x :: below /\ c_first_layer_height c < n_height x.
Proof.
  intros c g snow ice Hf Hs Hc Hg HD SI H1 H2 HH. destruct (log_profile_heights c g snow ice Hf Hs Hc Hg HD SI H1 H2) as [N HN].
  exists N. intros fuel Hfu. destruct (HN fuel Hfu) as (g' & s' & i' & k & j & W & G & _ & _ & ([R1 R2] & _ & P) & _ & _).
  assert (T : forall n, 0 < target (c_first_layer_height c) (c_layer_stretching c) n) by (intros n; apply target_pos; auto).
  set (f := c_first_layer_height c) in *. set (s := c_layer_stretching c) in *.
  assert (M : forall n, reach f s (2 + n) >= f + s * f).
  { induction n as [|n IH]; [unfold reach, target; cbn; lra|]. change (2 + S n)%nat with (S (2 + n)). unfold reach in *. cbn [sum_upto]. specialize (T (2 + n)%nat). cbn [Nat.add] in *. lra. }
  assert (k = 1%nat).
  { destruct k as [|[|k]]; [|reflexivity|].
    - unfold reach, target in R2. cbn in R2. lra.
    - specialize (M k). cbn [Nat.add] in M. lra. }
  subst k. assert (E1 : reach f s 1 = f) by (unfold reach, target; cbn; lra).
  destruct P as [[P _]|(_ & top & x & more & -> & Et & Hx)]; [lra|]. cbn in Et. destruct top; [|discriminate]. exists g', x, (more ++ i'). split; [exact W|]. split; [exact G|].
  specialize (Hx ltac:(lia)). unfold target in Hx. cbn in Hx. lra.
Qed.

(*@ex *)
Lemma first_layer_thickened_ex_lem :
  let snow := [mkNode 0.015 268 0 0.3 0] in
  let ice := [mkNode 3 265 0 1 0] in
  let c := default_constants in
  Forall dry (snow ++ ice) /\ snow_over_ice c snow ice /\
  c_first_layer_height c <= column_height ice /\ c_layer_stretching c * column_height snow <= column_height ice /\
  c_first_layer_height c < column_height snow < c_first_layer_height c + c_layer_stretching c * c_first_layer_height c.
Proof.
  cbv zeta. split; [|split; [split|]].
  - repeat constructor; cbn; lra.
  - repeat constructor; unfold is_snow, layer_density, layer_air_porosity; cbn; rewrite Rmax_right by lra; lra.
  - repeat constructor; unfold is_snow, layer_density, layer_air_porosity; cbn; rewrite Rmax_right by lra; lra.
  - unfold column_height; cbn. lra.
Qed.

(*@ C91 After the snow part of adaptive remeshing every snow layer but the lowest is thicker than the minimum. *)
Lemma adaptive_snow_thickness_lem :
  forall fuel c g g' i merges,
    counted g -> column_ok (g_nodes g) -> g_nodes g <> [] -> adaptive_snow fuel c g = Ok (g', i, merges) ->
    Forall (fun n => c_minimum_snow_layer_height c < n_height n) (firstn (nsnow c (g_nodes g') - 1) (g_nodes g')).
Proof.
  intros fuel c g g' i merges C O Ne H. unfold adaptive_snow in H.
  apply (while_inv (fun t : adapt_state => adapt_inv c g (fst (fst t)) /\ (0 <= snd (fst t))%Z /\
    (Z.to_nat (snd (fst t)) <= length (g_nodes (fst (fst t))))%nat /\
    Forall (fun n => c_minimum_snow_layer_height c < n_height n) (firstn (Z.to_nat (snd (fst t))) (g_nodes (fst (fst t)))))) in H.
  - cbn [fst snd] in H. destruct H as [(I & Hi & L & F) Hc]. cbn [adapt_cond] in Hc.
    rewrite get_number_snow_layers_counted in Hc by exact (ai_counted _ _ _ I). cbn [bind] in Hc. injection Hc as Hc. apply Z.ltb_ge in Hc.
    replace (firstn (nsnow c (g_nodes g') - 1) (g_nodes g')) with (firstn (nsnow c (g_nodes g') - 1) (firstn (Z.to_nat i) (g_nodes g'))).
    + rewrite <- (firstn_skipn (nsnow c (g_nodes g') - 1) (firstn (Z.to_nat i) (g_nodes g'))) in F. apply Forall_app in F. tauto.
    + rewrite firstn_firstn. f_equal. lia.
  - clear H. intros [[g1 j] k] t' (I & Hi & L & F) Hc Hb. cbn [fst snd] in *. cbn [adapt_cond] in Hc.
    rewrite get_number_snow_layers_counted in Hc by exact (ai_counted _ _ _ I). cbn [bind] in Hc. injection Hc as Hc. apply Z.ltb_lt in Hc.
    assert (Hle := nsnow_le c (g_nodes g1)).
    destruct (split_at (g_nodes g1) (Z.to_nat j)) as (pre & a & post & E & Lp); [lia|].
    destruct post as [|b post]. { rewrite E, app_length in Hle. cbn [length] in Hle. rewrite E in Hc. lia. }
    assert (Ei : j = Z.of_nat (length pre)) by lia.
    assert (FP : forall r, Forall (fun n => c_minimum_snow_layer_height c < n_height n) (firstn (length pre) (pre ++ r))).
    { intros r. rewrite <- Lp in F. rewrite E in F. rewrite firstn_app, firstn_all, Nat.sub_diag in F |- *. exact F. }
    cbn [adapt_body] in Hb. unfold get_node_temperature, get_node_density, get_node_height in Hb.
    rewrite Ei in Hb. rewrite (get_node_mid g1 pre a _ E), (get_node_mid1 g1 pre a b post E) in Hb. cbn [bind] in Hb.
    assert (HH : 0 < n_height a /\ 0 < n_height b).
    { pose proof (ai_ok _ _ _ I) as O1. rewrite E in O1. apply Forall_app in O1. destruct O1 as [_ O1]. split; [apply (Forall_inv O1)|apply (Forall_inv (Forall_inv_tail O1))]. }
    match type of Hb with context [if ?b then _ else _] => destruct b eqn:Eb end.
    + rewrite (merge_nodes_mid g1 pre a b post E) in Hb by lra. cbn [bind] in Hb. injection Hb as <-. cbn [fst snd].
      pose proof (merge_nodes_mid g1 pre a b post E ltac:(lra)) as M.
      assert (Hz : (0 <= Z.of_nat (length pre))%Z) by lia. split; [exact (proj1 (adapt_merge c g g1 _ _ I Hz M))|]. cbn [g_nodes with_nodes with_number]. rewrite Nat2Z.id. split; [lia|]. split; [rewrite app_length; lia|]. apply FP.
    + destruct (Rleb_spec (n_height a) (c_minimum_snow_layer_height c)) as [Hh|Hh].
      * destruct (adapt_remove c g g1 pre a (b :: post) I E Hh) as (g2 & Hr & I2 & L2); [discriminate|].
        rewrite Hr in Hb. cbn [bind] in Hb. injection Hb as <-. cbn [fst snd]. split; [exact I2|]. rewrite Nat2Z.id.
        rewrite (remove_one_mid g1 pre a (b :: post) E) in Hr. injection Hr as <-. cbn [g_nodes with_nodes with_number]. split; [lia|]. split; [rewrite app_length; lia|]. apply FP.
      * injection Hb as <-. cbn [fst snd]. split; [exact I|]. rewrite E. replace (Z.to_nat (Z.of_nat (length pre) + 1)) with (length pre + 1)%nat by lia. split; [lia|].
        split; [rewrite app_length; cbn [length]; lia|]. rewrite firstn_app. rewrite firstn_all2 by lia. apply Forall_app. split.
        -- specialize (FP []). rewrite app_nil_r, firstn_all in FP. exact FP.
        -- replace (length pre + 1 - length pre)%nat with 1%nat by lia. constructor; [lra|constructor].
  - cbn [fst snd Z.to_nat]. split; [|split; [lia|split; [lia|constructor]]]. constructor; auto; [apply same_clock_refl|].
    exists []. split; [constructor|apply conserved_refl].
Qed.

(*@ C91 After adaptive remeshing the first layer has exactly the defined height, or it is thinner and lies at the bottom or above a layer of the other kind. *)
Lemma adaptive_top_layer_lem :
  forall fuel c g g',
    0 < c_first_layer_height c -> counted g -> column_ok (g_nodes g) -> g_nodes g <> [] ->
    (length (g_nodes g) + 2 < fuel)%nat -> adaptive_profile fuel c g = Ok g' ->
    exists x below, g_nodes g' = x :: below /\
      (n_height x = c_first_layer_height c \/
       (n_height x < c_first_layer_height c /\ (below = [] \/ exists y t, below = y :: t /\ ~ same_class c x y))).
Proof.
  intros fuel c g g' Hfh C O Ne Hf H.
  assert (Hrest : forall g2 j, adapt_inv c g g2 -> (0 <= j)%Z -> (length (g_nodes g2) <= S (length (g_nodes g)))%nat ->
    ('(g3, _) <- while_loop fuel adapt_ice_cond (adapt_ice_body c) (g2, j) ;; correct_layer fuel c g3 0 (c_first_layer_height c)) = Ok g' ->
    exists x below, g_nodes g' = x :: below /\
      (n_height x = c_first_layer_height c \/
       (n_height x < c_first_layer_height c /\ (below = [] \/ exists y t, below = y :: t /\ ~ same_class c x y)))).
  { intros g2 j I2 Hj L2 E. destruct (adapt_ice_loop c g g2 j fuel I2 Hj) as (g3 & j3 & W3 & I3 & L3); [lia|].
    rewrite W3 in E. cbn [bind] in E. pose proof (ai_ne _ _ _ I3) as N3. destruct (g_nodes g3) as [|a post] eqn:E3; [congruence|].
    pose proof (ai_ok _ _ _ I3) as O3. rewrite E3 in O3.
    destruct (correct_layer_spec fuel c g3 [] a post (c_first_layer_height c) E3 (ai_counted _ _ _ I3) O3 Hfh) as (g4 & m & taken & rest & out & W & _ & _ & _ & _ & G & F).
    { cbn [length] in L3. lia. }
    cbn [length Z.of_nat] in W. rewrite W in E. injection E as <-. cbn [app] in G. rewrite G.
    destruct F as [(L & x0 & x1 & -> & P)|[(L & ->)|(L & -> & R)]].
    - exists x0, (x1 :: rest). split; [reflexivity|]. left. apply P.
    - exists m, rest. split; [reflexivity|]. left. exact L.
    - exists m, rest. split; [reflexivity|]. right. auto. }
  destruct (adaptive_snow_spec c g fuel C O Ne) as (g1 & i1 & k1 & W1 & I1 & L1); [lia|].
  unfold adaptive_profile in H. rewrite W1 in H. cbn [bind] in H.
  rewrite get_number_snow_layers_counted in H by exact (ai_counted _ _ _ I1). cbn [bind] in H.
  destruct (get_node_height g1 0) as [h|e]; [|discriminate]. cbn [bind] in H.
  set (mi := Z.max 1 (Z.of_nat (nsnow c (g_nodes g1)))) in H.
  destruct ((mi =? 1)%Z && Rltb h (c_first_layer_height c)).
  - destruct (correct_layer fuel c g1 mi (c_first_layer_height c)) as [g2|e] eqn:E2; [|discriminate]. cbn [bind] in H.
    destruct (Z_lt_le_dec mi (Z.of_nat (length (g_nodes g1)))) as [Lm|Lm].
    + destruct (adapt_correct c g g1 fuel mi (c_first_layer_height c) I1) as (g2' & W2 & I2 & L2 & _); auto; [lia|lia|].
      rewrite W2 in E2. injection E2 as ->. apply (Hrest g2 (mi + 1)%Z); auto; lia.
    + unfold correct_layer, get_node_height in E2. destruct (get_node g1 mi) as [n|e] eqn:Eg; [|discriminate]. apply get_node_pos_inv in Eg; [|lia]. destruct Eg as (pre & post & Eg & Lg). rewrite Eg, app_length in Lm. cbn [length] in Lm. lia.
  - cbn [bind] in H. apply (Hrest g1 mi); auto; lia.
Qed.
