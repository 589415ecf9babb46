(** * correct_layer *)
From Verif Require Import ModelPy ModelConstants ModelNode ModelGrid Spec LemPy LemGridBase
  LemMerge.

Lemma snowb_spec c n : reflect (is_snow c n) (snowb c n).
Proof. apply Rltb_spec. Qed.

Lemma column_ok_positive l : column_ok l -> positive_heights l.
Proof. intros H; eapply Forall_impl; [|exact H]. intros n [Hn _]; exact Hn. Qed.

Lemma absorbs_conserved c h a l m : 0 < n_height a -> positive_heights l ->
  absorbs c h a l m -> conserved (a :: l) [m].
Proof.
  intros Ha Hl H. induction H as [a|a b l m1 m Hh Hs Hm Hab IH].
  - apply conserved_refl.
  - assert (Hb := Forall_inv Hl). cbn in Hb.
    apply conserved_trans with (m1 :: l).
    + change (conserved ([a; b] ++ l) ([m1] ++ l)). apply conserved_app_r.
      now apply merger_conserved.
    + apply IH; [|exact (Forall_inv_tail Hl)]. destruct Hm as (h1 & _). lra.
Qed.

Lemma absorbs_ok c h a l m : 0 < n_height a /\ 0 < n_ice a -> column_ok l ->
  absorbs c h a l m -> 0 < n_height m /\ 0 < n_ice m.
Proof.
  intros Ha Hl H. induction H as [a|a b l m1 m Hh Hs Hm Hab IH]; [exact Ha|].
  apply IH; [|exact (Forall_inv_tail Hl)].
  apply (merger_ok a b); auto. exact (Forall_inv Hl).
Qed.

(** the merging loop *)
Lemma correct_loop c h pre : forall post g a fuel,
  g_nodes g = pre ++ a :: post -> counted g -> 0 < n_height a -> positive_heights post ->
  (S (length post) < fuel)%nat ->
  exists g1 x taken rest stop,
    while_loop fuel (correct_layer_cond (Z.of_nat (length pre)) h)
      (correct_layer_body c (Z.of_nat (length pre))) (g, n_height a, false)
    = Ok (g1, n_height x, stop)
    /\ post = taken ++ rest /\ absorbs c h a taken x
    /\ g_nodes g1 = pre ++ x :: rest /\ counted g1 /\ same_clock g g1
    /\ (h <= n_height x \/ rest = [] \/ exists y t, rest = y :: t /\ ~ same_class c x y).
Proof.
  induction post as [|b post IH]; intros g a fuel Hg Hc Ha Hp Hf.
  - destruct fuel as [|fuel]; [lia|]. cbn [while_loop correct_layer_cond bind].
    assert (Hn : (Z.of_nat (length pre) + 1 <? get_number_layers g)%Z = false).
    { apply Z.ltb_ge. unfold get_number_layers. rewrite Hc, Hg, app_length; cbn [length]. lia. }
    rewrite Hn, andb_false_r. cbn [negb andb].
    exists g, a, [], [], false. repeat split; auto. apply absorbs_none.
  - destruct fuel as [|fuel]; [lia|]. cbn [while_loop correct_layer_cond bind].
    assert (Hn : (Z.of_nat (length pre) + 1 <? get_number_layers g)%Z = true).
    { apply Z.ltb_lt. unfold get_number_layers. rewrite Hc, Hg, app_length; cbn [length]. lia. }
    rewrite Hn, andb_true_r. cbn [negb andb].
    destruct (Rltb_spec (n_height a) h) as [Hh|Hh].
    2:{ exists g, a, [], (b :: post), false. repeat split; auto; [apply absorbs_none|left; lra]. }
    cbn [correct_layer_body]. unfold get_node_density.
    rewrite (get_node_mid g pre a (b :: post) Hg). cbn [bind].
    rewrite (get_node_mid1 g pre a b post Hg). cbn [bind].
    assert (Hb := Forall_inv Hp). cbn in Hb.
    assert (Hm : merge_nodes g (Z.of_nat (length pre)) =
      Ok (with_number (with_nodes g (pre ++ merged a b :: post)) (g_number_nodes g - 1)))
      by (apply merge_nodes_mid; [exact Hg | lra]).
    set (g1 := with_number (with_nodes g (pre ++ merged a b :: post)) (g_number_nodes g - 1)) in *.
    assert (Hg1 : g_nodes g1 = pre ++ merged a b :: post) by reflexivity.
    assert (Hc1 : counted g1).
    { unfold counted, g1; cbn [g_nodes g_number_nodes with_number with_nodes].
      rewrite Hc, Hg, !app_length; cbn [length]; lia. }
    assert (Hrec : same_class c a b -> exists g2 x taken rest stop,
      (g' <- merge_nodes g (Z.of_nat (length pre)) ;;
       th <- get_node_height g' (Z.of_nat (length pre)) ;; Ok (g', th, false))
      = Ok (g1, n_height (merged a b), false) /\
      while_loop fuel (correct_layer_cond (Z.of_nat (length pre)) h)
        (correct_layer_body c (Z.of_nat (length pre))) (g1, n_height (merged a b), false)
      = Ok (g2, n_height x, stop)
      /\ b :: post = taken ++ rest /\ absorbs c h a taken x
      /\ g_nodes g2 = pre ++ x :: rest /\ counted g2 /\ same_clock g g2
      /\ (h <= n_height x \/ rest = [] \/ exists y t, rest = y :: t /\ ~ same_class c x y)).
    { intros Hsc.
      destruct (IH g1 (merged a b) fuel) as (g2 & x & taken & rest & stop & W & E & A & G & C & K & F);
        auto.
      - cbn. lra.
      - exact (Forall_inv_tail Hp).
      - cbn [length] in Hf. lia.
      - exists g2, x, (b :: taken), rest, stop.
        split; [|split; [exact W|split; [now rewrite E|split; [|split; [exact G|split;
          [exact C|split; [|exact F]]]]]]].
        + rewrite Hm. cbn [bind]. unfold get_node_height.
          rewrite (get_node_mid g1 pre _ post Hg1). reflexivity.
        + apply absorbs_one with (merged a b); auto. apply merged_merger; lra.
        + eapply same_clock_trans; [|exact K]. repeat split. }
    destruct (Rltb_spec (layer_density c a) (c_snow_ice_threshold c)) as [Sa|Sa];
    destruct (Rltb_spec (layer_density c b) (c_snow_ice_threshold c)) as [Sb|Sb]; cbn [andb].
    + destruct Hrec as (g2 & x & taken & rest & stop & E0 & W & Rr).
      { unfold same_class, is_snow; tauto. }
      rewrite E0. cbn [bind]. exists g2, x, taken, rest, stop. split; [exact W | exact Rr].
    + rewrite (Rleb_false (c_snow_ice_threshold c) (layer_density c a)) by lra.
      cbn [andb bind]. destruct fuel as [|fuel]; [cbn in Hf; lia|].
      cbn [while_loop correct_layer_cond bind negb andb].
      exists g, a, [], (b :: post), true. repeat split; auto; [apply absorbs_none|].
      right; right; exists b, post; split; [reflexivity|].
      unfold same_class, is_snow; tauto.
    + rewrite (Rleb_false (c_snow_ice_threshold c) (layer_density c b)) by lra.
      rewrite andb_false_r.
      cbn [andb bind]. destruct fuel as [|fuel]; [cbn in Hf; lia|].
      cbn [while_loop correct_layer_cond bind negb andb].
      exists g, a, [], (b :: post), true. repeat split; auto; [apply absorbs_none|].
      right; right; exists b, post; split; [reflexivity|].
      unfold same_class, is_snow; tauto.
    + rewrite !Rleb_true by lra. cbn [andb].
      destruct Hrec as (g2 & x & taken & rest & stop & E0 & W & Rr).
      { unfold same_class, is_snow; tauto. }
      rewrite E0. cbn [bind]. exists g2, x, taken, rest, stop. split; [exact W | exact Rr].
Qed.

Lemma irreducible_ok n : 0 < n_ice n -> layer_irreducible n = Ok (irreducible_content (n_ice n)).
Proof.
  intros H. unfold layer_irreducible, irreducible_content.
  destruct (Rleb_spec (n_ice n) 0.23) as [L|L]; destruct (Rle_dec (n_ice n) 0.23); try lra.
  - rewrite fdiv_ok by lra. reflexivity.
  - rewrite Rltb_true by lra. destruct (Rleb_spec (n_ice n) 0.812); destruct (Rle_dec (n_ice n) 0.812);
      try lra; reflexivity.
Qed.

Lemma irreducible_nonneg f : 0 < f <= 1 -> 0 <= irreducible_content f.
Proof.
  intros H. unfold irreducible_content. destruct (Rle_dec f 0.23); [|destruct (Rle_dec f 0.812); lra].
  assert (0 <= (1 - f) / f).
  { apply Rmult_le_pos; [lra|]. apply Rlt_le, Rinv_0_lt_compat; lra. }
  lra.
Qed.

(** the split *)
Lemma correct_split c g pre x rest h :
  g_nodes g = pre ++ x :: rest -> counted g -> 0 < h -> h < n_height x -> 0 < n_ice x ->
  exists g1 x0 x1,
    correct_layer_split c g (Z.of_nat (length pre)) h (n_height x) = Ok g1 /\
    g_nodes g1 = pre ++ x0 :: x1 :: rest /\ parts h x x0 x1 /\
    counted g1 /\ same_clock g g1.
Proof.
  intros Hg Hc Hh Hx Hi.
  pose proof (irreducible_ok x Hi) as Eirr. set (irr := irreducible_content (n_ice x)) in *.
  unfold correct_layer_split, get_node_lwc, get_node_irreducible, get_node_height,
    get_node_ice_fraction, get_node_temperature, get_node_density.
  rewrite (get_node_mid g pre x rest Hg). cbn [bind]. rewrite Eirr. cbn [bind].
  set (p := if Rltb 0 (n_lwc x - irr)
            then (irr * n_height x, n_lwc x * n_height x - irr * n_height x)
            else (n_lwc x * n_height x, 0)).
  destruct p as [lw0 lw1] eqn:Ep.
  assert (Hlw : lw0 + lw1 = n_lwc x * n_height x).
  { unfold p in Ep. destruct (Rltb 0 (n_lwc x - irr)); injection Ep as <- <-; ring. }
  assert (Hlw0 : lw0 = Rmin (n_lwc x) irr * n_height x).
  { unfold p in Ep. destruct (Rltb_spec 0 (n_lwc x - irr)); injection Ep as <- <-; [rewrite Rmin_right|rewrite Rmin_left]; lra. }
  rewrite !fdiv_ok by lra. cbn [bind].
  rewrite (update_node_mid g pre x rest _ _ _ _ Hg). cbn [bind].
  erewrite get_node_mid by reflexivity. cbn [bind].
  cbn [g_nodes with_nodes].
  set (x0 := updated x h (n_temperature x) (n_ice x) (lw0 / h)).
  set (x1 := new_node c (n_height x - h) (layer_density c x0) (n_temperature x)
               (lw1 / (n_height x - h)) (Some (n_ice x))).
  eexists; exists x0, x1. split; [reflexivity|].
  replace (Z.of_nat (length pre) + 1)%Z with (Z.of_nat (length (pre ++ [x0])))
    by (rewrite app_length; cbn [length]; lia).
  replace (pre ++ x0 :: rest) with ((pre ++ [x0]) ++ rest) by (rewrite <- app_assoc; reflexivity).
  rewrite py_insert_mid. cbn [g_nodes with_nodes with_number g_number_nodes].
  split; [rewrite <- app_assoc; reflexivity|].
  split; [|split].
  - unfold parts, x0, x1, updated; cbn. repeat split; try reflexivity.
    + replace (lw0 / h * h) with lw0 by (field; lra).
      replace (lw1 / (n_height x - h) * (n_height x - h)) with lw1 by (field; lra). exact Hlw.
    + replace (lw0 / h * h) with lw0 by (field; lra). exact Hlw0.
  - unfold counted; cbn [g_nodes with_nodes with_number g_number_nodes].
    rewrite Hc, Hg, !app_length; cbn [length]; lia.
  - repeat split.
Qed.

Lemma parts_conserved h x x0 x1 : parts h x x0 x1 -> conserved [x] [x0; x1].
Proof.
  intros (h0 & h1 & i0 & i1 & t0 & t1 & w & _).
  constructor; unfold column_height, column_ice, column_water, column_heat; cbn;
    rewrite ?h0, ?h1, ?i0, ?i1, ?t0, ?t1; try lra.
  rewrite <- w, h0, h1. ring.
Qed.

(** the complete behaviour of [correct_layer] on admissible columns *)
Lemma correct_layer_spec fuel c g pre a post h :
  g_nodes g = pre ++ a :: post -> counted g -> column_ok (a :: post) -> 0 < h ->
  (S (length post) < fuel)%nat ->
  exists g' m taken rest out,
    correct_layer fuel c g (Z.of_nat (length pre)) h = Ok g' /\
    counted g' /\ same_clock g g' /\
    post = taken ++ rest /\ absorbs c h a taken m /\
    g_nodes g' = pre ++ out ++ rest /\
    ((h < n_height m /\ exists x0 x1, out = [x0; x1] /\ parts h m x0 x1)
     \/ (n_height m = h /\ out = [m])
     \/ (n_height m < h /\ out = [m] /\
         (rest = [] \/ exists y t, rest = y :: t /\ ~ same_class c m y))).
Proof.
  intros Hg Hc Hok Hh Hf.
  assert (Ha := Forall_inv Hok). cbn in Ha. assert (Hpo := Forall_inv_tail Hok).
  destruct (correct_loop c h pre post g a fuel) as
    (g1 & m & taken & rest & stop & W & E & A & G1 & C1 & K1 & F1); auto; try tauto.
  { now apply column_ok_positive. }
  unfold correct_layer, get_node_height. rewrite (get_node_mid g pre a post Hg). cbn [bind].
  rewrite W. cbn [bind].
  assert (Hm : 0 < n_height m /\ 0 < n_ice m).
  { apply (absorbs_ok c h a taken); auto. unfold column_ok in *. rewrite E in Hpo.
    apply Forall_app in Hpo. tauto. }
  destruct (Rltb_spec h (n_height m)) as [L|L].
  - destruct (correct_split c g1 pre m rest h) as (g2 & x0 & x1 & S & G2 & P & C2 & K2);
      auto; try tauto.
    exists g2, m, taken, rest, [x0; x1]. rewrite S.
    split; [reflexivity|]. split; [exact C2|]. split; [eapply same_clock_trans; eauto|].
    split; [exact E|]. split; [exact A|]. split; [exact G2|]. left. eauto.
  - exists g1, m, taken, rest, [m].
    split; [reflexivity|]. split; [exact C1|]. split; [exact K1|].
    split; [exact E|]. split; [exact A|]. split; [exact G1|]. right.
    destruct (Rle_lt_or_eq_dec (n_height m) h) as [L'|L']; [lra| |left; auto].
    right. split; [exact L'|]. split; [reflexivity|]. destruct F1 as [F1|F1]; [lra|exact F1].
Qed.

(** corollary used by the remeshing loops *)
Lemma correct_layer_good fuel c g pre a post h :
  g_nodes g = pre ++ a :: post -> counted g -> column_ok (g_nodes g) -> 0 < h ->
  (S (length post) < fuel)%nat ->
  exists g', correct_layer fuel c g (Z.of_nat (length pre)) h = Ok g' /\
    counted g' /\ same_clock g g' /\ conserved (g_nodes g) (g_nodes g') /\
    column_ok (g_nodes g') /\ (length (g_nodes g') <= S (length (g_nodes g)))%nat /\
    (length pre < length (g_nodes g'))%nat.
Proof.
  intros Hg Hc Hok Hh Hf. rewrite Hg in Hok. unfold column_ok in Hok.
  apply Forall_app in Hok. destruct Hok as [Hpre Hap].
  destruct (correct_layer_spec fuel c g pre a post h Hg Hc Hap Hh Hf) as
    (g' & m & taken & rest & out & W & C & K & E & A & G & F).
  assert (Ha := Forall_inv Hap). cbn in Ha. assert (Hpo := Forall_inv_tail Hap).
  assert (Htr : column_ok taken /\ column_ok rest)
    by (rewrite E in Hpo; apply Forall_app in Hpo; exact Hpo).
  destruct Htr as [Ht Hr].
  assert (Hm := absorbs_ok c h a taken m Ha Ht A).
  assert (Hout : conserved [m] out /\ column_ok out /\ (1 <= length out <= 2)%nat).
  { destruct F as [(L & x0 & x1 & -> & P)|[(L & ->)|(L & -> & _)]].
    - split; [now apply (parts_conserved h)|]. split; [|cbn; lia].
      destruct P as (h0 & h1 & i0 & i1 & _).
      repeat constructor; lra.
    - split; [apply conserved_refl|]. split; [repeat constructor; tauto|cbn; lia].
    - split; [apply conserved_refl|]. split; [repeat constructor; tauto|cbn; lia]. }
  destruct Hout as (Hco & Hoo & Hlen).
  exists g'. split; [exact W|]. split; [exact C|]. split; [exact K|].
  split; [|split; [|split]].
  - rewrite Hg, G, E. apply conserved_app_l.
    change (conserved ((a :: taken) ++ rest) (out ++ rest)). apply conserved_app_r.
    apply conserved_trans with [m]; [|exact Hco].
    apply (absorbs_conserved c h); auto; [tauto|]. now apply column_ok_positive.
  - rewrite G. unfold column_ok. apply Forall_app; split; [exact Hpre|].
    apply Forall_app; split; assumption.
  - rewrite G, Hg, E, !app_length. cbn [length]. rewrite app_length. lia.
  - rewrite G, !app_length. lia.
Qed.
