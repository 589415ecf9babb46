(** * Counter invariant, removal, splitting, melting, depths, snow heights, density *)
From Verif Require Import ModelPy ModelConstants ModelNode ModelGrid Spec LemPy LemGridBase
  LemMerge LemCorrect LemLog.

(** ** The counter under every operation, without any assumption on the layers *)
Lemma upd_node_counted g i f g' : upd_node g i f = Ok g' -> counted g -> counted g'.
Proof.
  unfold upd_node; intros H Hc. inv_bind H. injection H as <-.
  apply py_update_length in E. unfold counted in *; cbn. now rewrite E.
Qed.

Lemma update_node_counted g i h t f w g' :
  update_node g i h t f w = Ok g' -> counted g -> counted g'.
Proof.
  unfold update_node, set_node_height, set_node_temperature, set_node_ice_fraction, set_node_lwc.
  intros H Hc. inv_bind H. inv_bind H. inv_bind H.
  eapply upd_node_counted; [exact H|]. eapply upd_node_counted; [eassumption|].
  eapply upd_node_counted; [eassumption|]. eapply upd_node_counted; eassumption.
Qed.

Lemma del_all_length ids l l' : del_all l ids = Ok l' ->
  (length l = length l' + length ids)%nat.
Proof.
  revert l; induction ids as [|i ids IH]; intros l H; cbn in H.
  - injection H as <-; cbn; lia.
  - inv_bind H. apply IH in H. apply py_del_length in E. cbn [length]. lia.
Qed.

Lemma insert_desc_length x l : length (insert_desc x l) = S (length l).
Proof. induction l as [|y l IH]; cbn; [reflexivity|]. destruct (y <=? x)%Z; cbn; auto. Qed.
Lemma sort_desc_length l : length (sort_desc l) = length l.
Proof. induction l as [|x l IH]; cbn; [reflexivity|]. unfold sort_desc in *; rewrite insert_desc_length; auto. Qed.

Lemma remove_node_counted g ids g' : remove_node g ids = Ok g' -> counted g -> counted g'.
Proof.
  unfold remove_node, counted; intros H Hc. destruct (g_nodes g) as [|n l] eqn:E.
  - injection H as <-. now rewrite E.
  - destruct ids as [[|i ids]|].
    + cbn in H. injection H as <-. cbn [g_number_nodes g_nodes with_number with_nodes length] in *. lia.
    + inv_bind H. injection H as <-. apply del_all_length in E0. rewrite sort_desc_length in E0.
      cbn [g_number_nodes g_nodes with_number with_nodes length] in *. lia.
    + cbn in H. injection H as <-. cbn [g_number_nodes g_nodes with_number with_nodes length] in *. lia.
Qed.

Lemma merge_nodes_counted' g i g' : merge_nodes g i = Ok g' -> counted g -> counted g'.
Proof.
  unfold merge_nodes; intros H Hc. do 13 (inv_bind H).
  eapply remove_node_counted; [exact H|]. eapply update_node_counted; eassumption.
Qed.

Lemma correct_layer_counted fuel c g i h g' :
  correct_layer fuel c g i h = Ok g' -> counted g -> counted g'.
Proof.
  unfold correct_layer; intros H Hc. inv_bind H. inv_bind H.
  destruct a0 as [[g1 th] stop].
  assert (C1 : counted g1).
  { apply (while_inv (fun s => counted (fst (fst s)))) in E0; [exact (proj1 E0)| |exact Hc].
    intros [[g2 th2] st2] [[g3 th3] st3] Hc2 _ Hb. cbn [correct_layer_body fst] in *.
    inv_bind Hb. inv_bind Hb.
    destruct (_ && _).
    - inv_bind Hb. inv_bind Hb. injection Hb as <- <- <-. eapply merge_nodes_counted'; eassumption.
    - destruct (_ && _).
      + inv_bind Hb. inv_bind Hb. injection Hb as <- <- <-. eapply merge_nodes_counted'; eassumption.
      + now injection Hb as <- <- <-. }
  destruct (Rltb h th); [|now injection H as <-].
  unfold correct_layer_split in H. do 3 (inv_bind H).
  destruct (if Rltb 0 (a0 - a1) then _ else _) as [lw0 lw1].
  do 6 (inv_bind H). injection H as <-.
  apply update_node_counted in E8; [|exact C1].
  unfold counted in *; cbn [g_number_nodes g_nodes with_number with_nodes].
  rewrite py_insert_length, E8. lia.
Qed.

Lemma log_profile_counted fuel c g g' : log_profile fuel c g = Ok g' -> counted g -> counted g'.
Proof.
  unfold log_profile; intros H Hc. inv_bind H. inv_bind H. destruct a0 as [[[g1 i1] h1] l1].
  apply (while_inv (fun s => counted (fst (fst (fst s))))) in E0; [|clear|exact Hc].
  - destruct E0 as [C1 _]. cbn [fst] in C1. do 4 (inv_bind H). destruct a3 as [[[g2 i2] h2] l2].
    injection H as <-.
    apply (while_inv (fun s => counted (fst (fst (fst s))))) in E3; [exact (proj1 E3)|clear|exact C1].
    intros [[[g i] h] l] [[[g' i'] h'] l'] Hc _ Hb. cbn [log_ice_body fst] in *.
    destruct (Rleb l h).
    + inv_bind Hb. injection Hb as <- _ _ _. eapply correct_layer_counted; eassumption.
    + destruct (Rltb h l).
      * inv_bind Hb. injection Hb as <- _ _ _. eapply merge_nodes_counted'; eassumption.
      * now injection Hb as <- _ _ _.
  - intros [[[g i] h] l] [[[g' i'] h'] l'] Hc _ Hb. cbn [log_snow_body fst] in *.
    destruct (Rleb l h).
    + inv_bind Hb. injection Hb as <- _ _ _. eapply correct_layer_counted; eassumption.
    + destruct (Rltb h l && _).
      * inv_bind Hb. injection Hb as <- _ _ _. eapply merge_nodes_counted'; eassumption.
      * now injection Hb as <- _ _ _.
Qed.

Lemma adaptive_profile_counted fuel c g g' :
  adaptive_profile fuel c g = Ok g' -> counted g -> counted g'.
Proof.
  unfold adaptive_profile, adaptive_snow; intros H Hc. inv_bind H. destruct a as [[g1 i1] m1].
  apply (while_inv (fun s => counted (fst (fst s)))) in E; [|clear|exact Hc].
  - destruct E as [C1 _]; cbn [fst] in C1. inv_bind H. inv_bind H. inv_bind H. destruct a1 as [g2 i2].
    assert (C2 : counted g2).
    { destruct (_ && _).
      - inv_bind E1. injection E1 as <- _. eapply correct_layer_counted; eassumption.
      - now injection E1 as <- _. }
    inv_bind H. destruct a1 as [g3 i3].
    apply (while_inv (fun s => counted (fst s))) in E2; [|clear|exact C2].
    + eapply correct_layer_counted; [exact H|exact (proj1 E2)].
    + intros [g i] [g' i'] Hc _ Hb. cbn [adapt_ice_body fst] in *. inv_bind Hb.
      destruct (Rltb _ _).
      * inv_bind Hb. injection Hb as <- _. eapply merge_nodes_counted'; eassumption.
      * now injection Hb as <- _.
  - intros [[g i] m] [[g' i'] m'] Hc _ Hb. cbn [adapt_body fst] in *. do 5 (inv_bind Hb).
    destruct (_ && _ && _ && _).
    + inv_bind Hb. injection Hb as <- _ _. eapply merge_nodes_counted'; eassumption.
    + destruct (Rleb _ _).
      * inv_bind Hb. injection Hb as <- _ _. eapply remove_node_counted; eassumption.
      * now injection Hb as <- _ _.
Qed.

Lemma split_node_counted c g i g' : split_node c g i = Ok g' -> counted g -> counted g'.
Proof.
  unfold split_node; intros H Hc. do 10 (inv_bind H). injection H as <-.
  unfold update_node, set_node_height, set_node_temperature, set_node_ice_fraction, set_node_lwc,
    upd_node in E8.
  inv_bind E8. inv_bind E8. inv_bind E8. inv_bind E8. injection E8 as <-.
  inv_bind E9. injection E9 as <-. inv_bind E10. injection E10 as <-. inv_bind E11. injection E11 as <-.
  repeat match goal with H : py_update _ _ _ = Ok _ |- _ => apply py_update_length in H end.
  cbn [g_number_nodes g_nodes with_number with_nodes] in *.
  unfold counted in *; cbn [g_number_nodes g_nodes with_number with_nodes].
  repeat match goal with H : length _ = length _ |- _ => rewrite ?H in *; clear H end.
  rewrite py_insert_length. lia.
Qed.

Lemma update_grid_counted fuel c g g' : update_grid fuel c g = Ok g' -> counted g -> counted g'.
Proof.
  unfold update_grid; intros H Hc. inv_bind H. inv_bind H.
  assert (C1 : counted a).
  { destruct (String.eqb _ _); [eapply log_profile_counted; eassumption|].
    destruct (String.eqb _ _); [eapply adaptive_profile_counted; eassumption|].
    now injection E as <-. }
  destruct (Rltb _ _); [|now injection H as <-].
  eapply remove_node_counted; eassumption.
Qed.

Lemma merge_snow_counted c g i g' : merge_snow_with_glacier c g i = Ok g' -> counted g -> counted g'.
Proof.
  unfold merge_snow_with_glacier; intros H Hc. inv_bind H. inv_bind H.
  destruct (_ && _); [|now injection H as <-].
  do 6 (inv_bind H). eapply remove_node_counted; [exact H|].
  eapply update_node_counted; eassumption.
Qed.

Lemma remove_melt_counted fuel c g m i g' w :
  remove_melt_weq fuel c g m i = Ok (g', w) -> counted g -> counted g'.
Proof.
  unfold remove_melt_weq; intros H Hc. inv_bind H. destruct a as [[g1 m1] w1].
  apply (while_inv (fun s => counted (fst (fst s)))) in E; [|clear|exact Hc].
  - destruct E as [C1 _]; cbn [fst] in C1. injection H as <- _. destruct (i =? 0)%Z; exact C1.
  - intros [[g m0] w0] [[g' m'] w'] Hc _ Hb. cbn [melt_body fst] in *. do 3 (inv_bind Hb).
    destruct (Rltb _ _).
    + inv_bind Hb. inv_bind Hb. injection Hb as <- _ _. eapply upd_node_counted; eassumption.
    + destruct (Rleb _ _).
      * inv_bind Hb. inv_bind Hb. injection Hb as <- _ _. eapply remove_node_counted; eassumption.
      * now injection Hb as <- _ _.
Qed.

Lemma add_fresh_snow_counted c g h d t w dt : counted g -> counted (add_fresh_snow c g h d t w dt).
Proof.
  unfold add_fresh_snow, counted; intros Hc.
  destruct (Rltb h _);
    cbn [g_number_nodes g_nodes with_number with_nodes set_fresh_snow_props_update_time
           set_fresh_snow_props]; rewrite py_insert_length; lia.
Qed.

Lemma new_grid_counted c rows a b d : counted (new_grid c rows a b d).
Proof.
  unfold new_grid, counted.
  destruct a, b, d; cbn [init_grid with_nodes g_number_nodes g_nodes app]; now rewrite map_length.
Qed.

Lemma run_op_counted fuel c g o g' : run_op fuel c g o = Ok g' -> counted g -> counted g'.
Proof.
  destruct o; cbn [run_op]; intros H Hc.
  - injection H as <-. now apply add_fresh_snow_counted.
  - eapply remove_node_counted; eassumption.
  - eapply merge_nodes_counted'; eassumption.
  - eapply correct_layer_counted; eassumption.
  - eapply log_profile_counted; eassumption.
  - eapply adaptive_profile_counted; eassumption.
  - eapply split_node_counted; eassumption.
  - eapply update_node_counted; eassumption.
  - eapply update_grid_counted; eassumption.
  - eapply merge_snow_counted; eassumption.
  - inv_bind H. destruct a as [g1 w]. injection H as <-. eapply remove_melt_counted; eassumption.
Qed.

Lemma run_ops_counted fuel c os : forall g g',
  run_ops fuel c g os = Ok g' -> counted g -> counted g'.
Proof.
  induction os as [|o os IH]; intros g g' H Hc; cbn in H.
  - now injection H as <-.
  - inv_bind H. eapply IH; [exact H|]. eapply run_op_counted; eassumption.
Qed.

(** every prefix: the invariant holds in every reachable state *)
Lemma init_grid_twice c rows a b d : rows <> [] -> ~ counted (init_grid c rows (new_grid c rows a b d)).
Proof.
  intros Hr. unfold new_grid, counted.
  destruct a, b, d; cbn [init_grid with_nodes g_number_nodes g_nodes app];
    rewrite app_length, !map_length; destruct rows; try congruence; cbn [length]; lia.
Qed.
