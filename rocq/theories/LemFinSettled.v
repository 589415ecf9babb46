(** * Columns that logarithmic remeshing leaves alone *)
From Verif Require Import ModelPy ModelConstants ModelNode ModelGrid Spec SpecRemesh.
From Verif Require Import LemPy LemGridBase LemMerge LemCorrect LemLog LemLog2 LemGridOps LemGridMore.

(** [l] has settled in the profile that starts with [f] and grows by the factor [s]: its layers
    have exactly the thickness of the profile ([k] layers); or all do but the last, which has
    the remaining height on top of its own thickness; or that layer has some of the remaining
    height and one further layer has the rest *)
Definition settled (f s : R) (k : nat) (l : list Node) : Prop :=
  map n_height l = map (target f s) (seq 0 k) \/
  exists top x more, l = top ++ x :: more /\ map n_height top = map (target f s) (seq 0 (k - 1)) /\
    ((0 < k)%nat -> target f s (k - 1) < n_height x) /\ (length more <= 1)%nat /\
    (k = 0%nat -> more = []) /\ reach f s k < column_height l < reach f s (S k).

Lemma grid_eq g g' : g_nodes g' = g_nodes g -> counted g -> counted g' -> same_clock g g' -> g' = g.
Proof.
  destruct g as [n1 k1 a1 b1 d1], g' as [n2 k2 a2 b2 d2]. unfold counted, same_clock. cbn. intros -> -> -> (-> & -> & ->). reflexivity.
Qed.

Lemma correct_same fuel c g pre x post :
  g_nodes g = pre ++ x :: post -> correct_layer (S fuel) c g (Z.of_nat (length pre)) (n_height x) = Ok g.
Proof.
  intros E. unfold correct_layer, get_node_height. rewrite (get_node_mid g pre x post E). cbn [bind while_loop correct_layer_cond].
  rewrite Rltb_false by lra. cbn [andb negb bind]. rewrite Rltb_false by lra. reflexivity.
Qed.

Lemma correct_and_back fuel c b g pre x post h :
  g_nodes g = pre ++ x :: post -> counted g -> cls c b x -> 0 < h < n_height x ->
  exists g1 x0 x1, correct_layer (S fuel) c g (Z.of_nat (length pre)) h = Ok g1 /\ counted g1 /\
    g_nodes g1 = pre ++ x0 :: x1 :: post /\ cls c b x0 /\ cls c b x1 /\
    merge_nodes g1 (Z.of_nat (length pre)) = Ok g.
Proof.
  intros E C Cx Hh. destruct Cx as [(Px & [Ia Ib] & Wx) Sb].
  unfold correct_layer, get_node_height. rewrite (get_node_mid g pre x post E). cbn [bind while_loop correct_layer_cond].
  rewrite Rltb_false by lra. cbn [andb negb bind]. rewrite Rltb_true by lra.
  unfold correct_layer_split, get_node_lwc, get_node_irreducible, get_node_height, get_node_ice_fraction, get_node_temperature, get_node_density.
  rewrite (get_node_mid g pre x post E). cbn [bind]. rewrite (irreducible_ok x Ia). cbn [bind].
  rewrite Rltb_false by (rewrite Wx; pose proof (irreducible_nonneg (n_ice x) ltac:(lra)); lra).
  rewrite !fdiv_ok by lra. cbn [bind].
  rewrite (update_node_mid g pre x post _ _ _ _ E). cbn [bind].
  erewrite get_node_mid by reflexivity. cbn [bind]. cbn [g_nodes with_nodes].
  set (x0 := updated x h (n_temperature x) (n_ice x) (n_lwc x * n_height x / h)).
  set (x1 := new_node c (n_height x - h) (layer_density c x0) (n_temperature x) (0 / (n_height x - h)) (Some (n_ice x))).
  replace (Z.of_nat (length pre) + 1)%Z with (Z.of_nat (length (pre ++ [x0]))) by (rewrite app_length; cbn [length]; lia).
  replace (pre ++ x0 :: post) with ((pre ++ [x0]) ++ post) by (rewrite <- app_assoc; reflexivity).
  rewrite py_insert_mid. replace ((pre ++ [x0]) ++ x1 :: post) with (pre ++ x0 :: x1 :: post) by (rewrite <- app_assoc; reflexivity).
  eexists; exists x0, x1. split; [reflexivity|]. cbn [g_nodes with_nodes with_number g_number_nodes].
  split. { unfold counted; cbn [g_nodes with_nodes with_number g_number_nodes]. rewrite C, E, !app_length; cbn [length]; lia. }
  split; [reflexivity|].
  assert (D0 : dry x0). { unfold dry, x0, updated; cbn. rewrite Wx. repeat split; try lra; field; lra. }
  assert (D1 : dry x1). { unfold dry, x1, new_node; cbn. repeat split; try lra; field; lra. }
  assert (Dx : dry x) by (repeat split; lra).
  unfold snowb in Sb. rewrite (dry_density c _ Dx) in Sb.
  split. { split; [exact D0|]. unfold snowb. rewrite (dry_density c _ D0). exact Sb. }
  split. { split; [exact D1|]. unfold snowb. rewrite (dry_density c _ D1). exact Sb. }
  erewrite (merge_nodes_mid _ pre x0 x1 post); [|reflexivity|destruct D0 as (? & _), D1 as (? & _); lra].
  f_equal. destruct g as [nodes num q1 q2 q3]. cbn [g_nodes] in E. unfold counted in C. cbn in C. unfold with_number, with_nodes. cbn.
  f_equal; [|lia]. rewrite E. f_equal. f_equal. destruct x as [xh xt xw xi xr]. cbn in *. subst xw. unfold merged, x0, x1, updated, new_node; cbn.
  f_equal; field; lra.
Qed.

Section Merging.
Variable c : Consts.
Variable b : bool.
Variables pre suf : list Node.
Variable cond : log_state -> res bool.
Variable body : log_state -> res log_state.
Hypothesis Hcond : forall g l idx h last, counted g -> g_nodes g = pre ++ l ++ suf -> Forall (cls c b) l ->
  cond (g, idx, h, last) = Ok (idx <? Z.of_nat (length pre + length l))%Z.
Hypothesis Hbody2 : forall g idx h last, h < last -> (Z.of_nat (length pre) < idx)%Z ->
  body (g, idx, h, last) = (g1 <- merge_nodes g (idx - 1) ;; Ok (g1, (idx + 1)%Z, h, last)).

Lemma merging_only : forall fuel g l idx h last g' i' h' last',
  counted g -> g_nodes g = pre ++ l ++ suf -> Forall (cls c b) l -> h < last -> (Z.of_nat (length pre) < idx)%Z ->
  while_loop fuel cond body (g, idx, h, last) = Ok (g', i', h', last') ->
  (length (g_nodes g') <= length (g_nodes g))%nat /\
  ((idx < Z.of_nat (length pre + length l))%Z -> (length (g_nodes g') < length (g_nodes g))%nat).
Proof.
  induction fuel as [|fuel IH]; intros g l idx h last g' i' h' last' C E F Hl Hi W; [discriminate|].
  cbn [while_loop] in W. rewrite (Hcond g l _ _ _ C E F) in W. cbn [bind] in W.
  destruct (Z.ltb_spec idx (Z.of_nat (length pre + length l))) as [L|L].
  - rewrite Hbody2 in W by assumption.
    destruct (split_at l (Z.to_nat idx - 1 - length pre)) as (u & x & q & El & Lu); [lia|].
    destruct q as [|y v]. { exfalso. apply (f_equal (@length Node)) in El. rewrite app_length in El. cbn [length] in El. lia. }
    assert (F' := F). rewrite El in F'. apply Forall_app in F'. destruct F' as [Fu F2]. pose proof (Forall_inv F2) as Fx. pose proof (Forall_inv (Forall_inv_tail F2)) as Fy. pose proof (Forall_inv_tail (Forall_inv_tail F2)) as Fv.
    assert (Hh : n_height x + n_height y <> 0) by (destruct Fx as [(? & _) _], Fy as [(? & _) _]; lra).
    assert (Em : g_nodes g = (pre ++ u) ++ x :: y :: (v ++ suf)) by (rewrite E, El, <- !app_assoc; reflexivity).
    pose proof (merge_nodes_mid g (pre ++ u) x y (v ++ suf) Em Hh) as M.
    replace (Z.of_nat (length (pre ++ u))) with (idx - 1)%Z in M by (rewrite app_length; lia). rewrite M in W. cbn [bind] in W.
    apply (IH _ (u ++ merged x y :: v)) in W.
    + destruct W as [W _]. cbn [g_nodes with_nodes with_number] in W. rewrite Em. rewrite !app_length in *. cbn [length] in *. lia.
    + unfold counted in *. cbn [g_nodes with_nodes with_number g_number_nodes]. rewrite C, Em, !app_length. cbn [length]. lia.
    + cbn [g_nodes with_nodes with_number]. rewrite <- !app_assoc. reflexivity.
    + apply Forall_app. split; [exact Fu|]. constructor; [|exact Fv]. exact (merger_cls c b x y _ Fx Fy (merged_merger x y Hh)).
    + exact Hl.
    + lia.
  - injection W as <- _ _ _. split; [lia|]. intros; lia.
Qed.
End Merging.

Section Loop.
Variable c : Consts.
Variable b : bool.
Variables pre suf : list Node.
Variable f : R.
Variable fuel0 : nat.
Variable cond : log_state -> res bool.
Variable body : log_state -> res log_state.
Notation s := (c_layer_stretching c).
Hypothesis Hf : 0 < f.
Hypothesis Hs : 1 <= s.
Hypothesis Hcond : forall g l idx h last, counted g -> g_nodes g = pre ++ l ++ suf -> Forall (cls c b) l ->
  cond (g, idx, h, last) = Ok (idx <? Z.of_nat (length pre + length l))%Z.
Hypothesis Hbody1 : forall g idx h last, last <= h ->
  body (g, idx, h, last) = (g1 <- correct_layer (S fuel0) c g idx last ;; Ok (g1, (idx + 1)%Z, h - last, s * last)).
Hypothesis Hbody2 : forall g idx h last, h < last -> (Z.of_nat (length pre) < idx)%Z ->
  body (g, idx, h, last) = (g1 <- merge_nodes g (idx - 1) ;; Ok (g1, (idx + 1)%Z, h, last)).

Definition at_layer (g : Grid) (H : R) (i : nat) : log_state :=
  (g, Z.of_nat (length pre + i), H - reach f s i, target f s i).

Lemma reach_S i : reach f s (S i) = reach f s i + target f s i.
Proof. reflexivity. Qed.

Lemma reach_mono i j : (i <= j)%nat -> reach f s i <= reach f s j.
Proof. induction 1 as [|j _ IH]; [lra|]. rewrite reach_S. pose proof (target_pos c f Hf Hs j). lra. Qed.

Lemma exact_step g l u x v H i fuel :
  counted g -> g_nodes g = pre ++ l ++ suf -> Forall (cls c b) l -> l = u ++ x :: v -> length u = i ->
  n_height x = target f s i -> reach f s (S i) <= H ->
  while_loop (S fuel) cond body (at_layer g H i) = while_loop fuel cond body (at_layer g H (S i)).
Proof.
  intros C E F El Lu Hx HH. cbn [while_loop]. unfold at_layer at 1. rewrite (Hcond g l _ _ _ C E F).
  assert (Ll : (i < length l)%nat) by (rewrite El, app_length; cbn [length]; lia).
  replace (Z.of_nat (length pre + i) <? Z.of_nat (length pre + length l))%Z with true by (symmetry; apply Z.ltb_lt; lia).
  cbn [bind]. rewrite reach_S in HH. unfold at_layer at 1. rewrite Hbody1 by lra. rewrite <- Hx.
  replace (Z.of_nat (length pre + i)) with (Z.of_nat (length (pre ++ u))) by (rewrite app_length, Lu; reflexivity).
  rewrite (correct_same fuel0 c g (pre ++ u) x (v ++ suf)) by (rewrite E, El, <- !app_assoc; reflexivity). cbn [bind].
  f_equal. unfold at_layer. rewrite reach_S, Hx. f_equal; [f_equal; [f_equal; rewrite app_length; lia|ring]|]. unfold target; cbn [pow]; ring.
Qed.

Lemma exact_steps g l H : counted g -> g_nodes g = pre ++ l ++ suf -> Forall (cls c b) l ->
  forall top v fuel, l = top ++ v -> map n_height top = map (target f s) (seq 0 (length top)) -> reach f s (length top) <= H ->
  while_loop (length top + fuel) cond body (at_layer g H 0) = while_loop fuel cond body (at_layer g H (length top)).
Proof.
  intros C E F top. induction top as [|x top IH] using rev_ind; intros v fuel El Et HH; [reflexivity|].
  rewrite app_length in *. cbn [length] in *. rewrite Nat.add_1_r in *. rewrite seq_S, !map_app in Et. cbn [map] in Et. apply app_inj_tail in Et. destruct Et as [Et Ex]. rewrite Nat.add_0_l in Ex.
  replace (S (length top) + fuel)%nat with (length top + S fuel)%nat by lia.
  rewrite (IH ([x] ++ v)); [|rewrite El, <- app_assoc; reflexivity|exact Et|].
  - apply (exact_step g l top x v); auto. rewrite El, <- app_assoc. reflexivity.
  - rewrite reach_S in HH. pose proof (target_pos c f Hf Hs (length top)). lra.
Qed.

Lemma thick_steps g l k top x more fuel :
  counted g -> g_nodes g = pre ++ l ++ suf -> Forall (cls c b) l -> l = top ++ x :: more ->
  map n_height top = map (target f s) (seq 0 k) -> target f s k < n_height x ->
  reach f s (S k) < column_height l < reach f s (S (S k)) ->
  while_loop (k + S (S fuel)) cond body (g, Z.of_nat (length pre), column_height l, f) =
  while_loop fuel cond body (g, Z.of_nat (length pre + S (S k)), column_height l - reach f s (S k), target f s (S k)).
Proof.
  intros C E F El Et Hx HH.
  assert (E0 : (g, Z.of_nat (length pre), column_height l, f) = at_layer g (column_height l) 0).
  { unfold at_layer. f_equal; [f_equal; [f_equal; lia|unfold reach; cbn; ring]|unfold target; cbn; ring]. }
  rewrite E0. pose proof (targets_length c f top k Et) as Lt. rewrite <- Lt in Et.
  assert (Ll : length l = (S k + length more)%nat) by (rewrite El, app_length; cbn [length]; lia).
  assert (Rk : reach f s k <= column_height l) by (pose proof (reach_mono k (S k) ltac:(lia)); lra).
  rewrite !reach_S in *. pose proof (target_pos c f Hf Hs k) as Tk.
  rewrite <- Lt at 1. rewrite (exact_steps g l _ C E F top (x :: more)); [|exact El|exact Et|rewrite Lt; exact Rk]. rewrite Lt.
  assert (Fx : cls c b x) by (rewrite El in F; apply Forall_app in F; destruct F as [_ F]; exact (Forall_inv F)).
  destruct (correct_and_back fuel0 c b g (pre ++ top) x (more ++ suf) (target f s k)) as (g1 & x0 & x1 & W & C1 & G1 & F0 & F1 & M); auto.
  { rewrite E, El, <- !app_assoc. reflexivity. }
  cbn [while_loop]. unfold at_layer at 1. rewrite (Hcond g l _ _ _ C E F).
  replace (Z.of_nat (length pre + k) <? Z.of_nat (length pre + length l))%Z with true by (symmetry; apply Z.ltb_lt; lia).
  cbn [bind]. unfold at_layer at 1. rewrite Hbody1 by lra.
  replace (Z.of_nat (length pre + k)) with (Z.of_nat (length (pre ++ top))) by (rewrite app_length, Lt; reflexivity).
  rewrite W. cbn [bind].
  rewrite (Hcond g1 (top ++ x0 :: x1 :: more) _ _ _ C1).
  2:{ rewrite G1, <- !app_assoc. reflexivity. }
  2:{ rewrite El in F. apply Forall_app in F. destruct F as [Fa Fb]. apply Forall_app. split; [exact Fa|]. constructor; [exact F0|]. constructor; [exact F1|exact (Forall_inv_tail Fb)]. }
  rewrite !app_length. cbn [length].
  match goal with |- context [(?a <? ?b)%Z] => replace (a <? b)%Z with true by (symmetry; apply Z.ltb_lt; lia) end.
  cbn [bind]. rewrite Hbody2.
  2:{ unfold target in *. cbn [pow] in *. lra. }
  2:{ lia. }
  rewrite app_length in M. match goal with |- context [merge_nodes g1 ?i] => replace i with (Z.of_nat (length pre + length top)) by lia end.
  rewrite M. cbn [bind]. f_equal. f_equal; [f_equal; [f_equal; lia|ring]|unfold target; cbn [pow]; ring].
Qed.

Lemma settled_loop g l k fuel :
  counted g -> g_nodes g = pre ++ l ++ suf -> Forall (cls c b) l -> settled f s k l -> (0 < k)%nat \/ l = [] ->
  (length l + 3 <= fuel)%nat ->
  exists idx h, while_loop fuel cond body (g, Z.of_nat (length pre), column_height l, f) = Ok (g, idx, h, target f s k).
Proof.
  intros C E F St Hk HF. destruct St as [Et|(top & x & more & El & Et & Hx & Lm & _ & HH)].
  - assert (E0 : (g, Z.of_nat (length pre), column_height l, f) = at_layer g (column_height l) 0).
    { unfold at_layer. f_equal; [f_equal; [f_equal; lia|unfold reach; cbn; ring]|unfold target; cbn; ring]. }
    rewrite E0. pose proof (targets_length c f l k Et) as Ll. subst k. pose proof (targets_reach c f l _ Et) as Rl.
    replace fuel with (length l + S (fuel - S (length l)))%nat by lia.
    rewrite (exact_steps g l _ C E F l []); [|rewrite app_nil_r; reflexivity|exact Et|lra].
    cbn [while_loop]. unfold at_layer at 1. rewrite (Hcond g l _ _ _ C E F). rewrite Z.ltb_irrefl. cbn [bind].
    unfold at_layer. eexists _, _. reflexivity.
  - destruct Hk as [Hk|Hk]; [|rewrite Hk in El; destruct top; discriminate].
    destruct k as [|k]; [lia|]. cbn [Nat.sub] in *. rewrite Nat.sub_0_r in *. specialize (Hx ltac:(lia)).
    pose proof (targets_length c f top k Et) as Lt.
    assert (Ll : length l = (S k + length more)%nat) by (rewrite El, app_length; cbn [length]; lia).
    replace fuel with (k + S (S (S (fuel - S (S (S k))))))%nat by lia.
    rewrite (thick_steps g l k top x more) by auto. cbn [while_loop]. rewrite (Hcond g l _ _ _ C E F).
    match goal with |- context [(?a <? ?b)%Z] => replace (a <? b)%Z with false by (symmetry; apply Z.ltb_ge; lia) end.
    cbn [bind]. eexists _, _. reflexivity.
Qed.

Lemma reached g l k fuel i' h' last' :
  counted g -> g_nodes g = pre ++ l ++ suf -> Forall (cls c b) l -> log_profiled f s (column_height l) k l -> (0 < k)%nat ->
  (length l + 3 <= fuel)%nat ->
  while_loop fuel cond body (g, Z.of_nat (length pre), column_height l, f) = Ok (g, i', h', last') ->
  settled f s k l.
Proof.
  intros C E F ([HA HB] & _ & [[_ Et]|(HR & top & x & more & El & Et & Hx)]) Hk HF W; [left; exact Et|].
  right. exists top, x, more. split; [exact El|]. split; [exact Et|]. split; [exact Hx|].
  destruct k as [|k]; [lia|]. cbn [Nat.sub] in *. rewrite Nat.sub_0_r in *. specialize (Hx ltac:(lia)).
  split; [|split; [discriminate|split; assumption]].
  pose proof (targets_length c f top k Et) as Lt.
  assert (Ll : length l = (S k + length more)%nat) by (rewrite El, app_length; cbn [length]; lia).
  replace fuel with (k + S (S (fuel - S (S k))))%nat in W by lia.
  rewrite (thick_steps g l k top x more) in W by auto.
  destruct (le_lt_dec (length more) 1) as [L|L]; [exact L|exfalso].
  apply (merging_only c b pre suf cond body Hcond Hbody2 _ g l) in W; auto; [|rewrite (reach_S (S k)) in HB; lra|lia].
  destruct W as [_ W]. specialize (W ltac:(lia)). lia.
Qed.
End Loop.

Lemma snow_cond_at c ice g l idx h last :
  Forall (cls c false) ice -> counted g -> g_nodes g = [] ++ l ++ ice -> Forall (cls c true) l ->
  log_snow_cond c (g, idx, h, last) = Ok (idx <? Z.of_nat (length (@nil Node) + length l))%Z.
Proof.
  intros Ci C E F. cbn [log_snow_cond]. rewrite get_number_snow_layers_counted by exact C. cbn [bind]. rewrite E. cbn [app]. rewrite cls_nsnow by auto. reflexivity.
Qed.

Lemma ice_cond_at c snow g l idx h last :
  counted g -> g_nodes g = snow ++ l ++ [] -> Forall (cls c false) l ->
  log_ice_cond (g, idx, h, last) = Ok (idx <? Z.of_nat (length snow + length l))%Z.
Proof.
  intros C E F. cbn [log_ice_cond]. unfold get_number_layers. rewrite C, E, app_nil_r, app_length. reflexivity.
Qed.

Lemma snow_settles c g snow ice k fuel :
  0 < c_first_layer_height c -> 1 <= c_layer_stretching c -> counted g -> g_nodes g = snow ++ ice ->
  Forall (cls c true) snow -> Forall (cls c false) ice ->
  settled (c_first_layer_height c) (c_layer_stretching c) k snow -> (length (g_nodes g) + 3 <= fuel)%nat ->
  exists idx h, while_loop fuel (log_snow_cond c) (log_snow_body fuel c) (g, 0%Z, column_height snow, c_first_layer_height c) =
    Ok (g, idx, h, target (c_first_layer_height c) (c_layer_stretching c) k).
Proof.
  intros Hf Hs C E Cs Ci St HF. rewrite E, app_length in HF. destruct fuel as [|fuel]; [lia|].
  destruct k as [|k].
  - destruct St as [Et|(top & x & more & El & Et & _ & _ & Em & HH)].
    + apply map_eq_nil in Et. subst snow. cbn [while_loop].
      rewrite (snow_cond_at c ice g [] _ _ _ Ci C E (Forall_nil _)). cbn [bind length Nat.add Z.of_nat Z.ltb Z.compare].
      eexists _, _. do 2 f_equal. unfold target. cbn. ring.
    + rewrite (Em eq_refl) in El. cbn in Et. apply map_eq_nil in Et. subst top. cbn [app] in El. subst snow. destruct fuel as [|fuel]; [lia|].
      cbn [while_loop]. rewrite (snow_cond_at c ice g [x] _ _ _ Ci C E Cs). cbn [bind length Nat.add Z.of_nat Z.ltb Z.compare Pos.of_succ_nat].
      change (reach (c_first_layer_height c) (c_layer_stretching c) 1) with (0 + c_first_layer_height c * 1) in HH.
      change (log_snow_body (S (S fuel)) c (g, 0%Z, column_height [x], c_first_layer_height c)) with
        (if Rleb (c_first_layer_height c) (column_height [x]) then
           g1 <- correct_layer (S (S fuel)) c g 0 (c_first_layer_height c) ;;
           Ok (g1, (0 + 1)%Z, column_height [x] - c_first_layer_height c, c_layer_stretching c * c_first_layer_height c)
         else if Rltb (column_height [x]) (c_first_layer_height c) && (0 <? 0)%Z then
           g1 <- merge_nodes g (0 - 1) ;; Ok (g1, (0 + 1)%Z, column_height [x], c_first_layer_height c)
         else Ok (g, (0 + 1)%Z, column_height [x], c_first_layer_height c)).
      rewrite Rleb_false by lra. rewrite andb_false_r. cbn [bind].
      rewrite (snow_cond_at c ice g [x] _ _ _ Ci C E Cs). cbn [bind length Nat.add Z.of_nat Z.ltb Z.compare Pos.of_succ_nat Z.add Pos.compare Pos.compare_cont].
      eexists _, _. do 2 f_equal. unfold target. cbn. ring.
  - apply (settled_loop c true [] ice (c_first_layer_height c) fuel (log_snow_cond c) (log_snow_body (S fuel) c) Hf Hs); auto; try lia.
    + intros. apply snow_cond_at with (ice := ice); auto.
    + intros g1 idx h last L. cbn [log_snow_body]. rewrite Rleb_true by exact L. reflexivity.
    + intros g1 idx h last L Hi. cbn [length] in Hi. cbn [log_snow_body]. rewrite Rleb_false by lra. rewrite Rltb_true by lra.
      replace (0 <? idx)%Z with true by (symmetry; apply Z.ltb_lt; lia). reflexivity.
Qed.

Lemma ice_settles c g snow ice f j fuel :
  0 < f -> 1 <= c_layer_stretching c -> counted g -> g_nodes g = snow ++ ice -> Forall (cls c false) ice ->
  settled f (c_layer_stretching c) j ice -> (0 < j)%nat -> (length (g_nodes g) + 3 <= fuel)%nat ->
  exists idx h last, while_loop fuel log_ice_cond (log_ice_body fuel c) (g, Z.of_nat (length snow), column_height ice, f) = Ok (g, idx, h, last).
Proof.
  intros Hf Hs C E Ci St Hj HF. rewrite E, app_length in HF. destruct fuel as [|fuel]; [lia|].
  destruct (settled_loop c false snow [] f fuel log_ice_cond (log_ice_body (S fuel) c) Hf Hs) with (g := g) (l := ice) (k := j) (fuel := S fuel) as (idx & h & W); auto; try lia.
  - intros. apply ice_cond_at with (c := c); auto.
  - intros g1 idx h last L. cbn [log_ice_body]. rewrite Rleb_true by exact L. reflexivity.
  - intros g1 idx h last L Hi. cbn [log_ice_body]. rewrite Rleb_false by lra. rewrite Rltb_true by lra. reflexivity.
  - rewrite app_nil_r. exact E.
  - eauto.
Qed.

Lemma log_profile_parts c g snow ice :
  0 < c_first_layer_height c -> 1 <= c_layer_stretching c -> counted g ->
  g_nodes g = snow ++ ice -> Forall dry (snow ++ ice) -> snow_over_ice c snow ice ->
  c_first_layer_height c <= column_height ice -> c_layer_stretching c * column_height snow <= column_height ice ->
  exists N, forall fuel, (N <= fuel)%nat -> exists g1 i1 h1 g2 i2 h2 last2 s1 s2 k j,
    while_loop fuel (log_snow_cond c) (log_snow_body fuel c) (g, 0%Z, column_height snow, c_first_layer_height c) =
      Ok (g1, i1, h1, target (c_first_layer_height c) (c_layer_stretching c) k) /\
    g_nodes g1 = s1 ++ ice /\ counted g1 /\ same_clock g g1 /\ Forall (cls c true) s1 /\
    while_loop fuel log_ice_cond (log_ice_body fuel c) (g1, Z.of_nat (length s1), column_height ice, target (c_first_layer_height c) (c_layer_stretching c) k) =
      Ok (g2, i2, h2, last2) /\
    g_nodes g2 = s1 ++ s2 /\ Forall (cls c false) s2 /\ log_profile fuel c g = Ok g2 /\
    log_profiled (c_first_layer_height c) (c_layer_stretching c) (column_height snow) k s1 /\
    log_profiled (target (c_first_layer_height c) (c_layer_stretching c) k) (c_layer_stretching c) (column_height ice) j s2 /\
    (0 < j)%nat.
Proof.
  intros Hf Hs Hc Hg HD [Sn Ic] H1 H2. apply Forall_app in HD. destruct HD as [Ds Di].
  pose proof (cls_snow c snow Ds Sn) as Cs. pose proof (cls_ice c ice Di Ic) as Ci.
  assert (Hok : column_ok (g_nodes g)).
  { rewrite Hg. apply Forall_app. split; [apply (Forall_impl _ (P := dry))|apply (Forall_impl _ (P := dry))]; auto; intros n (? & ? & _); lra. }
  set (H0 := column_height snow).
  assert (Eh0 : reported_snow c (g_nodes g) = H0).
  { unfold reported_snow. rewrite Hg, cls_nsnow by auto. rewrite firstn_app, firstn_all, Nat.sub_diag. cbn [firstn]. rewrite app_nil_r. reflexivity. }
  set (B0 := (length (g_nodes g) + steps (c_first_layer_height c) H0)%nat).
  set (B := (B0 + steps (c_first_layer_height c) (column_height (g_nodes g)))%nat).
  exists (2 * B + 1)%nat. intros fuel Hfuel.
  unfold log_profile. rewrite get_total_snowheight_counted by exact Hc. cbn [bind].
  fold (reported_snow c (g_nodes g)). rewrite Eh0.
  assert (I0 : log_inv c g B0 (g, 0%Z, H0, c_first_layer_height c)).
  { constructor; cbn [fst snd]; auto; [apply same_clock_refl | intros _; apply conserved_refl | lia | lra]. }
  assert (T0 : log_hts c H0 (g, 0%Z, H0, c_first_layer_height c)).
  { split; cbn [fst snd]; [lra|apply Rmax_l]. }
  assert (V0 : hinv c true [] ice (c_first_layer_height c) H0 (g, 0%Z, H0, c_first_layer_height c)).
  { exists [], snow, O. split; [exact Hg|]. split; [exact Cs|]. split; [reflexivity|]. left. repeat split; try reflexivity. unfold target. cbn [pow]. ring. }
  destruct (log_snow_loop c g Hf Hs H0 B0 fuel _ ltac:(lia) I0 T0) as ([[[g1 i1] h1] last1] & W1 & I1 & T1 & Ne1).
  destruct (while_inv _ fuel _ _ _ _ (log_snow_keeps c g B0 fuel ice H0 Hf Hs Ci ltac:(lia)) (conj I0 V0) W1) as [[_ V1] Q1].
  rewrite W1. cbn [bind].
  destruct I1 as [C1 K1 O1 Co1 Hi1 L1 Bd1]. cbn [fst snd] in *.
  cbn [log_snow_cond] in Q1. rewrite get_number_snow_layers_counted in Q1 by exact C1. cbn [bind] in Q1. injection Q1 as Q1. apply Z.ltb_ge in Q1.
  destruct (hinv_done c true [] ice (c_first_layer_height c) H0 Hf Hs g1 i1 h1 last1 V1) as (s1 & k & G1 & Cs1 & El & LP).
  { intros l E. cbn [app length] in *. destruct V1 as (top & rest & k & G1 & HC & _). cbn [app] in G1.
    rewrite G1 in E. apply app_inv_tail in E. subst l. rewrite G1, cls_nsnow in Q1 by auto. lia. }
  cbn [app] in G1.
  rewrite get_total_height_counted by exact C1. cbn [bind].
  rewrite get_total_snowheight_counted by exact C1. cbn [bind].
  rewrite get_number_snow_layers_counted by exact C1. cbn [bind].
  rewrite G1, cls_nsnow by auto. rewrite firstn_app, firstn_all, Nat.sub_diag. cbn [firstn]. rewrite app_nil_r.
  replace (column_height (s1 ++ ice) - column_height s1) with (column_height ice) by (unfold column_height; rewrite total_app; lra).
  assert (I2 : log_inv c g B (g1, Z.of_nat (length s1), column_height ice, last1)).
  { constructor; cbn [fst snd]; auto; [lia|].
    assert (steps (c_first_layer_height c) (column_height ice) <= steps (c_first_layer_height c) (column_height (g_nodes g)))%nat.
    { apply steps_mono; [exact Hf|]. rewrite Hg. unfold column_height. rewrite total_app. pose proof (column_height_nonneg snow (cls_positive _ _ _ Cs)). unfold column_height in *. lra. }
    lia. }
  assert (LI : last1 <= column_height ice).
  { destruct T1 as [_ T1]. cbn [fst snd] in T1. assert (Rmax (c_first_layer_height c) (c_layer_stretching c * H0) <= column_height ice) by (apply Rmax_lub; assumption). lra. }
  assert (V2 : hinv c false s1 [] last1 (column_height ice) (g1, Z.of_nat (length s1), column_height ice, last1)).
  { exists [], ice, O. split; [rewrite app_nil_r; exact G1|]. split; [exact Ci|]. split; [reflexivity|]. left. repeat split; try reflexivity; [lia|]. unfold target. cbn [pow]. ring. }
  destruct (log_ice_loop c g Hf Hs B fuel _ ltac:(lia) I2) as ([[[g2 i2] h2] last2] & W2 & I3 & Ne2).
  assert (HL1 : 0 < last1) by lra.
  destruct (while_inv _ fuel _ _ _ _ (log_ice_keeps c g B fuel s1 last1 (column_height ice) Hf HL1 Hs ltac:(lia) LI) (conj I2 V2) W2) as [[_ V3] Q2].
  rewrite W2. cbn [bind]. destruct I3 as [C2 K2 O2 Co2 _ _ _]. cbn [fst snd] in *.
  cbn [log_ice_cond] in Q2. injection Q2 as Q2. apply Z.ltb_ge in Q2. unfold get_number_layers in Q2. rewrite C2 in Q2.
  destruct (hinv_done c false s1 [] last1 (column_height ice) HL1 Hs g2 i2 h2 last2 V3) as (s2 & j & G2 & Cs2 & _ & LP2).
  { intros l E. rewrite E, app_nil_r, app_length in Q2. lia. }
  rewrite app_nil_r in G2. subst last1. exists g1, i1, h1, g2, i2, h2, last2, s1, s2, k, j.
  split; [reflexivity|]. split; [exact G1|]. split; [exact C1|]. split; [exact K1|]. split; [exact Cs1|]. split; [exact W2|]. do 2 (split; [assumption|]). split; [reflexivity|]. split; [exact LP|]. split; [exact LP2|].
  destruct j as [|j]; [exfalso|lia]. destruct LP2 as [[_ X] _]. unfold reach in X. cbn [sum_upto] in X. unfold target at 1 in X. cbn [pow] in X. lra.
Qed.

(*@ C132 A dry column that has the logarithmic profile is not changed by the remeshing: no layer is resized, mixed or cut, and nothing else in the grid changes.  A layer that is thicker than its place in the profile is cut and put together again. *)
Lemma log_profile_leaves_settled_lem :
  forall c g snow ice k j fuel,
    0 < c_first_layer_height c -> 1 <= c_layer_stretching c -> counted g ->
    g_nodes g = snow ++ ice -> Forall dry (snow ++ ice) -> snow_over_ice c snow ice ->
    settled (c_first_layer_height c) (c_layer_stretching c) k snow ->
    settled (target (c_first_layer_height c) (c_layer_stretching c) k) (c_layer_stretching c) j ice -> (0 < j)%nat ->
    (length (g_nodes g) + 3 <= fuel)%nat ->
    log_profile fuel c g = Ok g.
Proof.
  intros c g snow ice k j fuel Hf Hs C E D [Sn Ic] S1 S2 Hj HF. apply Forall_app in D. destruct D as [Ds Di].
  pose proof (cls_snow c snow Ds Sn) as Cs. pose proof (cls_ice c ice Di Ic) as Ci.
  assert (EH : column_height (firstn (nsnow c (g_nodes g)) (g_nodes g)) = column_height snow).
  { rewrite E, cls_nsnow by auto. rewrite firstn_app, firstn_all, Nat.sub_diag. cbn [firstn]. rewrite app_nil_r. reflexivity. }
  unfold log_profile. rewrite !get_total_snowheight_counted by exact C. cbn [bind]. rewrite EH.
  destruct (snow_settles c g snow ice k fuel Hf Hs C E Cs Ci S1 HF) as (i1 & h1 & W1). rewrite W1. cbn [bind].
  rewrite get_total_height_counted by exact C. cbn [bind]. rewrite get_total_snowheight_counted by exact C. cbn [bind]. rewrite EH.
  rewrite get_number_snow_layers_counted by exact C. cbn [bind].
  replace (nsnow c (g_nodes g)) with (length snow) by (rewrite E, cls_nsnow by auto; reflexivity).
  replace (column_height (g_nodes g) - column_height snow) with (column_height ice) by (rewrite E; unfold column_height; rewrite total_app; lra).
  destruct (ice_settles c g snow ice (target (c_first_layer_height c) (c_layer_stretching c) k) j fuel (target_pos c _ Hf Hs k) Hs C E Ci S2 Hj HF) as (i2 & h2 & l2 & W2).
  rewrite W2. reflexivity.
Qed.


Lemma app_len_inj {A} (a b a' b' : list A) : length a = length a' -> a ++ b = a' ++ b' -> a = a' /\ b = b'.
Proof.
  revert a'. induction a as [|x a IH]; intros [|y a'] L E; try discriminate; [auto|]. cbn in *. injection L as L. injection E as -> E. destruct (IH a' L E) as [-> ->]. auto.
Qed.

Lemma snow_reached c g snow ice k fuel i1 h1 last1 :
  0 < c_first_layer_height c -> 1 <= c_layer_stretching c -> counted g -> g_nodes g = snow ++ ice ->
  Forall (cls c true) snow -> Forall (cls c false) ice -> (length (g_nodes g) + 3 <= fuel)%nat ->
  log_profiled (c_first_layer_height c) (c_layer_stretching c) (column_height snow) k snow ->
  while_loop fuel (log_snow_cond c) (log_snow_body fuel c) (g, 0%Z, column_height snow, c_first_layer_height c) = Ok (g, i1, h1, last1) ->
  settled (c_first_layer_height c) (c_layer_stretching c) k snow.
Proof.
  intros Hf Hs C E Cs Ci HF LP W. rewrite E, app_length in HF. destruct fuel as [|fuel]; [lia|].
  assert (Hc : forall g l idx h last, counted g -> g_nodes g = [] ++ l ++ ice -> Forall (cls c true) l ->
    log_snow_cond c (g, idx, h, last) = Ok (idx <? Z.of_nat (length (@nil Node) + length l))%Z).
  { intros. apply snow_cond_at with (ice := ice); auto. }
  assert (Hb2 : forall g idx h last, h < last -> (Z.of_nat (length (@nil Node)) < idx)%Z ->
    log_snow_body (S fuel) c (g, idx, h, last) = (g1 <- merge_nodes g (idx - 1) ;; Ok (g1, (idx + 1)%Z, h, last))).
  { intros g1 idx h last L Hi. cbn [length] in Hi. cbn [log_snow_body]. rewrite Rleb_false by lra. rewrite Rltb_true by lra.
    replace (0 <? idx)%Z with true by (symmetry; apply Z.ltb_lt; lia). reflexivity. }
  destruct k as [|k].
  - destruct LP as ([HA HB] & _ & [[_ Et]|(HR & top & x & more & El & Et & Hx)]); [left; exact Et|].
    right. exists top, x, more. split; [exact El|]. split; [exact Et|]. split; [exact Hx|].
    assert (Em : more = []).
    { cbn in Et. apply map_eq_nil in Et. subst top. cbn [app] in El. destruct more as [|y more]; [reflexivity|exfalso].
      cbn [while_loop] in W. rewrite (Hc g snow _ _ _ C E Cs) in W. rewrite El in W at 1. cbn [length Nat.add] in W.
      replace (0 <? Z.of_nat (S (S (length more))))%Z with true in W by (symmetry; apply Z.ltb_lt; lia). cbn [bind] in W.
      set (H := column_height snow) in *. set (f := c_first_layer_height c) in *.
      assert (Hlt : H < f) by (change (reach f (c_layer_stretching c) 1) with (0 + f * 1) in HB; lra).
      change (log_snow_body (S fuel) c (g, 0%Z, H, f)) with
        (if Rleb f H then g1 <- correct_layer (S fuel) c g 0 f ;; Ok (g1, (0 + 1)%Z, H - f, c_layer_stretching c * f)
         else if Rltb H f && (0 <? 0)%Z then g1 <- merge_nodes g (0 - 1) ;; Ok (g1, (0 + 1)%Z, H, f)
         else Ok (g, (0 + 1)%Z, H, f)) in W.
      rewrite (Rleb_false f H) in W by lra. rewrite andb_false_r in W. cbn [bind] in W.
      apply (merging_only c true [] ice (log_snow_cond c) (log_snow_body (S fuel) c) Hc Hb2 _ g snow) in W; auto; [|cbn; lia].
      destruct W as [_ W]. rewrite El in W at 1. cbn [length Nat.add] in W. specialize (W ltac:(lia)). lia. }
    split; [rewrite Em; cbn; lia|]. split; [auto|]. split; assumption.
  - apply (reached c true [] ice (c_first_layer_height c) fuel (log_snow_cond c) (log_snow_body (S fuel) c) Hf Hs Hc) with (g := g) (fuel := S fuel) (i' := i1) (h' := h1) (last' := last1); auto; try lia.
    intros g1 idx h last L. cbn [log_snow_body]. rewrite Rleb_true by exact L. reflexivity.
Qed.

Lemma ice_reached c g snow ice f j fuel i2 h2 last2 :
  0 < f -> 1 <= c_layer_stretching c -> counted g -> g_nodes g = snow ++ ice -> Forall (cls c false) ice ->
  (length (g_nodes g) + 3 <= fuel)%nat -> log_profiled f (c_layer_stretching c) (column_height ice) j ice -> (0 < j)%nat ->
  while_loop fuel log_ice_cond (log_ice_body fuel c) (g, Z.of_nat (length snow), column_height ice, f) = Ok (g, i2, h2, last2) ->
  settled f (c_layer_stretching c) j ice.
Proof.
  intros Hf Hs C E Ci HF LP Hj W. rewrite E, app_length in HF. destruct fuel as [|fuel]; [lia|].
  apply (reached c false snow [] f fuel log_ice_cond (log_ice_body (S fuel) c) Hf Hs) with (g := g) (fuel := S fuel) (i' := i2) (h' := h2) (last' := last2); auto; try lia.
  - intros. apply ice_cond_at with (c := c); auto.
  - intros g1 idx h last L. cbn [log_ice_body]. rewrite Rleb_true by exact L. reflexivity.
  - intros g1 idx h last L Hi. cbn [log_ice_body]. rewrite Rleb_false by lra. rewrite Rltb_true by lra. reflexivity.
  - rewrite app_nil_r. exact E.
Qed.

(*@ C132 Over enough ice these are the only dry columns that the remeshing leaves unchanged. *)
Lemma log_profile_unchanged_iff_settled_lem :
  forall c g snow ice,
    0 < c_first_layer_height c -> 1 <= c_layer_stretching c -> counted g ->
    g_nodes g = snow ++ ice -> Forall dry (snow ++ ice) -> snow_over_ice c snow ice ->
    c_first_layer_height c <= column_height ice -> c_layer_stretching c * column_height snow <= column_height ice ->
    exists N, forall fuel, (N <= fuel)%nat ->
      (log_profile fuel c g = Ok g <->
       exists k j, settled (c_first_layer_height c) (c_layer_stretching c) k snow /\ (0 < j)%nat /\
         settled (target (c_first_layer_height c) (c_layer_stretching c) k) (c_layer_stretching c) j ice).
Proof.
  intros c g snow ice Hf Hs C E D SI H1 H2. destruct (log_profile_parts c g snow ice Hf Hs C E D SI H1 H2) as [N HN].
  exists (N + length (g_nodes g) + 3)%nat. intros fuel HF. split.
  - intros W. destruct (HN fuel ltac:(lia)) as (g1 & i1 & h1 & g2 & i2 & h2 & last2 & s1 & s2 & k & j & W1 & G1 & C1 & K1 & Cs1 & W2 & G2 & Cs2 & W' & LP1 & LP2 & Hj).
    rewrite W in W'. injection W' as <-.
    destruct SI as [Sn Ic]. apply Forall_app in D. destruct D as [Ds Di].
    pose proof (cls_snow c snow Ds Sn) as Cs. pose proof (cls_ice c ice Di Ic) as Ci.
    assert (Ln : length s1 = length snow).
    { rewrite <- (cls_nsnow c s1 s2 Cs1 Cs2), <- G2, E, cls_nsnow by auto. reflexivity. }
    rewrite E in G2. destruct (app_len_inj snow ice s1 s2) as [<- <-]; auto.
    assert (Eg : g1 = g) by (apply grid_eq; auto; congruence). subst g1.
    exists k, j. split; [|split; [exact Hj|]].
    + apply (snow_reached c g snow ice k fuel _ _ _ Hf Hs C E Cs Ci ltac:(lia) LP1 W1).
    + apply (ice_reached c g snow ice _ j fuel _ _ _ (target_pos c _ Hf Hs k) Hs C E Ci ltac:(lia) LP2 Hj W2).
  - intros (k & j & S1 & Hj & S2). apply (log_profile_leaves_settled_lem c g snow ice k j fuel); auto. lia.
Qed.

(*@ex C132 Examples: two snow layers in the profile, the second thickened by the remainder, over ice that continues the profile; and the same with the remainder in a third layer. *)
Lemma settled_example_lem :
  let c := default_constants in
  let ice := [mkNode 0.0144 265 0 1 0; mkNode 0.02 265 0 1 0] in
  let f := c_first_layer_height c in let s := c_layer_stretching c in
  settled f s 2 [mkNode 0.01 268 0 0.3 0; mkNode 0.013 268 0 0.4 0] /\
  settled f s 2 [mkNode 0.01 268 0 0.3 0; mkNode 0.013 268 0 0.4 0; mkNode 0.005 268 0 0.4 0] /\
  settled (target f s 2) s 2 ice /\ ~ settled f s 2 [mkNode 0.01 268 0 0.3 0; mkNode 0.012 268 0 0.4 0; mkNode 0.005 268 0 0.4 0].
Proof.
  cbv zeta. cbn [c_first_layer_height c_layer_stretching default_constants].
  split; [right; exists [mkNode 0.01 268 0 0.3 0], (mkNode 0.013 268 0 0.4 0), []|
  split; [right; exists [mkNode 0.01 268 0 0.3 0], (mkNode 0.013 268 0 0.4 0), [mkNode 0.005 268 0 0.4 0]|split]].
  - split; [reflexivity|]. unfold reach, column_height; cbn; unfold target; cbn. repeat split; try discriminate; try (intros _); try lia; try lra; f_equal; lra.
  - split; [reflexivity|]. unfold reach, column_height; cbn; unfold target; cbn. repeat split; try discriminate; try (intros _); try lia; try lra; f_equal; lra.
  - right. exists [mkNode 0.0144 265 0 1 0], (mkNode 0.02 265 0 1 0), []. split; [reflexivity|]. unfold reach, column_height; cbn; unfold target; cbn. repeat split; try discriminate; try (intros _); try lia; try lra; f_equal; lra.
  - intros [Et|(top & x & more & El & Et & Hx & _ & _ & HH)].
    + apply (f_equal (@length R)) in Et. discriminate.
    + cbn in Et. destruct top as [|t [|t2 top]]; try discriminate. cbn in El. injection El as _ <- _. specialize (Hx ltac:(lia)). unfold target in Hx. cbn in Hx. lra.
Qed.

(*@ C132 Finding: remeshing a remeshed column may change it again.  Four snow layers, together thinner than the first layer of the profile, become two, and these become one. *)
Lemma log_profile_idempotent_refuted_lem :
  exists g N, counted g /\ Forall dry (g_nodes g) /\ forall fuel, (N <= fuel)%nat ->
    exists g', log_profile fuel default_constants g = Ok g' /\ log_profile fuel default_constants g' <> Ok g'.
Proof.
  set (c := default_constants). set (x := mkNode 0.001 268 0 0.3 0). set (y := mkNode 0.01 265 0 1 0).
  set (g := mkGrid [x; x; x; x; y] 5 0 0 0).
  assert (Fx : cls c true x).
  { split; [repeat split; cbn; lra|]. unfold snowb, layer_density, layer_air_porosity. cbn. rewrite Rmax_right by lra. apply Rltb_true. lra. }
  assert (Fy : cls c false y).
  { split; [repeat split; cbn; lra|]. unfold snowb, layer_density, layer_air_porosity. cbn. rewrite Rmax_right by lra. apply Rltb_false. lra. }
  assert (Hxx : n_height x + n_height x <> 0) by (cbn; lra).
  assert (Fm : cls c true (merged x x)) by exact (merger_cls c true x x _ Fx Fx (merged_merger x x Hxx)).
  set (m := merged x x) in *. assert (Hm : n_height m = 0.002) by (cbn; lra).
  set (ga := mkGrid [m; x; x; y] 4 0 0 0). set (gb := mkGrid [m; m; y] 3 0 0 0).
  assert (Hf : 0 < c_first_layer_height c) by (cbn; lra). assert (Hs : 1 <= c_layer_stretching c) by (cbn; lra).
  destruct (log_profile_unchanged_iff_settled_lem c gb [m; m] [y] Hf Hs) as [N HN]; try reflexivity.
  { repeat (constructor; [apply Fm || apply Fy|]). constructor. }
  { split; repeat constructor.
    - destruct Fm as [_ Q]. destruct (snowb_spec c m); [assumption|discriminate].
    - destruct Fm as [_ Q]. destruct (snowb_spec c m); [assumption|discriminate].
    - destruct Fy as [_ Q]. destruct (snowb_spec c y); [discriminate|assumption]. }
  { unfold column_height. cbn. lra. }
  { unfold column_height. cbn [total map fold_right]. rewrite Hm. cbn. lra. }
  exists g, (N + 10)%nat. split; [reflexivity|]. split; [repeat (constructor; [apply Fx || apply Fy|]); constructor|].
  intros fuel HF. exists gb. split.
  - assert (Cg : counted g) by reflexivity. assert (Ca : counted ga) by reflexivity. assert (Cb : counted gb) by reflexivity.
    assert (Ci : Forall (cls c false) [y]) by (repeat constructor; apply Fy).
    assert (F4 : Forall (cls c true) [x; x; x; x]) by (repeat (constructor; [apply Fx|]); constructor).
    assert (F3 : Forall (cls c true) [m; x; x]) by (constructor; [apply Fm|]; repeat (constructor; [apply Fx|]); constructor).
    assert (F2 : Forall (cls c true) [m; m]) by (repeat (constructor; [apply Fm|]); constructor).
    set (f := c_first_layer_height c) in *. set (H := column_height [x; x; x; x]).
    assert (HH : H < f) by (unfold H, f, column_height; cbn; lra).
    assert (M1 : merge_nodes g 0 = Ok ga) by exact (merge_nodes_mid g [] x x [x; x; y] eq_refl Hxx).
    assert (M2 : merge_nodes ga 1 = Ok gb) by exact (merge_nodes_mid ga [m] x x [y] eq_refl Hxx).
    assert (W1 : while_loop fuel (log_snow_cond c) (log_snow_body fuel c) (g, 0%Z, H, f) = Ok (gb, 3%Z, H, f)).
    { do 4 (destruct fuel as [|fuel]; [lia|]). cbn [while_loop].
      assert (B0 : forall fu, log_snow_body fu c (g, 0%Z, H, f) = Ok (g, 1%Z, H, f)).
      { intros fu. cbn [log_snow_body]. rewrite Rleb_false by lra. rewrite andb_false_r. reflexivity. }
      assert (B1 : forall fu, log_snow_body fu c (g, 1%Z, H, f) = Ok (ga, 2%Z, H, f)).
      { intros fu. cbn [log_snow_body]. rewrite Rleb_false by lra. rewrite Rltb_true by lra. change (1 - 1)%Z with 0%Z. rewrite M1. reflexivity. }
      assert (B2 : forall fu, log_snow_body fu c (ga, 2%Z, H, f) = Ok (gb, 3%Z, H, f)).
      { intros fu. cbn [log_snow_body]. rewrite Rleb_false by lra. rewrite Rltb_true by lra. change (2 - 1)%Z with 1%Z. rewrite M2. reflexivity. }
      rewrite (snow_cond_at c [y] g [x; x; x; x] _ _ _ Ci Cg eq_refl F4).
      change (0 <? Z.of_nat (length (@nil Node) + length [x; x; x; x]))%Z with true. cbn [bind]. rewrite B0. cbn [bind].
      rewrite (snow_cond_at c [y] g [x; x; x; x] _ _ _ Ci Cg eq_refl F4).
      change (1 <? Z.of_nat (length (@nil Node) + length [x; x; x; x]))%Z with true. cbn [bind]. rewrite B1. cbn [bind].
      rewrite (snow_cond_at c [y] ga [m; x; x] _ _ _ Ci Ca eq_refl F3).
      change (2 <? Z.of_nat (length (@nil Node) + length [m; x; x]))%Z with true. cbn [bind]. rewrite B2. cbn [bind].
      rewrite (snow_cond_at c [y] gb [m; m] _ _ _ Ci Cb eq_refl F2).
      change (3 <? Z.of_nat (length (@nil Node) + length [m; m]))%Z with false. reflexivity. }
    assert (N4 : nsnow c (g_nodes g) = 4%nat) by exact (cls_nsnow c [x; x; x; x] [y] F4 Ci).
    assert (N2 : nsnow c (g_nodes gb) = 2%nat) by exact (cls_nsnow c [m; m] [y] F2 Ci).
    unfold log_profile. rewrite get_total_snowheight_counted by exact Cg. rewrite N4. cbn [bind].
    change (column_height (firstn 4 (g_nodes g))) with H. fold f. rewrite W1. cbn [bind].
    rewrite get_total_height_counted by exact Cb. cbn [bind]. rewrite get_total_snowheight_counted by exact Cb. rewrite N2. cbn [bind].
    rewrite get_number_snow_layers_counted by exact Cb. rewrite N2. cbn [bind].
    replace (column_height (g_nodes gb) - column_height (firstn 2 (g_nodes gb))) with (column_height [y]) by (unfold column_height; cbn [g_nodes gb firstn total map fold_right]; lra).
    destruct (ice_settles c gb [m; m] [y] f 1 fuel Hf Hs Cb eq_refl Ci) as (i2 & h2 & l2 & W2); [|lia|cbn; lia|].
    { left. unfold f. cbn. f_equal. unfold target. cbn. lra. }
    change (length [m; m]) with 2%nat in W2. rewrite W2. reflexivity.
  - intros W. apply HN in W; [|lia]. destruct W as (k & j & St & _). destruct St as [Et|(top & z & more & El & Et & Hx & Lm & Em & HH)].
    + pose proof (f_equal (@length R) Et) as L. rewrite !map_length, seq_length in L. cbn in L. subst k. cbn in Et. injection Et as Et _. unfold target in Et. cbn in Et. lra.
    + destruct k as [|k].
      * cbn in Et. apply map_eq_nil in Et. subst top. rewrite (Em eq_refl) in El. discriminate.
      * pose proof (reach_mono c _ Hf Hs 1 (S k) ltac:(lia)) as RM. unfold column_height in HH. cbn [total map fold_right] in HH. rewrite Hm in HH.
        change (reach (c_first_layer_height c) (c_layer_stretching c) 1) with (0 + c_first_layer_height c * 1) in RM. assert (EF : c_first_layer_height c = 0.01) by reflexivity. rewrite EF in RM at 1. lra.
Qed.

(*@ C132 With the logarithmic profile a settled column whose top layer has the minimum height comes back unchanged from update_grid. *)
Lemma update_grid_leaves_settled_lem :
  forall c g snow ice k j fuel top l,
    c_remesh_method c = "log_profile"%string ->
    0 < c_first_layer_height c -> 1 <= c_layer_stretching c -> counted g ->
    g_nodes g = snow ++ ice -> Forall dry (snow ++ ice) -> snow_over_ice c snow ice ->
    settled (c_first_layer_height c) (c_layer_stretching c) k snow ->
    settled (target (c_first_layer_height c) (c_layer_stretching c) k) (c_layer_stretching c) j ice -> (0 < j)%nat ->
    (length (g_nodes g) + 3 <= fuel)%nat -> g_nodes g = top :: l -> c_minimum_snow_layer_height c <= n_height top ->
    update_grid fuel c g = Ok g.
Proof.
  intros c g snow ice k j fuel top l Hm Hf Hs C E D SI S1 S2 Hj HF Et Ht. unfold update_grid. rewrite Hm. cbn [String.eqb Ascii.eqb Bool.eqb].
  rewrite (log_profile_leaves_settled_lem c g snow ice k j fuel Hf Hs C E D SI S1 S2 Hj HF). cbn [bind].
  unfold get_node_height. rewrite (get_node_mid g [] top l Et : get_node g 0 = Ok top). cbn [bind]. rewrite Rltb_false by lra. reflexivity.
Qed.
