(** * Removal, splitting, melting, depths, snow heights, density, fresh snow *)
From Verif Require Import ModelPy ModelConstants ModelNode ModelGrid Spec LemPy LemGridBase
  LemMerge LemCorrect LemLog LemGridOps.
From Coq Require Import Permutation.

(** ** remove_node *)
Lemma existsb_perm {A} (p : A -> bool) l l' : Permutation l l' -> existsb p l = existsb p l'.
Proof.
  induction 1; cbn; try congruence.
  destruct (p x), (p y); reflexivity.
Qed.

Lemma without_perm {A} ids ids' (l : list A) i : Permutation ids ids' ->
  without_from i ids l = without_from i ids' l.
Proof.
  intros HP; revert i; induction l as [|x l IH]; intros i; cbn; [reflexivity|].
  rewrite (existsb_perm _ _ _ HP), IH. reflexivity.
Qed.

Lemma insert_desc_perm x l : Permutation (x :: l) (insert_desc x l).
Proof.
  induction l as [|y l IH]; cbn; [reflexivity|].
  destruct (y <=? x)%Z; [reflexivity|]. etransitivity; [apply perm_swap|]. now constructor.
Qed.
Lemma sort_desc_perm l : Permutation l (sort_desc l).
Proof.
  induction l as [|x l IH]; cbn; [reflexivity|].
  etransitivity; [apply perm_skip, IH|]. apply insert_desc_perm.
Qed.

Inductive sdesc : list Z -> Prop :=
| sdesc_nil : sdesc []
| sdesc_cons x l : Forall (fun y => (y < x)%Z) l -> sdesc l -> sdesc (x :: l).

Lemma insert_desc_sorted x l : ~ In x l -> sdesc l -> sdesc (insert_desc x l).
Proof.
  intros Hn H; induction H as [|y l Hy Hl IH]; cbn.
  - constructor; constructor.
  - destruct (Z.leb_spec y x) as [L|L].
    + constructor; [|constructor; assumption].
      assert (y < x)%Z by (cbn in Hn; lia).
      constructor; [assumption|]. eapply Forall_impl; [|exact Hy]. intros; cbn in *; lia.
    + constructor; [|apply IH; cbn in Hn; tauto].
      eapply Permutation_Forall; [apply insert_desc_perm|]. constructor; [lia|assumption].
Qed.
Lemma sort_desc_sorted l : NoDup l -> sdesc (sort_desc l).
Proof.
  induction 1 as [|x l Hx _ IH]; cbn; [constructor|].
  apply insert_desc_sorted; [|exact IH].
  intros HI; apply Hx. eapply Permutation_in; [symmetry; apply sort_desc_perm|exact HI].
Qed.

Lemma existsb_lt ids (i : Z) : Forall (fun y => (y < i)%Z) ids -> existsb (Z.eqb i) ids = false.
Proof.
  induction 1 as [|y l Hy _ IH]; cbn; [reflexivity|].
  rewrite IH. destruct (Z.eqb_spec i y); [lia|reflexivity].
Qed.

Lemma without_beyond {A} ids (l : list A) i : Forall (fun y => (y < i)%Z) ids ->
  without_from i ids l = l.
Proof.
  revert i; induction l as [|x l IH]; intros i H; cbn; [reflexivity|].
  rewrite existsb_lt by exact H. rewrite IH; [reflexivity|].
  eapply Forall_impl; [|exact H]. intros; cbn in *; lia.
Qed.

Lemma without_app {A} ids (l1 l2 : list A) i :
  without_from i ids (l1 ++ l2) =
  without_from i ids l1 ++ without_from (i + Z.of_nat (length l1)) ids l2.
Proof.
  revert i; induction l1 as [|x l1 IH]; intros i; cbn [app without_from length].
  - now rewrite Z.add_0_r.
  - rewrite IH. replace (i + 1 + Z.of_nat (length l1))%Z with (i + Z.of_nat (S (length l1)))%Z by lia.
    destruct (existsb (Z.eqb i) ids); reflexivity.
Qed.

Lemma without_above {A} j ids (l : list A) i : (i + Z.of_nat (length l) <= j)%Z ->
  without_from i (j :: ids) l = without_from i ids l.
Proof.
  revert i; induction l as [|x l IH]; intros i H; cbn [without_from existsb]; [reflexivity|].
  cbn [length] in H. destruct (Z.eqb_spec i j); [lia|]. cbn [orb]. rewrite !IH by lia. reflexivity.
Qed.

Lemma del_all_without ids l : sdesc ids -> Forall (fun i => (0 <= i < Z.of_nat (length l))%Z) ids ->
  del_all l ids = Ok (without ids l).
Proof.
  intros Hs; revert l; induction Hs as [|j ids Hj Hs IH]; intros l Hv; cbn [del_all].
  - unfold without. f_equal. rewrite without_beyond; [reflexivity|constructor].
  - assert (Hj1 := Forall_inv Hv). cbn in Hj1. assert (Hv' := Forall_inv_tail Hv).
    destruct (split_at l (Z.to_nat j)) as (pre & x & post & E & L); [lia|].
    assert (Ej : j = Z.of_nat (length pre)) by lia.
    rewrite E, Ej, py_del_mid. cbn [bind]. rewrite IH.
    + f_equal. unfold without. rewrite !without_app. rewrite !Z.add_0_l. rewrite <- Ej.
      rewrite (without_above j ids pre 0) by lia.
      f_equal. cbn [without_from existsb]. rewrite Z.eqb_refl. cbn [orb].
      rewrite !without_beyond; [reflexivity| |exact Hj].
      constructor; [lia|]. eapply Forall_impl; [|exact Hj]. intros; cbn in *; lia.
    + apply Forall_forall. intros y Hy. rewrite Forall_forall in Hj, Hv'.
      specialize (Hj y Hy). specialize (Hv' y Hy). cbn in *. rewrite app_length. lia.
Qed.

Lemma remove_node_exact g ids : NoDup ids -> ids <> [] ->
  Forall (fun i => (0 <= i < Z.of_nat (length (g_nodes g)))%Z) ids ->
  remove_node g (Some ids) =
  Ok (with_number (with_nodes g (without ids (g_nodes g)))
        (g_number_nodes g - Z.of_nat (length ids))).
Proof.
  intros Hnd Hne Hv. unfold remove_node.
  destruct (g_nodes g) as [|n l] eqn:E.
  - destruct ids as [|i ids]; [congruence|]. apply Forall_inv in Hv. cbn in Hv. lia.
  - destruct ids as [|i ids]; [congruence|]. rewrite <- E.
    rewrite del_all_without.
    + cbn [bind]. unfold without at 1. rewrite <- (without_perm (i :: ids)); [reflexivity|].
      apply sort_desc_perm.
    + now apply sort_desc_sorted.
    + eapply Permutation_Forall; [apply sort_desc_perm|]. now rewrite E.
Qed.

Lemma remove_node_default g ids : ids = None \/ ids = Some [] ->
  remove_node g ids =
  match g_nodes g with
  | [] => Ok g
  | _ :: t => Ok (with_number (with_nodes g t) (g_number_nodes g - 1))
  end.
Proof. intros [-> | ->]; unfold remove_node; destruct (g_nodes g); reflexivity. Qed.

(** ** split_node *)
Definition half_of (c : Consts) (x : Node) (r : R) : Node :=
  mkNode (n_height x / 2) (n_temperature x) (n_lwc x / 2) (n_ice x) r.

Lemma split_node_spec c g pre x post :
  g_nodes g = pre ++ x :: post ->
  split_node c g (Z.of_nat (length pre)) =
  Ok (with_number (with_nodes g (pre ++ half_of c x (n_refreeze x) :: half_of c x 0 :: post))
        (g_number_nodes g + 1)).
Proof.
  intros H. unfold split_node, get_node_height, get_node_density, get_node_temperature,
    get_node_lwc, get_node_ice_fraction.
  rewrite (get_node_mid g pre x post H). cbn [bind].
  assert (E : py_insert (g_nodes g) (Z.of_nat (length pre) + 1)
     (new_node c (n_height x / 2) (layer_density c x) (n_temperature x) (n_lwc x / 2) (Some (n_ice x)))
     = pre ++ x :: half_of c x 0 :: post).
  { rewrite H. replace (Z.of_nat (length pre) + 1)%Z with (Z.of_nat (length (pre ++ [x])))
      by (rewrite app_length; cbn [length]; lia).
    replace (pre ++ x :: post) with ((pre ++ [x]) ++ post) by (rewrite <- app_assoc; reflexivity).
    rewrite py_insert_mid, <- app_assoc. reflexivity. }
  rewrite E. erewrite get_node_mid by reflexivity. cbn [bind].
  erewrite update_node_mid by reflexivity. cbn [bind]. reflexivity.
Qed.

(** ** merge_snow_with_glacier *)
Lemma merge_snow_spec c g pre s i post :
  c_ice_density c <> 0 ->
  g_nodes g = pre ++ s :: i :: post -> is_snow c s -> ~ is_snow c i ->
  merge_snow_with_glacier c g (Z.of_nat (length pre)) =
  Ok (with_number (with_nodes g
        (pre ++ mkNode (n_height i + n_height s * (layer_density c s / c_ice_density c))
                  (n_temperature i) 0 (n_ice i) (n_refreeze i) :: post))
        (g_number_nodes g - 1)).
Proof.
  intros Hi H Hs Hni. unfold is_snow in *. unfold merge_snow_with_glacier, get_node_density,
    get_node_height, get_node_temperature, get_node_ice_fraction.
  rewrite (get_node_mid g pre s (i :: post) H), (get_node_mid1 g pre s i post H). cbn [bind].
  rewrite Rltb_true by exact Hs. rewrite Rleb_true by lra. cbn [andb].
  rewrite fdiv_ok by exact Hi. cbn [bind].
  assert (H' : g_nodes g = (pre ++ [s]) ++ i :: post) by (rewrite H, <- app_assoc; reflexivity).
  replace (Z.of_nat (length pre) + 1)%Z with (Z.of_nat (length (pre ++ [s])))
    by (rewrite app_length; cbn [length]; lia).
  rewrite (update_node_mid g (pre ++ [s]) i post _ _ _ _ H'). cbn [bind].
  rewrite <- app_assoc. cbn [app].
  erewrite remove_one_mid by reflexivity. reflexivity.
Qed.

Lemma merge_snow_other c g idx d0 d1 :
  get_node_density c g idx = Ok d0 -> get_node_density c g (idx + 1) = Ok d1 ->
  ~ (d0 < c_snow_ice_threshold c /\ c_snow_ice_threshold c <= d1) ->
  merge_snow_with_glacier c g idx = Ok g.
Proof.
  intros E0 E1 H. unfold merge_snow_with_glacier. rewrite E0, E1. cbn [bind].
  destruct (Rltb_spec d0 (c_snow_ice_threshold c)); [|reflexivity].
  destruct (Rleb_spec (c_snow_ice_threshold c) d1); [tauto|reflexivity].
Qed.

(** ** remove_melt_weq *)
Lemma weq_cons c n l : c_water_density c <> 0 ->
  column_weq c (n :: l) = n_height n * (layer_density c n / c_water_density c) + column_weq c l.
Proof.
  intros H. unfold column_weq, column_weight. rewrite total_cons. unfold layer_weight. field. exact H.
Qed.
Lemma weq_nil c : column_weq c [] = 0.
Proof. unfold column_weq, column_weight; rewrite total_nil; unfold Rdiv; ring. Qed.

(** top-down removal of [m] m w.e. from the layers [l]: [gone] are removed
    completely, [rest] is what is left, [w] the liquid water of the removed
    layers, [m'] what could not be removed *)
Definition melted (c : Consts) (m : R) (l l' : list Node) (w m' : R) : Prop :=
  (exists gone x x' below,
     l = gone ++ x :: below /\ l' = x' :: below /\ only_height x x' /\
     0 < n_height x' <= n_height x /\
     column_weq c (gone ++ [x]) - column_weq c [x'] = m /\ w = column_water gone /\ m' = 0)
  \/ (l' = [] /\ column_weq c l <= m /\ w = column_water l /\ m' = m - column_weq c l).

Definition weighty (c : Consts) (l : list Node) : Prop :=
  Forall (fun n => 0 < n_height n /\ 0 < layer_density c n) l.

Lemma melt_loop c pre : 0 < c_water_density c -> forall post g m w0 fuel,
  0 <= m -> g_nodes g = pre ++ post -> counted g -> weighty c post -> (S (length post) < fuel)%nat ->
  exists g' m' w' post',
    while_loop fuel (melt_cond (Z.of_nat (length pre))) (melt_body c (Z.of_nat (length pre))) (g, m, w0)
    = Ok (g', m', w') /\ g_nodes g' = pre ++ post' /\ counted g' /\ same_clock g g' /\
    exists w, w' = w0 + w /\ melted c m post post' w m'.
Proof.
  intros Hw post; induction post as [|x post IH]; intros g m w0 fuel Hm Hg Hc Hwt Hf.
  - destruct fuel as [|fuel]; [lia|]. cbn [while_loop melt_cond bind].
    replace (Z.of_nat (length pre) <? g_number_nodes g)%Z with false.
    2:{ symmetry; apply Z.ltb_ge. rewrite Hc, Hg, app_nil_r. lia. }
    rewrite andb_false_r. exists g, m, w0, []. split; [reflexivity|]. split; [exact Hg|].
    split; [exact Hc|]. split; [apply same_clock_refl|]. exists 0. split; [ring|].
    right. rewrite weq_nil. unfold column_water. rewrite total_nil. repeat split; lra.
  - destruct fuel as [|fuel]; [lia|]. cbn [while_loop melt_cond bind].
    replace (Z.of_nat (length pre) <? g_number_nodes g)%Z with true.
    2:{ symmetry; apply Z.ltb_lt. rewrite Hc, Hg, app_length. cbn [length]. lia. }
    rewrite andb_true_r.
    assert (Hx := Forall_inv Hwt). cbn in Hx. destruct Hx as [Hh Hd].
    assert (Hq : 0 < layer_density c x / c_water_density c).
    { apply Rmult_lt_0_compat; [exact Hd | now apply Rinv_0_lt_compat]. }
    destruct (Rltb_spec 0 m) as [Hpos|Hpos].
    2:{ exists g, m, w0, (x :: post). split; [reflexivity|]. split; [exact Hg|].
        split; [exact Hc|]. split; [apply same_clock_refl|]. exists 0. split; [ring|].
        left. exists [], x, x, post. cbn [app].
        split; [reflexivity|]. split; [reflexivity|]. split; [repeat split|]. split; [lra|].
        split; [lra|]. split; [reflexivity|lra]. }
    cbn [melt_body]. unfold get_node_height, get_node_density, get_node_lwc.
    rewrite (get_node_mid g pre x post Hg). cbn [bind].
    rewrite fdiv_ok by lra. cbn [bind].
    set (q := layer_density c x / c_water_density c) in *.
    destruct (Rltb_spec m (n_height x * q)) as [L|L].
    + (* partial *)
      rewrite fdiv_ok by lra. cbn [bind]. unfold set_node_height.
      rewrite (upd_node_mid g pre x post _ Hg). cbn [bind].
      destruct fuel as [|fuel]; [cbn [length] in Hf; lia|].
      cbn [while_loop melt_cond bind]. rewrite (Rltb_false 0 0) by lra. cbn [andb].
      set (h' := (n_height x * q - m) / q).
      assert (Eh : h' * q = n_height x * q - m) by (unfold h'; field; lra).
      exists (with_nodes g (pre ++ set_layer_height h' x :: post)), 0, w0, (set_layer_height h' x :: post).
      split; [reflexivity|]. split; [reflexivity|].
      split. { unfold counted in *. cbn [g_number_nodes with_nodes g_nodes].
               rewrite Hc, Hg, !app_length. reflexivity. }
      split; [repeat split|]. exists 0. split; [ring|]. left.
      exists [], x, (set_layer_height h' x), post. cbn [app].
      split; [reflexivity|]. split; [reflexivity|]. split; [repeat split|].
      split. { cbn [n_height set_layer_height]. split; nra. }
      split. { rewrite !weq_cons by lra.
               change (layer_density c (set_layer_height h' x)) with (layer_density c x).
               cbn [n_height set_layer_height]. fold q. rewrite Eh. rewrite weq_nil. ring. }
      split; reflexivity.
    + (* whole layer *)
      rewrite Rleb_true by lra. cbn [bind].
      rewrite (remove_one_mid g pre x post Hg). cbn [bind].
      destruct (IH (with_number (with_nodes g (pre ++ post)) (g_number_nodes g - 1))
                  (m - n_height x * q) (w0 + n_lwc x * n_height x) fuel) as
        (g' & m' & w' & post' & W & G & C & K & w & Ew & M).
      { lra. }
      { reflexivity. }
      { unfold counted in *. cbn [g_number_nodes with_nodes with_number g_nodes].
        rewrite Hc, Hg, !app_length. cbn [length]. lia. }
      { exact (Forall_inv_tail Hwt). }
      { cbn [length] in Hf. lia. }
      exists g', m', w', post'. split; [exact W|]. split; [exact G|]. split; [exact C|].
      split; [exact K|].
      exists (n_lwc x * n_height x + w). split; [rewrite Ew; ring|].
      destruct M as [(gone & y & y' & below & E1 & E2 & E3 & E4 & E5 & E6 & E7)|(E1 & E2 & E3 & E4)].
      * left. exists (x :: gone), y, y', below. rewrite E1. cbn [app].
        split; [reflexivity|]. split; [exact E2|]. split; [exact E3|]. split; [exact E4|].
        split. { rewrite weq_cons by lra. fold q. lra. }
        split; [|exact E7]. unfold column_water in *. rewrite total_cons, E6. reflexivity.
      * right. split; [exact E1|]. rewrite weq_cons by lra. fold q. split; [lra|].
        split; [|lra]. unfold column_water in *. rewrite total_cons, E3. reflexivity.
Qed.

Lemma same_clock_height_only g g1 h : same_clock g g1 ->
  g_new_snow_timestamp (set_fresh_snow_props_height g1 h) = g_new_snow_timestamp g /\
  g_old_snow_timestamp (set_fresh_snow_props_height g1 h) = g_old_snow_timestamp g.
Proof. intros (A & B & C); cbn; auto. Qed.

Lemma remove_melt_spec c g m fuel :
  0 < c_water_density c -> 0 <= m -> counted g -> weighty c (g_nodes g) ->
  (S (length (g_nodes g)) < fuel)%nat ->
  exists g' w m', remove_melt_weq fuel c g m 0 = Ok (g', w) /\ counted g' /\
    melted c m (g_nodes g) (g_nodes g') w m' /\
    g_new_snow_height g' = g_new_snow_height g - m' /\
    g_new_snow_timestamp g' = g_new_snow_timestamp g /\
    g_old_snow_timestamp g' = g_old_snow_timestamp g.
Proof.
  intros Hw Hm Hc Hwt Hf.
  destruct (melt_loop c [] Hw (g_nodes g) g m 0 fuel Hm eq_refl Hc Hwt Hf) as
    (g' & m' & w' & post' & W & G & C & K & w & Ew & M).
  cbn [length Z.of_nat] in W. cbn [app] in G.
  unfold remove_melt_weq. rewrite W. cbn [bind]. rewrite Z.eqb_refl.
  eexists; exists w', m'. split; [reflexivity|]. split; [exact C|].
  cbn [g_nodes set_fresh_snow_props_height g_new_snow_height].
  split. { rewrite G. replace w' with w by lra. exact M. }
  destruct K as (K1 & K2 & K3). rewrite K1. cbn. auto.
Qed.

Lemma remove_melt_negative c g m fuel : m <= 0 -> (0 < fuel)%nat ->
  remove_melt_weq fuel c g m 0 = Ok (set_fresh_snow_props_height g (g_new_snow_height g - m), 0).
Proof.
  intros Hm Hf. unfold remove_melt_weq. destruct fuel as [|fuel]; [lia|].
  cbn [while_loop melt_cond bind]. rewrite Rltb_false by lra. cbn [andb bind].
  rewrite Z.eqb_refl. reflexivity.
Qed.

(** ** Depths *)
Lemma for_heights g l : forall pre (d : R),
  g_nodes g = pre ++ l -> forall k, (k <= length l)%nat ->
  for_loop k (Z.of_nat (length pre)) (fun i d => hi <- get_node_height g i ;; Ok (d + hi)) d
  = Ok (d + column_height (firstn k l)).
Proof.
  induction l as [|x l IH]; intros pre d E k Hk.
  - cbn in Hk. destruct k; [|lia]. cbn. unfold column_height. cbn. f_equal; lra.
  - destruct k as [|k]; [cbn; unfold column_height; cbn; f_equal; lra|].
    cbn [for_loop]. unfold get_node_height at 1. rewrite (get_node_mid g pre x l E). cbn [bind].
    specialize (IH (pre ++ [x])). rewrite <- app_assoc in IH.
    rewrite app_length in IH. cbn [length] in IH, Hk.
    replace (Z.of_nat (length pre) + 1)%Z with (Z.of_nat (length pre + 1)) by lia.
    rewrite (IH (d + n_height x) E k) by lia. cbn [firstn]. unfold column_height.
    rewrite total_cons. f_equal. lra.
Qed.

Lemma get_node_depth_spec g pre x post : g_nodes g = pre ++ x :: post ->
  get_node_depth g (Z.of_nat (length pre)) = Ok (column_height pre + n_height x / 2).
Proof.
  intros H. unfold get_node_depth. unfold get_node_height at 1.
  rewrite (get_node_mid g pre x post H). cbn [bind].
  destruct (Z.eqb_spec (Z.of_nat (length pre)) 0) as [E|E].
  - assert (pre = []) as -> by (destruct pre; [reflexivity | cbn in E; lia]).
    unfold column_height. rewrite total_nil. f_equal; lra.
  - unfold for_range. rewrite Z.sub_0_r, Nat2Z.id.
    rewrite (for_heights g (pre ++ x :: post) [] _ H) by (rewrite app_length; lia).
    rewrite firstn_app, Nat.sub_diag, firstn_all, firstn_O, app_nil_r. f_equal; lra.
Qed.

(** mid-point depths of a list of heights below depth [acc] *)
Fixpoint midpoints (acc : R) (l : list R) : list R :=
  match l with [] => [] | h :: t => (acc + h / 2) :: midpoints (acc + h) t end.

Lemma map2_midpoints : forall t acc h,
  map2 (fun s x => s + 0.5 * x) (cumsum_from acc (removelast (h :: t))) t = midpoints (acc + h) t.
Proof.
  induction t as [|x t IH]; intros acc h; [reflexivity|].
  change (removelast (h :: x :: t)) with (h :: removelast (x :: t)).
  cbn [cumsum_from map2 midpoints]. f_equal; [lra|]. apply IH.
Qed.

Lemma get_depth_spec g : counted g -> g_nodes g <> [] ->
  get_depth g = Ok (midpoints 0 (map n_height (g_nodes g))).
Proof.
  intros Hc Hne. unfold get_depth. rewrite get_height_counted by exact Hc. cbn [bind].
  destruct (g_nodes g) as [|x t]; [congruence|]. cbn [map]. f_equal.
  unfold cumsum. rewrite map2_midpoints. cbn [midpoints]. f_equal. lra.
Qed.

Lemma midpoints_length l : forall acc, length (midpoints acc l) = length l.
Proof. induction l as [|h t IH]; intros acc; cbn; auto. Qed.

Lemma midpoints_nth pre x post : forall acc,
  nth_error (midpoints acc (map n_height (pre ++ x :: post))) (length pre)
  = Some (acc + column_height pre + n_height x / 2).
Proof.
  induction pre as [|a pre IH]; intros acc; cbn [app map midpoints length nth_error].
  - unfold column_height. rewrite total_nil. f_equal. lra.
  - rewrite IH. unfold column_height. rewrite total_cons. f_equal. lra.
Qed.

(** ** Snow heights *)
Lemma nsnow_split c s i : snow_over_ice c s i -> nsnow c (s ++ i) = length s.
Proof.
  intros [Hs Hi]. unfold nsnow. rewrite filter_app, app_length.
  assert (E1 : filter (snowb c) s = s).
  { clear Hi. induction Hs as [|n l Hn _ IH]; cbn; [reflexivity|].
    unfold snowb at 1. rewrite Rltb_true by exact Hn. now rewrite IH. }
  assert (E2 : filter (snowb c) i = []).
  { clear Hs. induction Hi as [|n l Hn _ IH]; cbn; [reflexivity|].
    unfold snowb at 1. unfold is_snow in Hn. rewrite Rltb_false by lra. exact IH. }
  rewrite E1, E2. cbn. lia.
Qed.

Lemma snow_getters c g s i : counted g -> g_nodes g = s ++ i -> snow_over_ice c s i ->
  get_number_snow_layers c g = Ok (Z.of_nat (length s)) /\
  get_snow_heights c g = Ok (map n_height s) /\
  get_total_snowheight c g = Ok (column_height s).
Proof.
  intros Hc Hg Hs.
  assert (N : nsnow c (g_nodes g) = length s) by (rewrite Hg; now apply nsnow_split).
  assert (F : firstn (length s) (g_nodes g) = s)
    by (rewrite Hg, firstn_app, Nat.sub_diag, firstn_all, firstn_O, app_nil_r; reflexivity).
  split; [|split].
  - rewrite get_number_snow_layers_counted by exact Hc. now rewrite N.
  - unfold get_snow_heights. rewrite get_number_snow_layers_counted by exact Hc. cbn [bind].
    unfold zrange. rewrite Z.sub_0_r, Nat2Z.id, map_res_prefix by apply nsnow_le.
    now rewrite N, F.
  - rewrite get_total_snowheight_counted by exact Hc. now rewrite N, F.
Qed.

Lemma get_ice_heights_spec c g : counted g ->
  get_ice_heights c g
  = Ok (map n_height (filter (fun n => negb (snowb c n)) (g_nodes g))).
Proof.
  intros Hc. unfold get_ice_heights. rewrite get_height_counted, get_density_counted by exact Hc.
  cbn [bind]. f_equal. induction (g_nodes g) as [|n l IH]; cbn; [reflexivity|].
  unfold snowb at 1.
  destruct (Rleb_spec (c_snow_ice_threshold c) (layer_density c n)) as [L|L].
  - rewrite Rltb_false by exact L. cbn. now rewrite IH.
  - rewrite Rltb_true by lra. cbn. exact IH.
Qed.

(** ** Density of a new dry layer *)
Lemma new_node_density c h rho t :
  0 < c_ice_density c -> 0 < c_air_density c -> 0 <= rho <= c_ice_density c ->
  c_air_density c <= c_ice_density c ->
  layer_density c (new_node c h rho t 0 None)
  = rho + (1 - rho / c_ice_density c) * (c_air_density c * c_air_density c / c_ice_density c).
Proof.
  intros Hi Ha Hr Hai. unfold layer_density, layer_air_porosity, new_node; cbn.
  set (ri := c_ice_density c) in *. set (ra := c_air_density c) in *.
  rewrite Rmax_right.
  - field. lra.
  - assert (Hq : 0 <= 1 - rho / ri).
    { assert (rho / ri <= 1); [|lra]. apply Rmult_le_reg_r with ri; [exact Hi|].
      unfold Rdiv. rewrite Rmult_assoc, Rinv_l by lra. lra. }
    assert (Hqa : 0 <= (1 - rho / ri) * ra) by (apply Rmult_le_pos; lra).
    assert ((rho - (1 - rho / ri) * ra) / ri <= 1); [|lra].
    apply Rmult_le_reg_r with ri; [exact Hi|]. unfold Rdiv at 1.
    rewrite Rmult_assoc, Rinv_l by lra. lra.
Qed.

Lemma new_node_density_bounds c h rho t :
  0 < c_ice_density c -> 0 < c_air_density c -> 0 <= rho <= c_ice_density c ->
  c_air_density c <= c_ice_density c ->
  let d := layer_density c (new_node c h rho t 0 None) in
  rho <= d <= rho + c_air_density c * c_air_density c / c_ice_density c /\
  (d = rho <-> rho = c_ice_density c).
Proof.
  intros Hi Ha Hr Hai d. unfold d. rewrite new_node_density by assumption.
  set (ri := c_ice_density c) in *. set (ra := c_air_density c) in *.
  assert (Hk : 0 < ra * ra / ri).
  { apply Rmult_lt_0_compat; [nra|now apply Rinv_0_lt_compat]. }
  assert (Hq : 0 <= rho / ri <= 1).
  { split.
    - apply Rmult_le_pos; [lra|]. apply Rlt_le, Rinv_0_lt_compat; lra.
    - apply Rmult_le_reg_r with ri; [exact Hi|]. unfold Rdiv. rewrite Rmult_assoc, Rinv_l by lra. lra. }
  split; [nra|]. split.
  - intros E. assert (E1 : (1 - rho / ri) * (ra * ra / ri) = 0) by lra.
    apply Rmult_integral in E1. destruct E1 as [E1|E1]; [|lra].
    assert (E2 : rho / ri * ri = 1 * ri) by (f_equal; lra).
    unfold Rdiv in E2. rewrite Rmult_assoc, Rinv_l in E2 by lra. lra.
  - intros ->. unfold Rdiv at 1. rewrite Rinv_r by lra. ring.
Qed.

(** ** add_fresh_snow *)
Lemma add_fresh_snow_nodes c g h rho t w dt :
  g_nodes (add_fresh_snow c g h rho t w dt) = new_node c h rho t w None :: g_nodes g.
Proof. unfold add_fresh_snow. destruct (Rltb h _); cbn; apply py_insert_0. Qed.
