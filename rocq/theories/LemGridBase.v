(** * Basic lemmas about grids: totals, profiles, single-node access *)
From Verif Require Import ModelPy ModelConstants ModelNode ModelGrid Spec LemPy.

(** ** Totals *)
Lemma total_nil f : total f [] = 0.
Proof. reflexivity. Qed.
Lemma total_cons f n l : total f (n :: l) = f n + total f l.
Proof. reflexivity. Qed.
Lemma total_app f l1 l2 : total f (l1 ++ l2) = total f l1 + total f l2.
Proof.
  induction l1 as [|n l IH]; cbn [app]; [rewrite total_nil; ring|].
  rewrite !total_cons, IH. ring.
Qed.
Lemma total_ext f g l : Forall (fun n => f n = g n) l -> total f l = total g l.
Proof. induction 1 as [|n l H _ IH]; [reflexivity|]. rewrite !total_cons. now rewrite H, IH. Qed.
Lemma total_nonneg f l : Forall (fun n => 0 <= f n) l -> 0 <= total f l.
Proof. induction 1 as [|n l H _ IH]; [rewrite total_nil; lra|]. rewrite total_cons. lra. Qed.
Lemma total_sum_list f l : total f l = sum_list (map f l).
Proof.
  induction l as [|n l IH]; cbn [map].
  - rewrite sum_list_fold; reflexivity.
  - rewrite sum_list_cons, <- IH. reflexivity.
Qed.

Lemma conserved_refl l : conserved l l.
Proof. constructor; reflexivity. Qed.
Lemma conserved_trans l1 l2 l3 : conserved l1 l2 -> conserved l2 l3 -> conserved l1 l3.
Proof. intros [] []; constructor; congruence. Qed.
Lemma conserved_app_l pre l l' : conserved l l' -> conserved (pre ++ l) (pre ++ l').
Proof.
  intros [H1 H2 H3 H4]; constructor; unfold column_height, column_ice, column_water, column_heat in *;
    rewrite !total_app; lra.
Qed.
Lemma conserved_app_r post l l' : conserved l l' -> conserved (l ++ post) (l' ++ post).
Proof.
  intros [H1 H2 H3 H4]; constructor; unfold column_height, column_ice, column_water, column_heat in *;
    rewrite !total_app; lra.
Qed.
Lemma conserved_cons a l l' : conserved l l' -> conserved (a :: l) (a :: l').
Proof. exact (conserved_app_l [a] l l'). Qed.

Lemma same_clock_refl g : same_clock g g.
Proof. repeat split. Qed.
Lemma same_clock_trans g1 g2 g3 : same_clock g1 g2 -> same_clock g2 g3 -> same_clock g1 g3.
Proof. intros (a & b & d) (a' & b' & d'); repeat split; congruence. Qed.
Lemma same_clock_nodes g l : same_clock g (with_nodes g l).
Proof. repeat split. Qed.
Lemma same_clock_number g k : same_clock g (with_number g k).
Proof. repeat split. Qed.
#[export] Hint Resolve same_clock_refl same_clock_nodes same_clock_number conserved_refl : cosipy.

Lemma with_nodes_nodes g l l' : with_nodes (with_nodes g l) l' = with_nodes g l'.
Proof. reflexivity. Qed.
Lemma with_nodes_same g : with_nodes g (g_nodes g) = g.
Proof. destruct g; reflexivity. Qed.

(** ** Access to a node in the middle *)
Lemma get_node_mid g pre x post :
  g_nodes g = pre ++ x :: post -> get_node g (Z.of_nat (length pre)) = Ok x.
Proof. intros H; unfold get_node; rewrite H; apply py_get_mid. Qed.

Lemma get_node_mid1 g pre x y post :
  g_nodes g = pre ++ x :: y :: post -> get_node g (Z.of_nat (length pre) + 1) = Ok y.
Proof.
  intros H. replace (Z.of_nat (length pre) + 1)%Z with (Z.of_nat (length (pre ++ [x]))).
  - apply (get_node_mid g (pre ++ [x]) y post). rewrite H, <- app_assoc. reflexivity.
  - rewrite app_length; cbn; lia.
Qed.

Lemma upd_node_mid g pre x post f :
  g_nodes g = pre ++ x :: post ->
  upd_node g (Z.of_nat (length pre)) f = Ok (with_nodes g (pre ++ f x :: post)).
Proof. intros H; unfold upd_node; rewrite H, py_update_mid; reflexivity. Qed.

Lemma get_node_inv g i x : get_node g i = Ok x ->
  exists pre post, g_nodes g = pre ++ x :: post /\
    (i = Z.of_nat (length pre) \/ i = Z.of_nat (length pre) - Z.of_nat (length (g_nodes g)))%Z.
Proof. apply py_get_inv. Qed.

Lemma get_node_pos_inv g i x : (0 <= i)%Z -> get_node g i = Ok x ->
  exists pre post, g_nodes g = pre ++ x :: post /\ i = Z.of_nat (length pre).
Proof. intros Hi H; now apply py_get_pos_inv. Qed.

(** the node with all four state variables replaced, grid.py:519-540 *)
Definition updated (n : Node) (h t f w : R) : Node := mkNode h t w f (n_refreeze n).

Lemma update_node_mid g pre x post h t f w :
  g_nodes g = pre ++ x :: post ->
  update_node g (Z.of_nat (length pre)) h t f w
  = Ok (with_nodes g (pre ++ updated x h t f w :: post)).
Proof.
  intros H; unfold update_node, set_node_height, set_node_temperature, set_node_ice_fraction,
    set_node_lwc.
  rewrite (upd_node_mid g pre x post _ H); cbn [bind].
  erewrite upd_node_mid by reflexivity; cbn [bind].
  erewrite upd_node_mid by reflexivity; cbn [bind].
  erewrite upd_node_mid by reflexivity.
  reflexivity.
Qed.

(** same, when the index is given modulo wrap-around *)
Lemma py_index_mid {A} (pre post : list A) (x : A) (i : Z) :
  (i = Z.of_nat (length pre) \/
   i = Z.of_nat (length pre) - Z.of_nat (length (pre ++ x :: post)))%Z ->
  py_index (length (pre ++ x :: post)) i = Some (length pre).
Proof.
  intros [->| ->].
  - apply py_index_nat. rewrite app_length; cbn; lia.
  - replace (Z.of_nat (length pre) - Z.of_nat (length (pre ++ x :: post)))%Z
      with (- Z.of_nat (length (pre ++ x :: post) - length pre))%Z.
    + rewrite py_index_neg; [f_equal|]; rewrite app_length; cbn; lia.
    + rewrite app_length; cbn; lia.
Qed.

Definition at_index (i : Z) (k n : nat) : Prop :=
  (i = Z.of_nat k \/ i = Z.of_nat k - Z.of_nat n)%Z.

Lemma get_node_at g pre x post i :
  g_nodes g = pre ++ x :: post -> at_index i (length pre) (length (g_nodes g)) ->
  get_node g i = Ok x.
Proof.
  intros H Hi. unfold get_node, py_get. rewrite H in *.
  rewrite py_index_mid by exact Hi.
  rewrite nth_error_app2 by lia. now rewrite Nat.sub_diag.
Qed.

Lemma upd_node_at g pre x post i f :
  g_nodes g = pre ++ x :: post -> at_index i (length pre) (length (g_nodes g)) ->
  upd_node g i f = Ok (with_nodes g (pre ++ f x :: post)).
Proof.
  intros H Hi. unfold upd_node, py_update. rewrite H in *.
  rewrite py_index_mid by exact Hi. now rewrite list_update_mid.
Qed.

Lemma update_node_at g pre x post i h t f w :
  g_nodes g = pre ++ x :: post -> at_index i (length pre) (length (g_nodes g)) ->
  update_node g i h t f w = Ok (with_nodes g (pre ++ updated x h t f w :: post)).
Proof.
  intros H Hi; unfold update_node, set_node_height, set_node_temperature, set_node_ice_fraction,
    set_node_lwc.
  assert (Hlen : forall y : Node, length (pre ++ y :: post) = length (g_nodes g))
    by (intros; rewrite H, !app_length; reflexivity).
  rewrite (upd_node_at g pre x post i _ H Hi); cbn [bind].
  erewrite upd_node_at; [| reflexivity | cbn [g_nodes with_nodes]; now rewrite Hlen]; cbn [bind].
  erewrite upd_node_at; [| reflexivity | cbn [g_nodes with_nodes]; now rewrite Hlen]; cbn [bind].
  erewrite upd_node_at; [| reflexivity | cbn [g_nodes with_nodes]; now rewrite Hlen].
  reflexivity.
Qed.

Lemma remove_one_at g pre x post i :
  g_nodes g = pre ++ x :: post -> at_index i (length pre) (length (g_nodes g)) ->
  remove_node g (Some [i]) =
  Ok (with_number (with_nodes g (pre ++ post)) (g_number_nodes g - 1)).
Proof.
  intros H Hi. unfold remove_node. 
  destruct (g_nodes g) as [|y t] eqn:E; [destruct pre; discriminate|].
  rewrite <- E in *.
  cbn [sort_desc fold_right insert_desc del_all].
  unfold py_del. rewrite H in *. rewrite py_index_mid by exact Hi.
  rewrite list_delete_mid. cbn [bind length]. reflexivity.
Qed.

Lemma remove_one_mid g pre x post :
  g_nodes g = pre ++ x :: post ->
  remove_node g (Some [Z.of_nat (length pre)]) =
  Ok (with_number (with_nodes g (pre ++ post)) (g_number_nodes g - 1)).
Proof. intros H. eapply remove_one_at; [exact H | left; reflexivity]. Qed.

(** ** Profiles *)
Lemma get_profile_counted {A} (f : Node -> res A) g :
  counted g -> get_profile f g = map_res f (g_nodes g).
Proof.
  intros H. unfold get_profile, zrange. rewrite H, Z.sub_0_r, Nat2Z.id.
  exact (map_res_zseq f [] (g_nodes g)).
Qed.

Lemma get_profile_map {A} (f : Node -> A) g :
  counted g -> get_profile (fun n => Ok (f n)) g = Ok (map f (g_nodes g)).
Proof. intros H. rewrite get_profile_counted by exact H. apply map_res_ok. reflexivity. Qed.

Lemma get_height_counted g : counted g -> get_height g = Ok (map n_height (g_nodes g)).
Proof. apply (get_profile_map n_height). Qed.
Lemma get_temperature_counted g :
  counted g -> get_temperature g = Ok (map n_temperature (g_nodes g)).
Proof. apply (get_profile_map n_temperature). Qed.
Lemma get_density_counted c g :
  counted g -> get_density c g = Ok (map (layer_density c) (g_nodes g)).
Proof. apply (get_profile_map (layer_density c)). Qed.

Lemma get_total_height_counted g :
  counted g -> get_total_height g = Ok (column_height (g_nodes g)).
Proof.
  intros H; unfold get_total_height; rewrite get_height_counted by exact H; cbn [bind].
  unfold column_height. now rewrite total_sum_list.
Qed.

Lemma nsnow_fold c ds k :
  fold_left (fun k d => if Rltb d (c_snow_ice_threshold c) then (k + 1)%Z else k) ds k
  = (k + Z.of_nat (length (filter (fun d => Rltb d (c_snow_ice_threshold c)) ds)))%Z.
Proof.
  revert k; induction ds as [|d ds IH]; intros k; cbn; [lia|].
  rewrite IH. destruct (Rltb d (c_snow_ice_threshold c)); cbn [length]; lia.
Qed.

Lemma filter_map_length {A B} (f : A -> B) (p : B -> bool) l :
  length (filter p (map f l)) = length (filter (fun x => p (f x)) l).
Proof. induction l as [|x l IH]; cbn; [reflexivity|]. destruct (p (f x)); cbn; auto. Qed.

Lemma get_number_snow_layers_counted c g :
  counted g -> get_number_snow_layers c g = Ok (Z.of_nat (nsnow c (g_nodes g))).
Proof.
  intros H; unfold get_number_snow_layers; rewrite get_density_counted by exact H; cbn [bind].
  rewrite nsnow_fold, filter_map_length. reflexivity.
Qed.

Lemma nsnow_le c l : (nsnow c l <= length l)%nat.
Proof.
  unfold nsnow; induction l as [|n l IH]; cbn; [lia|].
  destruct (snowb c n); cbn; lia.
Qed.

Lemma map_res_prefix g (k : nat) :
  (k <= length (g_nodes g))%nat ->
  map_res (fun i => get_node_height g i) (zseq 0 k)
  = Ok (map n_height (firstn k (g_nodes g))).
Proof.
  intros Hk.
  assert (H : forall pre l, g_nodes g = pre ++ l -> forall k, (k <= length l)%nat ->
    map_res (fun i => get_node_height g i) (zseq (Z.of_nat (length pre)) k)
    = Ok (map n_height (firstn k l))).
  { clear k Hk. intros pre l; revert pre; induction l as [|x l IH]; intros pre E k Hk.
    - cbn in Hk. destruct k; [reflexivity | lia].
    - destruct k as [|k]; [reflexivity|].
      cbn [zseq map_res firstn map].
      unfold get_node_height at 1. rewrite (get_node_mid g pre x l E). cbn [bind].
      specialize (IH (pre ++ [x])). rewrite <- app_assoc in IH. specialize (IH E k).
      rewrite app_length in IH; cbn [length] in IH, Hk.
      replace (Z.of_nat (length pre) + 1)%Z with (Z.of_nat (length pre + 1)) by lia.
      rewrite IH by lia. reflexivity. }
  exact (H [] (g_nodes g) eq_refl k Hk).
Qed.

Lemma get_total_snowheight_counted c g :
  counted g ->
  get_total_snowheight c g
  = Ok (column_height (firstn (nsnow c (g_nodes g)) (g_nodes g))).
Proof.
  intros H; unfold get_total_snowheight, get_snow_heights.
  rewrite get_number_snow_layers_counted by exact H; cbn [bind].
  unfold zrange. rewrite Z.sub_0_r, Nat2Z.id, map_res_prefix by apply nsnow_le.
  cbn [bind]. unfold column_height. now rewrite total_sum_list.
Qed.

(** ** positivity *)
Lemma positive_app l1 l2 : positive_heights (l1 ++ l2) <-> positive_heights l1 /\ positive_heights l2.
Proof. apply Forall_app. Qed.

Lemma column_height_nonneg l : positive_heights l -> 0 <= column_height l.
Proof.
  intros H; apply total_nonneg. eapply Forall_impl; [|exact H].
  intros n Hn; cbn in Hn; lra.
Qed.

(** the shipped constants are meaningful *)
Lemma default_ok : constants_ok default_constants.
Proof. constructor; cbn; lra. Qed.
