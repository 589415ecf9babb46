(** * merge_nodes *)
From Verif Require Import ModelPy ModelConstants ModelNode ModelGrid Spec LemPy LemGridBase.

(** the node produced by [merge_nodes] *)
Definition merged (a b : Node) : Node :=
  let h := n_height a + n_height b in
  mkNode h
    (n_height a / h * n_temperature a + n_height b / h * n_temperature b)
    ((n_lwc a * n_height a + n_lwc b * n_height b) / h)
    ((n_ice a * n_height a + n_ice b * n_height b) / h)
    (n_refreeze a).

Lemma merged_merger a b : n_height a + n_height b <> 0 -> merger a b (merged a b).
Proof. intros H; unfold merger, merged; cbn. repeat split; try field; assumption. Qed.

Lemma merger_unique a b m m' : n_height a + n_height b <> 0 ->
  merger a b m -> merger a b m' -> m = m'.
Proof.
  intros H (h1 & i1 & w1 & t1 & r1) (h2 & i2 & w2 & t2 & r2).
  destruct m as [mh mt mw mi mr], m' as [nh nt nw ni nr]; cbn in *.
  subst mh nh.
  assert (forall x y, x * (n_height a + n_height b) = y * (n_height a + n_height b) -> x = y)
    as C by (intros x y E; apply Rmult_eq_reg_r in E; assumption).
  f_equal; try apply C; congruence.
Qed.

Lemma merger_conserved a b m : merger a b m -> conserved [a; b] [m].
Proof.
  intros (h & i & w & t & _).
  constructor; unfold column_height, column_ice, column_water, column_heat; cbn; lra.
Qed.

(** height weighted mean lies between *)
Lemma wmean_between x y a b m : 0 < a -> 0 < b ->
  m * (a + b) = x * a + y * b -> between m x y.
Proof.
  intros Ha Hb E; unfold between.
  destruct (Rle_dec x y).
  - rewrite Rmin_left, Rmax_right by lra. split; nra.
  - rewrite Rmin_right, Rmax_left by lra. split; nra.
Qed.

Lemma merger_between a b m : 0 < n_height a -> 0 < n_height b -> merger a b m ->
  between (n_temperature m) (n_temperature a) (n_temperature b) /\
  between (n_ice m) (n_ice a) (n_ice b) /\ between (n_lwc m) (n_lwc a) (n_lwc b).
Proof.
  intros Ha Hb (h & i & w & t & _). rewrite h in i, w, t.
  split; [|split]; apply (wmean_between _ _ (n_height a) (n_height b)); assumption.
Qed.

Lemma merger_ok a b m : 0 < n_height a /\ 0 < n_ice a -> 0 < n_height b /\ 0 < n_ice b ->
  merger a b m -> 0 < n_height m /\ 0 < n_ice m.
Proof.
  intros [Ha Hia] [Hb Hib] H. destruct H as (h & i & w & t & _).
  split; [lra|]. rewrite h in i.
  assert (0 < n_ice a * n_height a) by (apply Rmult_lt_0_compat; assumption).
  assert (0 < n_ice b * n_height b) by (apply Rmult_lt_0_compat; assumption).
  destruct (Rle_lt_dec (n_ice m) 0); [|assumption]. nra.
Qed.

(** general position, including wrap-around of either index *)
Lemma merge_nodes_at g i prea a posta preb b postb :
  g_nodes g = prea ++ a :: posta -> at_index i (length prea) (length (g_nodes g)) ->
  g_nodes g = preb ++ b :: postb -> at_index (i + 1) (length preb) (length (g_nodes g)) ->
  n_height a + n_height b <> 0 ->
  merge_nodes g i =
  remove_node (with_nodes g (prea ++ merged a b :: posta)) (Some [(i + 1)%Z]).
Proof.
  intros Ha Hia Hb Hib Hh.
  assert (Ga := get_node_at _ _ _ _ _ Ha Hia). assert (Gb := get_node_at _ _ _ _ _ Hb Hib).
  unfold merge_nodes, get_node_height, get_node_lwc, get_node_ice_fraction, get_node_temperature.
  rewrite Ga, Gb. cbn [bind]. rewrite !fdiv_ok by exact Hh. cbn [bind].
  rewrite (update_node_at g prea a posta i _ _ _ _ Ha Hia). cbn [bind].
  reflexivity.
Qed.

Lemma merge_nodes_mid g pre a b post :
  g_nodes g = pre ++ a :: b :: post -> n_height a + n_height b <> 0 ->
  merge_nodes g (Z.of_nat (length pre)) =
  Ok (with_number (with_nodes g (pre ++ merged a b :: post)) (g_number_nodes g - 1)).
Proof.
  intros H Hh.
  assert (H' : g_nodes g = (pre ++ [a]) ++ b :: post) by (rewrite H, <- app_assoc; reflexivity).
  assert (Hl : (Z.of_nat (length pre) + 1)%Z = Z.of_nat (length (pre ++ [merged a b])))
    by (rewrite app_length; cbn; lia).
  rewrite (merge_nodes_at g _ pre a (b :: post) (pre ++ [a]) b post); auto.
  - rewrite Hl. erewrite remove_one_mid with (x := b) (post := post).
    + rewrite <- app_assoc. reflexivity.
    + cbn [g_nodes with_nodes]. rewrite <- app_assoc. reflexivity.
  - left; reflexivity.
  - left. rewrite app_length; cbn; lia.
Qed.

Lemma app_length_eq {A} (l1 l2 r1 r2 : list A) :
  l1 ++ r1 = l2 ++ r2 -> length l1 = length l2 -> l1 = l2 /\ r1 = r2.
Proof.
  revert l2; induction l1 as [|x l1 IH]; intros [|y l2] E L; cbn in *; try discriminate; auto.
  injection E as -> E. destruct (IH l2 E) as [-> ->]; [lia | auto].
Qed.

(** all successful merges of positive layers *)
Lemma merge_nodes_inv g i g' :
  positive_heights (g_nodes g) -> merge_nodes g i = Ok g' ->
  g_number_nodes g' = (g_number_nodes g - 1)%Z /\ same_clock g g' /\
  ((exists pre a b post,
      g_nodes g = pre ++ a :: b :: post /\ at_index i (length pre) (length (g_nodes g)) /\
      g_nodes g' = pre ++ merged a b :: post)
   \/ (i = (-1)%Z /\ exists a mid z, g_nodes g = a :: mid ++ [z] /\
       g_nodes g' = mid ++ [merged z a])
   \/ (i = (-1)%Z /\ exists a, g_nodes g = [a] /\ g_nodes g' = [])).
Proof.
  intros Hpos H.
  assert (H0 := H). unfold merge_nodes, get_node_height in H0.
  inv_bind H0. inv_bind E. inv_bind H0. inv_bind E1. clear H0 E E1.
  destruct (get_node_inv _ _ _ E0) as (prea & posta & Ha & Hia).
  destruct (get_node_inv _ _ _ E2) as (preb & postb & Hb & Hib).
  assert (Hh : 0 < n_height a0 /\ 0 < n_height a2).
  { unfold positive_heights in Hpos. rewrite Forall_forall in Hpos. split; apply Hpos.
    - rewrite Ha; apply in_elt.
    - rewrite Hb; apply in_elt. }
  rewrite (merge_nodes_at g i prea a0 posta preb a2 postb) in H; auto; [|lra].
  assert (La : length (g_nodes g) = (length prea + S (length posta))%nat)
    by (rewrite Ha, app_length; reflexivity).
  assert (Lb : length (g_nodes g) = (length preb + S (length postb))%nat)
    by (rewrite Hb, app_length; reflexivity).
  assert (Hcase : length preb = S (length prea) \/
                   (i = (-1)%Z /\ length preb = 0%nat /\ length posta = 0%nat)).
  { unfold at_index in *. destruct Hia as [Hia|Hia], Hib as [Hib|Hib]; try lia. }
  destruct Hcase as [Hc | (Hi & Hpb & Hpa)].
  - (* adjacent *)
    assert (exists b0 post0, posta = b0 :: post0) as (b0 & post0 & ->).
    { destruct posta as [|b0 post0]; [cbn in La; lia | eauto]. }
    assert (E : prea ++ a0 :: b0 :: post0 = preb ++ a2 :: postb) by congruence.
    change (prea ++ a0 :: b0 :: post0) with (prea ++ [a0] ++ b0 :: post0) in E.
    rewrite app_assoc in E.
    apply app_length_eq in E; [|rewrite app_length; cbn; lia].
    destruct E as [<- E]. injection E as -> ->.
    erewrite (remove_one_at _ (prea ++ [merged a0 a2]) a2 postb) in H.
    + injection H as <-. cbn. split; [reflexivity|]. split; [repeat split|].
      left. exists prea, a0, a2, postb. rewrite <- app_assoc. auto.
    + cbn. rewrite <- app_assoc. reflexivity.
    + unfold at_index in *. cbn [g_nodes with_nodes].
      rewrite !app_length in *. cbn [length] in *. lia.
  - (* wrap *)
    assert (preb = []) by (destruct preb; [reflexivity | cbn in Hpb; lia]).
    assert (posta = []) by (destruct posta; [reflexivity | cbn in Hpa; lia]).
    subst preb posta i. cbn [app] in Hb.
    destruct prea as [|x prea'].
    + (* single layer *)
      cbn [app] in Ha. rewrite Ha in Hb. injection Hb as <- <-.
      cbn [app] in H.
      erewrite (remove_one_at _ [] (merged a0 a0) []) in H; [| reflexivity | left; reflexivity].
      injection H as <-. cbn. split; [reflexivity|]. split; [repeat split|].
      right; right. split; [reflexivity|]. exists a0. auto.
    + cbn [app] in Ha. rewrite Ha in Hb. injection Hb as -> Hb.
      cbn [app] in H.
      erewrite (remove_one_at _ [] a2 (prea' ++ [merged a0 a2])) in H;
        [| reflexivity | left; reflexivity].
      injection H as <-. cbn. split; [reflexivity|]. split; [repeat split|].
      right; left. split; [reflexivity|]. exists a2, prea', a0. auto.
Qed.

(** every successful merge that leaves a layer conserves the column *)
Lemma merge_nodes_conserves g i g' :
  positive_heights (g_nodes g) -> merge_nodes g i = Ok g' -> g_nodes g' <> [] ->
  conserved (g_nodes g) (g_nodes g').
Proof.
  intros Hpos H Hne.
  destruct (merge_nodes_inv _ _ _ Hpos H) as (_ & _ & [P|[P|P]]).
  - destruct P as (pre & a & b & post & E & _ & ->). rewrite E in *.
    apply conserved_app_l.
    change (conserved ([a; b] ++ post) ([merged a b] ++ post)). apply conserved_app_r.
    apply merger_conserved, merged_merger.
    apply positive_app in Hpos. destruct Hpos as [_ Hp].
    assert (P1 := Forall_inv Hp). assert (P2 := Forall_inv (Forall_inv_tail Hp)).
    cbn in P1, P2. lra.
  - destruct P as (_ & a & mid & z & E & ->). rewrite E in *.
    assert (0 < n_height a /\ 0 < n_height z) as [Pa Pz].
    { inversion Hpos as [|? ? P1 P2]; subst. apply Forall_app in P2. destruct P2 as [_ P2].
      inversion P2; subst. auto. }
    assert (M := merged_merger z a ltac:(lra)). destruct M as (h & ii & w & t & _).
    constructor; unfold column_height, column_ice, column_water, column_heat;
      rewrite total_cons, !total_app; cbn [total fold_right];
      rewrite ?total_cons, ?total_nil; lra.
  - destruct P as (_ & a & E & E'). congruence.
Qed.

Lemma merge_nodes_counted g i g' :
  positive_heights (g_nodes g) -> counted g -> merge_nodes g i = Ok g' -> counted g'.
Proof.
  intros Hpos Hc H. unfold counted in *.
  destruct (merge_nodes_inv _ _ _ Hpos H) as (Hn & _ & P). rewrite Hn, Hc.
  destruct P as [P|[P|P]].
  - destruct P as (pre & a & b & post & E & _ & ->). rewrite E. rewrite !app_length; cbn [length]; lia.
  - destruct P as (_ & a & mid & z & E & ->). rewrite E. cbn [length]. rewrite !app_length; cbn [length]; lia.
  - destruct P as (_ & a & E & ->). rewrite E; reflexivity.
Qed.

Lemma merge_nodes_ok g i g' :
  column_ok (g_nodes g) -> merge_nodes g i = Ok g' -> column_ok (g_nodes g').
Proof.
  intros Hok H. assert (Hpos : positive_heights (g_nodes g)).
  { eapply Forall_impl; [|exact Hok]. intros n Hn; cbn in Hn; tauto. }
  destruct (merge_nodes_inv _ _ _ Hpos H) as (_ & _ & P).
  unfold column_ok in *.
  destruct P as [P|[P|P]].
  - destruct P as (pre & a & b & post & E & _ & ->). rewrite E in Hok.
    apply Forall_app in Hok; destruct Hok as [H1 H2].
    inversion H2 as [|? ? Pa H3]; subst. inversion H3 as [|? ? Pb H4]; subst.
    apply Forall_app; split; [exact H1|]. constructor; [|exact H4].
    apply (merger_ok a b); auto. apply merged_merger; lra.
  - destruct P as (_ & a & mid & z & E & ->). rewrite E in Hok.
    inversion Hok as [|? ? Pa H2]; subst. apply Forall_app in H2; destruct H2 as [Hm Hz].
    inversion Hz; subst.
    apply Forall_app; split; [exact Hm|]. constructor; [|constructor].
    apply (merger_ok z a); auto. apply merged_merger; lra.
  - destruct P as (_ & a & E & ->). constructor.
Qed.

(** merging out of range *)
Lemma merge_nodes_oob g i :
  (Z.of_nat (length (g_nodes g)) - 1 <= i \/ i < - Z.of_nat (length (g_nodes g)))%Z ->
  i <> (-1)%Z -> merge_nodes g i = Err IndexError.
Proof.
  intros H Hi. unfold merge_nodes, get_node_height.
  destruct (get_node g i) as [a|e] eqn:E; cbn [bind].
  - destruct (get_node_inv _ _ _ E) as (pre & post & E1 & E2).
    assert (L : length (g_nodes g) = (length pre + S (length post))%nat)
      by (rewrite E1, app_length; reflexivity).
    unfold get_node at 1. rewrite py_get_oob by lia. reflexivity.
  - unfold get_node in E. apply py_get_err in E. destruct E as [-> _]. reflexivity.
Qed.
