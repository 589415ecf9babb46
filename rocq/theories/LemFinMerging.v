(** * The order of merging does not matter, and what merging does to the heat (C129) *)
From Verif Require Import ModelPy ModelConstants ModelNode ModelGrid Spec LemPy LemGridBase LemMerge LemLog LemFinNode.

(** merging at these positions, one after the other *)
Fixpoint merges (positions : list Z) (g : Grid) : res Grid :=
  match positions with [] => Ok g | i :: t => g1 <- merge_nodes g i ;; merges t g1 end.

(** the sum of the cold contents that the layers report *)
Definition column_cold (c : Consts) (l : list Node) : R := fold_right (fun n x => layer_cold_content c n + x) 0 l.

(** ** Groups of neighbours *)

(** [m] is the group [l] in one layer *)
Definition blend (l : list Node) (m : Node) : Prop :=
  l <> [] /\ n_height m = column_height l /\ n_ice m * n_height m = column_ice l /\
  n_lwc m * n_height m = column_water l /\ n_temperature m * n_height m = column_heat l /\
  Some (n_refreeze m) = hd_error (map n_refreeze l).

Inductive grouped : list Node -> list Node -> Prop :=
| grouped_nil : grouped [] []
| grouped_cons b l m l' : blend b m -> grouped l l' -> grouped (b ++ l) (m :: l').

Lemma height_app a b : column_height (a ++ b) = column_height a + column_height b.
Proof. unfold column_height, total. induction a as [|x a IH]; cbn in *; [ring|]. rewrite IH. ring. Qed.
Lemma ice_app a b : column_ice (a ++ b) = column_ice a + column_ice b.
Proof. unfold column_ice, total. induction a as [|x a IH]; cbn in *; [ring|]. rewrite IH. ring. Qed.
Lemma water_app a b : column_water (a ++ b) = column_water a + column_water b.
Proof. unfold column_water, total. induction a as [|x a IH]; cbn in *; [ring|]. rewrite IH. ring. Qed.
Lemma heat_app a b : column_heat (a ++ b) = column_heat a + column_heat b.
Proof. unfold column_heat, total. induction a as [|x a IH]; cbn in *; [ring|]. rewrite IH. ring. Qed.

Lemma height_positive l : positive_heights l -> l <> [] -> 0 < column_height l.
Proof.
  intros H N. destruct l as [|x l]; [congruence|]. unfold column_height, total. cbn.
  assert (0 <= column_height l).
  { apply Forall_inv_tail in H. clear N. induction H as [|y l Hy _ IH]; unfold column_height, total in *; cbn in *; lra. }
  apply Forall_inv in H. unfold column_height, total in *. lra.
Qed.

Lemma grouped_refl l : grouped l l.
Proof.
  induction l as [|x l IH]; [constructor|]. apply (grouped_cons [x] l x l); [|exact IH].
  unfold blend, column_height, column_ice, column_water, column_heat, total. cbn. repeat split; try discriminate; ring.
Qed.

Lemma blend_unique b m m' : positive_heights b -> blend b m -> blend b m' -> m = m'.
Proof.
  intros P (N & H1 & H2 & H3 & H4 & H5) (_ & K1 & K2 & K3 & K4 & K5).
  assert (Q := height_positive b P N).
  destruct m as [h t w i r], m' as [h' t' w' i' r']; cbn in *. subst h h'. rewrite <- K5 in H5. injection H5 as ->.
  assert (C : forall x y, x * column_height b = y * column_height b -> x = y) by (intros x y E; apply Rmult_eq_reg_r with (column_height b); lra).
  rewrite (C t t') by congruence. rewrite (C w w') by congruence. rewrite (C i i') by congruence. reflexivity.
Qed.

Lemma grouped_positive l l' : grouped l l' -> positive_heights l -> positive_heights l'.
Proof.
  induction 1 as [|b l m l' B G IH]; intros P; [constructor|]. apply Forall_app in P. destruct P as (P1 & P2).
  constructor; [|apply IH; exact P2]. destruct B as (N & -> & _). apply height_positive; assumption.
Qed.

(** merging two groups *)
Lemma grouped_merge pre x y post m : merger x y m -> forall l, positive_heights l ->
  grouped l (pre ++ x :: y :: post) -> grouped l (pre ++ m :: post).
Proof.
  intros M. induction pre as [|p pre IH]; intros l P G; cbn [app] in G |- *.
  - inversion G as [|b l1 x' l1' B G1]; subst. inversion G1 as [|b2 l2 y' l2' B2 G2]; subst.
    rewrite app_assoc. constructor; [|exact G2].
    destruct B as (N1 & A1 & A2 & A3 & A4 & A5), B2 as (N2 & B1 & B2 & B3 & B4 & B5), M as (M1 & M2 & M3 & M4 & M5).
    split; [intros E; apply app_eq_nil in E; tauto|].
    rewrite height_app, ice_app, water_app, heat_app. repeat split; try congruence.
    rewrite M5, A5. destruct b; [congruence|reflexivity].
  - inversion G as [|b l1 p' l1' B G1]; subst. constructor; [exact B|]. apply Forall_app in P. apply IH; [apply P|exact G1].
Qed.

(** the heights decide *)
Lemma prefix_unique b1 r1 : forall b2 r2, b1 ++ r1 = b2 ++ r2 -> positive_heights (b1 ++ r1) ->
  column_height b1 = column_height b2 -> b1 = b2 /\ r1 = r2.
Proof.
  induction b1 as [|x b1 IH]; intros b2 r2 E P H.
  - destruct b2 as [|y b2]; [auto|]. exfalso. cbn in E. subst r1. cbn [app] in P.
    assert (Q : positive_heights (y :: b2)) by (change (y :: b2 ++ r2) with ((y :: b2) ++ r2) in P; apply Forall_app in P; apply P).
    assert (K := height_positive _ Q ltac:(discriminate)). change (column_height []) with 0 in H. lra.
  - destruct b2 as [|y b2].
    + exfalso. assert (Q : positive_heights (x :: b1)) by (apply Forall_app in P; apply P).
      assert (K := height_positive _ Q ltac:(discriminate)). change (column_height []) with 0 in H. lra.
    + cbn in E. injection E as -> E. destruct (IH b2 r2 E (Forall_inv_tail P)) as (-> & ->); [|auto].
      unfold column_height, total in *. cbn in *. lra.
Qed.

Lemma grouped_unique l l1 : grouped l l1 -> forall l2, grouped l l2 -> positive_heights l ->
  map n_height l1 = map n_height l2 -> l1 = l2.
Proof.
  induction 1 as [|b l m l' B G IH]; intros l2 G2 P E.
  - destruct l2; [reflexivity|discriminate].
  - destruct l2 as [|m2 l2']; [discriminate|].
    remember (b ++ l) as whole eqn:E0. inversion G2 as [|b2 r2 m2' l2'' B2 G2' E1 E2]. subst m2' l2''. rewrite <- E1 in E0, P. rewrite E0 in P.
    cbn in E. injection E as Em E.
    destruct (prefix_unique b l b2 r2 (eq_sym E0) P) as (-> & ->).
    { destruct B as (_ & <- & _), B2 as (_ & <- & _). exact Em. }
    apply Forall_app in P. f_equal; [exact (blend_unique _ _ _ (proj1 P) B B2)|]. apply IH; [exact G2'|apply P|exact E].
Qed.

Lemma merges_grouped positions : forall g g', positive_heights (g_nodes g) -> Forall (fun i => 0 <= i)%Z positions ->
  merges positions g = Ok g' -> forall l, positive_heights l -> grouped l (g_nodes g) -> grouped l (g_nodes g') /\ same_clock g g' /\
    g_number_nodes g' = (g_number_nodes g - Z.of_nat (length positions))%Z /\
    (length (g_nodes g') + length positions = length (g_nodes g))%nat.
Proof.
  induction positions as [|i t IH]; intros g g' P F H l Pl G.
  - injection H as <-. split; [exact G|]. split; [repeat split|]. cbn. lia.
  - cbn [merges] in H. apply bind_ok in H. destruct H as (g1 & E & H).
    destruct (merge_nodes_inv g i g1 P E) as (N1 & K1 & [(pre & a & b & post & E1 & _ & E2)|[(X & _)|(X & _)]]).
    2,3: apply Forall_inv in F; lia.
    assert (G1 : grouped l (g_nodes g1)).
    { rewrite E2. eapply grouped_merge; [|exact Pl|rewrite <- E1; exact G]. apply merged_merger. rewrite E1 in P.
      apply Forall_app in P. destruct P as (_ & P). pose proof (Forall_inv P). pose proof (Forall_inv (Forall_inv_tail P)). cbn in *. lra. }
    destruct (IH g1 g' (grouped_positive _ _ G1 Pl) (Forall_inv_tail F) H l Pl G1) as (A & B & C & D).
    split; [exact A|]. split; [eapply same_clock_trans; eassumption|]. cbn [length]. rewrite E1 , E2 in *.
    rewrite !app_length in *. cbn [length] in *. lia.
Qed.

(** ** The theorems *)

(*@ C129 However the neighbouring layers of a column are merged, the layers that are left depend only on their heights: two runs of merges that leave the same heights leave the same column, with the same temperatures, ice, water and refreezing, the same count and the same clock. *)
Lemma merged_heights_decide_lem :
  forall (positions positions' : list Z) (g g1 g2 : Grid),
    positive_heights (g_nodes g) -> Forall (fun i => 0 <= i)%Z positions -> Forall (fun i => 0 <= i)%Z positions' ->
    merges positions g = Ok g1 -> merges positions' g = Ok g2 ->
    map n_height (g_nodes g1) = map n_height (g_nodes g2) ->
    g1 = g2.
Proof.
  intros ps ps' g g1 g2 P F F' H H' E.
  destruct (merges_grouped _ _ _ P F H _ P (grouped_refl _)) as (A & (A1 & A2 & A3) & A4 & A5).
  destruct (merges_grouped _ _ _ P F' H' _ P (grouped_refl _)) as (B & (B1 & B2 & B3) & B4 & B5).
  assert (K := grouped_unique _ _ A _ B P E). assert (L := f_equal (@length _) K).
  destruct g1, g2; cbn in *. f_equal; [exact K|lia|congruence|congruence|congruence].
Qed.

(*@ C129 Merging at two places commutes.  Merging layer j+1 with the layer below it and then layer i with the layer below it (i at most j) succeeds and gives the same column as merging at i first, after which the other pair has moved up to j; for i = j these are the two ways to merge three neighbours into one. *)
Lemma merging_commutes_lem :
  forall (g : Grid) (i j : Z),
    positive_heights (g_nodes g) -> (0 <= i <= j)%Z -> (j + 2 < Z.of_nat (length (g_nodes g)))%Z ->
    exists g', merges [(j + 1)%Z; i] g = Ok g' /\ merges [i; j] g = Ok g' /\
      (length (g_nodes g') + 2 = length (g_nodes g))%nat.
Proof.
  intros g i j P (I0 & IJ) J.
  assert (S1 : exists pre a post, g_nodes g = pre ++ a :: post /\ length pre = Z.to_nat i) by (apply split_at; lia).
  destruct S1 as (pre & a & post & E & L).
  assert (LP := f_equal (@length _) E). rewrite app_length in LP. cbn [length] in LP.
  destruct post as [|b post]; [cbn [length] in LP; lia|]. cbn [length] in LP.
  assert (PP := P). rewrite E in PP. apply Forall_app in PP. destruct PP as (_ & PP).
  assert (Pa := Forall_inv PP). assert (Pb := Forall_inv (Forall_inv_tail PP)).
  assert (Pp := Forall_inv_tail (Forall_inv_tail PP)). cbn in Pa, Pb.
  replace i with (Z.of_nat (length pre)) by lia.
  destruct (Z.eq_dec i j) as [->|NE].
  - destruct post as [|d post]; [cbn [length] in LP; lia|]. assert (Pd := Forall_inv Pp). cbn in Pd.
    assert (E' : g_nodes g = (pre ++ [a]) ++ b :: d :: post) by (rewrite E, <- app_assoc; reflexivity).
    replace (j + 1)%Z with (Z.of_nat (length (pre ++ [a]))) by (rewrite app_length; cbn [length]; lia).
    replace j with (Z.of_nat (length pre)) by lia. cbn [merges].
    rewrite (merge_nodes_mid g _ _ _ _ E') by lra. cbn [bind].
    rewrite (merge_nodes_mid g _ _ _ _ E) by lra. cbn [bind].
    rewrite (merge_nodes_mid _ pre a (merged b d) post); [|cbn; rewrite <- app_assoc; reflexivity|cbn; lra]. cbn [bind].
    rewrite (merge_nodes_mid _ pre (merged a b) d post); [|reflexivity|cbn; lra]. cbn [bind].
    eexists. split; [reflexivity|]. split.
    + assert (M : merged (merged a b) d = merged a (merged b d)).
      { unfold merged. cbn. f_equal; [ring|field; lra|field; lra|field; lra]. }
      rewrite M. reflexivity.
    + cbn. rewrite E, !app_length. cbn. lia.
  - assert (S2 : exists mid d rest, post = mid ++ d :: rest /\ length mid = Z.to_nat (j - i - 1)) by (apply split_at; lia).
    destruct S2 as (mid & d & rest & -> & Lm). rewrite app_length in LP. cbn [length] in LP.
    destruct rest as [|e rest]; [cbn [length] in LP; lia|].
    apply Forall_app in Pp. destruct Pp as (_ & Pp). assert (Pd := Forall_inv Pp). assert (Pe := Forall_inv (Forall_inv_tail Pp)). cbn in Pd, Pe.
    assert (E' : g_nodes g = (pre ++ a :: b :: mid) ++ d :: e :: rest) by (rewrite E, <- app_assoc; reflexivity).
    replace (j + 1)%Z with (Z.of_nat (length (pre ++ a :: b :: mid))) by (rewrite app_length; cbn [length]; lia).
    replace j with (Z.of_nat (length (pre ++ merged a b :: mid))) by (rewrite app_length; cbn [length]; lia). cbn [merges].
    rewrite (merge_nodes_mid g _ _ _ _ E') by lra. cbn [bind].
    rewrite (merge_nodes_mid g _ _ _ _ E) by lra. cbn [bind].
    rewrite (merge_nodes_mid _ pre a b (mid ++ merged d e :: rest)); [|cbn; rewrite <- app_assoc; reflexivity|cbn; lra]. cbn [bind].
    rewrite (merge_nodes_mid _ (pre ++ merged a b :: mid) d e rest); [|cbn; rewrite <- app_assoc; reflexivity|cbn; lra]. cbn [bind].
    eexists. split; [reflexivity|]. split; [cbn; rewrite <- app_assoc; reflexivity|].
    cbn. rewrite E, !app_length. cbn. rewrite !app_length. cbn. lia.
Qed.

Lemma cold_app c a b : column_cold c (a ++ b) = column_cold c a + column_cold c b.
Proof. unfold column_cold. induction a as [|x a IH]; cbn in *; [ring|]. rewrite IH. ring. Qed.

Definition fractions (n : Node) : Prop := 0 <= n_ice n /\ 0 <= n_lwc n /\ n_ice n + n_lwc n <= 1.

Lemma merged_fractions a b : 0 < n_height a -> 0 < n_height b -> fractions a -> fractions b -> fractions (merged a b).
Proof.
  intros A B (F1 & F2 & F3) (G1 & G2 & G3). unfold fractions, merged. cbn.
  assert (I : 0 < / (n_height a + n_height b)) by (apply Rinv_0_lt_compat; lra).
  assert (X : (n_height a + n_height b) * / (n_height a + n_height b) = 1) by (field; lra).
  unfold Rdiv. repeat split.
  - apply Rmult_le_pos; [|lra]. apply Rplus_le_le_0_compat; apply Rmult_le_pos; lra.
  - apply Rmult_le_pos; [|lra]. apply Rplus_le_le_0_compat; apply Rmult_le_pos; lra.
  - rewrite <- Rmult_plus_distr_r, <- X. apply Rmult_le_compat_r; [lra|]. nra.
Qed.

(*@ C129 What merging does to the cold content that the column reports.  For two neighbours whose ice and water fill at most the layer, the merged layer reports the sum of both plus the product of the heights over their sum times: the difference of the heat capacities per volume times the difference of the temperatures, less the difference of the specific heats times the difference of the densities times the distance of the mean temperature from the melting point.  All other layers report what they did. *)
Lemma merging_cold_content_lem :
  forall (c : Consts) (g : Grid) (above : list Node) (a b : Node) (below : list Node),
    g_nodes g = above ++ a :: b :: below -> 0 < n_height a -> 0 < n_height b ->
    0 <= n_ice a -> 0 <= n_lwc a -> n_ice a + n_lwc a <= 1 ->
    0 <= n_ice b -> 0 <= n_lwc b -> n_ice b + n_lwc b <= 1 ->
    exists g' m, merge_nodes g (Z.of_nat (length above)) = Ok g' /\ g_nodes g' = above ++ m :: below /\
      column_cold c (g_nodes g') = column_cold c (g_nodes g) +
        n_height a * n_height b / (n_height a + n_height b) *
        ((layer_specific_heat c a * layer_density c a - layer_specific_heat c b * layer_density c b) * (n_temperature a - n_temperature b) -
         (layer_specific_heat c a - layer_specific_heat c b) * (layer_density c a - layer_density c b) *
         (c_zero_temperature c - (n_temperature a * n_height a + n_temperature b * n_height b) / (n_height a + n_height b))).
Proof.
  intros c g above a b below E A B A1 A2 A3 B1 B2 B3.
  assert (FA : fractions a) by (repeat split; assumption). assert (FB : fractions b) by (repeat split; assumption).
  destruct (merged_fractions a b A B FA FB) as (M1 & M2 & M3).
  eexists. exists (merged a b). split; [apply (merge_nodes_mid g _ _ _ _ E); lra|]. split; [reflexivity|].
  cbn [g_nodes with_nodes with_number]. rewrite E, !cold_app.
  change (column_cold c (merged a b :: below)) with (layer_cold_content c (merged a b) + column_cold c below).
  change (column_cold c (a :: b :: below)) with (layer_cold_content c a + (layer_cold_content c b + column_cold c below)).
  unfold layer_cold_content, layer_specific_heat, layer_density.
  rewrite (full_air a A1 A2 A3), (full_air b B1 B2 B3), (full_air _ M1 M2 M3).
  unfold merged. cbn [n_height n_temperature n_lwc n_ice]. field. lra.
Qed.

(*@ C129 So merging two dry layers of the same temperature below the melting point but of different ice fraction always loses cold content, although the layers have the same temperature and no ice is lost: the specific heat of a layer is weighted by volume and multiplied by the density once more. *)
Lemma merging_loses_cold_lem :
  forall (c : Consts) (g g' : Grid) (above : list Node) (a b : Node) (below : list Node),
    c_spec_heat_air c < c_spec_heat_ice c -> c_air_density c < c_ice_density c ->
    g_nodes g = above ++ a :: b :: below -> 0 < n_height a -> 0 < n_height b ->
    n_lwc a = 0 -> n_lwc b = 0 -> 0 <= n_ice a <= 1 -> 0 <= n_ice b <= 1 -> n_ice a <> n_ice b ->
    n_temperature a = n_temperature b -> n_temperature a < c_zero_temperature c ->
    merge_nodes g (Z.of_nat (length above)) = Ok g' ->
    column_cold c (g_nodes g') < column_cold c (g_nodes g) /\
    column_ice (g_nodes g') = column_ice (g_nodes g) /\
    (exists m, g_nodes g' = above ++ m :: below /\ n_temperature m = n_temperature a).
Proof.
  intros c g g' above a b below S1 S2 E A B W1 W2 I1 I2 NE T TM H.
  destruct (merging_cold_content_lem c g above a b below E A B) as (g1 & m & H1 & E1 & C); try lra.
  rewrite H1 in H. injection H as ->. split; [|split].
  - rewrite C. unfold layer_specific_heat, layer_density. rewrite (full_air a), (full_air b) by lra.
    rewrite W1, W2, T in *.
    assert (K : 0 < n_height a * n_height b / (n_height a + n_height b)) by (apply Rdiv_lt_0_compat; [apply Rmult_lt_0_compat; assumption|lra]).
    assert (X : 0 < (n_ice a - n_ice b) * (n_ice a - n_ice b)).
    { destruct (Rtotal_order (n_ice a) (n_ice b)) as [Q|[Q|Q]]; [nra|congruence|nra]. }
    replace ((n_temperature b * n_height a + n_temperature b * n_height b) / (n_height a + n_height b)) with (n_temperature b) by (field; lra).
    assert (Y : 0 < (n_ice a - n_ice b) * (n_ice a - n_ice b) * ((c_spec_heat_ice c - c_spec_heat_air c) * (c_ice_density c - c_air_density c) * (c_zero_temperature c - n_temperature b))).
    { apply Rmult_lt_0_compat; [exact X|]. repeat apply Rmult_lt_0_compat; lra. }
    assert (Z := Rmult_lt_0_compat _ _ K Y).
    match goal with |- _ + ?u * ?v < _ => replace v with (- ((n_ice a - n_ice b) * (n_ice a - n_ice b) * ((c_spec_heat_ice c - c_spec_heat_air c) * (c_ice_density c - c_air_density c) * (c_zero_temperature c - n_temperature b)))) by ring end.
    lra.
  - rewrite (merge_nodes_mid g _ _ _ _ E) in H1 by lra. injection H1 as <-. cbn [g_nodes with_nodes with_number].
    rewrite E, !ice_app. unfold column_ice, total, merged. cbn. field. lra.
  - rewrite (merge_nodes_mid g _ _ _ _ E) in H1 by lra. injection H1 as <-. cbn [g_nodes with_nodes with_number].
    exists (merged a b). split; [reflexivity|]. unfold merged. cbn. rewrite T. field. lra.
Qed.

(*@ C129 Merging does not conserve the reported cold content, with the delivered constants: new snow on firn, both five degrees below the melting point. *)
Lemma merging_conserves_cold_refuted_lem :
  exists (g g' : Grid),
    positive_heights (g_nodes g) /\ merge_nodes g 0 = Ok g' /\
    column_cold default_constants (g_nodes g') < column_cold default_constants (g_nodes g).
Proof.
  set (a := mkNode (1/10) (27316/100 - 5) 0 (1/4) 0). set (b := mkNode (1/10) (27316/100 - 5) 0 (6/10) 0).
  set (g := mkGrid [a; b] 2 0 0 0). exists g, (with_number (with_nodes g [merged a b]) (g_number_nodes g - 1)).
  assert (H : merge_nodes g 0 = Ok (with_number (with_nodes g [merged a b]) (g_number_nodes g - 1))).
  { apply (merge_nodes_mid g [] a b []); [reflexivity|]. unfold a, b. cbn. lra. }
  split; [repeat constructor; unfold a, b; cbn; lra|]. split; [exact H|].
  apply (merging_loses_cold_lem default_constants g _ [] a b []); [cbn; lra|cbn; lra|reflexivity| | | | | | | | | |exact H]; unfold a, b; cbn; lra.
Qed.

(*@ex C129 Both orders of merging three layers succeed and satisfy the assumptions. *)
Lemma merging_example_lem :
  exists (g g1 g2 : Grid),
    positive_heights (g_nodes g) /\ length (g_nodes g) = 3%nat /\ merges [1; 0]%Z g = Ok g1 /\ merges [0; 0]%Z g = Ok g2 /\
    map n_height (g_nodes g1) = map n_height (g_nodes g2).
Proof.
  set (n := fun h t => mkNode h t 0 (1/2) 0). set (g := mkGrid [n 1 260; n 2 270; n 3 265] 3 0 0 0).
  assert (P : positive_heights (g_nodes g)) by (repeat constructor; unfold n; cbn; lra).
  destruct (merging_commutes_lem g 0 0 P) as (g' & A & B & _); [lia|cbn; lia|].
  exists g, g', g'. repeat split; try assumption; reflexivity.
Qed.
