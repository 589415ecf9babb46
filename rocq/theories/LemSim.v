(** * The snow clock and the refreezing diagnostic do not influence the layers *)
From Verif Require Import ModelPy ModelConstants ModelNode ModelGrid ModelWater ModelHeat
  ModelDensification ModelRadiation ModelAlbedo ModelSurface ModelInit ModelCore Spec LemPy
  LemGridBase.
From Coq Require Import FunctionalExtensionality.

Definition res_rel {A B : Type} (P : A -> B -> Prop) (m : res A) (m' : res B) : Prop :=
  match m, m' with
  | Ok a, Ok b => P a b
  | Err e, Err e' => e = e'
  | _, _ => False
  end.

Lemma res_refl {A} (m : res A) : res_rel eq m m.
Proof. destruct m; reflexivity. Qed.
Lemma res_eq {A} (m m' : res A) : m = m' -> res_rel eq m m'.
Proof. intros ->; apply res_refl. Qed.
Lemma eq_res {A} (m m' : res A) : res_rel eq m m' -> m = m'.
Proof. destruct m, m'; cbn; intros; subst; try contradiction; reflexivity. Qed.
Lemma bind_rel {A A' B B'} (P : A -> A' -> Prop) (Q : B -> B' -> Prop) m m' k k' :
  res_rel P m m' -> (forall a a', P a a' -> res_rel Q (k a) (k' a')) ->
  res_rel Q (bind m k) (bind m' k').
Proof. destruct m, m'; cbn; intros H K; try contradiction; [apply K; exact H|exact H]. Qed.
Lemma res_rel_mono {A B} (P Q : A -> B -> Prop) m m' :
  (forall a b, P a b -> Q a b) -> res_rel P m m' -> res_rel Q m m'.
Proof. destruct m, m'; cbn; auto. Qed.

Lemma for_rel {S S'} (P : S -> S' -> Prop) n i f f' s s' :
  (forall j t t', P t t' -> res_rel P (f j t) (f' j t')) -> P s s' ->
  res_rel P (for_loop n i f s) (for_loop n i f' s').
Proof.
  intros H. revert i s s'. induction n as [|n IH]; intros i s s' K; [exact K|].
  cbn. eapply bind_rel; [apply H; exact K|]. intros; apply IH; assumption.
Qed.
Lemma while_rel {S S'} (P : S -> S' -> Prop) fuel cond cond' f f' s s' :
  (forall t t', P t t' -> res_rel eq (cond t) (cond' t')) ->
  (forall t t', P t t' -> res_rel P (f t) (f' t')) -> P s s' ->
  res_rel P (while_loop fuel cond f s) (while_loop fuel cond' f' s').
Proof.
  intros Hc Hf. revert s s'. induction fuel as [|n IH]; intros s s' K; [reflexivity|].
  cbn. eapply bind_rel; [apply Hc; exact K|]. intros b b' <-. destruct b; [|exact K].
  eapply bind_rel; [apply Hf; exact K|]. intros; apply IH; assumption.
Qed.

Definition prod_rel {A A' B B'} (P : A -> A' -> Prop) (Q : B -> B' -> Prop) (x : A * B) (y : A' * B') : Prop :=
  P (fst x) (fst y) /\ Q (snd x) (snd y).

(** the same layers; the refreezing diagnostics are related by [Q] (anything or equality) *)
Definition nsim (Q : R -> R -> Prop) (n n' : Node) : Prop :=
  n_height n' = n_height n /\ n_temperature n' = n_temperature n /\ n_lwc n' = n_lwc n /\ n_ice n' = n_ice n /\
  Q (n_refreeze n) (n_refreeze n').
Definition gsim (Q : R -> R -> Prop) (g g' : Grid) : Prop :=
  Forall2 (nsim Q) (g_nodes g) (g_nodes g') /\ g_number_nodes g' = g_number_nodes g.

Lemma py_get_rel {A B} (P : A -> B -> Prop) l l' i : Forall2 P l l' -> res_rel P (py_get l i) (py_get l' i).
Proof.
  intros H. unfold py_get. rewrite (Forall2_len _ _ _ H). destruct (py_index (length l) i) as [k|]; [|reflexivity].
  clear i. revert k. induction H as [|x y l l' K H IH]; intros [|k]; cbn; [reflexivity|reflexivity|exact K|apply IH].
Qed.
Lemma py_update_rel {A} (P : A -> A -> Prop) l l' i f f' : (forall x y, P x y -> P (f x) (f' y)) ->
  Forall2 P l l' -> res_rel (Forall2 P) (py_update l i f) (py_update l' i f').
Proof.
  intros Hf H. unfold py_update. rewrite (Forall2_len _ _ _ H). destruct (py_index (length l) i) as [k|]; [|reflexivity].
  cbn. clear i. revert k. induction H as [|x y l l' K H IH]; intros [|k]; cbn; constructor; auto.
Qed.
Lemma py_del_rel {A} (P : A -> A -> Prop) l l' i : 
  Forall2 P l l' -> res_rel (Forall2 P) (py_del l i) (py_del l' i).
Proof.
  intros H. unfold py_del. rewrite (Forall2_len _ _ _ H). destruct (py_index (length l) i) as [k|]; [|reflexivity].
  cbn. clear i. revert k. induction H as [|x y l l' K H IH]; intros [|k]; cbn; [constructor|constructor|assumption|constructor; auto].
Qed.
Lemma Forall2_firstn {A} (P : A -> A -> Prop) l l' k : Forall2 P l l' -> Forall2 P (firstn k l) (firstn k l').
Proof. intros H; revert k; induction H; intros [|k]; cbn; constructor; auto. Qed.
Lemma Forall2_skipn {A} (P : A -> A -> Prop) l l' k : Forall2 P l l' -> Forall2 P (skipn k l) (skipn k l').
Proof. intros H; revert k; induction H; intros [|k]; cbn; auto. Qed.
Lemma py_insert_rel {A} (P : A -> A -> Prop) l l' i x x' : P x x' ->
  Forall2 P l l' -> Forall2 P (py_insert l i x) (py_insert l' i x').
Proof.
  intros Hx H. unfold py_insert. rewrite (Forall2_len _ _ _ H).
  apply Forall2_app; [apply Forall2_firstn; exact H|]. constructor; [exact Hx|apply Forall2_skipn; exact H].
Qed.

Section Sim.
Variable Q : R -> R -> Prop.
Hypothesis Qr : forall x, Q x x.
Notation nsim := (nsim Q).
Notation gsim := (gsim Q).

Lemma nsim_refl n : nsim n n.
Proof. repeat split; apply Qr. Qed.
Lemma gsim_refl g : gsim g g.
Proof. split; [apply Forall2_diag; apply nsim_refl|reflexivity]. Qed.

(** ** Primitives *)
Create HintDb sim.

Lemma get_node_sim g g' i : gsim g g' -> res_rel nsim (get_node g i) (get_node g' i).
Proof. intros (H & _). apply py_get_rel; exact H. Qed.
Lemma upd_node_sim g g' i f f' : (forall x y, nsim x y -> nsim (f x) (f' y)) -> gsim g g' ->
  res_rel gsim (upd_node g i f) (upd_node g' i f').
Proof.
  intros Hf (H & N). unfold upd_node. eapply bind_rel; [apply py_update_rel; [exact Hf|exact H]|].
  intros l l' K. split; [exact K|exact N].
Qed.

Ltac nsolve := let H := fresh in intros ? ? H; destruct H as (? & ? & ? & ? & ?); repeat split; cbn; first [assumption|congruence|apply Qr].

Lemma set_height_sim g g' i h : gsim g g' -> res_rel gsim (set_node_height g i h) (set_node_height g' i h).
Proof. apply upd_node_sim. nsolve. Qed.
Lemma set_temp_sim g g' i h : gsim g g' -> res_rel gsim (set_node_temperature g i h) (set_node_temperature g' i h).
Proof. apply upd_node_sim. nsolve. Qed.
Lemma set_lwc_sim g g' i h : gsim g g' -> res_rel gsim (set_node_lwc g i h) (set_node_lwc g' i h).
Proof. apply upd_node_sim. nsolve. Qed.
Lemma set_ice_sim g g' i h : gsim g g' -> res_rel gsim (set_node_ice_fraction g i h) (set_node_ice_fraction g' i h).
Proof. apply upd_node_sim. nsolve. Qed.
Lemma set_refreeze_sim g g' i h : gsim g g' -> res_rel gsim (set_node_refreeze g i h) (set_node_refreeze g' i h).
Proof. apply upd_node_sim. nsolve. Qed.

Ltac field_sim := intros H; eapply bind_rel; [apply get_node_sim; exact H|];
  let K := fresh in intros ? ? K; destruct K as (? & ? & ? & ? & ?); cbn; congruence.
Lemma get_height_sim g g' i : gsim g g' -> res_rel eq (get_node_height g i) (get_node_height g' i).
Proof. field_sim. Qed.
Lemma get_temp_sim g g' i : gsim g g' -> res_rel eq (get_node_temperature g i) (get_node_temperature g' i).
Proof. field_sim. Qed.
Lemma get_lwc_sim g g' i : gsim g g' -> res_rel eq (get_node_lwc g i) (get_node_lwc g' i).
Proof. field_sim. Qed.
Lemma get_ice_sim g g' i : gsim g g' -> res_rel eq (get_node_ice_fraction g i) (get_node_ice_fraction g' i).
Proof. field_sim. Qed.

Lemma density_sim c n n' : nsim n n' -> layer_density c n' = layer_density c n.
Proof. intros (A & B & C & D & _). unfold layer_density, layer_air_porosity. rewrite C, D. reflexivity. Qed.
Lemma irreducible_sim n n' : nsim n n' -> layer_irreducible n' = layer_irreducible n.
Proof. intros (A & B & C & D & _). unfold layer_irreducible. rewrite D. reflexivity. Qed.
Lemma porosity_sim n n' : nsim n n' -> layer_porosity n' = layer_porosity n.
Proof. intros (A & B & C & D & _). unfold layer_porosity. rewrite C, D. reflexivity. Qed.
Lemma cold_sim c n n' : nsim n n' -> layer_cold_content c n' = layer_cold_content c n.
Proof.
  intros H. assert (E := density_sim c _ _ H). destruct H as (A & B & C & D & _).
  unfold layer_cold_content, layer_specific_heat, layer_air_porosity. rewrite E, A, B, C, D. reflexivity.
Qed.
Lemma conductivity_sim c n n' : nsim n n' -> layer_thermal_conductivity c n' = layer_thermal_conductivity c n.
Proof.
  intros H. unfold layer_thermal_conductivity, layer_air_porosity. rewrite (density_sim c _ _ H).
  destruct H as (A & B & C & D & _). rewrite C, D. reflexivity.
Qed.
Lemma diffusivity_sim c n n' : nsim n n' -> layer_thermal_diffusivity c n' = layer_thermal_diffusivity c n.
Proof.
  intros H. unfold layer_thermal_diffusivity, layer_specific_heat, layer_air_porosity.
  rewrite (density_sim c _ _ H), (conductivity_sim c _ _ H).
  destruct H as (A & B & C & D & _). rewrite C, D. reflexivity.
Qed.

Lemma get_density_sim c g g' i : gsim g g' -> res_rel eq (get_node_density c g i) (get_node_density c g' i).
Proof.
  intros H; eapply bind_rel; [apply get_node_sim; exact H|]. intros a a' K. cbn. symmetry; apply density_sim; exact K.
Qed.
Lemma get_irr_sim g g' i : gsim g g' -> res_rel eq (get_node_irreducible g i) (get_node_irreducible g' i).
Proof.
  intros H; eapply bind_rel; [apply get_node_sim; exact H|]. intros a a' K.
  apply res_eq. symmetry; apply irreducible_sim; exact K.
Qed.
Lemma get_porosity_sim g g' i : gsim g g' -> res_rel eq (get_node_porosity g i) (get_node_porosity g' i).
Proof.
  intros H; eapply bind_rel; [apply get_node_sim; exact H|]. intros a a' K. cbn. symmetry; apply porosity_sim; exact K.
Qed.
Lemma get_cond_sim c g g' i : gsim g g' ->
  res_rel eq (get_node_thermal_conductivity c g i) (get_node_thermal_conductivity c g' i).
Proof.
  intros H; eapply bind_rel; [apply get_node_sim; exact H|]. intros a a' K.
  apply res_eq. symmetry; apply conductivity_sim; exact K.
Qed.

Lemma map_res_ext {A B} (f f' : A -> res B) l : (forall x, f x = f' x) -> map_res f l = map_res f' l.
Proof. intros H. induction l as [|x l IH]; cbn; [reflexivity|]. rewrite H, IH. reflexivity. Qed.

Lemma profile_sim {A} (f : Node -> res A) g g' : (forall n n', nsim n n' -> f n' = f n) -> gsim g g' ->
  res_rel eq (get_profile f g) (get_profile f g').
Proof.
  intros Hf H. apply res_eq. unfold get_profile. destruct H as (H & N). rewrite N.
  apply map_res_ext. intros i. apply eq_res. eapply bind_rel; [apply get_node_sim; split; assumption|].
  intros a a' K. apply res_eq. symmetry. apply Hf. exact K.
Qed.

Ltac prof_sim := apply profile_sim; let H := fresh in intros ? ? H;
  rewrite ?(density_sim _ _ _ H), ?(cold_sim _ _ _ H), ?(porosity_sim _ _ H), ?(irreducible_sim _ _ H), ?(diffusivity_sim _ _ _ H);
  destruct H as (-> & -> & -> & -> & _); reflexivity.
Lemma get_heights_sim g g' : gsim g g' -> res_rel eq (get_height g) (get_height g').
Proof. apply profile_sim. intros n n' (-> & _). reflexivity. Qed.
Lemma get_temps_sim g g' : gsim g g' -> res_rel eq (get_temperature g) (get_temperature g').
Proof. apply profile_sim. intros n n' (_ & -> & _). reflexivity. Qed.
Lemma get_lwcs_sim g g' : gsim g g' -> res_rel eq (get_liquid_water_content g) (get_liquid_water_content g').
Proof. apply profile_sim. intros n n' (_ & _ & -> & _). reflexivity. Qed.
Lemma get_ices_sim g g' : gsim g g' -> res_rel eq (get_ice_fraction g) (get_ice_fraction g').
Proof. apply profile_sim. intros n n' (_ & _ & _ & -> & _). reflexivity. Qed.
Lemma get_densities_sim c g g' : gsim g g' -> res_rel eq (get_density c g) (get_density c g').
Proof. apply profile_sim. intros n n' H. rewrite (density_sim c _ _ H). reflexivity. Qed.
Lemma get_colds_sim c g g' : gsim g g' -> res_rel eq (get_cold_content c g) (get_cold_content c g').
Proof. apply profile_sim. intros n n' H. rewrite (cold_sim c _ _ H). reflexivity. Qed.
Lemma get_porosities_sim g g' : gsim g g' -> res_rel eq (get_porosity g) (get_porosity g').
Proof. apply profile_sim. intros n n' H. rewrite (porosity_sim _ _ H). reflexivity. Qed.
Lemma get_irrs_sim g g' : gsim g g' -> res_rel eq (get_irreducible_water_content g) (get_irreducible_water_content g').
Proof. apply profile_sim. intros n n' H. rewrite (irreducible_sim _ _ H). reflexivity. Qed.
Lemma get_diffs_sim c g g' : gsim g g' -> res_rel eq (get_thermal_diffusivity c g) (get_thermal_diffusivity c g').
Proof. apply profile_sim. intros n n' H. rewrite (diffusivity_sim c _ _ H). reflexivity. Qed.

#[local] Hint Resolve get_node_sim set_height_sim set_temp_sim set_lwc_sim set_ice_sim set_refreeze_sim
  get_height_sim get_temp_sim get_lwc_sim get_ice_sim get_density_sim get_irr_sim get_porosity_sim get_cond_sim
  get_heights_sim get_temps_sim get_lwcs_sim get_ices_sim get_densities_sim get_colds_sim get_porosities_sim
  get_irrs_sim get_diffs_sim gsim_refl : sim.

Definition log_rel (s s' : log_state) : Prop := prod_rel (prod_rel (prod_rel gsim eq) eq) eq s s'.
Ltac psplit :=
  lazymatch goal with
  | |- log_rel _ _ => unfold log_rel; psplit
  | |- prod_rel _ _ _ _ => split; cbn [fst snd]; psplit
  | |- gsim _ _ => try assumption
  | |- _ => try reflexivity; try assumption
  end.
Ltac sim1 :=
  match goal with
  | |- res_rel _ (bind ?m _) (bind ?m _) =>
      apply (bind_rel eq); [apply res_refl|let a := fresh "a" in intros a ? <-]
  | |- res_rel _ (bind _ _) (bind _ _) =>
      first [ apply (bind_rel eq); [solve [eauto 2 with sim]|let a := fresh "a" in intros a ? <-]
            | apply (bind_rel gsim); [solve [eauto 2 with sim]|let g := fresh "g" in let g' := fresh "g'" in intros g g' ?] ]
  | |- res_rel _ (let '(_, _) := ?x in _) (let '(_, _) := ?x in _) => destruct x
  | |- res_rel _ (if ?b then _ else _) (if ?b then _ else _) => destruct b
  | |- res_rel _ (Ok _) (Ok _) => cbn [res_rel]; psplit
  | |- res_rel _ (Err _) (Err _) => reflexivity
  | |- res_rel gsim _ _ => solve [eauto 2 with sim]
  | |- res_rel eq _ _ => solve [eauto 2 with sim]
  end.
Ltac sim := repeat sim1.

Lemma number_sim g g' : gsim g g' -> g_number_nodes g' = g_number_nodes g.
Proof. intros (_ & H); exact H. Qed.

Lemma snow_layers_sim c g g' : gsim g g' -> res_rel eq (get_number_snow_layers c g) (get_number_snow_layers c g').
Proof. intros H. unfold get_number_snow_layers. sim. Qed.
#[local] Hint Resolve snow_layers_sim : sim.
Lemma snow_heights_sim c g g' : gsim g g' -> res_rel eq (get_snow_heights c g) (get_snow_heights c g').
Proof.
  intros H. unfold get_snow_heights. sim1. apply res_eq. apply map_res_ext. intros i. apply eq_res.
  auto with sim.
Qed.
#[local] Hint Resolve snow_heights_sim : sim.
Lemma total_snow_sim c g g' : gsim g g' -> res_rel eq (get_total_snowheight c g) (get_total_snowheight c g').
Proof. intros H. unfold get_total_snowheight. sim. Qed.
Lemma total_height_sim g g' : gsim g g' -> res_rel eq (get_total_height g) (get_total_height g').
Proof. intros H. unfold get_total_height. sim. Qed.
Lemma depth_sim g g' : gsim g g' -> res_rel eq (get_depth g) (get_depth g').
Proof. intros H. unfold get_depth. sim1. destruct a; sim. Qed.
#[local] Hint Resolve total_snow_sim total_height_sim depth_sim : sim.

Lemma remove_node_sim g g' ids : gsim g g' -> res_rel gsim (remove_node g ids) (remove_node g' ids).
Proof.
  intros H. assert (H0 := H). destruct H as (H & N). unfold remove_node.
  assert (K : forall l l', Forall2 nsim l l' -> forall js, res_rel (Forall2 nsim) (del_all l js) (del_all l' js)).
  { intros l l' Hl js. revert l l' Hl. induction js as [|j js IH]; intros l l' Hl; cbn; [exact Hl|].
    eapply bind_rel; [apply py_del_rel; exact Hl|]. intros; apply IH; assumption. }
  destruct H as [|x y l l' Hx Hl]; [exact H0|].
  assert (H' : Forall2 nsim (x :: l) (y :: l')) by (constructor; assumption).
  destruct ids as [[|j ids]|].
  - eapply bind_rel; [apply py_del_rel; exact H'|]. intros a b Hab. cbn. split; cbn; [exact Hab|congruence].
  - eapply bind_rel; [apply K; exact H'|]. intros a b Hab. cbn. split; cbn; [exact Hab|congruence].
  - eapply bind_rel; [apply py_del_rel; exact H'|]. intros a b Hab. cbn. split; cbn; [exact Hab|congruence].
Qed.
#[local] Hint Resolve remove_node_sim : sim.

Lemma update_node_sim g g' i h t f w : gsim g g' -> res_rel gsim (update_node g i h t f w) (update_node g' i h t f w).
Proof. intros H. unfold update_node. sim. Qed.
#[local] Hint Resolve update_node_sim : sim.
Lemma merge_nodes_sim g g' i : gsim g g' -> res_rel gsim (merge_nodes g i) (merge_nodes g' i).
Proof. intros H. unfold merge_nodes. sim. Qed.
#[local] Hint Resolve merge_nodes_sim : sim.

Lemma correct_layer_sim fuel c g g' i h : gsim g g' ->
  res_rel gsim (correct_layer fuel c g i h) (correct_layer fuel c g' i h).
Proof.
  intros H. unfold correct_layer. sim1.
  eapply (bind_rel (prod_rel (prod_rel gsim eq) eq)).
  - apply while_rel.
    + intros [[g1 th] st] [[g1' th'] st'] ((K & E1) & E2). cbn in *. subst th' st'. unfold get_number_layers.
      rewrite (number_sim _ _ K). reflexivity.
    + intros [[g1 th] st] [[g1' th'] st'] ((K & E1) & E2). cbn in K, E1, E2. subst th' st'.
      cbn [correct_layer_body]. sim.
    + psplit.
  - intros [[g1 th] st] [[g1' th'] st'] ((K & E1) & E2). cbn in K, E1, E2. subst th' st'.
    destruct (Rltb h th); [|exact K]. unfold correct_layer_split. sim.
    split; cbn.
    + apply py_insert_rel; [apply nsim_refl|]. match goal with X : gsim ?a _ |- Forall2 _ (g_nodes ?a) _ => apply X end.
    + match goal with X : gsim ?a ?b |- (g_number_nodes ?b + 1)%Z = _ => rewrite (number_sim _ _ X); reflexivity end.
Qed.
#[local] Hint Resolve correct_layer_sim : sim.

Lemma log_profile_sim fuel c g g' : gsim g g' -> res_rel gsim (log_profile fuel c g) (log_profile fuel c g').
Proof.
  intros H. unfold log_profile. sim1.
  eapply (bind_rel log_rel).
  - apply while_rel.
    + intros [[[g1 i1] h1] l1] [[[g2 i2] h2] l2] (((K & E1) & E2) & E3). cbn in K, E1, E2, E3. subst.
      cbn [log_snow_cond]. sim.
    + intros [[[g1 i1] h1] l1] [[[g2 i2] h2] l2] (((K & E1) & E2) & E3). cbn in K, E1, E2, E3. subst.
      cbn [log_snow_body]. sim.
    + psplit.
  - intros [[[g1 i1] h1] l1] [[[g2 i2] h2] l2] (((K & E1) & E2) & E3). cbn in K, E1, E2, E3. subst.
    do 3 sim1. eapply (bind_rel log_rel).
    + apply while_rel.
      * intros [[[x1 i1] k1] m1] [[[x2 j2] k2] m2] (((K' & E1) & E2) & E3). cbn in K', E1, E2, E3. subst.
        cbn [log_ice_cond]. unfold get_number_layers. rewrite (number_sim _ _ K'). reflexivity.
      * intros [[[x1 i1] k1] m1] [[[x2 j2] k2] m2] (((K' & E1) & E2) & E3). cbn in K', E1, E2, E3. subst.
        cbn [log_ice_body]. sim.
      * psplit.
    + intros [[[x1 i1] k1] m1] [[[x2 j2] k2] m2] (((K' & E1) & E2) & E3). exact K'.
Qed.

Lemma adaptive_profile_sim fuel c g g' : gsim g g' ->
  res_rel gsim (adaptive_profile fuel c g) (adaptive_profile fuel c g').
Proof.
  intros H. unfold adaptive_profile, adaptive_snow.
  eapply (bind_rel (prod_rel (prod_rel gsim eq) eq)).
  - apply while_rel.
    + intros [[g1 i1] h1] [[g2 i2] h2] ((K & E1) & E2). cbn in K, E1, E2. subst.
      cbn [adapt_cond]. sim.
    + intros [[g1 i1] h1] [[g2 i2] h2] ((K & E1) & E2). cbn in K, E1, E2. subst.
      cbn [adapt_body]. sim.
    + psplit.
  - intros [[g1 i1] h1] [[g2 i2] h2] ((K & E1) & E2). cbn in K, E1, E2. subst.
    do 2 sim1. eapply (bind_rel (prod_rel gsim eq)).
    { sim. }
    intros [x1 j1] [x2 j2] (K' & E). cbn in K', E. subst j2.
    eapply (bind_rel (prod_rel gsim eq)).
    + apply while_rel.
      * intros [y1 k1] [y2 k2] (K2 & E). cbn in K2, E. subst k2.
        cbn [adapt_ice_cond]. unfold get_number_layers. rewrite (number_sim _ _ K2). reflexivity.
      * intros [y1 k1] [y2 k2] (K2 & E). cbn in K2, E. subst k2. cbn [adapt_ice_body]. sim.
      * psplit.
    + intros [y1 k1] [y2 k2] (K2 & E). cbn in K2, E. subst k2. sim.
Qed.

Lemma update_grid_sim fuel c g g' : gsim g g' -> res_rel gsim (update_grid fuel c g) (update_grid fuel c g').
Proof.
  intros H. unfold update_grid. eapply (bind_rel gsim).
  - destruct (String.eqb _ _); [apply log_profile_sim; exact H|].
    destruct (String.eqb _ _); [apply adaptive_profile_sim; exact H|exact H].
  - intros g1 g1' K. sim.
Qed.

Lemma percolation_sim g g' w : gsim g g' -> res_rel (prod_rel gsim eq) (percolation g w) (percolation g' w).
Proof.
  intros H. unfold percolation. sim.
  apply (bind_rel gsim).
  - unfold for_range. rewrite (number_sim _ _ H0). apply for_rel; [|exact H0].
    intros j t t' K. unfold percolation_body. sim.
  - intros g2 g2' K. unfold get_runoff. rewrite (number_sim _ _ K). sim.
Qed.

Lemma refreezing_sim c g g' : gsim g g' -> res_rel (prod_rel gsim eq) (refreezing c g) (refreezing c g').
Proof.
  intros H. unfold refreezing. sim1. unfold for_range. rewrite (number_sim _ _ H).
  apply for_rel; [|psplit].
  intros j [t r] [t' r'] (K & E). cbn in K, E. subst r'. unfold refreezing_body.
  do 2 sim1. eapply (bind_rel (prod_rel gsim eq)).
  - destruct (_ && _); [|cbn [res_rel]; psplit]. sim.
  - intros [x y] [x' y'] (K' & E). cbn in K', E. subst y'. sim.
Qed.

Lemma melt_loop_sim fuel c g g' m l : gsim g g' ->
  res_rel (prod_rel (prod_rel gsim eq) eq)
    (while_loop fuel (melt_cond 0) (melt_body c 0) (g, m, l)) (while_loop fuel (melt_cond 0) (melt_body c 0) (g', m, l)).
Proof.
  intros H. apply while_rel.
  - intros [[g1 i1] h1] [[g2 i2] h2] ((K & E1) & E2). cbn in K, E1, E2. subst.
    cbn [melt_cond]. rewrite (number_sim _ _ K). reflexivity.
  - intros [[g1 i1] h1] [[g2 i2] h2] ((K & E1) & E2). cbn in K, E1, E2. subst.
    cbn [melt_body]. sim.
  - psplit.
Qed.

Lemma remove_melt_sim fuel c g g' m : gsim g g' ->
  res_rel (prod_rel gsim eq) (remove_melt_weq fuel c g m 0) (remove_melt_weq fuel c g' m 0).
Proof.
  intros H. unfold remove_melt_weq. eapply bind_rel; [apply melt_loop_sim; exact H|].
  intros [[g1 i1] h1] [[g2 i2] h2] ((K & E1) & E2). cbn in K, E1, E2. subst. cbn [res_rel]; psplit.
Qed.

Lemma water_step_sim fuel c g g' melt m rain : gsim g g' ->
  res_rel (prod_rel (prod_rel gsim eq) eq) (water_step fuel c g melt m rain) (water_step fuel c g' melt m rain).
Proof.
  intros H. unfold water_step. eapply bind_rel; [apply remove_melt_sim; exact H|].
  intros [a b] [a' b'] (K & E). cbn in K, E. subst b'.
  eapply bind_rel; [apply percolation_sim; exact K|].
  intros [x q] [x' q'] (K' & E). cbn in K', E. subst q'.
  eapply bind_rel; [apply refreezing_sim; exact K'|].
  intros [y r] [y' r'] (K2 & E). cbn in K2, E. subst r'. cbn [res_rel]; psplit.
Qed.

Lemma heat_sim fuel c g g' dt : gsim g g' ->
  res_rel gsim (solveHeatEquation fuel c g dt) (solveHeatEquation fuel c g' dt).
Proof.
  intros H. unfold solveHeatEquation, get_number_layers. rewrite (number_sim _ _ H). do 5 sim1.
  unfold set_temperature, set_profile, for_range. rewrite (number_sim _ _ H).
  apply for_rel; [|exact H]. intros j t t' K. sim1. apply upd_node_sim; [nsolve|exact K].
Qed.

Lemma densification_sim c g g' s dt : gsim g g' ->
  res_rel gsim (densification c g s dt) (densification c g' s dt).
Proof.
  intros H. unfold densification.
  assert (C : res_rel eq (copy_layer_profiles c g) (copy_layer_profiles c g')).
  { unfold copy_layer_profiles. sim. }
  assert (W : forall a a' i, gsim a a' -> res_rel eq (log_fraction_warning a i) (log_fraction_warning a' i)).
  { intros a a' i K. unfold log_fraction_warning. sim. }
  destruct (String.eqb _ _); [|destruct (String.eqb _ _); [|destruct (String.eqb _ _); [|destruct (String.eqb _ _); [exact H|reflexivity]]]].
  - unfold method_Boone. eapply bind_rel; [exact C|]. intros p ? <-. sim1.
    eapply (bind_rel (prod_rel gsim eq)); [|intros [x y] [x' y'] (K & _); exact K].
    apply for_rel; [|psplit]. intros j [t m] [t' m'] (K & E). cbn in K, E. subst m'.
    unfold boone_body. sim.
  - unfold method_Vionnet. eapply bind_rel; [exact C|]. intros p ? <-. sim1.
    eapply (bind_rel (prod_rel gsim eq)); [|intros [x y] [x' y'] (K & _); exact K].
    apply for_rel; [|psplit]. intros j [t m] [t' m'] (K & E). cbn in K, E. subst m'.
    unfold vionnet_body. sim.
  - unfold method_empirical. do 2 sim1. apply for_rel; [|exact H]. intros j t t' K. unfold empirical_body. sim.
Qed.

Lemma penetrating_sim c g g' sw dt : gsim g g' ->
  res_rel (prod_rel (prod_rel gsim eq) eq) (penetrating_radiation c g sw dt) (penetrating_radiation c g' sw dt).
Proof.
  intros H. unfold penetrating_radiation. destruct (String.eqb _ _); [|reflexivity].
  unfold method_Bintanja. do 2 sim1. destruct (absorbed_flux _ _ _ _) as [Si E]. sim1.
  eapply (bind_rel (prod_rel (prod_rel gsim eq) eq)).
  - unfold for_range. rewrite (number_sim _ _ H). apply for_rel; [|psplit].
    intros j [[t r] m] [[t' r'] m'] ((K & E1) & E2). cbn in K, E1, E2. subst r' m'.
    unfold bintanja_body. sim.
  - intros [[t r] m] [[t' r'] m'] ((K & E1) & E2). cbn in K, E1, E2. subst r' m'.
    destruct r; cbn [bind]; [sim|]. eapply bind_rel; [apply remove_node_sim; exact K|]. intros; sim.
Qed.

Lemma shortwave_sim c g g' sw dt : gsim g g' ->
  res_rel (prod_rel (prod_rel gsim eq) eq) (shortwave_below c g sw dt) (shortwave_below c g' sw dt).
Proof. intros H. unfold shortwave_below. destruct (Rltb 0 sw); [apply penetrating_sim; exact H|sim]. Qed.

Lemma eb_fluxes_sim c wrf g g' T0 a B : gsim g g' -> eb_fluxes c wrf g T0 a B = eb_fluxes c wrf g' T0 a B.
Proof.
  intros H. apply eq_res. unfold eb_fluxes.
  assert (C : res_rel eq (n <- get_node g 0 ;; layer_thermal_conductivity c n)
                         (n <- get_node g' 0 ;; layer_thermal_conductivity c n)).
  { eapply bind_rel; [apply get_node_sim; exact H|]. intros x x' K. apply res_eq. symmetry. apply conductivity_sim. exact K. }
  apply eq_res in C. rewrite C. apply res_refl.
Qed.

Lemma interp_sim c g g' : gsim g g' -> interp_subT c g = interp_subT c g'.
Proof.
  intros H. apply eq_res. unfold interp_subT.
  assert (C : map n_height (g_nodes g') = map n_height (g_nodes g)).
  { destruct H as (H & _). induction H as [|x y l l' K H IH]; cbn; [reflexivity|]. rewrite IH. f_equal. apply K. }
  rewrite C.
  assert (D : forall zlt, res_rel eq (get_subsurface_temperature g (cumsum (map n_height (g_nodes g))) zlt)
     (get_subsurface_temperature g' (cumsum (map n_height (g_nodes g))) zlt)).
  { intros zlt. unfold get_subsurface_temperature. do 2 sim1.
    eapply bind_rel; [apply get_node_sim; exact H|]. intros n1 n1' K1.
    eapply bind_rel; [apply get_node_sim; exact H|]. intros n2 n2' K2. apply res_eq.
    destruct K1 as (_ & -> & _). destruct K2 as (_ & -> & _). reflexivity. }
  eapply bind_rel; [apply D|]. intros x ? <-. eapply bind_rel; [apply D|]. intros y ? <-. reflexivity.
Qed.

Lemma surface_sim c wrf nw mn g g' a sw : gsim g g' ->
  res_rel (prod_rel (prod_rel (prod_rel gsim eq) eq) eq)
    (update_surface_temperature c wrf nw mn g a sw) (update_surface_temperature c wrf nw mn g' a sw).
Proof.
  intros H. unfold update_surface_temperature. rewrite <- (interp_sim c _ _ H). sim1.
  eapply bind_rel; [apply get_node_sim; exact H|]. intros top top' K. 
  replace (n_temperature top') with (n_temperature top) by (symmetry; apply K).
  replace (eb_optim c wrf g' a sw a0) with (eb_optim c wrf g a sw a0).
  2:{ extensionality t. unfold eb_optim. rewrite (eb_fluxes_sim c wrf g g' t a a0 H). reflexivity. }
  do 2 sim1. eapply (bind_rel gsim); [apply upd_node_sim; [nsolve|exact H]|]. intros x x' K'.
  rewrite <- (eb_fluxes_sim c wrf _ _ _ a a0 K'). sim.
Qed.

End Sim.
