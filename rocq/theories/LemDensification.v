(** * Densification: lemmas *)
From Verif Require Import ModelPy ModelConstants ModelNode ModelGrid ModelDensification Spec LemPy
  LemGridBase LemHeat.

(** a loop over the first nodes of the grid, each pass changing its own node only;
    [l0] are the nodes before the loop *)
Lemma sweep_nodes {A} (step : option Node -> A -> Node -> Node -> A -> Prop)
  (body : Z -> Grid * A -> res (Grid * A)) (l0 : list Node) (P : Node -> Prop) (Q : A -> Prop) :
  (forall pre pre' x post g acc,
     l0 = pre ++ x :: post -> length pre' = length pre -> g_nodes g = pre' ++ x :: post ->
     P x -> Forall P pre -> Q acc ->
     exists x' acc', body (Z.of_nat (length pre)) (g, acc)
       = Ok (with_nodes g (pre' ++ x' :: post), acc') /\
       step (last (map Some pre) None) acc x x' acc' /\ Q acc') ->
  forall l pre pre' post g acc,
    l0 = pre ++ l ++ post -> length pre' = length pre -> g_nodes g = pre' ++ l ++ post ->
    Forall P (pre ++ l) -> Q acc ->
    exists l' acc', for_loop (length l) (Z.of_nat (length pre)) body (g, acc)
      = Ok (with_nodes g (pre' ++ l' ++ post), acc') /\
      swept step (last (map Some pre) None) acc l l' acc' /\ Q acc'.
Proof.
  intros Hb. induction l as [|x l IH]; intros pre pre' post g acc E0 L E HP HQ.
  - exists [], acc. cbn [length for_loop app]. cbn [app] in E. rewrite <- E, with_nodes_same.
    split; [reflexivity|]. split; [constructor|exact HQ].
  - cbn [length for_loop]. apply Forall_app in HP. destruct HP as [HP1 HP2].
    destruct (Hb pre pre' x (l ++ post) g acc E0 L E (Forall_inv HP2) HP1 HQ) as (x' & acc' & W & St & HQ').
    rewrite W. cbn [bind].
    set (g1 := with_nodes g (pre' ++ x' :: l ++ post)).
    destruct (IH (pre ++ [x]) (pre' ++ [x']) post g1 acc') as (l' & acc2 & W2 & Sw & HQ2).
    + rewrite <- app_assoc. exact E0.
    + rewrite !app_length. cbn. lia.
    + cbn. rewrite <- app_assoc. reflexivity.
    + rewrite <- app_assoc. apply Forall_app. split; assumption.
    + exact HQ'.
    + exists (x' :: l'), acc2. rewrite app_length in W2. cbn [length] in W2.
      replace (Z.of_nat (length pre) + 1)%Z with (Z.of_nat (length pre + 1)) by lia.
      rewrite W2. split.
      { unfold g1. rewrite with_nodes_nodes, <- app_assoc. reflexivity. }
      split; [|exact HQ2]. econstructor; [exact St|].
      rewrite map_app in Sw; cbn [map] in Sw; rewrite last_last in Sw; exact Sw.
Qed.

Lemma prof_get (f : Node -> R) pre x post :
  py_get (map f (pre ++ x :: post)) (Z.of_nat (length pre)) = Ok (f x).
Proof. rewrite map_app. cbn [map]. rewrite <- (map_length f pre). apply py_get_mid. Qed.

Definition profiles_of (c : Consts) (l : list Node) : profiles :=
  mkProfiles (map n_height l) (map (layer_density c) l) (map n_temperature l) (map n_lwc l) (map n_ice l).

Lemma copy_profiles_counted c g : counted g ->
  copy_layer_profiles c g = Ok (profiles_of c (g_nodes g)).
Proof.
  intros H. unfold copy_layer_profiles.
  rewrite get_height_counted, get_density_counted, get_temperature_counted by exact H. cbn [bind].
  unfold get_liquid_water_content, get_ice_fraction.
  rewrite (get_profile_map n_lwc), (get_profile_map n_ice) by exact H. reflexivity.
Qed.

Lemma load_above_ok c pre x post :
  load_above (profiles_of c (pre ++ x :: post)) (Z.of_nat (length pre))
  = Ok (added_load c (last (map Some pre) None) x).
Proof.
  unfold load_above. destruct (exists_last_or_nil pre) as [->|(p & y & ->)].
  - cbn [length Z.of_nat Z.ltb Z.compare]. cbn [profiles_of p_rho p_height].
    rewrite (prof_get (layer_density c) [] x post : py_get _ 0 = _).
    rewrite (prof_get n_height [] x post : py_get _ 0 = _). cbn [bind map last added_load].
    unfold layer_weight. f_equal. field.
  - replace (0 <? Z.of_nat (length (p ++ [y])))%Z with true
      by (symmetry; apply Z.ltb_lt; rewrite app_length; cbn; lia).
    replace (Z.of_nat (length (p ++ [y])) - 1)%Z with (Z.of_nat (length p))
      by (rewrite app_length; cbn; lia).
    cbn [profiles_of p_rho p_height]. rewrite <- app_assoc. cbn [app].
    rewrite !prof_get. cbn [bind]. rewrite map_app; cbn [map]; rewrite last_last; cbn [added_load].
    unfold layer_weight. f_equal. ring.
Qed.

(** the warning never fires *)
Lemma warning_never g i x : get_node g i = Ok x -> log_fraction_warning g i = Ok false.
Proof.
  intros H. unfold log_fraction_warning, get_node_ice_fraction, get_node_lwc, get_node_porosity.
  rewrite H. cbn [bind]. f_equal. apply Rltb_false. unfold layer_porosity. lra.
Qed.

Lemma three_sets g pre x post f w h :
  g_nodes g = pre ++ x :: post ->
  (g1 <- set_node_ice_fraction g (Z.of_nat (length pre)) f ;;
   g2 <- set_node_lwc g1 (Z.of_nat (length pre)) w ;;
   g3 <- set_node_height g2 (Z.of_nat (length pre)) h ;;
   log_fraction_warning g3 (Z.of_nat (length pre)) ;;
   Ok g3)
  = Ok (with_nodes g (pre ++ mkNode h (n_temperature x) w f (n_refreeze x) :: post)).
Proof.
  intros E. unfold set_node_ice_fraction, set_node_lwc, set_node_height.
  rewrite (upd_node_mid g pre x post _ E). cbn [bind].
  set (x1 := set_layer_ice f x). set (g1 := with_nodes g (pre ++ x1 :: post)).
  rewrite (upd_node_mid g1 pre x1 post _ eq_refl). cbn [bind].
  set (x2 := set_layer_lwc w x1). set (g2 := with_nodes g1 (pre ++ x2 :: post)).
  rewrite (upd_node_mid g2 pre x2 post _ eq_refl). cbn [bind].
  set (x3 := set_layer_height h x2). set (g3 := with_nodes g2 (pre ++ x3 :: post)).
  rewrite (warning_never g3 _ x3 (get_node_mid g3 pre x3 post eq_refl)). reflexivity.
Qed.

Lemma compactableb c x :
  (Rltb (layer_density c x) (c_snow_ice_threshold c) && Rltb (c_minimum_snow_layer_height c) (n_height x)
   = true <-> compactable c x).
Proof.
  unfold compactable, is_snow. rewrite andb_true_iff.
  destruct (Rltb_spec (layer_density c x) (c_snow_ice_threshold c)),
    (Rltb_spec (c_minimum_snow_layer_height c) (n_height x)); intuition congruence.
Qed.

Lemma Reqb_spec' a b : {a = b /\ Reqb a b = true} + {a <> b /\ Reqb a b = false}.
Proof. destruct (Reqb_spec a b); [left|right]; split; auto. Qed.

Lemma boone_body_ok c dt l0 pre pre' x post g M :
  l0 = pre ++ x :: post -> length pre' = length pre -> g_nodes g = pre' ++ x :: post ->
  exists x' M', boone_body c (profiles_of c l0) dt (Z.of_nat (length pre)) (g, M)
    = Ok (with_nodes g (pre' ++ x' :: post), M') /\
    boone_step c dt (last (map Some pre) None) M x x' M'.
Proof.
  intros E0 L E. unfold boone_body. rewrite E0.
  assert (A := load_above_ok c pre x post).
  cbn [profiles_of p_rho p_height p_t p_lwc p_icf] in *. rewrite !prof_get. cbn [bind].
  destruct (_ && _) eqn:Hb.
  - apply compactableb in Hb. rewrite A. cbn [bind].
    set (M' := M + _). rewrite fdiv_ok by (assert (P := exp_pos (0.081 * (c_zero_temperature c - n_temperature x) + 0.018 * layer_density c x)); lra).
    cbn [bind]. set (d := (_ + _) * dt).
    set (f := (1 + (if Reqb (n_lwc x) 0 then d else d / 2)) * n_ice x).
    set (w := (1 + (if Reqb (n_lwc x) 0 then 0 else d / 2)) * n_lwc x).
    set (h := (1 - d) * n_height x).
    exists (mkNode h (n_temperature x) w f (n_refreeze x)), M'.
    assert (T := three_sets g pre' x post f w h E). rewrite L in T.
    destruct (set_node_ice_fraction g (Z.of_nat (length pre)) f) as [g1|]; [|discriminate T]. cbn [bind] in *.
    destruct (set_node_lwc g1 (Z.of_nat (length pre)) w) as [g2|]; [|discriminate T]. cbn [bind] in *.
    destruct (set_node_height g2 (Z.of_nat (length pre)) h) as [g3|]; [|discriminate T]. cbn [bind] in *.
    destruct (log_fraction_warning g3 (Z.of_nat (length pre))); [|discriminate T]. cbn [bind] in *.
    injection T as ->. split; [reflexivity|]. left. split; [exact Hb|]. split; [reflexivity|].
    exists d. split; [reflexivity|]. unfold f, w, h, squeezed. cbn.
    destruct (Reqb_spec' (n_lwc x) 0) as [[E1 ->]|[E1 ->]]; split; intros; try contradiction; repeat split.
  - exists x, M. rewrite <- E, with_nodes_same. split; [reflexivity|]. right.
    split; [|split; reflexivity]. intros C. apply compactableb in C. congruence.
Qed.

Lemma swept_lift {A} (s1 s2 : option Node -> A -> Node -> Node -> A -> Prop) :
  (forall p a x x' a', s1 p a x x' a' -> s2 p a x x' a') ->
  forall p a l l' a', swept s1 p a l l' a' -> swept s2 p a l l' a'.
Proof. intros H p a l l' a'. induction 1; econstructor; eauto. Qed.

(** the first [nsnow] layers are swept, the rest stays *)
Lemma boone_spec c g dt : counted g ->
  exists top M, method_Boone c g dt
    = Ok (with_nodes g (top ++ skipn (nsnow c (g_nodes g)) (g_nodes g))) /\
    swept (boone_step c dt) None 0 (firstn (nsnow c (g_nodes g)) (g_nodes g)) top M.
Proof.
  intros Hn. unfold method_Boone. rewrite copy_profiles_counted by exact Hn. cbn [bind].
  rewrite get_number_snow_layers_counted by exact Hn. cbn [bind].
  set (k := nsnow c (g_nodes g)). assert (Hk := nsnow_le c (g_nodes g)). fold k in Hk.
  destruct (sweep_nodes (boone_step c dt) (boone_body c (profiles_of c (g_nodes g)) dt)
    (g_nodes g) (fun _ => True) (fun _ => True)) with (l := firstn k (g_nodes g)) (pre := @nil Node)
    (pre' := @nil Node) (post := skipn k (g_nodes g)) (g := g) (acc := 0) as (top & M & W & Sw & _).
  - intros pre pre' x post g1 M E0 L E _ _ _.
    destruct (boone_body_ok c dt (g_nodes g) pre pre' x post g1 M E0 L E) as (x' & M' & W & S).
    eauto.
  - cbn. symmetry. apply firstn_skipn.
  - reflexivity.
  - cbn. symmetry. apply firstn_skipn.
  - apply Forall_true.
  - exact I.
  - exists top, M. rewrite firstn_length_le in W by exact Hk.
    change (Z.of_nat (length (@nil Node))) with 0%Z in W. cbn [app] in W.
    unfold for_range. replace (Z.to_nat (Z.of_nat k - 0)) with k by lia. rewrite W. cbn [bind fst].
    split; [reflexivity|exact Sw].
Qed.

(** Vionnet *)
Lemma vionnet_body_ok c slope dt l0 pre pre' x post g s :
  l0 = pre ++ x :: post -> length pre' = length pre -> g_nodes g = pre' ++ x :: post ->
  0 <= c_minimum_snow_layer_height c -> 0 <= n_lwc x -> 0 < layer_density c x ->
  exists x' s', vionnet_body c (profiles_of c l0) slope dt (Z.of_nat (length pre)) (g, s)
    = Ok (with_nodes g (pre' ++ x' :: post), s') /\
    vionnet_step c slope dt (last (map Some pre) None) s x x' s'.
Proof.
  intros E0 L E Hm Hw Hd. unfold vionnet_body. rewrite E0.
  assert (A := load_above_ok c pre x post).
  cbn [profiles_of p_rho p_height p_t p_lwc p_icf] in *. rewrite !prof_get. cbn [bind].
  destruct (_ && _) eqn:Hb.
  - apply compactableb in Hb. assert (Hh : 0 < n_height x) by (destruct Hb; lra).
    rewrite fdiv_ok by lra. cbn [bind].
    assert (Hq : 0 <= n_lwc x / n_height x) by (apply Rle_mult_inv_pos; lra).
    rewrite fdiv_ok by lra. cbn [bind].
    rewrite A. cbn [bind].
    set (s' := s + _). set (X := exp _). assert (HX : 0 < X) by apply exp_pos.
    set (q := 1 + 60 * _) in *. assert (Hq1 : 1 <= q) by (unfold q; lra).
    assert (H1q : 0 < 1 / q) by (apply Rdiv_lt_0_compat; lra).
    assert (Heta : 1 / q * 1 * 7.62237e6 * (layer_density c x / 250) * X <> 0).
    { assert (0 < 1 / q * 1 * 7.62237e6 * (layer_density c x / 250) * X); [|lra].
      assert (0 < layer_density c x / 250) by (apply Rdiv_lt_0_compat; lra).
      repeat (apply Rmult_lt_0_compat; try lra). }
    rewrite fdiv_ok by exact Heta. cbn [bind].
    set (dD := _ * dt).
    set (f := (1 + (if Reqb (n_lwc x) 0 then - dD else - dD / 2)) * n_ice x).
    set (w := (1 + (if Reqb (n_lwc x) 0 then 0 else - dD / 2)) * n_lwc x).
    set (h := (1 + dD) * n_height x).
    exists (mkNode h (n_temperature x) w f (n_refreeze x)), s'.
    assert (T := three_sets g pre' x post f w h E). rewrite L in T.
    destruct (set_node_ice_fraction g (Z.of_nat (length pre)) f) as [g1|]; [|discriminate T]. cbn [bind] in *.
    destruct (set_node_lwc g1 (Z.of_nat (length pre)) w) as [g2|]; [|discriminate T]. cbn [bind] in *.
    destruct (set_node_height g2 (Z.of_nat (length pre)) h) as [g3|]; [|discriminate T]. cbn [bind] in *.
    destruct (log_fraction_warning g3 (Z.of_nat (length pre))); [|discriminate T]. cbn [bind] in *.
    injection T as ->. split; [reflexivity|]. left. split; [exact Hb|]. split; [reflexivity|].
    exists (- dD). split.
    { unfold dD, vionnet_rate. fold X. fold q. 
      replace (7.62237e6 / q * (layer_density c x / 250) * X)
        with (1 / q * 1 * 7.62237e6 * (layer_density c x / 250) * X)
        by (unfold Rdiv; ring).
      unfold Rdiv. ring. }
    unfold f, w, h, squeezed. cbn.
    destruct (Reqb_spec' (n_lwc x) 0) as [[E1 ->]|[E1 ->]]; split; intros; try contradiction; repeat split; ring.
  - exists x, s. rewrite <- E, with_nodes_same. split; [reflexivity|]. right.
    split; [|split; reflexivity]. intros C. apply compactableb in C. congruence.
Qed.

Lemma vionnet_spec c g slope dt : counted g -> 0 <= c_minimum_snow_layer_height c ->
  Forall (fun x => 0 <= n_lwc x /\ 0 < layer_density c x) (g_nodes g) ->
  exists top s, method_Vionnet c g slope dt
    = Ok (with_nodes g (top ++ skipn (nsnow c (g_nodes g)) (g_nodes g))) /\
    swept (vionnet_step c slope dt) None 0 (firstn (nsnow c (g_nodes g)) (g_nodes g)) top s.
Proof.
  intros Hn Hm HF. unfold method_Vionnet. rewrite copy_profiles_counted by exact Hn. cbn [bind].
  rewrite get_number_snow_layers_counted by exact Hn. cbn [bind].
  set (k := nsnow c (g_nodes g)). assert (Hk := nsnow_le c (g_nodes g)). fold k in Hk.
  destruct (sweep_nodes (vionnet_step c slope dt) (vionnet_body c (profiles_of c (g_nodes g)) slope dt)
    (g_nodes g) (fun x => 0 <= n_lwc x /\ 0 < layer_density c x) (fun _ => True)) with (l := firstn k (g_nodes g)) (pre := @nil Node)
    (pre' := @nil Node) (post := skipn k (g_nodes g)) (g := g) (acc := 0) as (top & M & W & Sw & _).
  - intros pre pre' x post g1 M E0 L E [P1 P2] _ _.
    destruct (vionnet_body_ok c slope dt (g_nodes g) pre pre' x post g1 M E0 L E Hm P1 P2) as (x' & M' & W & S).
    eauto.
  - cbn. symmetry. apply firstn_skipn.
  - reflexivity.
  - cbn. symmetry. apply firstn_skipn.
  - cbn. rewrite <- (firstn_skipn k (g_nodes g)) in HF. apply Forall_app in HF. apply HF.
  - exact I.
  - exists top, M. rewrite firstn_length_le in W by exact Hk.
    change (Z.of_nat (length (@nil Node))) with 0%Z in W. cbn [app] in W.
    unfold for_range. replace (Z.to_nat (Z.of_nat k - 0)) with k by lia. rewrite W. cbn [bind fst].
    split; [reflexivity|exact Sw].
Qed.

(** empirical *)
Lemma exp_le_1 x : x <= 0 -> exp x <= 1.
Proof. intros H. rewrite <- exp_0. destruct (Req_dec x 0) as [->|]; [lra|]. left. apply exp_increasing. lra. Qed.
Lemma exp_ge_1 x : 0 <= x -> 1 <= exp x.
Proof. intros H. rewrite <- exp_0. destruct (Req_dec x 0) as [->|]; [lra|]. left. apply exp_increasing. lra. Qed.

Lemma empirical_new_ice c x dt : constants_ok c -> 0 < dt -> layer_density c x < 600 ->
  layer_density c x <= 600 + (layer_density c x - 600) * exp (- dt / 8.0e5).
Proof.
  intros Hc Hdt Hd. assert (E : exp (- dt / 8.0e5) <= 1) by (apply exp_le_1; lra).
  assert (P := exp_pos (- dt / 8.0e5)). set (e := exp _) in *.
  assert (0 <= (600 - layer_density c x) * (1 - e)) by (apply Rmult_le_pos; lra). lra.
Qed.

Lemma empirical_body_ok c dt l0 pre pre' x post g :
  l0 = pre ++ x :: post -> length pre' = length pre -> g_nodes g = pre' ++ x :: post ->
  constants_ok c -> 0 < dt -> 0 < n_ice x -> 0 <= n_lwc x ->
  exists x', empirical_body c (map (layer_density c) l0) dt (Z.of_nat (length pre)) g
    = Ok (with_nodes g (pre' ++ x' :: post)) /\ empirical_step c dt x x'.
Proof.
  intros E0 L E Hc Hdt Hi Hw. unfold empirical_body, get_node_density.
  rewrite <- L, (get_node_mid g pre' x post E). cbn [bind].
  assert (Hd := density_positive c x Hc Hi Hw).
  rewrite fdiv_ok by lra. cbn [bind].
  assert (Hq : (1 / 8.0e5 * (600 - layer_density c x) * dt / layer_density c x > 0 <-> layer_density c x < 600)).
  { split; intros H.
    - destruct (Rlt_le_dec (layer_density c x) 600) as [|H6]; [assumption|exfalso].
      assert (0 <= (layer_density c x - 600) * dt) by (apply Rmult_le_pos; lra).
      assert (0 <= ((layer_density c x - 600) * dt / 8.0e5) * / layer_density c x).
      { apply Rmult_le_pos; [lra|]. left. apply Rinv_0_lt_compat. exact Hd. }
      unfold Rdiv in *. lra.
    - apply Rdiv_lt_0_compat; [|exact Hd].
      assert (0 < (600 - layer_density c x) * dt) by (apply Rmult_lt_0_compat; lra). lra. }
  destruct (Rltb_spec (1 - 1 / 8.0e5 * (600 - layer_density c x) * dt / layer_density c x) 1) as [Hlt|Hge].
  - assert (H6 : layer_density c x < 600) by (apply Hq; lra).
    rewrite E0, L, prof_get, <- L. cbn [bind].
    assert (Hri : 0 < c_ice_density c) by (destruct Hc; lra).
    rewrite fdiv_ok by lra. cbn [bind]. unfold set_node_ice_fraction, set_node_height, get_node_height.
    set (f := _ / c_ice_density c). rewrite (upd_node_mid g pre' x post _ E). cbn [bind].
    set (x1 := set_layer_ice f x). set (g1 := with_nodes g (pre' ++ x1 :: post)).
    rewrite (get_node_mid g1 pre' x1 post eq_refl). cbn [bind].
    assert (Hf : layer_density c x / c_ice_density c <= f).
    { unfold f, Rdiv. apply Rmult_le_compat_r; [left; apply Rinv_0_lt_compat; exact Hri|].
      apply empirical_new_ice; assumption. }
    assert (Hf0 : 0 < f) by (assert (0 < layer_density c x / c_ice_density c) by (apply Rdiv_lt_0_compat; assumption); lra).
    assert (Hd1 : 0 < layer_density c x1) by (apply density_positive; assumption).
    rewrite fdiv_ok by lra. cbn [bind].
    rewrite (upd_node_mid g1 pre' x1 post _ eq_refl).
    eexists. split; [reflexivity|]. left. split; [exact H6|]. split; [|split; [|repeat split]].
    + change (f = (600 - (600 - layer_density c x) * exp (- dt / 8.0e5)) / c_ice_density c).
      unfold f, Rdiv. ring.
    + set (h := (1 - _) * _). change (layer_density c (set_layer_height h x1)) with (layer_density c x1).
      change (h = (1 - (600 - layer_density c x) * dt / 8.0e5 / layer_density c x1) * n_height x).
      unfold h. change (n_height x1) with (n_height x). unfold Rdiv. ring.
  - exists x. rewrite <- E, with_nodes_same. split; [reflexivity|]. right. split; [|reflexivity].
    destruct (Rle_lt_dec 600 (layer_density c x)) as [H|H]; [exact H|]. exfalso. apply Hq in H. lra.
Qed.

Lemma empirical_loop c dt l0 : constants_ok c -> 0 < dt -> forall l pre pre' post g,
    l0 = pre ++ l ++ post -> length pre' = length pre -> g_nodes g = pre' ++ l ++ post ->
    layers_ok l ->
    exists l', for_loop (length l) (Z.of_nat (length pre)) (empirical_body c (map (layer_density c) l0) dt) g
      = Ok (with_nodes g (pre' ++ l' ++ post)) /\ Forall2 (empirical_step c dt) l l'.
Proof.
  intros Hc Hdt. induction l as [|x l IH]; intros pre pre' post g E0 L E HP.
  - exists []. cbn [length for_loop app]. cbn [app] in E. rewrite <- E, with_nodes_same.
    split; [reflexivity|constructor].
  - cbn [length for_loop]. destruct (Forall_inv HP) as (_ & Hi & Hw).
    destruct (empirical_body_ok c dt l0 pre pre' x (l ++ post) g E0 L E Hc Hdt Hi Hw) as (x' & W & St).
    rewrite W. cbn [bind].
    set (g1 := with_nodes g (pre' ++ x' :: l ++ post)).
    destruct (IH (pre ++ [x]) (pre' ++ [x']) post g1) as (l' & W2 & Sw).
    + rewrite <- app_assoc. exact E0.
    + rewrite !app_length. cbn. lia.
    + cbn. rewrite <- app_assoc. reflexivity.
    + exact (Forall_inv_tail HP).
    + exists (x' :: l'). rewrite app_length in W2. cbn [length] in W2.
      replace (Z.of_nat (length pre) + 1)%Z with (Z.of_nat (length pre + 1)) by lia.
      rewrite W2. split.
      { unfold g1. rewrite with_nodes_nodes, <- app_assoc. reflexivity. }
      constructor; assumption.
Qed.

Lemma empirical_spec c g dt : constants_ok c -> 0 < dt -> counted g -> layers_ok (g_nodes g) ->
  exists top, method_empirical c g dt
    = Ok (with_nodes g (top ++ skipn (nsnow c (g_nodes g)) (g_nodes g))) /\
    Forall2 (empirical_step c dt) (firstn (nsnow c (g_nodes g)) (g_nodes g)) top.
Proof.
  intros Hc Hdt Hn HF. unfold method_empirical. rewrite get_density_counted by exact Hn. cbn [bind].
  rewrite get_number_snow_layers_counted by exact Hn. cbn [bind].
  set (k := nsnow c (g_nodes g)). assert (Hk := nsnow_le c (g_nodes g)). fold k in Hk.
  destruct (empirical_loop c dt (g_nodes g) Hc Hdt (firstn k (g_nodes g)) [] [] (skipn k (g_nodes g)) g)
    as (top & W & F).
  - cbn. symmetry. apply firstn_skipn.
  - reflexivity.
  - cbn. symmetry. apply firstn_skipn.
  - unfold layers_ok in *. rewrite <- (firstn_skipn k (g_nodes g)) in HF. apply Forall_app in HF. apply HF.
  - exists top. rewrite firstn_length_le in W by exact Hk.
    change (Z.of_nat (length (@nil Node))) with 0%Z in W. cbn [app] in W.
    unfold for_range. replace (Z.to_nat (Z.of_nat k - 0)) with k by lia. rewrite W.
    split; [reflexivity|exact F].
Qed.

(** ** consequences *)
Lemma swept_length {A} (st : option Node -> A -> Node -> Node -> A -> Prop) p a l l' a' :
  swept st p a l l' a' -> length l' = length l.
Proof. induction 1; cbn; congruence. Qed.

(** invariants of a sweep *)
Lemma swept_inv {A} (st : option Node -> A -> Node -> Node -> A -> Prop)
  (I : A -> Prop) (Po : option Node -> Prop) (P : Node -> Prop) (Q : Node -> Node -> Prop) :
  (forall p a x x' a', Po p -> I a -> P x -> st p a x x' a' -> I a' /\ Q x x' /\ Po (Some x)) ->
  forall p a l l' a', swept st p a l l' a' -> Po p -> I a -> Forall P l -> I a' /\ Forall2 Q l l'.
Proof.
  intros H p a l l' a'. induction 1 as [|p a x x' a1 t t' a2 S Sw IH]; intros Hp Ha HP.
  - split; [exact Ha|constructor].
  - destruct (H _ _ _ _ _ Hp Ha (Forall_inv HP) S) as (Ha1 & HQ & Hp1).
    destruct (IH Hp1 Ha1 (Forall_inv_tail HP)) as [Ha2 F]. split; [exact Ha2|]. constructor; assumption.
Qed.

Lemma layer_weight_pos c x : constants_ok c -> 0 < n_height x /\ 0 < n_ice x /\ 0 <= n_lwc x ->
  0 < layer_weight c x.
Proof. intros Hc (Hh & Hi & Hw). apply Rmult_lt_0_compat; [exact Hh|]. apply density_positive; assumption. Qed.

Lemma layer_mass_pos c x : constants_ok c -> 0 < n_height x /\ 0 < n_ice x /\ 0 <= n_lwc x ->
  0 < layer_mass c x.
Proof.
  intros [] (Hh & Hi & Hw). unfold layer_mass. apply Rmult_lt_0_compat; [|exact Hh].
  assert (0 < c_ice_density c * n_ice x) by (apply Rmult_lt_0_compat; lra).
  assert (0 <= c_water_density c * n_lwc x) by (apply Rmult_le_pos; lra). lra.
Qed.

Lemma boone_rate_pos c M x : 0 <= M -> 0 < boone_rate c M x.
Proof.
  intros HM. unfold boone_rate.
  match goal with |- 0 < ?a / (3.7e7 * exp ?b) + 2.8e-6 * exp ?d =>
    assert (P1 := exp_pos b); assert (P2 := exp_pos d);
    set (e1 := exp b) in *; set (e2 := exp d) in * end.
  assert (0 <= M * 9.81 / (3.7e7 * e1)); [|lra].
  apply Rle_mult_inv_pos; lra.
Qed.

Lemma boone_rate_bound c M x : 0 <= M -> 0 <= layer_density c x ->
  n_temperature x <= c_zero_temperature c -> boone_rate c M x <= M * 9.81 / 3.7e7 + 2.8e-6.
Proof.
  intros HM Hd Ht. unfold boone_rate.
  assert (E1 : 1 <= exp (0.081 * (c_zero_temperature c - n_temperature x) + 0.018 * layer_density c x))
    by (apply exp_ge_1; lra).
  assert (E2 : exp (- 0.042 * (c_zero_temperature c - n_temperature x)
                  - 0.046 * Rmax 0 (layer_density c x - 150)) <= 1).
  { apply exp_le_1. assert (0 <= Rmax 0 (layer_density c x - 150)) by apply Rmax_l. lra. }
  set (e1 := exp _) in E1 |- *. set (e2 := exp _) in E2 |- *.
  assert (M * 9.81 / (3.7e7 * e1) <= M * 9.81 / 3.7e7); [|lra].
  unfold Rdiv. apply Rmult_le_compat_l; [lra|]. apply Rinv_le_contravar; lra.
Qed.

Lemma squeezed_dry_mass c d x x' : n_lwc x = 0 -> squeezed d 0 d x x' ->
  layer_mass c x' = (1 - d * d) * layer_mass c x.
Proof. intros W (E1 & E2 & E3 & _). unfold layer_mass. rewrite E1, E2, E3, W. ring. Qed.

Lemma squeezed_wet_mass c d x x' : squeezed (d / 2) (d / 2) d x x' ->
  layer_mass c x' = (1 + d / 2) * (1 - d) * layer_mass c x.
Proof. intros (E1 & E2 & E3 & _). unfold layer_mass. rewrite E1, E2, E3. ring. Qed.

Lemma column_mass_total c l : column_mass c l = total (layer_mass c) l.
Proof.
  unfold column_mass, column_ice, column_water. induction l as [|x l IH].
  - rewrite !total_nil. ring.
  - rewrite !total_cons, <- IH. unfold layer_mass. ring.
Qed.

Lemma total_Forall2_le f l l' : Forall2 (fun x x' => f x' <= f x) l l' -> total f l' <= total f l.
Proof. induction 1; rewrite ?total_nil, ?total_cons; lra. Qed.

Lemma total_Forall2_lt f l l' : Forall2 (fun x x' => f x' <= f x) l l' ->
  (exists i x x', nth_error l i = Some x /\ nth_error l' i = Some x' /\ f x' < f x) ->
  total f l' < total f l.
Proof.
  intros F. induction F as [|y y' l l' H F IH]; intros (i & x & x' & E & E' & Hlt).
  - destruct i; discriminate.
  - rewrite !total_cons. destruct i as [|i]; cbn in E, E'.
    + injection E as <-. injection E' as <-. assert (T := total_Forall2_le f l l' F). lra.
    + assert (total f l' < total f l) by (apply IH; eauto 6). lra.
Qed.
