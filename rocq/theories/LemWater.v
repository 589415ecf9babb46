(** * Lemmas about percolation and refreezing *)
From Verif Require Import ModelPy ModelConstants ModelNode ModelGrid ModelWater Spec LemPy
  LemGridBase LemCorrect.

Lemma only_lwc_set w x : only_lwc x (set_layer_lwc w x).
Proof. repeat split. Qed.
Lemma only_lwc_of_set w x x' : only_lwc (set_layer_lwc w x) x' -> only_lwc x x'.
Proof. intros H; exact H. Qed.

(** pouring [w] on top is the same as adding [w/h] to the first layer *)
Lemma bucket_pour w x t l q : 0 < n_height x ->
  bucket 0 (set_layer_lwc (n_lwc x + w / n_height x) x :: t) l q -> bucket w (x :: t) l q.
Proof.
  intros Hh B. remember (set_layer_lwc (n_lwc x + w / n_height x) x) as y eqn:Ey.
  assert (Hy : n_lwc y * n_height y = n_lwc x * n_height x + w).
  { subst y; cbn. field. lra. }
  assert (Hhy : n_height y = n_height x) by (subst y; reflexivity).
  inversion B as [w0 x0 x' H1 H2 E0 E1 E2|w0 x0 x' z t0 t' e q0 H1 H2 H3 H4 E0 E1 E2]; subst w0 x0; subst.
  - replace (n_lwc _ * n_height _ + 0) with (n_lwc x * n_height x + w).
    + constructor; [exact H1|exact H2].
    + rewrite <- Hy. ring.
  - apply bucket_step with (irreducible_content (n_ice x)); [reflexivity|exact H2| |].
    + rewrite Hy, Hhy in H3. rewrite H3. f_equal. ring.
    + rewrite Hy, Hhy in H4. replace (n_lwc x * n_height x + w - n_lwc x' * n_height x)
        with (n_lwc x * n_height x + w + 0 - n_lwc x' * n_height x) by ring. exact H4.
Qed.

Lemma perc_loop : forall rest x pre g,
  g_nodes g = pre ++ x :: rest -> column_ok (x :: rest) ->
  exists t' z, for_loop (length rest) (Z.of_nat (length pre)) percolation_body g
     = Ok (with_nodes g (pre ++ t' ++ [z])) /\
     length t' = length rest /\
     bucket 0 (x :: rest) (t' ++ [set_layer_lwc 0 z]) (n_lwc z * n_height z).
Proof.
  induction rest as [|y rest IH]; intros x pre g E Hok.
  - exists [], x. cbn [length for_loop app].
    rewrite <- E, with_nodes_same. split; [reflexivity|]. split; [reflexivity|].
    replace (n_lwc x * n_height x) with (n_lwc x * n_height x + 0) by ring.
    constructor; [apply only_lwc_set|reflexivity].
  - assert (Hx := Forall_inv Hok). assert (Hy := Forall_inv (Forall_inv_tail Hok)).
    cbv beta in Hx, Hy. assert (He := irreducible_ok x ltac:(tauto)).
    set (e := irreducible_content (n_ice x)) in *.
    cbn [length for_loop].
    unfold percolation_body at 1. unfold get_node_irreducible, get_node_lwc.
    rewrite (get_node_mid g pre x (y :: rest) E). cbn [bind]. rewrite He. cbn [bind].
    replace (Z.of_nat (length pre) + 1)%Z with (Z.of_nat (length (pre ++ [x])))
      by (rewrite app_length; cbn [length]; lia).
    destruct (Rltb_spec 0 (Rmax (n_lwc x - e) 0)) as [L|L].
    + assert (Hm : Rmax (n_lwc x - e) 0 = n_lwc x - e).
      { unfold Rmax in *. destruct (Rle_dec (n_lwc x - e) 0); lra. }
      rewrite Hm in *.
      unfold set_node_lwc, get_node_height.
      rewrite (upd_node_mid g pre x (y :: rest) _ E). cbn [bind].
      set (x' := set_layer_lwc e x).
      set (g1 := with_nodes g (pre ++ x' :: y :: rest)).
      rewrite (get_node_mid g1 pre x' (y :: rest) eq_refl). cbn [bind].
      assert (E1 : g_nodes g1 = (pre ++ [x']) ++ y :: rest)
        by (cbn; rewrite <- app_assoc; reflexivity).
      assert (Lx : length (pre ++ [x]) = length (pre ++ [x'])) by (rewrite !app_length; reflexivity).
      rewrite Lx.
      rewrite (get_node_mid g1 (pre ++ [x']) y rest E1). cbn [bind].
      rewrite fdiv_ok by lra. cbn [bind].
      rewrite (upd_node_mid g1 (pre ++ [x']) y rest _ E1). cbn [bind].
      set (y' := set_layer_lwc _ y).
      set (g2 := with_nodes g1 _).
      destruct (IH y' (pre ++ [x']) g2 eq_refl) as (t' & z & W & Lt & B).
      { constructor; [exact Hy|exact (Forall_inv_tail (Forall_inv_tail Hok))]. }
      exists (x' :: t'), z. rewrite W. split.
      { unfold g2, g1. rewrite !with_nodes_nodes, <- app_assoc. reflexivity. }
      split; [cbn [length]; lia|].
      cbn [app]. apply bucket_step with e; [reflexivity|apply only_lwc_set| |].
      * cbn. rewrite Rmin_right by nra. reflexivity.
      * cbn [x' set_layer_lwc n_lwc n_height].
        replace (n_lwc x * n_height x + 0 - e * n_height x) with ((n_lwc x - e) * n_height x) by ring.
        apply bucket_pour; [tauto|]. exact B.
    + assert (Hle : n_lwc x <= e).
      { unfold Rmax in L. destruct (Rle_dec (n_lwc x - e) 0); lra. }
      assert (E1 : g_nodes g = (pre ++ [x]) ++ y :: rest) by (rewrite E, <- app_assoc; reflexivity).
      cbn [bind].
      destruct (IH y (pre ++ [x]) g E1 (Forall_inv_tail Hok)) as (t' & z & W & Lt & B).
      exists (x :: t'), z. rewrite W. split; [rewrite <- app_assoc; reflexivity|].
      split; [cbn [length]; lia|]. cbn [app].
      apply bucket_step with e; [reflexivity|repeat split| |].
      * rewrite Rmin_left by nra. ring.
      * replace (n_lwc x * n_height x + 0 - n_lwc x * n_height x) with 0 by ring. exact B.
Qed.

(** percolation is the bucket scheme *)
Lemma percolation_bucket g water :
  counted g -> column_ok (g_nodes g) -> g_nodes g <> [] ->
  exists g' q, percolation g water = Ok (g', q) /\ bucket water (g_nodes g) (g_nodes g') q /\
    g_number_nodes g' = g_number_nodes g /\ same_clock g g'.
Proof.
  intros Hc Hok Hne. destruct (g_nodes g) as [|x rest] eqn:E; [congruence|].
  assert (Hx := Forall_inv Hok). cbv beta in Hx.
  unfold percolation, get_node_height, get_node_lwc, set_node_lwc.
  rewrite (get_node_mid g [] x rest E : get_node g 0 = _). cbn [bind].
  rewrite fdiv_ok by lra. cbn [bind].
  rewrite (upd_node_mid g [] x rest _ E : upd_node g 0 _ = _). cbn [bind app].
  set (x' := set_layer_lwc _ x).
  set (g1 := with_nodes g _).
  assert (Hn : (g_number_nodes g1 - 1 = Z.of_nat (length rest))%Z).
  { cbn. unfold counted in Hc. rewrite Hc, E. cbn [length]. lia. }
  unfold for_range. rewrite Hn.
  replace (Z.to_nat (Z.of_nat (length rest) - 0)) with (length rest) by lia.
  destruct (perc_loop rest x' [] g1 eq_refl) as (t' & z & W & Lt & B).
  { constructor; [exact Hx|exact (Forall_inv_tail Hok)]. }
  cbn [length Z.of_nat] in W. rewrite W. cbn [bind app].
  unfold get_runoff. set (g2 := with_nodes g1 _).
  assert (Hi : (g_number_nodes g2 - 1 = Z.of_nat (length t'))%Z).
  { cbn in *. lia. }
  rewrite Hi. unfold get_node_lwc, get_node_height, set_node_lwc.
  rewrite (get_node_mid g2 t' z [] eq_refl). cbn [bind].
  rewrite (upd_node_mid g2 t' z [] _ eq_refl). cbn [bind].
  eexists; eexists. split; [reflexivity|]. split.
  - apply bucket_pour; [tauto|]. exact B.
  - split; [reflexivity|repeat split].
Qed.

(** consequences of the bucket scheme *)
Lemma bucket_water w l l' q : positive_heights l -> bucket w l l' q ->
  column_water l' + q = column_water l + w.
Proof.
  intros Hp B. induction B as [w x x' H1 H2|w x x' y t t' e q H1 H2 H3 B IH];
    unfold column_water in *; rewrite ?total_cons, ?total_nil.
  - rewrite H2. ring.
  - specialize (IH (Forall_inv_tail Hp)). rewrite total_cons in IH.
    destruct H2 as (Hh & _). rewrite Hh. lra.
Qed.

Lemma bucket_only_lwc w l l' q : bucket w l l' q -> Forall2 only_lwc l l'.
Proof. induction 1; constructor; auto. Qed.

Lemma only_lwc_total f l l' : (forall x x', only_lwc x x' -> f x' = f x) ->
  Forall2 only_lwc l l' -> total f l' = total f l.
Proof.
  intros Hf. induction 1 as [|x x' l l' H _ IH]; rewrite ?total_cons; [reflexivity|].
  rewrite IH, (Hf _ _ H). reflexivity.
Qed.

Lemma bucket_limits w l l' q : positive_heights l -> bucket w l l' q ->
  exists t z, l' = t ++ [z] /\ n_lwc z = 0 /\
    Forall (fun n => n_lwc n <= irreducible_content (n_ice n)) t.
Proof.
  intros Hp B. induction B as [w x x' H1 H2|w x x' y t t' e q H1 H2 H3 B IH].
  - exists [], x'. auto.
  - destruct (IH (Forall_inv_tail Hp)) as (t0 & z & -> & Hz & F).
    exists (x' :: t0), z. split; [reflexivity|]. split; [exact Hz|]. constructor; [|exact F].
    destruct H2 as (_ & _ & Hi & _). rewrite Hi, <- H1.
    assert (Hx := Forall_inv Hp). cbn in Hx.
    assert (n_lwc x' * n_height x <= e * n_height x) by (rewrite H3; apply Rmin_r).
    apply Rmult_le_reg_r with (n_height x); lra.
Qed.

Lemma bucket_nonneg w l l' q :
  Forall (fun n => 0 < n_height n /\ 0 < n_ice n <= 1 /\ 0 <= n_lwc n) l -> 0 <= w ->
  bucket w l l' q -> Forall (fun n => 0 <= n_lwc n) l' /\ 0 <= q.
Proof.
  intros Hp Hw B. induction B as [w x x' H1 H2|w x x' y t t' e q H1 H2 H3 B IH].
  - assert (Hx := Forall_inv Hp). cbn in Hx. split; [repeat constructor; lra|nra].
  - assert (Hx := Forall_inv Hp). cbn in Hx. destruct Hx as (Hh & Hi & Hl).
    assert (0 <= e) by (subst e; apply irreducible_nonneg; assumption).
    assert (0 <= n_lwc x' * n_height x) by (rewrite H3; apply Rmin_glb; nra).
    assert (n_lwc x' * n_height x <= n_lwc x * n_height x + w) by (rewrite H3; apply Rmin_l).
    destruct IH as [F Q]; [exact (Forall_inv_tail Hp)|lra|].
    split; [|exact Q]. constructor; [|exact F].
    apply Rmult_le_reg_r with (n_height x); lra.
Qed.

(** ** Loops that treat every node on its own *)
Definition sumR (l : list R) : R := fold_right Rplus 0 l.

Lemma for_each_node (P : Node -> Prop) (Rl : Node -> Node -> R -> Prop)
  (body : Z -> Grid * R -> res (Grid * R)) :
  (forall g pre x post acc, g_nodes g = pre ++ x :: post -> P x ->
     exists x' a, body (Z.of_nat (length pre)) (g, acc)
       = Ok (with_nodes g (pre ++ x' :: post), acc + a) /\ Rl x x' a) ->
  forall l pre g acc, g_nodes g = pre ++ l -> Forall P l ->
  exists ps, for_loop (length l) (Z.of_nat (length pre)) body (g, acc)
       = Ok (with_nodes g (pre ++ map fst ps), acc + sumR (map snd ps)) /\
     Forall2 (fun x p => Rl x (fst p) (snd p)) l ps.
Proof.
  intros Hb. induction l as [|x l IH]; intros pre g acc E HP.
  - exists []. cbn. rewrite Rplus_0_r. rewrite <- E, with_nodes_same. split; [reflexivity|constructor].
  - destruct (Hb g pre x l acc E (Forall_inv HP)) as (x' & a & W & HR).
    cbn [length for_loop]. rewrite W. cbn [bind].
    set (g1 := with_nodes g (pre ++ x' :: l)).
    assert (E1 : g_nodes g1 = (pre ++ [x']) ++ l) by (cbn; rewrite <- app_assoc; reflexivity).
    replace (Z.of_nat (length pre) + 1)%Z with (Z.of_nat (length (pre ++ [x'])))
      by (rewrite app_length; cbn [length]; lia).
    destruct (IH (pre ++ [x']) g1 (acc + a) E1 (Forall_inv_tail HP)) as (ps & W2 & F).
    exists ((x', a) :: ps). split.
    + rewrite W2. unfold g1. rewrite with_nodes_nodes, <- app_assoc.
      unfold sumR. cbn [map fst snd fold_right app].
      rewrite (Rplus_assoc acc a). reflexivity.
    + constructor; [exact HR|exact F].
Qed.

(** ** Refreezing *)
Lemma phi_ice_max_ok c : constants_ok c -> phi_ice_max c = Ok (close_off c).
Proof.
  intros [H1 H2 H3 H4 H5 _ _ _ _ _ _ _ _ _ _ _ _ _ _ _ _ _]. unfold phi_ice_max. rewrite fdiv_ok by lra. reflexivity.
Qed.

Lemma close_off_bounds c : constants_ok c -> 0 < close_off c < 1.
Proof.
  intros [H1 H2 H3 H4 H5 _ _ _ _ _ _ _ _ _ _ _ _ _ _ _ _ _]. unfold close_off.
  split.
  - apply Rmult_lt_0_compat; [lra|]. apply Rinv_0_lt_compat; lra.
  - apply Rmult_lt_reg_r with (c_ice_density c - c_air_density c); [lra|].
    unfold Rdiv. rewrite Rmult_assoc, Rinv_l by lra. lra.
Qed.

Lemma freezable_bounds c n : constants_ok c -> fractions_ok n ->
  n_temperature n <= c_zero_temperature c ->
  0 <= freezable c n <= n_lwc n /\
  freezable c n <= Rmax ((close_off c - n_ice n) * (c_ice_density c / c_water_density c)) 0 /\
  freezable c n * (c_water_density c * c_lat_heat_melting c)
    <= c_spec_heat_ice c * c_ice_density c * n_ice n * (c_zero_temperature c - n_temperature n).
Proof.
  intros Hc (F1 & F2 & F3) HT. destruct Hc.
  set (b := c_spec_heat_ice c * c_ice_density c * n_ice n * (c_zero_temperature c - n_temperature n)
        / (c_water_density c * c_lat_heat_melting c)).
  assert (HwL : 0 < c_water_density c * c_lat_heat_melting c) by (apply Rmult_lt_0_compat; assumption).
  assert (Hb : b * (c_water_density c * c_lat_heat_melting c) =
     c_spec_heat_ice c * c_ice_density c * n_ice n * (c_zero_temperature c - n_temperature n)).
  { unfold b. field. lra. }
  assert (Hb0 : 0 <= b).
  { apply Rmult_le_reg_r with (c_water_density c * c_lat_heat_melting c); [exact HwL|].
    rewrite Hb, Rmult_0_l. repeat apply Rmult_le_pos; lra. }
  unfold freezable. fold b.
  set (d := Rmax _ 0). assert (Hd : 0 <= d) by apply Rmax_r.
  split; [split|split].
  - apply Rmin_glb; [apply Rmin_glb|]; assumption.
  - eapply Rle_trans; [apply Rmin_l|apply Rmin_l].
  - eapply Rle_trans; [apply Rmin_l|apply Rmin_r].
  - rewrite <- Hb. apply Rmult_le_compat_r; [lra|apply Rmin_r].
Qed.

(** the "cold content" limit of the code never binds: the cruder bulk limit is
    always smaller *)
Lemma refreeze_limit_ok c n : constants_ok c -> fractions_ok n ->
  n_temperature n <= c_zero_temperature c -> cold_ok c n ->
  refreeze_limit c (close_off c) (n_ice n) (n_lwc n) (n_temperature n) = Ok (freezable c n).
Proof.
  intros Hc (F1 & F2 & F3) HT (_ & HC). destruct Hc.
  set (dl := c_zero_temperature c - n_temperature n) in *.
  assert (Hdl : 0 <= dl) by (unfold dl; lra).
  unfold refreeze_limit. rewrite fdiv_ok by lra. cbn [bind].
  replace (n_temperature n - c_zero_temperature c) with (- dl) by (unfold dl; ring).
  assert (HD : 0 < c_lat_heat_melting c - - dl * (c_spec_heat_ice c - c_spec_heat_water c)) by lra.
  assert (HwD : 0 < c_water_density c * (c_lat_heat_melting c - - dl * (c_spec_heat_ice c - c_spec_heat_water c)))
    by (apply Rmult_lt_0_compat; assumption).
  assert (HwL : 0 < c_water_density c * c_lat_heat_melting c) by (apply Rmult_lt_0_compat; assumption).
  rewrite fdiv_ok by lra. cbn [bind]. rewrite fdiv_ok by lra. cbn [bind].
  unfold freezable. fold dl. f_equal.
  set (cold := _ / (c_water_density c * _)) at 1.
  set (bulk := _ / (c_water_density c * c_lat_heat_melting c)) at 1.
  set (bulk' := c_spec_heat_ice c * c_ice_density c * n_ice n * dl / (c_water_density c * c_lat_heat_melting c)).
  assert (Eb : bulk = bulk') by (unfold bulk, bulk'; f_equal; ring). rewrite Eb.
  assert (Hle : bulk' <= cold).
  { set (A := c_spec_heat_ice c * c_ice_density c * n_ice n * dl) in *.
    assert (HA : 0 <= A) by (unfold A; repeat apply Rmult_le_pos; lra).
    assert (HA2 : 0 <= dl * (n_lwc n * c_water_density c * c_spec_heat_water c))
      by (repeat apply Rmult_le_pos; lra).
    assert (Hinv : / (c_water_density c * c_lat_heat_melting c) <=
       / (c_water_density c * (c_lat_heat_melting c - - dl * (c_spec_heat_ice c - c_spec_heat_water c)))).
    { apply Rinv_le_contravar; [exact HwD|]. apply Rmult_le_compat_l; [lra|].
      assert (0 <= dl * (c_spec_heat_water c - c_spec_heat_ice c)) by (apply Rmult_le_pos; lra). lra. }
    assert (Hpos : 0 < / (c_water_density c * (c_lat_heat_melting c - - dl * (c_spec_heat_ice c - c_spec_heat_water c))))
      by (apply Rinv_0_lt_compat; exact HwD).
    unfold bulk', cold, Rdiv. fold A.
    apply Rle_trans with (A * / (c_water_density c * (c_lat_heat_melting c - - dl * (c_spec_heat_ice c - c_spec_heat_water c)))).
    - apply Rmult_le_compat_l; assumption.
    - apply Rmult_le_compat_r; [lra|]. unfold A. lra. }
  set (m := Rmin (n_lwc n) _).
  unfold Rmin at 1 2. unfold Rmin. destruct (Rle_dec m cold), (Rle_dec m bulk');
   try destruct (Rle_dec cold bulk'); lra.
Qed.

Lemma upd_refreeze_mid g pre x post r :
  g_nodes g = pre ++ x :: post ->
  set_node_refreeze g (Z.of_nat (length pre)) r
  = Ok (with_nodes g (pre ++ set_layer_refreeze r x :: post)).
Proof. intros E. unfold set_node_refreeze. now apply upd_node_mid. Qed.

Definition refreeze_ok (c : Consts) (n : Node) : Prop := fractions_ok n /\ cold_ok c n.

Lemma refreezing_body_ok c g pre x post acc :
  constants_ok c -> g_nodes g = pre ++ x :: post -> refreeze_ok c x ->
  exists x' a, refreezing_body c (close_off c) (Z.of_nat (length pre)) (g, acc)
       = Ok (with_nodes g (pre ++ x' :: post), acc + a) /\
    exists d, a = d * n_height x /\ frozen c x x' d.
Proof.
  intros Hc E [HF HC]. unfold refreezing_body, get_node_temperature, get_node_lwc, get_node_height,
    get_node_ice_fraction.
  rewrite (get_node_mid g pre x post E). cbn [bind].
  destruct (Rleb_spec (n_temperature x) (c_zero_temperature c)) as [HT|HT].
  - destruct (Rltb_spec 0 (n_lwc x)) as [Hw|Hw]; cbn [andb].
    + rewrite (refreeze_limit_ok c x Hc HF HT HC). cbn [bind].
      destruct (freezable_bounds c x Hc HF HT) as ((B1 & B2) & B3 & B4).
      set (d := freezable c x) in *.
      assert (Hc' := Hc). destruct Hc'.
      rewrite fdiv_ok by lra. cbn [bind].
      destruct HF as (F1 & F2 & F3).
      set (di := c_water_density c / c_ice_density c * d).
      assert (Hdi : di * c_ice_density c = c_water_density c * d) by (unfold di; field; lra).
      assert (Hdi0 : 0 <= di).
      { unfold di. apply Rmult_le_pos; [|lra]. apply Rmult_le_pos; [lra|].
        apply Rlt_le, Rinv_0_lt_compat. lra. }
      assert (Hcl := close_off_bounds c Hc).
      assert (Hdi1 : n_ice x + di <= Rmax (n_ice x) (close_off c)).
      { unfold Rmax in B3. 
        destruct (Rle_dec ((close_off c - n_ice x) * (c_ice_density c / c_water_density c)) 0) as [L|L].
        - assert (d = 0) by lra. assert (di = 0) by (unfold di; rewrite H; ring).
          rewrite H0, Rplus_0_r. apply Rmax_l.
        - eapply Rle_trans; [|apply Rmax_r].
          assert (di <= close_off c - n_ice x); [|lra].
          apply Rmult_le_reg_r with (c_ice_density c); [lra|]. rewrite Hdi.
          apply Rle_trans with (c_water_density c * ((close_off c - n_ice x) * (c_ice_density c / c_water_density c))).
          + apply Rmult_le_compat_l; lra.
          + right. field. lra. }
      assert (Hm1 : Rmax (n_ice x) (close_off c) <= 1) by (apply Rmax_lub; lra).
      unfold check_oob.
      rewrite (Rleb_true 0 (n_ice x + di)) by lra. rewrite (Rleb_true (n_ice x + di) 1) by lra.
      rewrite (Rleb_true 0 (n_lwc x - d)) by lra. rewrite (Rleb_true (n_lwc x - d) 1) by lra.
      cbn [andb negb bind].
      unfold set_node_lwc, set_node_ice_fraction, set_node_temperature.
      rewrite (upd_node_mid g pre x post _ E). cbn [bind].
      set (x1 := set_layer_lwc _ x). set (g1 := with_nodes g (pre ++ x1 :: post)).
      rewrite (upd_node_mid g1 pre x1 post _ eq_refl). cbn [bind].
      set (x2 := set_layer_ice _ x1). set (g2 := with_nodes g1 (pre ++ x2 :: post)).
      rewrite (get_node_mid g2 pre x2 post eq_refl). cbn [bind].
      change (n_ice x2) with (n_ice x + di). change (n_lwc x2) with (n_lwc x - d).
      set (D := c_spec_heat_ice c * c_ice_density c * (n_ice x + di)
                + c_spec_heat_water c * c_water_density c * (n_lwc x - d)).
      assert (HD : 0 < D).
      { unfold D.
        assert (0 <= c_spec_heat_water c * c_water_density c * (n_lwc x - d))
          by (apply Rmult_le_pos; [apply Rmult_le_pos|]; lra).
        assert (0 <= c_spec_heat_ice c * c_ice_density c * (n_ice x + di))
          by (apply Rmult_le_pos; [apply Rmult_le_pos|]; lra).
        destruct (Req_EM_T d (n_lwc x)) as [Ed|Ed].
        - assert (0 < di).
          { apply Rmult_lt_reg_r with (c_ice_density c); [lra|]. rewrite Hdi, Rmult_0_l.
            apply Rmult_lt_0_compat; lra. }
          assert (0 < c_spec_heat_ice c * c_ice_density c * (n_ice x + di)); [|lra].
          apply Rmult_lt_0_compat; [apply Rmult_lt_0_compat|]; lra.
        - assert (0 < c_spec_heat_water c * c_water_density c * (n_lwc x - d)); [|lra].
          apply Rmult_lt_0_compat; [apply Rmult_lt_0_compat|]; lra. }
      rewrite fdiv_ok by lra. cbn [bind].
      rewrite (upd_node_mid g2 pre x2 post _ eq_refl). cbn [bind].
      set (dT := d * (c_water_density c * c_lat_heat_melting c) / D).
      assert (HdT0 : 0 <= dT).
      { unfold dT. apply Rmult_le_pos; [|apply Rlt_le, Rinv_0_lt_compat; exact HD].
        apply Rmult_le_pos; [lra|]. apply Rmult_le_pos; lra. }
      rewrite Rltb_false by (destruct HC; lra). cbn [bind].
      set (x3 := set_layer_temperature _ x2). set (g3 := with_nodes g2 (pre ++ x3 :: post)).
      rewrite (get_node_mid g3 pre x3 post eq_refl). cbn [bind].
      rewrite (upd_refreeze_mid g3 pre x3 post _ eq_refl). cbn [bind].
      eexists; eexists. split; [reflexivity|].
      exists d. split; [reflexivity|].
      split; [reflexivity|]. split; [reflexivity|].
      split. { cbn. fold d. fold di. lra. }
      split. { unfold heat_capacity. cbn. fold d di.
               replace (n_temperature x + dT - n_temperature x) with dT by ring.
               fold D. unfold dT. field. lra. }
      split; [reflexivity|].
      destruct (Rle_dec (n_temperature x) (c_zero_temperature c)); [reflexivity|lra].
    + (* no water *)
      assert (Hw0 : n_lwc x = 0) by (destruct HF; lra).
      cbn [bind]. rewrite (get_node_mid g pre x post E). cbn [bind].
      rewrite (upd_refreeze_mid g pre x post _ E). cbn [bind].
      eexists; eexists. split; [reflexivity|]. exists 0. split; [reflexivity|].
      split; [reflexivity|]. split; [cbn; ring|]. split; [reflexivity|].
      split. { cbn. ring. } split; [reflexivity|].
      destruct (Rle_dec (n_temperature x) (c_zero_temperature c)); [|lra].
      destruct (freezable_bounds c x Hc HF r) as ((B1 & B2) & _). lra.
  - cbn [andb bind]. rewrite (get_node_mid g pre x post E). cbn [bind].
    rewrite (upd_refreeze_mid g pre x post _ E). cbn [bind].
    eexists; eexists. split; [reflexivity|]. exists 0. split; [reflexivity|].
    split; [reflexivity|]. split; [cbn; ring|]. split; [reflexivity|].
    split. { cbn. ring. } split; [reflexivity|].
    destruct (Rle_dec (n_temperature x) (c_zero_temperature c)); [lra|reflexivity].
Qed.

(** refreezing treats every layer on its own *)
Lemma refreezing_spec c g : constants_ok c -> counted g -> Forall (refreeze_ok c) (g_nodes g) ->
  exists g' ps, refreezing c g = Ok (g', sumR (map snd ps)) /\ g_nodes g' = map fst ps /\
    g_number_nodes g' = g_number_nodes g /\ same_clock g g' /\
    Forall2 (fun x p => exists d, snd p = d * n_height x /\ frozen c x (fst p) d) (g_nodes g) ps.
Proof.
  intros Hc Hn Hok. unfold refreezing. rewrite phi_ice_max_ok by exact Hc. cbn [bind].
  unfold for_range. unfold counted in Hn. rewrite Hn.
  replace (Z.to_nat (Z.of_nat (length (g_nodes g)) - 0)) with (length (g_nodes g)) by lia.
  destruct (for_each_node (refreeze_ok c)
     (fun x x' a => exists d, a = d * n_height x /\ frozen c x x' d)
     (refreezing_body c (close_off c))) with (l := g_nodes g) (pre := @nil Node) (g := g) (acc := 0)
     as (ps & W & F).
  - intros g0 pre x post acc E Hx. destruct (refreezing_body_ok c g0 pre x post acc Hc E Hx) as (x' & a & W & H).
    exists x', a. auto.
  - reflexivity.
  - exact Hok.
  - cbn [length Z.of_nat app] in W. rewrite W.
    eexists; exists ps. rewrite Rplus_0_l. split; [reflexivity|]. split; [reflexivity|].
    split; [exact Hn|]. split; [repeat split|exact F].
Qed.

(** consequences for one layer *)
Lemma frozen_bounds c x x' d : constants_ok c -> fractions_ok x -> frozen c x x' d ->
  0 <= d <= n_lwc x /\ 0 <= n_lwc x' /\ n_ice x <= n_ice x' /\
  n_ice x' <= Rmax (n_ice x) (close_off c).
Proof.
  intros Hc HF (H1 & H2 & H3 & H4 & H5 & H6).
  assert (Hb : 0 <= d <= n_lwc x /\
     d <= Rmax ((close_off c - n_ice x) * (c_ice_density c / c_water_density c)) 0).
  { destruct (Rle_dec (n_temperature x) (c_zero_temperature c)) as [L|L].
    - rewrite H6. destruct (freezable_bounds c x Hc HF L) as (A & B & _). tauto.
    - rewrite H6. destruct HF as (F1 & F2 & F3). split; [lra|apply Rmax_r]. }
  destruct Hb as (B1 & B3). destruct Hc.
  split; [exact B1|]. split; [lra|].
  assert (Hi : c_ice_density c * (n_ice x' - n_ice x) = c_water_density c * d).
  { rewrite H2 in H3. lra. }
  split.
  - assert (0 <= c_water_density c * d) by (apply Rmult_le_pos; lra).
    apply Rmult_le_reg_l with (c_ice_density c); [lra|]. lra.
  - unfold Rmax in B3.
    destruct (Rle_dec ((close_off c - n_ice x) * (c_ice_density c / c_water_density c)) 0) as [L|L].
    + assert (d = 0) by lra. subst d. rewrite H in Hi.
      eapply Rle_trans; [|apply Rmax_l].
      apply Rmult_le_reg_l with (c_ice_density c); lra.
    + eapply Rle_trans; [|apply Rmax_r].
      apply Rmult_le_reg_l with (c_ice_density c); [lra|].
      assert (c_water_density c * d <= c_water_density c * ((close_off c - n_ice x) * (c_ice_density c / c_water_density c)))
        by (apply Rmult_le_compat_l; lra).
      replace (c_water_density c * ((close_off c - n_ice x) * (c_ice_density c / c_water_density c)))
        with (c_ice_density c * (close_off c - n_ice x)) in H by (field; lra). lra.
Qed.

Lemma frozen_temperature c x x' d : constants_ok c -> fractions_ok x -> frozen c x x' d ->
  n_temperature x <= n_temperature x' <= Rmax (n_temperature x) (c_zero_temperature c)
  \/ (n_ice x = 0 /\ n_lwc x = 0).
Proof.
  intros Hc HF H. destruct (frozen_bounds c x x' d Hc HF H) as ((D1 & D2) & W & I1 & I2).
  destruct H as (H1 & H2 & H3 & H4 & H5 & H6). destruct HF as (F1 & F2 & F3).
  destruct (Req_EM_T (n_ice x) 0) as [Z1|Z1]; [destruct (Req_EM_T (n_lwc x) 0) as [Z2|Z2]; [right; auto|]|];
  left.
  all: assert (HH : 0 < heat_capacity c x').
  1,3: unfold heat_capacity; destruct Hc;
    assert (0 <= c_spec_heat_ice c * c_ice_density c * n_ice x')
      by (apply Rmult_le_pos; [apply Rmult_le_pos|]; lra);
    assert (0 <= c_spec_heat_water c * c_water_density c * n_lwc x')
      by (apply Rmult_le_pos; [apply Rmult_le_pos|]; lra).
  - destruct (Req_EM_T (n_lwc x') 0) as [Z3|Z3].
    + assert (0 < n_ice x').
      { assert (c_ice_density c * n_ice x' = c_water_density c * n_lwc x) by (rewrite Z1, Z3 in H3; lra).
        assert (0 < c_water_density c * n_lwc x) by (apply Rmult_lt_0_compat; lra).
        apply Rmult_lt_reg_l with (c_ice_density c); lra. }
      assert (0 < c_spec_heat_ice c * c_ice_density c * n_ice x'); [|lra].
      apply Rmult_lt_0_compat; [apply Rmult_lt_0_compat|]; lra.
    + assert (0 < c_spec_heat_water c * c_water_density c * n_lwc x'); [|lra].
      apply Rmult_lt_0_compat; [apply Rmult_lt_0_compat|]; lra.
  - assert (0 < c_spec_heat_ice c * c_ice_density c * n_ice x'); [|lra].
    apply Rmult_lt_0_compat; [apply Rmult_lt_0_compat|]; lra.
  - destruct Hc. assert (HL : 0 <= c_water_density c * c_lat_heat_melting c * d)
      by (apply Rmult_le_pos; [apply Rmult_le_pos|]; lra).
    assert (Hinc : n_temperature x <= n_temperature x').
    { apply Rmult_le_reg_l with (heat_capacity c x'); lra. }
    split; [exact Hinc|].
    destruct (Rle_dec (n_temperature x) (c_zero_temperature c)) as [L|L].
    + eapply Rle_trans; [|apply Rmax_r].
      assert (Hf := proj2 (proj2 (freezable_bounds c x ltac:(constructor; assumption) (conj F1 (conj F2 F3)) L))).
      rewrite <- H6 in Hf.
      apply Rmult_le_reg_l with (heat_capacity c x'); [exact HH|].
      assert (heat_capacity c x' * (n_temperature x' - n_temperature x)
              <= heat_capacity c x' * (c_zero_temperature c - n_temperature x)); [|lra].
      rewrite H4. eapply Rle_trans; [|apply Rmult_le_compat_r with (r1 := c_spec_heat_ice c * c_ice_density c * n_ice x)].
      * lra.
      * lra.
      * unfold heat_capacity.
        assert (0 <= c_spec_heat_water c * c_water_density c * n_lwc x')
          by (apply Rmult_le_pos; [apply Rmult_le_pos|]; lra).
        assert (c_spec_heat_ice c * c_ice_density c * n_ice x <= c_spec_heat_ice c * c_ice_density c * n_ice x');
          [|lra].
        apply Rmult_le_compat_l; [apply Rmult_le_pos; lra|exact I1].
    + eapply Rle_trans; [|apply Rmax_l]. subst d.
      apply Rmult_le_reg_l with (heat_capacity c x'); [exact HH|]. lra.
  - destruct Hc. assert (HL : 0 <= c_water_density c * c_lat_heat_melting c * d)
      by (apply Rmult_le_pos; [apply Rmult_le_pos|]; lra).
    assert (Hinc : n_temperature x <= n_temperature x').
    { apply Rmult_le_reg_l with (heat_capacity c x'); lra. }
    split; [exact Hinc|].
    destruct (Rle_dec (n_temperature x) (c_zero_temperature c)) as [L|L].
    + eapply Rle_trans; [|apply Rmax_r].
      assert (Hf := proj2 (proj2 (freezable_bounds c x ltac:(constructor; assumption) (conj F1 (conj F2 F3)) L))).
      rewrite <- H6 in Hf.
      apply Rmult_le_reg_l with (heat_capacity c x'); [exact HH|].
      assert (heat_capacity c x' * (n_temperature x' - n_temperature x)
              <= heat_capacity c x' * (c_zero_temperature c - n_temperature x)); [|lra].
      rewrite H4. eapply Rle_trans; [|apply Rmult_le_compat_r with (r1 := c_spec_heat_ice c * c_ice_density c * n_ice x)].
      * lra.
      * lra.
      * unfold heat_capacity.
        assert (0 <= c_spec_heat_water c * c_water_density c * n_lwc x')
          by (apply Rmult_le_pos; [apply Rmult_le_pos|]; lra).
        assert (c_spec_heat_ice c * c_ice_density c * n_ice x <= c_spec_heat_ice c * c_ice_density c * n_ice x');
          [|lra].
        apply Rmult_le_compat_l; [apply Rmult_le_pos; lra|exact I1].
    + eapply Rle_trans; [|apply Rmax_l]. subst d.
      apply Rmult_le_reg_l with (heat_capacity c x'); [exact HH|]. lra.
Qed.
