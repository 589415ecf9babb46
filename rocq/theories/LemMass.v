(** * Mass of the column through the parts of a step *)
From Verif Require Import ModelPy ModelConstants ModelNode ModelGrid ModelWater ModelHeat ModelDensification
  ModelRadiation ModelAlbedo ModelSurface ModelInit ModelCore Spec SpecSurface SpecCore SpecRun
  LemPy LemGridBase LemGridOps LemGridMore LemLog LemDensification LemWater LemHeat LemSurface LemCore LemHealth LemFinGrid LemFinRadiation
  LemFinDensification LemFinSurface LemFinCore LemFinHeat LemFinRun.

(** ** A remeshing that ended also ends with more fuel *)
Lemma while_more {S} (cond : S -> res bool) (b1 b2 : S -> res S) fuel : forall k s r, (fuel <= k)%nat ->
  (forall s r, b1 s = Ok r -> b2 s = Ok r) ->
  while_loop fuel cond b1 s = Ok r -> while_loop k cond b2 s = Ok r.
Proof.
  induction fuel as [|fuel IH]; intros k s r Hk Hb H; [discriminate|]. destruct k as [|k]; [lia|].
  cbn [while_loop] in *. destruct (cond s) as [b|]; [|discriminate]. cbn [bind] in *. destruct b; [|exact H].
  apply bind_ok in H. destruct H as (s1 & E & H). rewrite (Hb _ _ E). cbn [bind]. apply IH; [lia|exact Hb|exact H].
Qed.

Lemma correct_layer_more fuel k c g i h r : (fuel <= k)%nat ->
  correct_layer fuel c g i h = Ok r -> correct_layer k c g i h = Ok r.
Proof.
  intros Hk H. unfold correct_layer in *. apply bind_ok in H. destruct H as (th & E & H). rewrite E. cbn [bind].
  apply bind_ok in H. destruct H as (x & Ew & H). rewrite (while_more _ _ _ _ k _ _ Hk (fun s r X => X) Ew). exact H.
Qed.

Lemma log_profile_more fuel k c g r : (fuel <= k)%nat -> log_profile fuel c g = Ok r -> log_profile k c g = Ok r.
Proof.
  intros Hk H. unfold log_profile in *. apply bind_ok in H. destruct H as (hs & E & H). rewrite E. cbn [bind].
  apply bind_ok in H. destruct H as ((((g1 & i1) & h1) & l1) & Ew & H).
  rewrite (while_more _ _ (log_snow_body k c) _ k _ _ Hk) with (2 := Ew).
  2:{ intros [[[gs is] hrs] ls] r0 X. cbn [log_snow_body] in *. destruct (Rleb ls hrs); [|exact X].
      apply bind_ok in X. destruct X as (g0 & X1 & X). rewrite (correct_layer_more _ _ _ _ _ _ _ Hk X1). exact X. }
  cbn [bind]. apply bind_ok in H. destruct H as (th & E1 & H). rewrite E1. cbn [bind].
  apply bind_ok in H. destruct H as (sh & E2 & H). rewrite E2. cbn [bind].
  apply bind_ok in H. destruct H as (ix & E3 & H). rewrite E3. cbn [bind].
  apply bind_ok in H. destruct H as ((((g2 & i2) & h2) & l2) & Ew2 & H).
  rewrite (while_more _ _ (log_ice_body k c) _ k _ _ Hk) with (2 := Ew2).
  2:{ intros [[[gs is] hrs] ls] r0 X. cbn [log_ice_body] in *. destruct (Rleb ls hrs); [|exact X].
      apply bind_ok in X. destruct X as (g0 & X1 & X). rewrite (correct_layer_more _ _ _ _ _ _ _ Hk X1). exact X. }
  exact H.
Qed.

Lemma adaptive_profile_more fuel k c g r : (fuel <= k)%nat -> adaptive_profile fuel c g = Ok r -> adaptive_profile k c g = Ok r.
Proof.
  intros Hk H. unfold adaptive_profile, adaptive_snow in *. apply bind_ok in H. destruct H as (((g1 & i1) & m1) & Ew & H).
  rewrite (while_more _ _ _ _ k _ _ Hk (fun s r X => X) Ew). cbn [bind].
  apply bind_ok in H. destruct H as (kk & E1 & H). rewrite E1. cbn [bind].
  apply bind_ok in H. destruct H as (h & E2 & H). rewrite E2. cbn [bind].
  apply bind_ok in H. destruct H as ((g2 & ix) & E3 & H).
  destruct ((Z.max 1 kk =? 1)%Z && Rltb h (c_first_layer_height c)).
  - apply bind_ok in E3. destruct E3 as (g0 & X1 & X). rewrite (correct_layer_more _ _ _ _ _ _ _ Hk X1). cbn [bind].
    injection X as <- <-. apply bind_ok in H. destruct H as ((g3 & i3) & Ew3 & H).
    rewrite (while_more _ _ _ _ k _ _ Hk (fun s r X => X) Ew3). cbn [bind]. eapply correct_layer_more; eassumption.
  - injection E3 as <- <-. cbn [bind]. apply bind_ok in H. destruct H as ((g3 & i3) & Ew3 & H).
    rewrite (while_more _ _ _ _ k _ _ Hk (fun s r X => X) Ew3). cbn [bind]. eapply correct_layer_more; eassumption.
Qed.

Lemma conserved_mass c l l' : conserved l l' -> column_mass c l' = column_mass c l.
Proof. intros [_ A B _]. unfold column_mass. rewrite A, B. reflexivity. Qed.
Lemma mass_app c l l' : column_mass c (l ++ l') = column_mass c l + column_mass c l'.
Proof. unfold column_mass, column_ice, column_water. rewrite !total_app. ring. Qed.
Lemma mass_nil c : column_mass c [] = 0.
Proof. unfold column_mass, column_ice, column_water. rewrite !total_nil. ring. Qed.
Lemma mass_cons c x l : column_mass c (x :: l) = column_mass c [x] + column_mass c l.
Proof. apply (mass_app c [x] l). Qed.
Lemma mass_same c l l' : map n_height l' = map n_height l -> map n_ice l' = map n_ice l -> map n_lwc l' = map n_lwc l ->
  column_mass c l' = column_mass c l.
Proof.
  revert l'. induction l as [|x l IH]; intros [|x' l'] A B C; try discriminate; [reflexivity|].
  injection A as A1 A2. injection B as B1 B2. injection C as C1 C2. rewrite mass_cons, (mass_cons c x l), (IH l') by assumption.
  unfold column_mass, column_ice, column_water. rewrite !total_cons, !total_nil, A1, B1, C1. reflexivity.
Qed.

(** remeshing loses thin layers only *)
Lemma update_grid_mass fuel c g g2 : constants_ok c ->
  counted g -> column_ok (g_nodes g) -> g_nodes g <> [] ->
  update_grid fuel c g = Ok g2 ->
  exists thin, column_mass c (g_nodes g2) + column_mass c thin = column_mass c (g_nodes g) /\
    column_height (g_nodes g2) + column_height thin = column_height (g_nodes g) /\
    Forall (fun n => 0 < n_height n <= c_minimum_snow_layer_height c) thin /\
    (c_remesh_method c <> "adaptive_profile"%string -> (length thin <= 1)%nat).
Proof.
  intros Hc Hn Hok Hne H. assert (Hf := ok_first _ Hc). assert (Hst := ok_stretch _ Hc).
  unfold update_grid in H. apply bind_ok in H. destruct H as (g1 & E & H).
  apply bind_ok in H. destruct H as (h & Eh & H).
  assert (Hne1 : exists top below, g_nodes g1 = top :: below /\ n_height top = h).
  { unfold get_node_height, get_node in Eh. destruct (g_nodes g1) as [|top below]; [discriminate|].
    cbn in Eh. injection Eh as <-. exists top, below. auto. }
  destruct Hne1 as (top & below & E1 & Et).
  assert (K1 : exists rm, column_mass c (g_nodes g1) + column_mass c rm = column_mass c (g_nodes g) /\
    column_height (g_nodes g1) + column_height rm = column_height (g_nodes g) /\
    Forall (fun n => 0 < n_height n <= c_minimum_snow_layer_height c) rm /\
    (c_remesh_method c <> "adaptive_profile"%string -> rm = []) /\ column_ok (g_nodes g1)).
  { destruct (String.eqb_spec (c_remesh_method c) "log_profile") as [M|M].
    - destruct (log_profile_spec c g Hf ltac:(lra) Hn Hok) as (N & W).
      destruct (W (Nat.max N fuel) ltac:(lia)) as (g1' & W1 & _ & _ & O1 & C & _).
      rewrite (log_profile_more fuel _ c g g1 (Nat.le_max_r N fuel) E) in W1. injection W1 as <-.
      assert (C' := C ltac:(rewrite E1; discriminate)). exists []. rewrite mass_nil, (conserved_mass c _ _ C').
      rewrite (cons_height _ _ C'). unfold column_height at 2. rewrite total_nil. repeat split; try lra; [constructor|exact O1].
    - destruct (String.eqb_spec (c_remesh_method c) "adaptive_profile") as [M2|M2].
      + destruct (adaptive_profile_loses_only_thin_layers_lem c g (Nat.max (length (g_nodes g) + 3) fuel) Hf Hn Hok Hne ltac:(lia))
          as [(g1' & rm & W1 & _ & _ & O1 & _ & Th & C)|(W1 & _)];
          rewrite (adaptive_profile_more fuel _ c g g1 (Nat.le_max_r _ fuel) E) in W1; [|discriminate].
        injection W1 as <-. exists rm. rewrite <- (conserved_mass c _ _ C), mass_app.
        rewrite <- (cons_height _ _ C). unfold column_height. rewrite total_app. split; [lra|]. split; [lra|]. split; [exact Th|]. split; [congruence|exact O1].
      + injection E as <-. exists []. rewrite mass_nil. unfold column_height at 2. rewrite total_nil. repeat split; try lra; [constructor|exact Hok]. }
  destruct K1 as (rm & K1 & K2 & K3 & K4 & K5).
  destruct (Rltb_spec h (c_minimum_snow_layer_height c)) as [L|L].
  - rewrite (remove_one_mid g1 [] top below E1 : remove_node g1 (Some [0%Z]) = _) in H. injection H as <-. cbn [g_nodes with_nodes with_number app].
    exists (top :: rm). rewrite (mass_cons c top rm). rewrite E1, (mass_cons c top below) in K1.
    rewrite E1 in K2. unfold column_height in *. rewrite !total_cons in *. split; [lra|]. split; [lra|].
    split; [constructor; [|exact K3]; rewrite E1 in K5; destruct (Forall_inv K5); lra|]. intros M. rewrite (K4 M). cbn. lia.
  - injection H as <-. exists rm. split; [exact K1|]. split; [exact K2|]. split; [exact K3|]. intros M. rewrite (K4 M). cbn. lia.
Qed.

(** radiation: only layers that melt away are lost *)
Lemma sunlit_column_mass c dt es l l' m : constants_ok c -> column_good l -> sunlit_column c dt es l l' m ->
  exists sun, column_mass c l' + column_mass c sun = column_mass c l /\ column_good sun /\
    c_ice_density c * column_ice sun <= c_water_density c * m /\ column_height sun <= column_height l /\
    column_height l' <= column_height l.
Proof.
  intros Hc Hg HS. assert (Hw := ok_rho_w _ Hc).
  assert (Hi : 0 < c_ice_density c). { assert (A := ok_rho_ai c Hc). assert (B := ok_rho_thr c Hc). assert (B' := ok_rho_a c Hc). lra. }
  assert (HL := ok_Lm _ Hc). assert (Hci := ok_cpi _ Hc).
  induction HS as [|e es x l y l' m m' H HS IH].
  - exists []. rewrite mass_nil. unfold column_ice, column_height. rewrite !total_nil. repeat split; try lra. constructor.
  - destruct (IH (Forall_inv_tail Hg)) as (sun & IH1 & IH2 & IH3 & IH4 & IH5). assert (Gx := Forall_inv Hg). cbv beta in Gx. clear IH.
    assert (Mx : column_mass c [x] = layer_mass c x).
    { rewrite column_mass_total, total_cons, total_nil. lra. }
    destruct (Rlt_or_le (melted_share c dt e x) 1) as [L|L].
    + exists sun. assert (M := sunlit_mass c dt e x y m Hc H L).
      split. { rewrite mass_app, (mass_cons c x l). lra. }
      split; [exact IH2|].
      assert (B : 0 <= m /\ column_height y <= n_height x).
      { inversion H as [HT|s x' HT Es Hs E1 E2 E3 E4 E5|s HT Es Hs]; subst; unfold column_height; rewrite ?total_cons, ?total_nil; cbn; [lra| |lra].
        assert (0 < melted_share c dt e x).
        { unfold melted_share. unfold Rdiv. apply Rmult_lt_0_compat; [apply Rmult_lt_0_compat; lra|apply Rinv_0_lt_compat; lra]. }
        set (s := melted_share c dt e x) in *. clearbody s. split.
        - apply Rmult_le_pos; [lra|]. unfold Rdiv. assert (0 < / c_water_density c) by (apply Rinv_0_lt_compat; lra).
          repeat apply Rmult_le_pos; lra.
        - rewrite E2. nra. }
      unfold column_height in *. rewrite total_app, total_cons. split; [nra|]. lra.
    + exists (x :: sun).
      assert (Y : y = [] /\ column_ice [x] * c_ice_density c <= c_water_density c * m).
      { inversion H as [HT|s x' HT Es Hs E1 E2 E3 E4 E5|s HT Es Hs]; subst.
        - exfalso. unfold melted_share in L.
          assert (c_spec_heat_ice c * (heated c dt e x - c_zero_temperature c) <= 0) by nra.
          apply Rmult_le_compat_r with (r := c_lat_heat_melting c) in L; [|lra].
          unfold Rdiv in L. rewrite Rmult_assoc, Rinv_l in L by lra. lra.
        - lra.
        - split; [reflexivity|]. set (s := melted_share c dt e x) in *. unfold column_ice. rewrite total_cons, total_nil.
          replace (c_water_density c * (s * n_ice x * n_height x * c_ice_density c / c_water_density c))
            with (s * (n_ice x * n_height x * c_ice_density c)) by (field; lra).
          assert (0 < n_ice x * n_height x * c_ice_density c) by (apply Rmult_lt_0_compat; [apply Rmult_lt_0_compat; lra|lra]). nra. }
      destruct Y as (-> & Y). cbn [app]. rewrite (mass_cons c x l), (mass_cons c x sun).
      split; [lra|]. split; [constructor; [exact Gx|exact IH2]|].
      unfold column_ice, column_height in *. rewrite !total_cons, ?total_nil in *. split; [nra|]. lra.
Qed.

(** the fresh snow layer *)
Lemma fresh_mass c h rho t : 0 < c_ice_density c ->
  column_mass c [new_node c h rho t 0 None] = h * rho - c_air_density c * (h - h * rho / c_ice_density c).
Proof.
  intros Hi. unfold column_mass, column_ice, column_water. rewrite !total_cons, !total_nil. unfold new_node. cbn.
  field. lra.
Qed.

(** ** Melt, percolation and refreezing *)
Lemma air_nonneg x : 0 <= n_ice x -> 0 <= n_lwc x -> 0 <= Rmax 0 (1 - n_lwc x - n_ice x) <= 1.
Proof. intros A B. split; [apply Rmax_l|]. apply Rmax_lub; lra. Qed.

Lemma water_mass fuel c g melt m rain g' Q wr :
  constants_ok c -> counted g -> column_good (g_nodes g) ->
  water_step fuel c g melt m rain = Ok (g', Q, wr) ->
  exists top air,
    column_mass c (g_nodes g') + c_water_density c * Q
    = column_mass c (g_nodes g)
      + c_water_density c * (rain / 1000 + m_condensation m + Rmin melt (m_sublimation m + m_deposition m))
      + c_water_density c * column_water top + air /\
    0 <= air <= c_air_density c * (column_height (g_nodes g) - column_height (g_nodes g')) /\
    (exists below, g_nodes g = top ++ below) /\
    (melt - m_sublimation m - m_deposition m <= 0 -> top = [] /\ air = 0).
Proof.
  intros Hc Hn Hg H.
  assert (Hw := ok_rho_w c Hc). assert (Ha := ok_rho_a c Hc).
  assert (Hi : 0 < c_ice_density c). { assert (A := ok_rho_ai c Hc). assert (B := ok_rho_thr c Hc). lra. }
  destruct (Rle_or_lt (melt - m_sublimation m - m_deposition m) 0) as [Hm|Hm].
  - assert (Hf : (0 < fuel)%nat).
    { destruct fuel; [|lia]. unfold water_step, remove_melt_weq in H. cbn in H. discriminate. }
    unfold water_step in H. rewrite remove_melt_negative in H by (lra || assumption). cbn [bind] in H.
    set (g1 := set_fresh_snow_props_height g _) in H.
    apply bind_ok in H. destruct H as ([g2 q] & E2 & H). apply bind_ok in H. destruct H as ([g3 w] & E3 & H).
    injection H as <- <- <-.
    assert (Hne : g_nodes g1 <> []).
    { intros Z0. unfold percolation in E2. apply bind_ok in E2. destruct E2 as (h & E2 & _).
      unfold get_node_height, get_node in E2. rewrite Z0 in E2. cbn in E2. discriminate. }
    assert (N1 : counted g1) by exact Hn.
    assert (Hok : column_ok (g_nodes g1)) by (apply good_ok; exact Hg).
    destruct (percolation_bucket g1 (melt + m_condensation m + rain / 1000 + 0) N1 Hok Hne) as (g2' & q' & W & B & Nb & _).
    rewrite W in E2. injection E2 as -> ->.
    assert (BW := bucket_water _ _ _ _ ltac:(eapply Forall_impl; [|exact Hok]; cbv beta; tauto) B).
    assert (BL := bucket_only_lwc _ _ _ _ B).
    assert (N2 : counted g2) by (destruct (percolation_ev _ _ _ _ W) as (_ & X); auto).
    destruct (refreezing_mass c g2 g3 w N2 ltac:(lra) E3) as (R1 & R2 & R3).
    assert (I2 : column_ice (g_nodes g2) = column_ice (g_nodes g1)).
    { apply (only_lwc_total _ _ _) with (2 := BL). intros y y' (H1 & H2 & H3 & H4). rewrite H1, H3. reflexivity. }
    assert (H2 : column_height (g_nodes g2) = column_height (g_nodes g1)).
    { apply (only_lwc_total _ _ _) with (2 := BL). intros y y' (H1 & H2 & H3 & H4). exact H1. }
    change (g_nodes g1) with (g_nodes g) in *.
    exists [], 0. split.
    { rewrite Rmin_left by lra. unfold column_water at 1. rewrite total_nil. rewrite R1. unfold column_mass. rewrite I2.
      unfold column_mass in R1. nra. }
    split; [rewrite R2, H2; lra|]. split; [exists (g_nodes g); reflexivity|auto].
  - destruct (water_step_budget_lem fuel c g melt m rain g' Q wr Hc Hn Hg H ltac:(lra))
      as (gone & x & x' & below & E & (O1 & O2 & O3 & O4) & Hh & _ & CH & B).
    exists gone, (c_air_density c * (column_air (g_nodes g) - column_air (x' :: below))).
    split. { rewrite Rmin_right by lra. rewrite B. ring. }
    assert (Gg : column_good (gone ++ x :: below)) by (rewrite <- E; exact Hg).
    apply Forall_app in Gg. destruct Gg as (Gg & Gx). assert (Gx' := Forall_inv Gx). cbv beta in Gx'.
    assert (D : 0 <= column_air (g_nodes g) - column_air (x' :: below) <= column_height (g_nodes g) - column_height (g_nodes g')).
    { rewrite CH, E. unfold column_air, column_height. rewrite !total_app, !total_cons.
      replace (Rmax 0 (1 - n_lwc x' - n_ice x')) with (Rmax 0 (1 - n_lwc x - n_ice x)) by congruence.
      assert (A := air_nonneg x ltac:(lra) ltac:(lra)). set (p := Rmax 0 (1 - n_lwc x - n_ice x)) in *.
      assert (T : 0 <= total (fun n => Rmax 0 (1 - n_lwc n - n_ice n) * n_height n) gone <= total n_height gone).
      { clear - Gg. induction Gg as [|y l (Y1 & Y2 & Y3) F IH]; [rewrite !total_nil; lra|]. rewrite !total_cons.
        assert (A := air_nonneg y ltac:(lra) ltac:(lra)). set (p := Rmax 0 _) in *.
        assert (0 <= p * n_height y <= n_height y) by nra. lra. }
      assert (0 <= p * (n_height x - n_height x') <= n_height x - n_height x') by nra. lra. }
    split. { split; [apply Rmult_le_pos; lra|apply Rmult_le_compat_l; lra]. }
    split; [exists (x :: below); exact E|lra].
Qed.
