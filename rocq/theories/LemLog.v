(** * log_profile and update_grid *)
From Verif Require Import ModelPy ModelConstants ModelNode ModelGrid Spec LemPy LemGridBase
  LemMerge LemCorrect.

(** number of steps of size at least [d] that fit into [x] *)
Definition steps (d x : R) : nat := Z.to_nat (up (x / d)).

Lemma steps_mono d x y : 0 < d -> x <= y -> (steps d x <= steps d y)%nat.
Proof.
  intros Hd H. unfold steps.
  assert (Hxy : x / d <= y / d) by (apply Rmult_le_compat_r; [apply Rlt_le, Rinv_0_lt_compat|]; lra).
  destruct (archimed (x / d)) as [A1 A2]. destruct (archimed (y / d)) as [B1 B2].
  assert (up (x / d) <= up (y / d))%Z.
  { apply Z.lt_succ_r. apply lt_IZR. rewrite succ_IZR. lra. }
  lia.
Qed.

Lemma steps_dec d x last : 0 < d -> d <= last -> last <= x ->
  (steps d (x - last) < steps d x)%nat.
Proof.
  intros Hd Hl Hx. unfold steps.
  assert (Hq : 1 <= last / d).
  { apply Rmult_le_reg_r with d; [lra|]. unfold Rdiv. rewrite Rmult_assoc, Rinv_l by lra. lra. }
  assert (Hx1 : 1 <= x / d).
  { apply Rmult_le_reg_r with d; [lra|]. unfold Rdiv. rewrite Rmult_assoc, Rinv_l by lra. lra. }
  assert (E : (x - last) / d = x / d - last / d) by (field; lra).
  rewrite E. clear E.
  destruct (archimed (x / d)) as [A1 A2]. destruct (archimed (x / d - last / d)) as [B1 B2].
  assert (up (x / d - last / d) < up (x / d))%Z.
  { apply lt_IZR. lra. }
  assert (0 < up (x / d))%Z by (apply lt_IZR; lra).
  lia.
Qed.

(** the part of the state every pass of both loops preserves *)
Record log_inv (c : Consts) (g0 : Grid) (bound : nat) (s : log_state) : Prop := {
  li_counted : counted (fst (fst (fst s)));
  li_clock : same_clock g0 (fst (fst (fst s)));
  li_ok : column_ok (g_nodes (fst (fst (fst s))));
  li_cons : g_nodes (fst (fst (fst s))) <> [] ->
            conserved (g_nodes g0) (g_nodes (fst (fst (fst s))));
  li_idx : (0 <= snd (fst (fst s)))%Z;
  li_last : c_first_layer_height c <= snd s;
  li_bound : (length (g_nodes (fst (fst (fst s)))) + steps (c_first_layer_height c) (snd (fst s))
              <= bound)%nat
}.

Definition log_mu (c : Consts) (s : log_state) : nat :=
  (steps (c_first_layer_height c) (snd (fst s))
   + (length (g_nodes (fst (fst (fst s)))) - Z.to_nat (snd (fst (fst s)))))%nat.

Section Log.
Variable c : Consts.
Variable g0 : Grid.
Hypothesis Hfirst : 0 < c_first_layer_height c.
Hypothesis Hstretch : 1 <= c_layer_stretching c.

Lemma log_correct_step bound fuel g idx hrest last :
  log_inv c g0 bound (g, idx, hrest, last) -> (bound < fuel)%nat ->
  (idx < Z.of_nat (length (g_nodes g)))%Z -> last <= hrest ->
  exists g1, correct_layer fuel c g idx last = Ok g1 /\
    log_inv c g0 bound (g1, (idx + 1)%Z, hrest - last, c_layer_stretching c * last) /\
    (log_mu c (g1, (idx + 1)%Z, (hrest - last)%R, (c_layer_stretching c * last)%R)
     < log_mu c (g, idx, hrest, last))%nat.
Proof.
  intros [Hc Hk Hok Hco Hi Hl Hb] Hf Hidx Hle. cbn [fst snd] in *.
  destruct (split_at (g_nodes g) (Z.to_nat idx)) as (pre & a & post & E & L); [lia|].
  assert (Eidx : idx = Z.of_nat (length pre)) by lia.
  assert (Hlen : length (g_nodes g) = (length pre + S (length post))%nat)
    by (rewrite E, app_length; reflexivity).
  destruct (correct_layer_good fuel c g pre a post last E Hc Hok) as
    (g1 & W & C1 & K1 & Co1 & Ok1 & Le1 & Lp1); [lra | lia |].
  assert (Hs := steps_dec (c_first_layer_height c) hrest last Hfirst Hl Hle).
  exists g1. rewrite Eidx. split; [exact W|]. split.
  - constructor; cbn [fst snd]; auto.
    + eapply same_clock_trans; eauto.
    + intros _. eapply conserved_trans; [|exact Co1]. apply Hco. rewrite E; destruct pre; discriminate.
    + lia.
    + nra.
    + lia.
  - unfold log_mu; cbn [fst snd]. lia.
Qed.

Lemma log_merge_step bound g idx hrest last g1 :
  log_inv c g0 bound (g, idx, hrest, last) ->
  (idx < Z.of_nat (length (g_nodes g)))%Z ->
  merge_nodes g (idx - 1) = Ok g1 ->
  log_inv c g0 bound (g1, (idx + 1)%Z, hrest, last) /\
    (log_mu c (g1, (idx + 1)%Z, hrest, last) < log_mu c (g, idx, hrest, last))%nat.
Proof.
  intros [Hc Hk Hok Hco Hi Hl Hb] Hidx Hm. cbn [fst snd] in *.
  assert (Hpos := column_ok_positive _ Hok).
  destruct (merge_nodes_inv _ _ _ Hpos Hm) as (Hn & Kl & _).
  assert (C1 := merge_nodes_counted _ _ _ Hpos Hc Hm).
  assert (O1 := merge_nodes_ok _ _ _ Hok Hm).
  assert (L1 : length (g_nodes g1) = (length (g_nodes g) - 1)%nat).
  { unfold counted in *. lia. }
  split.
  - constructor; cbn [fst snd]; auto.
    + eapply same_clock_trans; eauto.
    + intros Hne. eapply conserved_trans; [|exact (merge_nodes_conserves _ _ _ Hpos Hm Hne)].
      apply Hco. intros E0. rewrite E0 in Hidx. cbn in Hidx. lia.
    + lia.
    + lia.
  - unfold log_mu; cbn [fst snd]. lia.
Qed.

Lemma merge_total g idx : positive_heights (g_nodes g) -> g_nodes g <> [] ->
  (-1 <= idx)%Z -> (idx + 1 < Z.of_nat (length (g_nodes g)))%Z -> exists g1, merge_nodes g idx = Ok g1.
Proof.
  intros Hpos Hne Hi Hlt.
  assert (Hadj : (0 <= idx)%Z -> exists g1, merge_nodes g idx = Ok g1).
  { intros Hi0. destruct (split_at (g_nodes g) (Z.to_nat idx)) as (pre & a & post & E & L); [lia|].
    destruct post as [|b post].
    { rewrite E, app_length in Hlt. cbn [length] in Hlt. lia. }
    replace idx with (Z.of_nat (length pre)) by lia. eexists. apply merge_nodes_mid with (1 := E).
    rewrite E in Hpos. apply Forall_app in Hpos. destruct Hpos as [_ Hp].
    assert (P1 := Forall_inv Hp). assert (P2 := Forall_inv (Forall_inv_tail Hp)). cbn in P1, P2. lra. }
  destruct (Z_le_gt_dec 0 idx) as [Hi0|Hi0]; [auto|].
  assert (idx = (-1)%Z) by lia. subst idx.
  destruct (g_nodes g) as [|a t] eqn:E; [congruence|].
  destruct (exists_last Hne) as (prez & z & Ez).
  assert (Hh : 0 < n_height a /\ 0 < n_height z).
  { unfold positive_heights in Hpos. split; [exact (Forall_inv Hpos)|].
    rewrite Ez in Hpos. apply Forall_app in Hpos. exact (Forall_inv (proj2 Hpos)). }
  rewrite (merge_nodes_at g (-1) prez z [] [] a t); [| congruence | | exact E | left; reflexivity | lra].
  - destruct prez as [|y prez].
    + eexists. rewrite (remove_one_at _ [] (merged z a) []); reflexivity || (left; reflexivity).
    + cbn [app]. eexists.
      rewrite (remove_one_at _ [] y (prez ++ [merged z a])); [reflexivity|reflexivity|left; reflexivity].
  - right. rewrite E, Ez, app_length. cbn [length]. lia.
Qed.

Lemma log_skip_step bound g idx hrest last :
  log_inv c g0 bound (g, idx, hrest, last) ->
  (idx < Z.of_nat (length (g_nodes g)))%Z ->
  log_inv c g0 bound (g, (idx + 1)%Z, hrest, last) /\
    (log_mu c (g, (idx + 1)%Z, hrest, last) < log_mu c (g, idx, hrest, last))%nat.
Proof.
  intros [Hc Hk Hok Hco Hi Hl Hb] Hidx. cbn [fst snd] in *. split.
  - constructor; cbn [fst snd]; auto. lia.
  - unfold log_mu; cbn [fst snd]. lia.
Qed.

(** heights used so far *)
Definition log_hts (c : Consts) (H : R) (t : log_state) : Prop :=
  snd (fst t) <= H /\ snd t <= Rmax (c_first_layer_height c) (c_layer_stretching c * H).

Lemma log_hts_step H g g1 i j hrest last : c_first_layer_height c <= last -> last <= hrest ->
  log_hts c H (g, i, hrest, last) ->
  log_hts c H (g1, j, hrest - last, c_layer_stretching c * last).
Proof.
  intros Hl Hh [H1 H2]; unfold log_hts; cbn [fst snd] in *. split; [lra|].
  eapply Rle_trans; [|apply Rmax_r]. apply Rmult_le_compat_l; lra.
Qed.

Lemma log_snow_loop H bound fuel s : (2 * bound < fuel)%nat -> log_inv c g0 bound s ->
  log_hts c H s ->
  exists s', while_loop fuel (log_snow_cond c) (log_snow_body fuel c) s = Ok s' /\
    log_inv c g0 bound s' /\ log_hts c H s' /\
    (g_nodes (fst (fst (fst s))) <> [] -> g_nodes (fst (fst (fst s'))) <> []).
Proof.
  intros Hf Hs HH.
  destruct (while_term
    (fun t => (log_inv c g0 bound t /\ log_hts c H t) /\
       (g_nodes (fst (fst (fst s))) <> [] -> g_nodes (fst (fst (fst t))) <> []))
    (log_mu c) (log_snow_cond c) (log_snow_body fuel c)) with (fuel := fuel) (s := s)
    as (s' & W & [[I I'] Ne] & _).
  - intros [[[g idx] hrest] last] [[I _] _]. cbn [log_snow_cond].
    rewrite get_number_snow_layers_counted by exact (li_counted _ _ _ _ I). cbn [bind]. eauto.
  - intros [[[g idx] hrest] last] [[I I'] Ne] Hc. cbn [log_snow_cond] in Hc.
    rewrite get_number_snow_layers_counted in Hc by exact (li_counted _ _ _ _ I).
    cbn [bind] in Hc. injection Hc as Hc. apply Z.ltb_lt in Hc.
    assert (Hle := nsnow_le c (g_nodes g)).
    assert (Hi : (0 <= idx)%Z) by exact (li_idx _ _ _ _ I).
    cbn [log_snow_body]. destruct (Rleb_spec last hrest) as [Hh|Hh].
    + destruct (log_correct_step bound fuel g idx hrest last I) as (g1 & E1 & I1 & M1); try lra; try lia.
      rewrite E1. cbn [bind]. eexists; split; [reflexivity|]. split; [split; [split; [exact I1|]|]|exact M1].
      { apply (log_hts_step H g g1 idx (idx + 1)%Z hrest last); auto. exact (li_last _ _ _ _ I). }
      intros _ E0. cbn [fst] in E0.
      destruct (split_at (g_nodes g) (Z.to_nat idx)) as (pre & a & post & E & L); [lia|].
      assert (Hlen : length (g_nodes g) = (length pre + S (length post))%nat)
        by (rewrite E, app_length; reflexivity).
      assert (Hbd := li_bound _ _ _ _ I). cbn [fst snd] in Hbd.
      destruct (correct_layer_good fuel c g pre a post last E) as
        (g1' & W & C1 & K1 & Co1 & Ok1 & Le1 & Lp1).
      { exact (li_counted _ _ _ _ I). }
      { exact (li_ok _ _ _ _ I). }
      { assert (Hll := li_last _ _ _ _ I). cbn [fst snd] in Hll. lra. }
      { lia. }
      replace (Z.of_nat (length pre)) with idx in W by lia. rewrite W in E1. injection E1 as ->.
      rewrite E0 in Lp1. cbn in Lp1. lia.
    + rewrite Rltb_true by lra. cbn [andb]. destruct (0 <? idx)%Z eqn:E0.
      * apply Z.ltb_lt in E0.
        destruct (merge_total g (idx - 1)) as [g1 Hm]; try lia.
        { apply column_ok_positive. exact (li_ok _ _ _ _ I). }
        { intros E1; rewrite E1 in Hle, Hc; cbn [length] in Hle; lia. }
        rewrite Hm. cbn [bind]. eexists; split; [reflexivity|].
        destruct (log_merge_step bound g idx hrest last g1 I) as [I1 M1]; auto; try lia.
        split; [split; [split; [exact I1|exact I']|]|exact M1]. intros _. cbn [fst].
        assert (C1 := li_counted _ _ _ _ I1). assert (C := li_counted _ _ _ _ I).
        cbn [fst] in C, C1.
        destruct (merge_nodes_inv _ _ _ (column_ok_positive _ (li_ok _ _ _ _ I)) Hm) as (Hn & _). cbn [fst] in Hn.
        unfold counted in *. intros E1. rewrite E1 in C1. cbn in C1. lia.
      * eexists; split; [reflexivity|].
        destruct (log_skip_step bound g idx hrest last I) as [I1 M1]; auto; try lia.
  - split; [split; [exact Hs|exact HH]|auto].
  - destruct Hs as [_ _ _ _ _ _ Hb]. unfold log_mu. lia.
  - exists s'. auto.
Qed.

Lemma log_ice_loop bound fuel s : (2 * bound < fuel)%nat -> log_inv c g0 bound s ->
  exists s', while_loop fuel log_ice_cond (log_ice_body fuel c) s = Ok s' /\
    log_inv c g0 bound s' /\
    ((snd s <= snd (fst s) \/ (0 < snd (fst (fst s)))%Z) ->
     g_nodes (fst (fst (fst s))) <> [] -> g_nodes (fst (fst (fst s'))) <> []).
Proof.
  intros Hf Hs.
  destruct (while_term
    (fun t => log_inv c g0 bound t /\
       ((snd s <= snd (fst s) \/ (0 < snd (fst (fst s)))%Z) ->
        g_nodes (fst (fst (fst s))) <> [] -> g_nodes (fst (fst (fst t))) <> [] /\
          (snd t <= snd (fst t) \/ (0 < snd (fst (fst t)))%Z)))
    (log_mu c) log_ice_cond (log_ice_body fuel c)) with (fuel := fuel) (s := s)
    as (s' & W & [I Ne] & _).
  - intros [[[g idx] hrest] last] [I _]. cbn [log_ice_cond]. eauto.
  - intros [[[g idx] hrest] last] [I Ne] Hc. cbn [log_ice_cond] in Hc.
    injection Hc as Hc. apply Z.ltb_lt in Hc. unfold get_number_layers in Hc.
    assert (Cg := li_counted _ _ _ _ I). cbn [fst] in Cg. unfold counted in Cg. rewrite Cg in Hc.
    assert (Hi : (0 <= idx)%Z) by exact (li_idx _ _ _ _ I). cbn [fst snd] in Hi.
    cbn [log_ice_body]. destruct (Rleb_spec last hrest) as [Hh|Hh].
    + destruct (log_correct_step bound fuel g idx hrest last I) as (g1 & E1 & I1 & M1); try lra; try lia.
      rewrite E1. cbn [bind]. eexists; split; [reflexivity|]. split; [split; [exact I1|]|exact M1].
      intros _ _. cbn [fst snd]. split; [|right; lia]. intros E0.
      destruct (split_at (g_nodes g) (Z.to_nat idx)) as (pre & a & post & E & L); [lia|].
      assert (Hlen : length (g_nodes g) = (length pre + S (length post))%nat)
        by (rewrite E, app_length; reflexivity).
      assert (Hbd := li_bound _ _ _ _ I). cbn [fst snd] in Hbd.
      destruct (correct_layer_good fuel c g pre a post last E) as
        (g1' & W & C1 & K1 & Co1 & Ok1 & Le1 & Lp1).
      { exact (li_counted _ _ _ _ I). }
      { exact (li_ok _ _ _ _ I). }
      { assert (Hll := li_last _ _ _ _ I). cbn [fst snd] in Hll. lra. }
      { lia. }
      replace (Z.of_nat (length pre)) with idx in W by lia. rewrite W in E1. injection E1 as ->.
      rewrite E0 in Lp1. cbn in Lp1. lia.
    + rewrite Rltb_true by lra.
      destruct (merge_total g (idx - 1)) as [g1 Hm]; try lia.
      { apply column_ok_positive. exact (li_ok _ _ _ _ I). }
      { intros E1; rewrite E1 in Hc; cbn in Hc; lia. }
      rewrite Hm. cbn [bind]. eexists; split; [reflexivity|].
      destruct (log_merge_step bound g idx hrest last g1 I) as [I1 M1]; auto; try lia.
      split; [split; [exact I1|]|exact M1]. intros H1 H2. cbn [fst snd].
      destruct (Ne H1 H2) as [N1 N2]. cbn [fst snd] in N1, N2.
      split; [|right; lia].
      assert (C1 := li_counted _ _ _ _ I1). cbn [fst] in C1.
      destruct (merge_nodes_inv _ _ _ (column_ok_positive _ (li_ok _ _ _ _ I)) Hm) as (Hn & _). cbn [fst] in Hn.
      unfold counted in *. intros E1. rewrite E1 in C1. cbn in C1.
      destruct N2 as [N2|N2]; [lra|lia].
  - split; [exact Hs|auto].
  - destruct Hs as [_ _ _ _ _ _ Hb]. unfold log_mu. lia.
  - exists s'. split; [exact W|]. split; [exact I|]. intros H1 H2. now apply Ne.
Qed.

End Log.

Lemma firstn_height_le l k : positive_heights l -> column_height (firstn k l) <= column_height l.
Proof.
  intros H. rewrite <- (firstn_skipn k l) at 2. unfold column_height. rewrite total_app.
  assert (0 <= total n_height (skipn k l)).
  { apply (column_height_nonneg (skipn k l)). unfold positive_heights in *.
    rewrite <- (firstn_skipn k l) in H. apply Forall_app in H. tauto. }
  lra.
Qed.


Lemma log_profile_spec c g :
  0 < c_first_layer_height c -> 1 <= c_layer_stretching c ->
  counted g -> column_ok (g_nodes g) ->
  exists N, forall fuel, (N <= fuel)%nat -> exists g',
    log_profile fuel c g = Ok g' /\ counted g' /\ same_clock g g' /\ column_ok (g_nodes g') /\
    (g_nodes g' <> [] -> conserved (g_nodes g) (g_nodes g')) /\
    (g_nodes g <> [] -> c_first_layer_height c <= column_height (g_nodes g) ->
     c_layer_stretching c * reported_snow c (g_nodes g) <= column_height (g_nodes g) ->
     g_nodes g' <> []).
Proof.
  intros Hf Hst Hc Hok.
  set (H0 := reported_snow c (g_nodes g)).
  set (B0 := (length (g_nodes g) + steps (c_first_layer_height c) H0)%nat).
  set (B := (B0 + steps (c_first_layer_height c) (column_height (g_nodes g)))%nat).
  exists (2 * B + 1)%nat. intros fuel Hfuel.
  unfold log_profile. rewrite get_total_snowheight_counted by exact Hc. cbn [bind].
  fold (reported_snow c (g_nodes g)). fold H0.
  assert (I0 : log_inv c g B0 (g, 0%Z, H0, c_first_layer_height c)).
  { constructor; cbn [fst snd]; auto; [apply same_clock_refl | intros _; apply conserved_refl | lia | lra]. }
  assert (T0 : log_hts c H0 (g, 0%Z, H0, c_first_layer_height c)).
  { split; cbn [fst snd]; [lra|apply Rmax_l]. }
  destruct (log_snow_loop c g Hf Hst H0 B0 fuel _ ltac:(lia) I0 T0) as
    ([[[g1 i1] h1] last1] & W1 & I1 & T1 & Ne1).
  rewrite W1. cbn [bind]. clear W1.
  destruct I1 as [C1 K1 O1 Co1 Hi1 L1 Bd1]. cbn [fst snd] in *.
  rewrite get_total_height_counted by exact C1. cbn [bind].
  rewrite get_total_snowheight_counted by exact C1. cbn [bind].
  rewrite get_number_snow_layers_counted by exact C1. cbn [bind].
  fold (reported_snow c (g_nodes g1)).
  set (hr := column_height (g_nodes g1) - reported_snow c (g_nodes g1)).
  assert (Hh1 : g_nodes g1 <> [] -> column_height (g_nodes g1) = column_height (g_nodes g))
    by (intros Hne; exact (cons_height _ _ (Co1 Hne))).
  assert (Hhle : column_height (g_nodes g1) <= column_height (g_nodes g)).
  { destruct (g_nodes g1) as [|y t] eqn:E1.
    - unfold column_height at 1. rewrite total_nil. apply column_height_nonneg, column_ok_positive, Hok.
    - rewrite Hh1 by discriminate. lra. }
  assert (Hrs : 0 <= reported_snow c (g_nodes g1)).
  { apply column_height_nonneg. unfold positive_heights.
    assert (P := column_ok_positive _ O1). unfold positive_heights in P.
    rewrite <- (firstn_skipn (nsnow c (g_nodes g1)) (g_nodes g1)) in P.
    apply Forall_app in P. tauto. }
  assert (I2 : log_inv c g B (g1, Z.of_nat (nsnow c (g_nodes g1)), hr, last1)).
  { constructor; cbn [fst snd]; auto; [lia|].
    assert (steps (c_first_layer_height c) hr <= steps (c_first_layer_height c) (column_height (g_nodes g)))%nat
      by (apply steps_mono; [exact Hf | unfold hr; lra]).
    lia. }
  destruct (log_ice_loop c g Hf Hst B fuel _ ltac:(lia) I2) as
    ([[[g2 i2] h2] last2] & W2 & I3 & Ne2).
  rewrite W2. cbn [bind]. destruct I3 as [C2 K2 O2 Co2 _ _ _]. cbn [fst snd] in *.
  exists g2. split; [reflexivity|]. split; [exact C2|]. split; [exact K2|]. split; [exact O2|].
  split; [exact Co2|].
  intros Hne Hfirst Hstr. apply Ne2; [|auto].
  assert (Hne1 := Ne1 Hne).
  destruct (Nat.eq_dec (nsnow c (g_nodes g1)) 0) as [E0|E0]; [|right; lia]. left.
  unfold hr. rewrite (Hh1 Hne1). unfold reported_snow at 1. rewrite E0. cbn [firstn].
  unfold column_height at 2. rewrite total_nil.
  destruct T1 as [_ T1]. cbn [fst snd] in T1.
  assert (Rmax (c_first_layer_height c) (c_layer_stretching c * H0) <= column_height (g_nodes g))
    by (apply Rmax_lub; assumption).
  lra.
Qed.

(** update_grid with the logarithmic profile *)
Lemma update_grid_log c g :
  c_remesh_method c = "log_profile"%string ->
  0 < c_first_layer_height c -> 1 <= c_layer_stretching c ->
  counted g -> column_ok (g_nodes g) -> g_nodes g <> [] ->
  c_first_layer_height c <= column_height (g_nodes g) ->
  c_layer_stretching c * reported_snow c (g_nodes g) <= column_height (g_nodes g) ->
  exists N, forall fuel, (N <= fuel)%nat -> exists g',
    update_grid fuel c g = Ok g' /\ counted g' /\ same_clock g g' /\ column_ok (g_nodes g') /\
    (conserved (g_nodes g) (g_nodes g') \/
     exists a, n_height a < c_minimum_snow_layer_height c /\
       conserved (g_nodes g) (a :: g_nodes g')).
Proof.
  intros Hm Hf Hst Hc Hok Hne H1 H2.
  destruct (log_profile_spec c g Hf Hst Hc Hok) as [N HN]. exists N. intros fuel Hfuel.
  destruct (HN fuel Hfuel) as (g1 & W & C1 & K1 & O1 & Co1 & Ne1).
  specialize (Ne1 Hne H1 H2). specialize (Co1 Ne1).
  unfold update_grid. rewrite Hm. cbn [String.eqb Ascii.eqb Bool.eqb]. rewrite W. cbn [bind].
  destruct (g_nodes g1) as [|a t] eqn:E; [congruence|].
  unfold get_node_height. rewrite (get_node_mid g1 [] a t E : get_node g1 0 = _). cbn [bind].
  destruct (Rltb_spec (n_height a) (c_minimum_snow_layer_height c)) as [L|L].
  - rewrite (remove_one_mid g1 [] a t E : remove_node g1 (Some [0%Z]) = _).
    eexists; split; [reflexivity|]. cbn [g_nodes with_nodes with_number app].
    split.
    { unfold counted in *; cbn [g_nodes with_nodes with_number g_number_nodes].
      rewrite E in C1; cbn [length] in C1; lia. }
    split; [eapply same_clock_trans; [exact K1|repeat split]|].
    split; [exact (Forall_inv_tail O1)|]. right. exists a. auto.
  - exists g1. split; [reflexivity|]. split; [exact C1|]. split; [exact K1|].
    rewrite E. split; [exact O1|]. left; exact Co1.
Qed.
