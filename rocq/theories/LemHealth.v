(** * Every part of the time step keeps the layers sound *)
From Verif Require Import ModelPy ModelConstants ModelNode ModelGrid ModelWater ModelHeat
  ModelDensification ModelRadiation ModelAlbedo ModelSurface ModelInit ModelCore Spec SpecSurface SpecRun LemPy
  LemGridBase LemMerge LemCorrect LemLog LemGridOps LemHeat LemFinHeat LemSurface LemFinSurface LemCore.

Section Health.
Variables (lo hi : R).
Notation P := (sound_layer lo hi).
Definition healthy (g : Grid) : Prop := sound_column lo hi (g_nodes g).
Notation H_ := healthy.

Lemma list_update_forall {A} (Q : A -> Prop) f l k : Forall Q l -> (forall x, Q x -> Q (f x)) -> Forall Q (list_update k f l).
Proof. intros H F. revert k. induction H as [|x l Hx H IH]; intros [|k]; cbn; constructor; auto. Qed.
Lemma list_delete_forall {A} (Q : A -> Prop) l k : Forall Q l -> Forall Q (list_delete k l).
Proof. intros H. revert k. induction H as [|x l Hx H IH]; intros [|k]; cbn; auto. Qed.
Lemma py_insert_forall {A} (Q : A -> Prop) l i x : Forall Q l -> Q x -> Forall Q (py_insert l i x).
Proof.
  intros H Hx. unfold py_insert. set (j := Z.to_nat _). clearbody j.
  rewrite <- (firstn_skipn j l) in H. apply Forall_app in H. destruct H.
  apply Forall_app. split; [assumption|constructor; assumption].
Qed.
Lemma py_get_forall {A} (Q : A -> Prop) l i x : Forall Q l -> py_get l i = Ok x -> Q x.
Proof.
  intros H E. apply py_get_inv in E. destruct E as (a & b & -> & _). apply Forall_app in H.
  exact (Forall_inv (proj2 H)).
Qed.

Lemma upd_health g i f g' : upd_node g i f = Ok g' -> H_ g -> (forall x, P x -> P (f x)) -> H_ g'.
Proof.
  unfold upd_node, py_update, healthy; intros E H F. destruct (py_index _ _); [|discriminate].
  cbn in E. injection E as <-. cbn. apply list_update_forall; assumption.
Qed.
Lemma height_health g i h g' : set_node_height g i h = Ok g' -> H_ g -> 0 < h -> H_ g'.
Proof. intros E H X. eapply upd_health; [exact E|exact H|]. intros x (A & B & C & D). repeat split; cbn; lra. Qed.
Lemma temperature_health g i t g' : set_node_temperature g i t = Ok g' -> H_ g -> lo <= t <= hi -> H_ g'.
Proof. intros E H X. eapply upd_health; [exact E|exact H|]. intros x (A & B & C & D). repeat split; cbn; lra. Qed.
Lemma lwc_health g i w g' : set_node_lwc g i w = Ok g' -> H_ g -> 0 <= w -> H_ g'.
Proof. intros E H X. eapply upd_health; [exact E|exact H|]. intros x (A & B & C & D). repeat split; cbn; lra. Qed.
Lemma ice_health g i f g' : set_node_ice_fraction g i f = Ok g' -> H_ g -> 0 < f -> H_ g'.
Proof. intros E H X. eapply upd_health; [exact E|exact H|]. intros x (A & B & C & D). repeat split; cbn; lra. Qed.
Lemma refreeze_health g i f g' : set_node_refreeze g i f = Ok g' -> H_ g -> H_ g'.
Proof. intros E H. eapply upd_health; [exact E|exact H|]. intros x (A & B & C & D). repeat split; cbn; lra. Qed.
Lemma update_health g i h t f w g' : update_node g i h t f w = Ok g' -> H_ g ->
  0 < h -> lo <= t <= hi -> 0 < f -> 0 <= w -> H_ g'.
Proof.
  unfold update_node; intros E H A B C D.
  apply bind_ok in E. destruct E as (g1 & E1 & E). apply bind_ok in E. destruct E as (g2 & E2 & E).
  apply bind_ok in E. destruct E as (g3 & E3 & E).
  eapply lwc_health; [exact E| |exact D]. eapply ice_health; [exact E3| |exact C].
  eapply temperature_health; [exact E2| |exact B]. eapply height_health; eassumption.
Qed.

Lemma del_all_forall Q ids : forall l l', del_all l ids = Ok l' -> Forall Q l -> Forall Q l'.
Proof.
  induction ids as [|i ids IH]; cbn; intros l l' E H; [injection E as <-; exact H|].
  apply bind_ok in E. destruct E as (l1 & E1 & E). eapply IH; [exact E|].
  unfold py_del in E1. destruct (py_index _ _); [|discriminate]. injection E1 as <-.
  apply list_delete_forall; exact H.
Qed.
Lemma remove_health g ids g' : remove_node g ids = Ok g' -> H_ g -> H_ g'.
Proof.
  unfold remove_node, healthy, sound_column; intros E H. destruct (g_nodes g) as [|x l] eqn:El.
  - injection E as <-. rewrite El. exact H.
  - destruct ids as [[|i ids]|].
    + cbn in E. injection E as <-. cbn. exact (Forall_inv_tail H).
    + apply bind_ok in E. destruct E as (l' & E & X). injection X as <-. cbn [g_nodes with_number with_nodes].
      eapply del_all_forall; eassumption.
    + cbn in E. injection E as <-. cbn. exact (Forall_inv_tail H).
Qed.

Lemma get_health g i n : get_node g i = Ok n -> H_ g -> P n.
Proof. unfold get_node; intros E H. eapply py_get_forall; [exact H|exact E]. Qed.
Lemma get_height_health g i h : get_node_height g i = Ok h -> H_ g -> 0 < h.
Proof. unfold get_node_height; intros E H. apply bind_ok in E. destruct E as (n & E & X). injection X as <-. apply (get_health _ _ _ E H). Qed.
Lemma get_temperature_health g i h : get_node_temperature g i = Ok h -> H_ g -> lo <= h <= hi.
Proof. unfold get_node_temperature; intros E H. apply bind_ok in E. destruct E as (n & E & X). injection X as <-. apply (get_health _ _ _ E H). Qed.
Lemma get_lwc_health g i h : get_node_lwc g i = Ok h -> H_ g -> 0 <= h.
Proof. unfold get_node_lwc; intros E H. apply bind_ok in E. destruct E as (n & E & X). injection X as <-. apply (get_health _ _ _ E H). Qed.
Lemma get_ice_health g i h : get_node_ice_fraction g i = Ok h -> H_ g -> 0 < h.
Proof. unfold get_node_ice_fraction; intros E H. apply bind_ok in E. destruct E as (n & E & X). injection X as <-. apply (get_health _ _ _ E H). Qed.
Lemma get_density_health c g i h : constants_ok c -> get_node_density c g i = Ok h -> H_ g -> 0 < h.
Proof.
  unfold get_node_density; intros Hc E H. apply bind_ok in E. destruct E as (n & E & X). injection X as <-.
  destruct (get_health _ _ _ E H) as (A & B & C & D). apply density_positive; assumption.
Qed.
Lemma irreducible_nonneg n e : 0 < n_ice n -> layer_irreducible n = Ok e -> 0 <= e.
Proof.
  intros Hf E. unfold layer_irreducible in E. destruct (Rleb_spec (n_ice n) 0.23) as [A|A].
  - apply bind_ok in E. destruct E as (q & E & X). injection X as <-. apply fdiv_inv in E. destruct E as (_ & ->).
    assert (0 <= (1 - n_ice n) / n_ice n); [|lra]. apply Rmult_le_pos; [lra|]. left; apply Rinv_0_lt_compat; exact Hf.
  - destruct (Rltb_spec 0.23 (n_ice n)); cbn [andb] in E; [|lra].
    destruct (Rleb_spec (n_ice n) 0.812); injection E as <-; lra.
Qed.
Lemma get_irreducible_health g i e : get_node_irreducible g i = Ok e -> H_ g -> 0 <= e.
Proof.
  unfold get_node_irreducible; intros E H. apply bind_ok in E. destruct E as (n & E & X).
  destruct (get_health _ _ _ E H) as (A & B & C & D). eapply irreducible_nonneg; eassumption.
Qed.

(** ** Merging and splitting *)
Lemma weighted a b x y : 0 < a -> 0 < b -> 0 <= x -> 0 <= y -> 0 <= (x * a + y * b) / (a + b).
Proof.
  intros. apply Rmult_le_pos; [|left; apply Rinv_0_lt_compat; lra].
  assert (0 <= x * a) by (apply Rmult_le_pos; lra). assert (0 <= y * b) by (apply Rmult_le_pos; lra). lra.
Qed.
Lemma weighted_pos a b x y : 0 < a -> 0 < b -> 0 < x -> 0 < y -> 0 < (x * a + y * b) / (a + b).
Proof.
  intros. apply Rmult_lt_0_compat; [|apply Rinv_0_lt_compat; lra].
  assert (0 < x * a) by (apply Rmult_lt_0_compat; lra). assert (0 < y * b) by (apply Rmult_lt_0_compat; lra). lra.
Qed.
Lemma weighted_between a b x y : 0 < a -> 0 < b -> lo <= x <= hi -> lo <= y <= hi ->
  lo <= a / (a + b) * x + b / (a + b) * y <= hi.
Proof.
  intros. replace (a / (a + b) * x + b / (a + b) * y) with ((x * a + y * b) / (a + b)) by (field; lra).
  split.
  - apply Rmult_le_reg_r with (a + b); [lra|]. unfold Rdiv. rewrite Rmult_assoc, Rinv_l, Rmult_1_r by lra.
    assert (lo * a <= x * a) by (apply Rmult_le_compat_r; lra). assert (lo * b <= y * b) by (apply Rmult_le_compat_r; lra). lra.
  - apply Rmult_le_reg_r with (a + b); [lra|]. unfold Rdiv. rewrite Rmult_assoc, Rinv_l, Rmult_1_r by lra.
    assert (x * a <= hi * a) by (apply Rmult_le_compat_r; lra). assert (y * b <= hi * b) by (apply Rmult_le_compat_r; lra). lra.
Qed.

Ltac pull H :=
  repeat match type of H with
  | bind _ _ = Ok _ => let x := fresh "x" in let E := fresh "E" in apply bind_ok in H; destruct H as (x & E & H)
  end.
(** what a read from a healthy grid tells *)
Ltac known :=
  repeat match goal with
  | E : get_node_height ?g _ = Ok ?h, H : H_ ?g |- _ =>
      lazymatch goal with K : 0 < h |- _ => fail | _ => pose proof (get_height_health _ _ _ E H) end
  | E : get_node_lwc ?g _ = Ok ?h, H : H_ ?g |- _ =>
      lazymatch goal with K : 0 <= h |- _ => fail | _ => pose proof (get_lwc_health _ _ _ E H) end
  | E : get_node_ice_fraction ?g _ = Ok ?h, H : H_ ?g |- _ =>
      lazymatch goal with K : 0 < h |- _ => fail | _ => pose proof (get_ice_health _ _ _ E H) end
  | E : get_node_temperature ?g _ = Ok ?h, H : H_ ?g |- _ =>
      lazymatch goal with K : lo <= h <= hi |- _ => fail | _ => pose proof (get_temperature_health _ _ _ E H) end
  | E : get_node_irreducible ?g _ = Ok ?h, H : H_ ?g |- _ =>
      lazymatch goal with K : 0 <= h |- _ => fail | _ => pose proof (get_irreducible_health _ _ _ E H) end
  | Hc : constants_ok ?c, E : get_node_density ?c ?g _ = Ok ?h, H : H_ ?g |- _ =>
      lazymatch goal with K : 0 < h |- _ => fail | _ => pose proof (get_density_health _ _ _ _ Hc E H) end
  end.
Ltac undiv :=
  repeat match goal with
  | E : fdiv _ _ = Ok _ |- _ => apply fdiv_inv in E; destruct E as (? & E)
  end.

Lemma merge_health g i g' : merge_nodes g i = Ok g' -> H_ g -> H_ g'.
Proof.
  unfold merge_nodes; intros H Hg. pull H. known. undiv.
  eapply remove_health; [exact H|]. eapply update_health; [eassumption|exact Hg| | | |].
  - lra.
  - subst. apply weighted_between; assumption.
  - subst. apply weighted_pos; assumption.
  - subst. apply weighted; assumption.
Qed.

Lemma div_nonneg a b : 0 <= a -> 0 < b -> 0 <= a / b.
Proof. intros. apply Rmult_le_pos; [assumption|left; apply Rinv_0_lt_compat; assumption]. Qed.
Lemma div_pos a b : 0 < a -> 0 < b -> 0 < a / b.
Proof. intros. apply Rmult_lt_0_compat; [assumption|apply Rinv_0_lt_compat; assumption]. Qed.
Local Hint Resolve Rlt_le div_nonneg div_pos Rmult_le_pos Rmult_lt_0_compat Rplus_le_le_0_compat : pos.

Lemma correct_layer_health fuel c g i h g' : 0 < h -> correct_layer fuel c g i h = Ok g' -> H_ g -> H_ g'.
Proof.
  unfold correct_layer; intros Hh H Hg. pull H. destruct x0 as [[g1 th] st].
  assert (H1 : H_ g1).
  { apply (while_inv (fun s => H_ (fst (fst s)))) in E0; [exact (proj1 E0)| |exact Hg].
    intros [[g2 t2] s2] [[g3 t3] s3] A _ B. cbn [correct_layer_body fst] in *. crunch;
      try (eapply merge_health; eassumption); assumption. }
  destruct (Rltb_spec h th) as [L|L]; [|injection H as <-; exact H1].
  unfold correct_layer_split in H. pull H. known.
  destruct (Rltb_spec 0 (x0 - x1)) as [W|W].
  - pull H. injection H as <-. known. undiv.
    assert (H_ x7).
    { eapply update_health; [eassumption|exact H1|assumption|assumption|assumption|]. subst; auto with pos. }
    unfold healthy, sound_column. cbn. apply py_insert_forall; [assumption|].
    repeat split; cbn; try lra. subst. apply div_nonneg; [|lra].
    replace (x0 * x2 - x1 * x2) with ((x0 - x1) * x2) by ring. apply Rmult_le_pos; lra.
  - pull H. injection H as <-. known. undiv.
    assert (H_ x7).
    { eapply update_health; [eassumption|exact H1|assumption|assumption|assumption|]. subst; auto with pos. }
    unfold healthy, sound_column. cbn. apply py_insert_forall; [assumption|].
    repeat split; cbn; try lra.
Qed.

Lemma log_profile_health fuel c g g' : 0 < c_first_layer_height c -> 0 < c_layer_stretching c ->
  log_profile fuel c g = Ok g' -> H_ g -> H_ g'.
Proof.
  intros Hf Hs H Hg. unfold log_profile in H. apply bind_ok in H. destruct H as (hs & _ & H).
  apply bind_ok in H. destruct H as ([[[g1 i1] h1] l1] & W & H).
  apply bind_ok in H. destruct H as (th & _ & H). apply bind_ok in H. destruct H as (sh & _ & H).
  apply bind_ok in H. destruct H as (ix & _ & H).
  apply bind_ok in H. destruct H as ([[[g2 i2] h2] l2] & W2 & H). injection H as <-.
  apply (while_inv (fun s => H_ (fst (fst (fst s))) /\ 0 < snd s)) in W.
  - cbn [fst snd] in W. destruct W as ((W & WL) & _).
    apply (while_inv (fun s => H_ (fst (fst (fst s))) /\ 0 < snd s)) in W2; [exact (proj1 (proj1 W2))| |split; assumption].
    intros [[[a b] d] e] [[[a' b'] d'] e'] (A & L) _ B. cbn [log_ice_body fst snd] in *. crunch; split; try assumption;
      first [eapply correct_layer_health; eassumption | eapply merge_health; eassumption | auto with pos].
  - intros [[[a b] d] e] [[[a' b'] d'] e'] (A & L) _ B. cbn [log_snow_body fst snd] in *. crunch; split; try assumption;
      first [eapply correct_layer_health; eassumption | eapply merge_health; eassumption | auto with pos].
  - split; assumption.
Qed.

Lemma adaptive_profile_health fuel c g g' : 0 < c_first_layer_height c ->
  adaptive_profile fuel c g = Ok g' -> H_ g -> H_ g'.
Proof.
  intros Hf H Hg. unfold adaptive_profile, adaptive_snow in H.
  apply bind_ok in H. destruct H as ([[g1 i1] m1] & W & H).
  apply (while_inv (fun s => H_ (fst (fst s)))) in W; [| |exact Hg].
  2:{ intros [[a b] d] [[a' b'] d'] A _ B. cbn [adapt_body fst] in *. crunch; try assumption;
      first [eapply merge_health; eassumption | eapply remove_health; eassumption]. }
  destruct W as (W & _). cbn [fst] in W.
  apply bind_ok in H. destruct H as (k & _ & H). apply bind_ok in H. destruct H as (h & _ & H).
  apply bind_ok in H. destruct H as ([g2 i2] & E & H).
  apply bind_ok in H. destruct H as ([g3 i3] & W3 & H).
  eapply correct_layer_health; [exact Hf|exact H|].
  apply (while_inv (fun s => H_ (fst s))) in W3; [exact (proj1 W3)| |].
  - intros [a b] [a' b'] A _ B. cbn [adapt_ice_body fst] in *. crunch; try assumption; eapply merge_health; eassumption.
  - cbn [fst]. crunch; try assumption; eapply correct_layer_health; eassumption.
Qed.

Lemma update_grid_health fuel c g g' : 0 < c_first_layer_height c -> 0 < c_layer_stretching c ->
  update_grid fuel c g = Ok g' -> H_ g -> H_ g'.
Proof.
  intros Hf Hs H Hg. unfold update_grid in H. apply bind_ok in H. destruct H as (g1 & E & H).
  assert (H_ g1).
  { clear H. crunch; try assumption; first [eapply log_profile_health; eassumption|eapply adaptive_profile_health; eassumption]. }
  clear E. crunch; try assumption; eapply remove_health; eassumption.
Qed.

(** ** Melt, percolation *)
Lemma remove_melt_health fuel c g m g' w : constants_ok c -> remove_melt_weq fuel c g m 0 = Ok (g', w) ->
  H_ g -> H_ g' /\ 0 <= w.
Proof.
  intros Hc H Hg. unfold remove_melt_weq in H. apply bind_ok in H. destruct H as ([[g1 m1] w1] & W & H).
  rewrite Z.eqb_refl in H. injection H as <- <-.
  apply (while_inv (fun s => H_ (fst (fst s)) /\ 0 <= snd s)) in W; [exact (proj1 W)| |split; [exact Hg|cbn; lra]].
  intros [[a b] d] [[a' b'] d'] (A & L) _ B. cbn [melt_body fst snd] in *.
  pull B. known. undiv. assert (Hw := ok_rho_w _ Hc).
  assert (0 < x1) by (subst; auto with pos).
  destruct (Rltb_spec b (x * x1)) as [C|C].
  - pull B. undiv. injection B as <- <- <-. split; [|exact L].
    eapply height_health; [eassumption|exact A|]. subst x2. apply div_pos; lra.
  - destruct (Rleb_spec (x * x1) b).
    + pull B. known. injection B as <- <- <-. split; [eapply remove_health; eassumption|].
      assert (0 <= x2 * x) by (apply Rmult_le_pos; lra). lra.
    + injection B as <- <- <-. split; assumption.
Qed.

Lemma percolation_health g w g' q : percolation g w = Ok (g', q) -> 0 <= w -> H_ g -> H_ g' /\ 0 <= q.
Proof.
  unfold percolation; intros H Hw Hg. pull H. known. undiv.
  assert (HA : H_ x2).
  { eapply lwc_health; [eassumption|exact Hg|]. subst. assert (0 <= w / x) by auto with pos. lra. }
  assert (HB : H_ x3).
  { unfold for_range in E3. apply (for_loop_inv (fun _ s => H_ s)) in E3; [exact E3| |exact HA].
    intros j t t' _ A B. unfold percolation_body in B. pull B. known.
    match type of B with (if Rltb ?a ?b then _ else _) = _ => destruct (Rltb_spec a b) as [C|C] end;
      [|injection B as <-; exact A].
    pull B.
    match goal with E : set_node_lwc t _ _ = Ok ?y |- _ => assert (H_ y) by (eapply lwc_health; eassumption) end.
    known. undiv. eapply lwc_health; [exact B|assumption|]. subst. apply Rplus_le_le_0_compat; [assumption|].
    apply div_nonneg; [|assumption]. apply Rmult_le_pos; lra. }
  unfold get_runoff in H. pull H. known. injection H as <- <-. split.
  - eapply lwc_health; [eassumption|assumption|lra].
  - apply Rmult_le_pos; lra.
Qed.

(** ** Refreezing *)
Lemma refreezing_health c g g' q : constants_ok c -> hi = c_zero_temperature c ->
  (hi - lo) * (c_spec_heat_water c - c_spec_heat_ice c) < c_lat_heat_melting c ->
  refreezing c g = Ok (g', q) -> H_ g -> H_ g' /\ 0 <= q.
Proof.
  intros Hc Ez Hcold H Hg. unfold refreezing in H. apply bind_ok in H. destruct H as (ph & _ & H).
  unfold for_range in H. apply (for_loop_inv (fun _ s => H_ (fst s) /\ 0 <= snd s)) in H;
    [exact H| |split; [exact Hg|cbn; lra]].
  intros j [g1 acc] [g2 acc2] _ (A & B) W. cbn [fst snd] in *. unfold refreezing_body in W.
  apply bind_ok in W. destruct W as (t & Et & W). apply bind_ok in W. destruct W as (w & Ew & W).
  apply bind_ok in W. destruct W as ((g3 & d) & E & W).
  assert (K : H_ g3 /\ 0 <= d).
  { clear W. destruct (Rleb t _ && Rltb 0 w) eqn:Eb; [|injection E as <- <-; split; [exact A|lra]].
    apply andb_true_iff in Eb. destruct Eb as (Eb1 & Eb2).
    destruct (Rleb_spec t (c_zero_temperature c)) as [Lt|]; [clear Eb1|discriminate].
    destruct (Rltb_spec 0 w) as [Lw|]; [clear Eb2|discriminate].
    apply bind_ok in E. destruct E as (f & Ef & E). apply bind_ok in E. destruct E as (dw & Ed & E).
    apply bind_ok in E. destruct E as (ra & Er & E). apply bind_ok in E. destruct E as (u & _ & E).
    apply bind_ok in E. destruct E as (h1 & E1 & E). apply bind_ok in E. destruct E as (h2 & E2 & E).
    apply bind_ok in E. destruct E as (f2 & E3 & E). apply bind_ok in E. destruct E as (w2 & E4 & E).
    apply bind_ok in E. destruct E as (dT & E5 & E). apply bind_ok in E. destruct E as (h3 & E6 & E).
    destruct (Rltb _ 0); [discriminate|]. injection E as <- <-. known. destruct Hc. undiv. subst ra.
    assert (Hd : 0 <= dw <= w /\ dw * (c_water_density c * c_lat_heat_melting c)
                 <= c_spec_heat_ice c * c_ice_density c * f * (c_zero_temperature c - t)).
    { unfold refreeze_limit in Ed. pull Ed. undiv. injection Ed as <-.
      set (bd := Rmax _ 0). assert (0 <= bd) by apply Rmax_r.
      assert (0 <= x0).
      { subst x0. apply div_nonneg.
        - replace (- ((t - c_zero_temperature c) * (f * (c_spec_heat_ice c * c_ice_density c)
            + w * c_water_density c * c_spec_heat_water c)))
            with ((c_zero_temperature c - t) * (f * (c_spec_heat_ice c * c_ice_density c)
            + w * c_water_density c * c_spec_heat_water c)) by ring.
          apply Rmult_le_pos; [lra|]. assert (0 < f * (c_spec_heat_ice c * c_ice_density c)) by (repeat apply Rmult_lt_0_compat; lra).
          assert (0 < w * c_water_density c * c_spec_heat_water c) by (repeat apply Rmult_lt_0_compat; lra). lra.
        - apply Rmult_lt_0_compat; [lra|].
          assert ((c_zero_temperature c - t) * (c_spec_heat_water c - c_spec_heat_ice c)
             <= (hi - lo) * (c_spec_heat_water c - c_spec_heat_ice c)) by (apply Rmult_le_compat_r; lra).
          lra. }
      assert (N : 0 < c_spec_heat_ice c * c_ice_density c * f) by (repeat apply Rmult_lt_0_compat; lra).
      assert (D : 0 < c_water_density c * c_lat_heat_melting c) by (apply Rmult_lt_0_compat; lra).
      assert (0 <= x1).
      { subst x1. apply div_nonneg; [|lra].
        replace (- (c_spec_heat_ice c * c_ice_density c * f * (t - c_zero_temperature c)))
          with (c_spec_heat_ice c * c_ice_density c * f * (c_zero_temperature c - t)) by ring.
        apply Rmult_le_pos; lra. }
      assert (x1 * (c_water_density c * c_lat_heat_melting c) = c_spec_heat_ice c * c_ice_density c * f * (c_zero_temperature c - t)).
      { subst x1. field. split; lra. }
      set (mm := Rmin _ x1). assert (mm <= x1) by apply Rmin_r.
      assert (mm <= w).
      { unfold mm. eapply Rle_trans; [apply Rmin_l|]. eapply Rle_trans; [apply Rmin_l|]. apply Rmin_l. }
      split; [split; [unfold mm; repeat apply Rmin_glb; lra|lra]|].
      assert (mm * (c_water_density c * c_lat_heat_melting c) <= x1 * (c_water_density c * c_lat_heat_melting c)) by (apply Rmult_le_compat_r; lra).
      lra. }
    destruct Hd as ((D0 & D1) & D2). split; [|exact D0].
    assert (G1 : H_ h1) by (eapply lwc_health; [exact E1|exact A|lra]).
    assert (Q : 0 <= c_water_density c / c_ice_density c * dw) by (apply Rmult_le_pos; [apply div_nonneg; lra|lra]).
    assert (G2 : H_ h2) by (eapply ice_health; [exact E2|exact G1|lra]).
    eapply temperature_health; [exact E6|exact G2|].
    assert (Ef2 : f2 = f + c_water_density c / c_ice_density c * dw /\ w2 = w - dw).
    { revert E1 E2 E3 E4. unfold set_node_lwc, set_node_ice_fraction, get_node_ice_fraction, get_node_lwc, upd_node, py_update, get_node, py_get.
      intros E1 E2 E3 E4. destruct (py_index (length (g_nodes g1)) j) as [k|] eqn:Ek; [|discriminate].
      cbn in E1. injection E1 as <-. cbn in E2. rewrite list_update_length, Ek in E2. cbn in E2. injection E2 as <-.
      cbn in E3, E4. rewrite !list_update_length, Ek in E3, E4.
      assert (Lk : (k < length (g_nodes g1))%nat) by (apply py_index_inv in Ek; lia).
      destruct (split_at _ _ Lk) as (pre & y & post & Ep & Lp). rewrite Ep in E3, E4. rewrite <- Lp in E3, E4.
      rewrite !list_update_mid in E3, E4. rewrite nth_error_app2, Nat.sub_diag in E3, E4 by lia. cbn in E3, E4.
      split; congruence. }
    destruct Ef2 as (-> & ->).
    set (f2 := f + c_water_density c / c_ice_density c * dw) in *. set (w2 := w - dw) in *.
    assert (Hcap : c_spec_heat_ice c * c_ice_density c * f <= c_spec_heat_ice c * c_ice_density c * f2 + c_spec_heat_water c * c_water_density c * w2).
    { assert (0 <= c_spec_heat_water c * c_water_density c * w2) by (repeat apply Rmult_le_pos; unfold w2; lra).
      assert (c_spec_heat_ice c * c_ice_density c * f <= c_spec_heat_ice c * c_ice_density c * f2)
        by (apply Rmult_le_compat_l; [apply Rmult_le_pos; lra|unfold f2; lra]). lra. }
    assert (Hf0 : 0 < c_spec_heat_ice c * c_ice_density c * f) by (repeat apply Rmult_lt_0_compat; lra).
    assert (D : 0 < c_water_density c * c_lat_heat_melting c) by (apply Rmult_lt_0_compat; lra).
    set (cap := c_spec_heat_ice c * c_ice_density c * f2 + c_spec_heat_water c * c_water_density c * w2) in *.
    assert (0 <= dT) by (rewrite E5; apply div_nonneg; [apply Rmult_le_pos; lra|lra]).
    assert (HX : dT * cap <= (c_zero_temperature c - t) * cap).
    { rewrite E5. unfold Rdiv. rewrite Rmult_assoc, Rinv_l, Rmult_1_r by lra.
      eapply Rle_trans; [exact D2|]. rewrite Rmult_comm. apply Rmult_le_compat_l; lra. }
    apply Rmult_le_reg_r in HX; [lra|lra]. }
  destruct K as (K1 & K2). pull W. known. injection W as <- <-. split.
  - eapply refreeze_health; eassumption.
  - assert (0 <= d * x) by (apply Rmult_le_pos; lra). lra.
Qed.

(** ** Penetrating radiation *)
Lemma bintanja_health c g SWnet dt g' m si : constants_ok c -> hi = c_zero_temperature c -> lo <= hi ->
  0 <= SWnet -> 0 <= dt -> method_Bintanja c g SWnet dt = Ok (g', m, si) -> H_ g -> H_ g' /\ 0 <= m /\ 0 <= si.
Proof.
  intros Hc Ez Hlh HS Hdt H Hg. unfold method_Bintanja in H.
  apply bind_ok in H. destruct H as (d & _ & H). apply bind_ok in H. destruct H as (r & _ & H).
  destruct (absorbed_flux _ _ _ _) as [Si E] eqn:Ea. apply bind_ok in H. destruct H as (A & EA & H).
  apply bind_ok in H. destruct H as ([[g1 rem] me] & W & H).
  unfold absorbed_flux in Ea.
  assert (S0 : 0 <= Si). { injection Ea as <- _. destruct (Rleb _ _); lra. }
  assert (E0 : Forall (fun x => 0 <= x) E).
  { injection Ea as Es <-. apply Forall_map. apply Forall_forall. intros x _. rewrite Es. apply Rmult_le_pos; [exact S0|apply Rabs_pos]. }
  clear Ea. destruct Hc eqn:EHc.
  assert (A0 : 0 <= A). { apply fdiv_inv in EA. destruct EA as (_ & ->). apply div_nonneg; [apply Rmult_le_pos; lra|apply Rmult_lt_0_compat; lra]. }
  assert (K : H_ g1 /\ 0 <= me).
  { unfold for_range in W. apply (for_loop_inv (fun _ s => H_ (fst (fst s)) /\ 0 <= snd s)) in W;
      [exact W| |split; [exact Hg|cbn; lra]].
    clear W H. intros j [[g2 rm] m2] [[g3 rm3] m3] _ (B1 & B2) W. cbn [fst snd] in *. unfold bintanja_body in W.
    apply bind_ok in W. destruct W as (t & Et & W). apply bind_ok in W. destruct W as (e & Ee & W).
    apply bind_ok in W. destruct W as (rho & Er & W). apply bind_ok in W. destruct W as (a & Eaa & W).
    apply bind_ok in W. destruct W as (h & Eh & W). apply bind_ok in W. destruct W as (b & Eb & W).
    known. assert (He := py_get_forall _ _ _ _ E0 Ee). cbv beta in He. undiv.
    assert (0 < rho * c_spec_heat_ice c) by (apply Rmult_lt_0_compat; lra).
    assert (Ha : 0 <= a) by (subst a; auto with pos). assert (Hb : 0 <= b) by (subst b; auto with pos).
    assert (Hab : 0 <= a * b) by (apply Rmult_le_pos; assumption).
    destruct (Rltb_spec (c_zero_temperature c) (t + a * b)) as [L|L].
    - apply bind_ok in W. destruct W as (f & Ef & W). apply bind_ok in W. destruct W as (q & Eq & W).
      apply bind_ok in W. destruct W as (dh & Edh & W). known. undiv.
      set (dw := A * (t + a * b - c_zero_temperature c) * f) in *.
      assert (Hdw : 0 <= dw) by (unfold dw; repeat apply Rmult_le_pos; lra).
      assert (Hq : 0 < q) by (subst q; apply div_pos; lra).
      assert (Hdh : 0 <= dh).
      { rewrite Edh. apply div_nonneg; [|assumption]. assert (0 <= q * dw) by (apply Rmult_le_pos; lra). lra. }
      destruct (Rleb_spec 1 dh) as [M|M].
      + pull W. known. injection W as <- <- <-. split; [assumption|].
        assert (0 <= dw * x) by (apply Rmult_le_pos; lra). lra.
      + apply bind_ok in W. destruct W as (w & Ew & W). apply bind_ok in W. destruct W as (k1 & F1 & W).
        apply bind_ok in W. destruct W as (w1 & Ew1 & W). apply bind_ok in W. destruct W as (h1 & Eh1 & W).
        apply bind_ok in W. destruct W as (k2 & F2 & W). apply bind_ok in W. destruct W as (h2 & Eh2 & W).
        apply bind_ok in W. destruct W as (k3 & F3 & W). apply bind_ok in W. destruct W as (h3 & Eh3 & W).
        apply bind_ok in W. destruct W as (w3 & Ew3 & W). apply bind_ok in W. destruct W as (k4 & F4 & W).
        apply bind_ok in W. destruct W as (h4 & Eh4 & W). injection W as <- <- <-. known.
        assert (G1 : H_ k1) by (eapply lwc_health; [exact F1|assumption|lra]). known.
        assert (G2 : H_ k2) by (eapply temperature_health; [exact F2|assumption|lra]). known.
        assert (G3 : H_ k3).
        { eapply height_health; [exact F3|assumption|]. apply Rmult_lt_0_compat; [lra|].
          exact (get_height_health _ _ _ Eh2 G2). }
        known. undiv.
        assert (G4 : H_ k4). { eapply lwc_health; [exact F4|assumption|]. subst w3. apply div_nonneg; [apply Rmult_le_pos; lra|lra]. }
        known. split; [assumption|]. assert (0 <= dw * h4) by (apply Rmult_le_pos; lra). lra.
    - apply bind_ok in W. destruct W as (k1 & F1 & W). injection W as <- <- <-. split; [|assumption].
      eapply temperature_health; [exact F1|assumption|lra]. }
  destruct K as (K1 & K2). apply bind_ok in H. destruct H as (g2 & F & H). injection H as <- <- <-.
  split; [|split; assumption]. destruct rem; [injection F as <-; exact K1|eapply remove_health; eassumption].
Qed.

(** ** Heat conduction *)
Lemma heat_health fuel c g dt g' : constants_ok c -> counted g ->
  solveHeatEquation fuel c g dt = Ok g' -> H_ g -> H_ g' /\ (3 <= length (g_nodes g))%nat.
Proof.
  intros Hc Hn H Hg.
  destruct (le_lt_dec 3 (length (g_nodes g))) as [L3|L3].
  2:{ exfalso. unfold solveHeatEquation in H. pull H. unfold heat_dt_stab in E2.
      unfold get_number_layers in E2. rewrite Hn, Nat2Z.id in E2.
      unfold centre_points in E2. replace (length (g_nodes g) - 2)%nat with 0%nat in E2 by lia. discriminate. }
  split; [|exact L3].
  assert (Hk : conductive c (g_nodes g)).
  { split.
    - eapply Forall_impl; [|exact Hg]. intros n (A & B & C & D). auto.
    - unfold solveHeatEquation in H. pull H. unfold get_thermal_diffusivity in E0.
      rewrite get_profile_counted in E0 by exact Hn.
      destruct (g_nodes g) as [|n l]; [cbn in L3; lia|]. cbn [map_res] in E0. apply bind_ok in E0. destruct E0 as (y & E0 & _).
      unfold layer_thermal_diffusivity in E0. apply bind_ok in E0. destruct E0 as (k & E0 & _).
      unfold layer_thermal_conductivity in E0.
      destruct (String.eqb_spec (c_thermal_conductivity_method c) "bulk"); [auto|].
      destruct (String.eqb_spec (c_thermal_conductivity_method c) "empirical"); [auto|discriminate]. }
  destruct (heat_maximum_principle_lem c g dt Hc Hn Hk L3) as (g2 & N & W & F & B & _).
  assert (E : g' = g2).
  { specialize (W (Nat.max N fuel) (Nat.le_max_l _ _)).
    assert (X : solveHeatEquation (Nat.max N fuel) c g dt = Ok g').
    { unfold solveHeatEquation in H |- *. pull H. rewrite E, E0, E1. cbn [bind]. rewrite E2. cbn [bind].
      unfold heat_loop in *. rewrite (while_mono fuel (Nat.max N fuel));
        [rewrite E3; cbn [bind]; exact H|apply Nat.le_max_r|rewrite E3; discriminate|intros; discriminate|intros; discriminate]. }
    congruence. }
  subst g2. unfold healthy, sound_column in *.
  assert (T : Forall (fun n => lo <= n_temperature n <= hi) (g_nodes g')).
  { apply B. eapply Forall_impl; [|exact Hg]. intros n (X1 & X2 & X3 & X4). exact X4. }
  clear - F Hg T. induction F as [|x x' l l' (H1 & H2 & H3 & H4) F IH]; [constructor|].
  constructor.
  - destruct (Forall_inv Hg) as (X1 & X2 & X3 & X4). pose proof (Forall_inv T). cbv beta in *.
    repeat split; lra.
  - apply IH; [exact (Forall_inv_tail Hg)|exact (Forall_inv_tail T)].
Qed.

(** ** Surface temperature *)
Lemma surface_health c wrf nw mn g a SWnet g' fn Ts f : hi = c_zero_temperature c -> lo <= 220 -> 220 <= hi ->
  respects_bounds mn ->
  update_surface_temperature c wrf nw mn g a SWnet = Ok (g', fn, Ts, f) -> H_ g -> H_ g' /\ 220 <= Ts <= hi.
Proof.
  intros Ez Hl Hh Hb W Hg.
  assert (A := surface_lower_bound_lem c wrf nw mn g a SWnet g' fn Ts f ltac:(lra) Hb W).
  assert (B := surface_never_above_melting_lem c wrf nw mn g a SWnet g' fn Ts f W).
  destruct B as (B & _).
  unfold update_surface_temperature in W. apply bind_ok in W. destruct W as (BT & _ & W).
  apply bind_ok in W. destruct W as (tp & _ & W). apply bind_ok in W. destruct W as ((x & fv) & _ & W).
  pull W. injection W as <- <- <- <-. split; [|lra].
  eapply upd_health; [eassumption|exact Hg|]. intros n (X1 & X2 & X3 & X4). repeat split; cbn; lra.
Qed.

(** ** Fresh snow, albedo *)
Lemma fresh_density c T2 U2 rho : c_air_density c < 50 -> c_air_density c < c_constant_density c ->
  fresh_snow_density c T2 U2 = Ok rho -> c_air_density c < rho.
Proof.
  unfold fresh_snow_density; intros A B H. crunch; [assumption|].
  eapply Rlt_le_trans; [exact A|apply Rmax_r].
Qed.

Lemma lay_snow_health c g s rho T2 dt : constants_ok c -> hi = c_zero_temperature c -> lo <= hi ->
  c_air_density c < rho -> lo <= T2 -> H_ g -> H_ (lay_snow c g s rho T2 dt).
Proof.
  intros Hc Ez Hlh Hr HT Hg. unfold lay_snow. destruct (Rltb_spec 0 s) as [A|A]; [|exact Hg].
  destruct Hc. unfold healthy, sound_column, add_fresh_snow.
  assert (K : Forall P (py_insert (g_nodes g) 0 (new_node c s rho (Rmin T2 (c_zero_temperature c)) 0 None))).
  { apply py_insert_forall; [exact Hg|]. split; [exact A|]. split; [|split; [cbn; lra|]].
    - cbn. apply div_pos; [|lra].
      assert (0 < rho / c_ice_density c) by (apply div_pos; lra).
      assert (0 < rho / c_ice_density c * c_air_density c) by (apply Rmult_lt_0_compat; lra). lra.
    - cbn. split; [apply Rmin_glb; lra|]. rewrite Ez. apply Rmin_r. }
  destruct (Rltb _ _); exact K.
Qed.

Lemma albedo_health c g Ts s g' a s' : updateAlbedo c g Ts s = Ok (g', a, s') ->
  g_nodes g' = g_nodes g /\ g_number_nodes g' = g_number_nodes g.
Proof.
  unfold updateAlbedo, method_Oerlemans, method_Bougamont, get_surface_properties, get_fresh_snow_props; intros H.
  destruct (String.eqb _ _).
  - destruct (Rltb _ _ && Rleb _ _); crunch; split; reflexivity.
  - destruct (String.eqb _ _); [|discriminate]. destruct (Rltb _ _ && Rleb _ _); crunch; split; reflexivity.
Qed.

(** ** Water *)
Lemma water_health fuel c g melt m RAIN g' q wr : constants_ok c -> hi = c_zero_temperature c ->
  (hi - lo) * (c_spec_heat_water c - c_spec_heat_ice c) < c_lat_heat_melting c ->
  0 <= melt -> 0 <= m_condensation m -> 0 <= RAIN ->
  water_step fuel c g melt m RAIN = Ok (g', q, wr) -> H_ g -> H_ g' /\ 0 <= q /\ 0 <= wr.
Proof.
  intros Hc Ez Hcold A B C H Hg. unfold water_step in H.
  apply bind_ok in H. destruct H as ((g1 & w) & E1 & H). apply bind_ok in H. destruct H as ((g2 & q2) & E2 & H).
  apply bind_ok in H. destruct H as ((g3 & r) & E3 & H). injection H as <- <- <-.
  destruct (remove_melt_health _ _ _ _ _ _ Hc E1 Hg) as (H1 & W1).
  destruct (percolation_health _ _ _ _ E2 ltac:(lra) H1) as (H2 & Q2).
  destruct (refreezing_health _ _ _ _ Hc Ez Hcold E3 H2) as (H3 & R3). auto.
Qed.

End Health.
