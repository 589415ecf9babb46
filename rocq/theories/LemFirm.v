(** * Every part of the time step keeps the ice contents between bounds *)
From Verif Require Import ModelPy ModelConstants ModelNode ModelGrid ModelWater ModelHeat
  ModelDensification ModelRadiation ModelAlbedo ModelSurface ModelInit ModelCore Spec SpecSurface SpecRun LemPy
  LemGridBase LemMerge LemCorrect LemLog LemGridOps LemHeat LemFinHeat LemSurface LemFinSurface LemCore LemHealth LemWater LemFinWater.

Section Firm.
Variables (a0 a1 : R).
Definition icy (n : Node) : Prop := 0 < n_height n /\ a0 <= n_ice n <= a1.
Notation P := icy.
Definition icy_grid (g : Grid) : Prop := Forall icy (g_nodes g).
Notation H_ := icy_grid.

Lemma upd_icy g i f g' : upd_node g i f = Ok g' -> H_ g -> (forall x, P x -> P (f x)) -> H_ g'.
Proof.
  unfold upd_node, py_update, icy_grid; intros E H F. destruct (py_index _ _); [|discriminate].
  cbn in E. injection E as <-. cbn. apply list_update_forall; assumption.
Qed.
Lemma height_icy g i h g' : set_node_height g i h = Ok g' -> H_ g -> 0 < h -> H_ g'.
Proof. intros E H X. eapply upd_icy; [exact E|exact H|]. intros x (A & B). split; cbn; lra. Qed.
Lemma temperature_icy g i t g' : set_node_temperature g i t = Ok g' -> H_ g -> H_ g'.
Proof. intros E H. eapply upd_icy; [exact E|exact H|]. intros x (A & B). split; cbn; lra. Qed.
Lemma lwc_icy g i w g' : set_node_lwc g i w = Ok g' -> H_ g -> H_ g'.
Proof. intros E H. eapply upd_icy; [exact E|exact H|]. intros x (A & B). split; cbn; lra. Qed.
Lemma ice_icy g i f g' : set_node_ice_fraction g i f = Ok g' -> H_ g -> a0 <= f <= a1 -> H_ g'.
Proof. intros E H X. eapply upd_icy; [exact E|exact H|]. intros x (A & B). split; cbn; lra. Qed.
Lemma refreeze_icy g i f g' : set_node_refreeze g i f = Ok g' -> H_ g -> H_ g'.
Proof. intros E H. eapply upd_icy; [exact E|exact H|]. intros x (A & B). split; cbn; lra. Qed.
Lemma update_icy g i h t f w g' : update_node g i h t f w = Ok g' -> H_ g -> 0 < h -> a0 <= f <= a1 -> H_ g'.
Proof.
  unfold update_node; intros E H A C.
  apply bind_ok in E. destruct E as (g1 & E1 & E). apply bind_ok in E. destruct E as (g2 & E2 & E).
  apply bind_ok in E. destruct E as (g3 & E3 & E).
  eapply lwc_icy; [exact E|]. eapply ice_icy; [exact E3| |exact C].
  eapply temperature_icy; [exact E2|]. eapply height_icy; eassumption.
Qed.
Lemma remove_icy g ids g' : remove_node g ids = Ok g' -> H_ g -> H_ g'.
Proof.
  unfold remove_node, icy_grid; intros E H. destruct (g_nodes g) as [|x l] eqn:El.
  - injection E as <-. rewrite El. exact H.
  - destruct ids as [[|i ids]|].
    + cbn in E. injection E as <-. cbn. exact (Forall_inv_tail H).
    + apply bind_ok in E. destruct E as (l' & E & X). injection X as <-. cbn [g_nodes with_number with_nodes].
      eapply del_all_forall; eassumption.
    + cbn in E. injection E as <-. cbn. exact (Forall_inv_tail H).
Qed.
Lemma get_icy g i n : get_node g i = Ok n -> H_ g -> P n.
Proof. unfold get_node; intros E H. eapply py_get_forall; [exact H|exact E]. Qed.
Lemma get_height_icy g i h : get_node_height g i = Ok h -> H_ g -> 0 < h.
Proof. unfold get_node_height; intros E H. apply bind_ok in E. destruct E as (n & E & X). injection X as <-. apply (get_icy _ _ _ E H). Qed.
Lemma get_ice_icy g i h : get_node_ice_fraction g i = Ok h -> H_ g -> a0 <= h <= a1.
Proof. unfold get_node_ice_fraction; intros E H. apply bind_ok in E. destruct E as (n & E & X). injection X as <-. apply (get_icy _ _ _ E H). Qed.

Ltac pull H :=
  repeat match type of H with
  | bind _ _ = Ok _ => let x := fresh "x" in let E := fresh "E" in apply bind_ok in H; destruct H as (x & E & H)
  end.
Ltac known :=
  repeat match goal with
  | E : get_node_height ?g _ = Ok ?h, H : H_ ?g |- _ =>
      lazymatch goal with K : 0 < h |- _ => fail | _ => pose proof (get_height_icy _ _ _ E H) end
  | E : get_node_ice_fraction ?g _ = Ok ?h, H : H_ ?g |- _ =>
      lazymatch goal with K : a0 <= h <= a1 |- _ => fail | _ => pose proof (get_ice_icy _ _ _ E H) end
  end.
Ltac undiv :=
  repeat match goal with
  | E : fdiv _ _ = Ok _ |- _ => apply fdiv_inv in E; destruct E as (? & E)
  end.

Lemma merge_icy g i g' : merge_nodes g i = Ok g' -> H_ g -> H_ g'.
Proof.
  unfold merge_nodes; intros H Hg. pull H. known. undiv.
  eapply remove_icy; [exact H|]. eapply update_icy; [eassumption|exact Hg| |].
  - lra.
  - subst. match goal with |- _ <= (?x * ?a + ?y * ?b) / (?u + ?v) <= _ =>
      replace ((x * a + y * b) / (u + v)) with (u / (u + v) * x + v / (u + v) * y) by (field; lra) end.
    apply weighted_between; assumption.
Qed.

Lemma correct_layer_icy fuel c g i h g' : 0 < h -> correct_layer fuel c g i h = Ok g' -> H_ g -> H_ g'.
Proof.
  unfold correct_layer; intros Hh H Hg. pull H. destruct x0 as [[g1 th] st].
  assert (H1 : H_ g1).
  { apply (while_inv (fun s => H_ (fst (fst s)))) in E0; [exact (proj1 E0)| |exact Hg].
    intros [[g2 t2] s2] [[g3 t3] s3] A _ B. cbn [correct_layer_body fst] in *. crunch;
      try (eapply merge_icy; eassumption); assumption. }
  destruct (Rltb_spec h th) as [L|L]; [|injection H as <-; exact H1].
  unfold correct_layer_split in H. pull H. known.
  destruct (Rltb_spec 0 (x0 - x1)) as [W|W].
  - pull H. injection H as <-. known. undiv.
    assert (H_ x7) by (eapply update_icy; [eassumption|exact H1|assumption|assumption]).
    unfold icy_grid. cbn. apply py_insert_forall; [assumption|]. split; cbn; lra.
  - pull H. injection H as <-. known. undiv.
    assert (H_ x7) by (eapply update_icy; [eassumption|exact H1|assumption|assumption]).
    unfold icy_grid. cbn. apply py_insert_forall; [assumption|]. split; cbn; lra.
Qed.

Lemma log_profile_icy fuel c g g' : 0 < c_first_layer_height c -> 0 < c_layer_stretching c ->
  log_profile fuel c g = Ok g' -> H_ g -> H_ g'.
Proof.
  intros Hf Hs H Hg. unfold log_profile in H. apply bind_ok in H. destruct H as (hs & _ & H).
  apply bind_ok in H. destruct H as ([[[g1 i1] h1] l1] & W & H).
  apply bind_ok in H. destruct H as (th & _ & H). apply bind_ok in H. destruct H as (sh & _ & H).
  apply bind_ok in H. destruct H as (ix & _ & H).
  apply bind_ok in H. destruct H as ([[[g2 i2] h2] l2] & W2 & H). injection H as <-.
  apply (while_inv (fun s => H_ (fst (fst (fst s))) /\ 0 < snd s)) in W.
  - cbn [fst snd] in W. destruct W as ((W & WL) & _).
    apply (while_inv (fun s => H_ (fst (fst (fst s))) /\ 0 < snd s)) in W2; [exact (proj1 (proj1 W2))| |split; assumption].
    intros [[[a b] d] e] [[[a' b'] d'] e'] (A & L) _ B. cbn [log_ice_body fst snd] in *. crunch; split; try assumption;
      first [eapply correct_layer_icy; eassumption | eapply merge_icy; eassumption | apply Rmult_lt_0_compat; assumption].
  - intros [[[a b] d] e] [[[a' b'] d'] e'] (A & L) _ B. cbn [log_snow_body fst snd] in *. crunch; split; try assumption;
      first [eapply correct_layer_icy; eassumption | eapply merge_icy; eassumption | apply Rmult_lt_0_compat; assumption].
  - split; assumption.
Qed.

Lemma adaptive_profile_icy fuel c g g' : 0 < c_first_layer_height c ->
  adaptive_profile fuel c g = Ok g' -> H_ g -> H_ g'.
Proof.
  intros Hf H Hg. unfold adaptive_profile, adaptive_snow in H.
  apply bind_ok in H. destruct H as ([[g1 i1] m1] & W & H).
  apply (while_inv (fun s => H_ (fst (fst s)))) in W; [| |exact Hg].
  2:{ intros [[a b] d] [[a' b'] d'] A _ B. cbn [adapt_body fst] in *. crunch; try assumption;
      first [eapply merge_icy; eassumption | eapply remove_icy; eassumption]. }
  destruct W as (W & _). cbn [fst] in W.
  apply bind_ok in H. destruct H as (k & _ & H). apply bind_ok in H. destruct H as (h & _ & H).
  apply bind_ok in H. destruct H as ([g2 i2] & E & H).
  apply bind_ok in H. destruct H as ([g3 i3] & W3 & H).
  eapply correct_layer_icy; [exact Hf|exact H|].
  apply (while_inv (fun s => H_ (fst s))) in W3; [exact (proj1 W3)| |].
  - intros [a b] [a' b'] A _ B. cbn [adapt_ice_body fst] in *. crunch; try assumption; eapply merge_icy; eassumption.
  - cbn [fst]. crunch; try assumption; eapply correct_layer_icy; eassumption.
Qed.

Lemma update_grid_icy fuel c g g' : 0 < c_first_layer_height c -> 0 < c_layer_stretching c ->
  update_grid fuel c g = Ok g' -> H_ g -> H_ g'.
Proof.
  intros Hf Hs H Hg. unfold update_grid in H. apply bind_ok in H. destruct H as (g1 & E & H).
  assert (H_ g1).
  { clear H. crunch; try assumption; first [eapply log_profile_icy; eassumption|eapply adaptive_profile_icy; eassumption]. }
  clear E. crunch; try assumption; eapply remove_icy; eassumption.
Qed.
End Firm.
