(** * Heat conduction: lemmas *)
From Verif Require Import ModelPy ModelConstants ModelNode ModelGrid ModelHeat Spec LemPy LemGridBase.

Lemma at_eq l i : at_ l i = at_layer l i.
Proof. reflexivity. Qed.

(** ** Diffusivity is defined and positive *)
Lemma density_positive c n : constants_ok c -> 0 < n_ice n -> 0 <= n_lwc n -> 0 < layer_density c n.
Proof.
  intros [] Hi Hw. unfold layer_density, layer_air_porosity.
  assert (0 <= Rmax 0 (1 - n_lwc n - n_ice n)) by apply Rmax_l.
  assert (0 < n_ice n * c_ice_density c) by (apply Rmult_lt_0_compat; lra).
  assert (0 <= n_lwc n * c_water_density c) by (apply Rmult_le_pos; lra).
  assert (0 <= Rmax 0 (1 - n_lwc n - n_ice n) * c_air_density c) by (apply Rmult_le_pos; lra).
  lra.
Qed.

Lemma diffusivity_positive c n : constants_ok c -> 0 < n_ice n -> 0 <= n_lwc n ->
  (c_thermal_conductivity_method c = "bulk"%string \/
   c_thermal_conductivity_method c = "empirical"%string) ->
  exists k, layer_thermal_diffusivity c n = Ok k /\ 0 < k.
Proof.
  intros Hc Hi Hw Hm. assert (Hd := density_positive c n Hc Hi Hw).
  assert (Ha : 0 <= layer_air_porosity n) by apply Rmax_l.
  destruct Hc.
  assert (Hs : 0 < layer_specific_heat c n).
  { unfold layer_specific_heat.
    assert (0 < n_ice n * c_spec_heat_ice c) by (apply Rmult_lt_0_compat; lra).
    assert (0 <= layer_air_porosity n * c_spec_heat_air c) by (apply Rmult_le_pos; lra).
    assert (0 <= n_lwc n * c_spec_heat_water c) by (apply Rmult_le_pos; lra). lra. }
  assert (Hp : 0 < layer_density c n * layer_specific_heat c n) by (apply Rmult_lt_0_compat; lra).
  assert (Hk : exists k, layer_thermal_conductivity c n = Ok k /\ 0 < k).
  { unfold layer_thermal_conductivity. destruct Hm as [-> | ->]; cbn [String.eqb Ascii.eqb Bool.eqb].
    - eexists; split; [reflexivity|].
      assert (0 < n_ice n * c_k_i c) by (apply Rmult_lt_0_compat; lra).
      assert (0 <= layer_air_porosity n * c_k_a c) by (apply Rmult_le_pos; lra).
      assert (0 <= n_lwc n * c_k_w c) by (apply Rmult_le_pos; lra). lra.
    - eexists; split; [reflexivity|].
      assert (0 <= (layer_density c n / 1000) ^ 2) by (apply pow2_ge_0). lra. }
  destruct Hk as (k & Ek & Hk). unfold layer_thermal_diffusivity. rewrite Ek. cbn [bind].
  rewrite fdiv_ok by lra. eexists; split; [reflexivity|].
  apply Rmult_lt_0_compat; [exact Hk|]. now apply Rinv_0_lt_compat.
Qed.

Lemma diffusivities c l : constants_ok c -> conductive c l ->
  exists K, map_res (layer_thermal_diffusivity c) l = Ok K /\ length K = length l /\
    Forall (fun k => 0 < k) K.
Proof.
  intros Hc [H Hm]. induction H as [|n l Hn _ IH].
  - exists []. auto.
  - destruct (diffusivity_positive c n Hc) as (k & Ek & Hk); try tauto.
    destruct IH as (K & EK & LK & HK). exists (k :: K). cbn [map_res]. rewrite Ek. cbn [bind].
    rewrite EK. cbn [bind]. split; [reflexivity|]. split; [cbn [length]; lia|]. constructor; assumption.
Qed.

(** ** Array access *)
Lemma at_pos l i : Forall (fun x => 0 < x) l -> (i < length l)%nat -> 0 < at_layer l i.
Proof.
  intros H Hi. unfold at_layer. rewrite Forall_forall in H. apply H. apply nth_In. exact Hi.
Qed.

Lemma at_forall (P : R -> Prop) l i : Forall P l -> (i < length l)%nat -> P (at_layer l i).
Proof.
  intros H Hi. unfold at_layer. rewrite Forall_forall in H. apply H. apply nth_In. exact Hi.
Qed.

Lemma forall_at (P : R -> Prop) l : (forall i, (i < length l)%nat -> P (at_layer l i)) -> Forall P l.
Proof.
  intros H. apply Forall_forall. intros x Hx. destruct (In_nth l x 0 Hx) as (i & Hi & E).
  rewrite <- E. apply H. exact Hi.
Qed.

(** ** Minimum of an array *)
Lemma fold_Rmin_le l a : fold_left Rmin l a <= a /\ Forall (fun x => fold_left Rmin l a <= x) l.
Proof.
  revert a; induction l as [|x l IH]; intros a; cbn [fold_left]; [split; [lra|constructor]|].
  destruct (IH (Rmin a x)) as [H1 H2].
  split; [eapply Rle_trans; [exact H1|apply Rmin_l]|].
  constructor; [eapply Rle_trans; [exact H1|apply Rmin_r]|exact H2].
Qed.

Lemma fold_Rmin_in l a : fold_left Rmin l a = a \/ In (fold_left Rmin l a) l.
Proof.
  revert a; induction l as [|x l IH]; intros a; cbn [fold_left]; [auto|].
  destruct (IH (Rmin a x)) as [H|H].
  - rewrite H. unfold Rmin. destruct (Rle_dec a x); [auto|right; left; reflexivity].
  - right; right; exact H.
Qed.

Lemma py_min_spec l m : py_min l = Ok m -> In m l /\ Forall (fun x => m <= x) l.
Proof.
  destruct l as [|a l]; cbn; [discriminate|]. intros H; injection H as <-.
  destruct (fold_Rmin_le l a) as [H1 H2]. split.
  - destruct (fold_Rmin_in l a) as [E|E]; [left; congruence|right; exact E].
  - constructor; assumption.
Qed.

Lemma py_min_ok l : l <> [] -> exists m, py_min l = Ok m.
Proof. destruct l; [congruence|]. cbn. eauto. Qed.

(** ** The stable time step *)
Section Arrays.
Variables h K : list R.
Hypothesis Hh : Forall (fun x => 0 < x) h.
Hypothesis HK : Forall (fun x => 0 < x) K.
Hypothesis HL : length K = length h.

Lemma in_centre i n : In i (centre_points n) <-> (1 <= i <= n - 2)%nat.
Proof. unfold centre_points. rewrite in_seq. lia. Qed.

Lemma dt_stab_ok : (3 <= length h)%nat ->
  exists d, heat_dt_stab h K (length h) = Ok d /\ 0 < d /\
    (forall tau, 0 <= tau <= d -> stable_step h K tau) /\
    (exists i, (i + 1 < length h)%nat /\
       d * (at_layer K i + at_layer K (i + 1)) / 2
       = 0.8 * (((at_layer h i + at_layer h (i + 1)) / 2) ^ 2 / 2)).
Proof.
  intros H3. unfold heat_dt_stab.
  assert (Hc : centre_points (length h) <> []).
  { unfold centre_points. destruct (length h - 2)%nat eqn:E; [lia|discriminate]. }
  destruct (py_min_ok (map (fun i => heat_hk h i ^ 2 / heat_Ku K i) (centre_points (length h)))) as [m1 E1].
  { intros E. apply map_eq_nil in E. contradiction. }
  destruct (py_min_ok (map (fun i => heat_hk1 h i ^ 2 / heat_Kl K i) (centre_points (length h)))) as [m2 E2].
  { intros E. apply map_eq_nil in E. contradiction. }
  rewrite E1, E2. cbn [bind].
  apply py_min_spec in E1. apply py_min_spec in E2.
  destruct E1 as [I1 F1], E2 as [I2 F2]. rewrite Forall_forall in F1, F2.
  apply in_map_iff in I1. destruct I1 as (i1 & M1 & I1). apply in_centre in I1.
  apply in_map_iff in I2. destruct I2 as (i2 & M2 & I2). apply in_centre in I2.
  assert (G : forall i, (i + 1 < length h)%nat ->
     0 < at_layer h i /\ 0 < at_layer h (i+1) /\ 0 < at_layer K i /\ 0 < at_layer K (i+1)).
  { intros i Hi. repeat split; apply at_pos; auto; lia. }
  set (q := fun i => ((at_layer h i + at_layer h (i + 1)) / 2) ^ 2 / ((at_layer K i + at_layer K (i + 1)) / 2)).
  assert (Q1 : forall i, (1 <= i)%nat -> heat_hk h i ^ 2 / heat_Ku K i = q (i - 1)%nat).
  { intros i Hi. unfold q, heat_hk, heat_Ku. change at_ with at_layer. replace (i - 1 + 1)%nat with i by lia. reflexivity. }
  assert (Q2 : forall i, heat_hk1 h i ^ 2 / heat_Kl K i = q i) by reflexivity.
  assert (Hm : forall i, (i + 1 < length h)%nat -> Rmin m1 m2 <= q i).
  { intros i Hi. destruct (Nat.eq_dec i 0) as [->|Hne].
    - eapply Rle_trans; [apply Rmin_l|]. apply F1. apply in_map_iff. exists 1%nat.
      split; [rewrite Q1 by lia; reflexivity|]. apply in_centre. lia.
    - eapply Rle_trans; [apply Rmin_r|]. apply F2. apply in_map_iff. exists i.
      split; [apply Q2|]. apply in_centre. lia. }
  assert (Hin : exists i, (i + 1 < length h)%nat /\ Rmin m1 m2 = q i).
  { unfold Rmin. destruct (Rle_dec m1 m2).
    - exists (i1 - 1)%nat. split; [lia|]. rewrite <- M1. apply Q1. lia.
    - exists i2. split; [lia|]. rewrite <- M2. apply Q2. }
  assert (Qp : forall i, (i + 1 < length h)%nat -> 0 < q i).
  { intros i Hi. destruct (G i Hi) as (A & B & C & D). unfold q.
    apply Rmult_lt_0_compat; [apply pow_lt; lra|]. apply Rinv_0_lt_compat; lra. }
  assert (Qd : forall i, (i + 1 < length h)%nat ->
     q i * (at_layer K i + at_layer K (i + 1)) / 2 = ((at_layer h i + at_layer h (i + 1)) / 2) ^ 2).
  { intros i Hi. destruct (G i Hi) as (A & B & C & D). unfold q. field. lra. }
  eexists; split; [reflexivity|].
  destruct Hin as (i0 & Hi0 & E0).
  split; [|split].
  - rewrite E0. assert (0 < q i0) by (apply Qp; exact Hi0). lra.
  - intros tau [T0 T1] i Hi. specialize (Hm i Hi). specialize (Qd i Hi). destruct (G i Hi) as (A & B & C & D).
    rewrite <- Qd. unfold Rdiv. 
    apply Rle_trans with (0.8 * (Rmin m1 m2 / 2) * (at_layer K i + at_layer K (i + 1)) * / 2).
    + apply Rmult_le_compat_r; [lra|]. apply Rmult_le_compat_r; lra.
    + assert (Rmin m1 m2 * (at_layer K i + at_layer K (i + 1)) <= q i * (at_layer K i + at_layer K (i + 1)))
        by (apply Rmult_le_compat_r; lra). lra.
  - exists i0. split; [exact Hi0|]. rewrite E0, <- (Qd i0 Hi0). lra.
Qed.

(** ** One step *)
Lemma heat_step_length tau T : length (heat_step h K tau T) = length T.
Proof. unfold heat_step. rewrite map_length, seq_length. reflexivity. Qed.

Lemma heat_step_at tau T i : (i < length T)%nat ->
  at_layer (heat_step h K tau T) i
  = if ((1 <=? i) && (i <=? length T - 2))%nat then heat_point h K T tau i else at_ T i.
Proof.
  intros Hi. unfold at_layer, heat_step.
  set (F := fun j : nat => if ((1 <=? j) && (j <=? length T - 2))%nat
                then heat_point h K T tau j else at_ T j).
  rewrite nth_indep with (d' := F 0%nat) by (rewrite map_length, seq_length; exact Hi).
  rewrite map_nth, seq_nth by exact Hi. reflexivity.
Qed.

Lemma heat_step_advance tau T : length T = length h -> (3 <= length h)%nat ->
  heat_advance h K tau T (heat_step h K tau T).
Proof.
  intros LT H3. split; [apply heat_step_length|]. split; [|split].
  - rewrite heat_step_at by lia. reflexivity.
  - rewrite heat_step_at by lia. replace (length T - 1 <=? length T - 2)%nat with false
      by (symmetry; apply Nat.leb_gt; lia). rewrite andb_false_r. reflexivity.
  - intros i Hi. rewrite heat_step_at by lia.
    replace ((1 <=? i) && (i <=? length T - 2))%nat with true
      by (symmetry; apply andb_true_iff; split; apply Nat.leb_le; lia).
    unfold heat_point, heat_hk, heat_hk1, heat_Kl, heat_Ku. change at_ with at_layer.
    unfold control_length, conductive_flux. replace (i - 1 + 1)%nat with i by lia.
    assert (0 < at_layer h (i - 1)) by (apply at_pos; auto; lia).
    assert (0 < at_layer h i) by (apply at_pos; auto; lia).
    assert (0 < at_layer h (i + 1)) by (apply at_pos; auto; lia).
    replace 0.5 with (/2) by lra. field. repeat split; lra.
Qed.

(** the step is a weighted mean of the layer and its neighbours *)
Lemma advance_mean tau T T' i : length T = length h -> heat_advance h K tau T T' ->
  0 <= tau -> stable_step h K tau -> (1 <= i <= length h - 2)%nat ->
  exists a b, 0 <= a /\ 0 <= b /\ a + b <= 0.8 /\
    at_layer T' i = (1 - a - b) * at_layer T i + a * at_layer T (i + 1) + b * at_layer T (i - 1).
Proof.
  intros LT (_ & _ & _ & HA) Ht HS Hi.
  specialize (HA i ltac:(lia)).
  assert (S1 := HS i ltac:(lia)). assert (S0 := HS (i - 1)%nat ltac:(lia)).
  unfold control_length, conductive_flux in HA.
  replace (i - 1 + 1)%nat with i in HA, S0 by lia.
  assert (P0 : 0 < at_layer h (i - 1)) by (apply at_pos; auto; lia).
  assert (P1 : 0 < at_layer h i) by (apply at_pos; auto; lia).
  assert (P2 : 0 < at_layer h (i + 1)) by (apply at_pos; auto; lia).
  assert (K0 : 0 < at_layer K (i - 1)) by (apply at_pos; auto; lia).
  assert (K1 : 0 < at_layer K i) by (apply at_pos; auto; lia).
  assert (K2 : 0 < at_layer K (i + 1)) by (apply at_pos; auto; lia).
  set (h0 := at_layer h (i-1)) in *. set (h1 := at_layer h i) in *. set (h2 := at_layer h (i+1)) in *.
  set (k0 := at_layer K (i-1)) in *. set (k1 := at_layer K i) in *. set (k2 := at_layer K (i+1)) in *.
  set (w := (h0 + 2 * h1 + h2) / 4) in *.
  set (d1 := (h1 + h2) / 2) in *. set (d0 := (h0 + h1) / 2) in *.
  assert (W : 0 < w) by (unfold w; lra). assert (D1 : 0 < d1) by (unfold d1; lra).
  assert (D0 : 0 < d0) by (unfold d0; lra).
  assert (Wd : 2 * w = d0 + d1) by (unfold w, d0, d1; lra).
  exists (tau * ((k1 + k2) / 2) / (d1 * w)), (tau * ((k0 + k1) / 2) / (d0 * w)).
  assert (A1 : 0 <= tau * ((k1 + k2) / 2) / (d1 * w)).
  { apply Rmult_le_pos; [apply Rmult_le_pos; lra|]. apply Rlt_le, Rinv_0_lt_compat, Rmult_lt_0_compat; lra. }
  assert (A0 : 0 <= tau * ((k0 + k1) / 2) / (d0 * w)).
  { apply Rmult_le_pos; [apply Rmult_le_pos; lra|]. apply Rlt_le, Rinv_0_lt_compat, Rmult_lt_0_compat; lra. }
  split; [exact A1|]. split; [exact A0|].
  assert (B1 : tau * ((k1 + k2) / 2) / (d1 * w) <= 2/5 * d1 / w).
  { apply Rmult_le_reg_r with (d1 * w); [apply Rmult_lt_0_compat; lra|].
    replace (tau * ((k1 + k2) / 2) / (d1 * w) * (d1 * w)) with (tau * ((k1 + k2) / 2)) by (field; lra).
    replace (2/5 * d1 / w * (d1 * w)) with (2/5 * d1 ^ 2) by (field; lra). lra. }
  assert (B0 : tau * ((k0 + k1) / 2) / (d0 * w) <= 2/5 * d0 / w).
  { apply Rmult_le_reg_r with (d0 * w); [apply Rmult_lt_0_compat; lra|].
    replace (tau * ((k0 + k1) / 2) / (d0 * w) * (d0 * w)) with (tau * ((k0 + k1) / 2)) by (field; lra).
    replace (2/5 * d0 / w * (d0 * w)) with (2/5 * d0 ^ 2) by (field; lra). lra. }
  split.
  { assert (2/5 * d1 / w + 2/5 * d0 / w = 0.8); [|lra].
    replace (2/5 * d1 / w + 2/5 * d0 / w) with (2/5 * (d0 + d1) / w) by (field; lra).
    rewrite <- Wd. replace (2/5 * (2 * w) / w) with (4/5) by (field; lra). lra. }
  apply Rmult_eq_reg_l with w; [|lra].
  apply Rplus_eq_reg_r with (- (w * at_layer T i)).
  replace (w * at_layer T' i + - (w * at_layer T i)) with (w * (at_layer T' i - at_layer T i)) by ring.
  rewrite HA. field. split; lra.
Qed.

(** temperatures stay between any bounds *)
Lemma advance_bounds tau T T' m M : length T = length h -> (3 <= length h)%nat ->
  heat_advance h K tau T T' -> 0 <= tau -> stable_step h K tau ->
  Forall (fun t => m <= t <= M) T -> Forall (fun t => m <= t <= M) T'.
Proof.
  intros LT H3 HA Ht HS HF. apply forall_at. intros i Hi.
  assert (HA' := HA). destruct HA' as (L & E0 & E1 & _). rewrite L in Hi.
  destruct (Nat.eq_dec i 0) as [->|N0].
  { rewrite E0. apply (at_forall _ _ _ HF). lia. }
  destruct (Nat.eq_dec i (length T - 1)) as [->|N1].
  { rewrite E1. apply (at_forall _ _ _ HF). lia. }
  destruct (advance_mean tau T T' i LT HA Ht HS ltac:(lia)) as (a & b & Ha & Hb & Hab & ->).
  assert (F1 := at_forall _ _ i HF ltac:(lia)). assert (F2 := at_forall _ _ (i+1) HF ltac:(lia)).
  assert (F0 := at_forall _ _ (i-1) HF ltac:(lia)). cbv beta in F0, F1, F2.
  set (t1 := at_layer T i) in *. set (t2 := at_layer T (i+1)) in *. set (t0 := at_layer T (i-1)) in *.
  assert ((1-a-b) * m <= (1-a-b) * t1 <= (1-a-b) * M) by (split; apply Rmult_le_compat_l; lra).
  assert (a * m <= a * t2 <= a * M) by (split; apply Rmult_le_compat_l; lra).
  assert (b * m <= b * t0 <= b * M) by (split; apply Rmult_le_compat_l; lra).
  lra.
Qed.

(** a warmer column stays warmer *)
Lemma advance_monotone tau T T' S S' : length T = length h -> length S = length h -> (3 <= length h)%nat ->
  heat_advance h K tau T T' -> heat_advance h K tau S S' -> 0 <= tau -> stable_step h K tau ->
  Forall2 Rle T S -> Forall2 Rle T' S'.
Proof.
  intros LT LS H3 HT HS Ht Hst HF.
  assert (P : forall i, (i < length h)%nat -> at_layer T i <= at_layer S i).
  { rewrite <- LT. clear - HF. unfold at_layer. induction HF as [|x y l l' Hx HF IH]; intros i Hi; cbn in *; [lia|].
    destruct i; [exact Hx|]. apply IH. lia. }
  assert (P' : forall i, (i < length h)%nat -> at_layer T' i <= at_layer S' i).
  { intros i Hi.
    assert (HT' := HT). destruct HT' as (L1 & E0 & E1 & _).
    assert (HS' := HS). destruct HS' as (L2 & G0 & G1 & _).
    destruct (Nat.eq_dec i 0) as [->|N0]; [rewrite E0, G0; apply P; lia|].
    destruct (Nat.eq_dec i (length h - 1)) as [->|N1].
    { rewrite LT in E1. rewrite LS in G1. rewrite E1, G1. apply P. lia. }
    (* the weights do not depend on the temperatures: use the difference *)
    set (D := map2 Rminus S T). set (D' := map2 Rminus S' T').
    assert (ND : forall (A B : list R) j, length A = length B -> (j < length A)%nat ->
       at_layer (map2 Rminus A B) j = at_layer A j - at_layer B j).
    { clear. induction A as [|a A IH]; intros [|b B] j HL Hj; cbn in *; try lia.
      destruct j; [reflexivity|]. apply IH; lia. }
    assert (LD : forall (A B : list R), length A = length B -> length (map2 Rminus A B) = length A).
    { clear. induction A as [|a A IH]; intros [|b B] HL; cbn in *; try lia. rewrite IH; lia. }
    assert (HD : heat_advance h K tau D D').
    { unfold D, D'. destruct HT as (_ & _ & _ & HT). destruct HS as (_ & _ & _ & HS).
      split; [rewrite !LD; lia|]. split; [rewrite !ND by lia; lra|].
      split; [rewrite LD, !ND by lia; rewrite LT in E1; rewrite LS in *; lra|].
      rewrite LD by lia. intros j Hj. unfold conductive_flux in *. rewrite !ND by lia.
      specialize (HT j ltac:(lia)). specialize (HS j ltac:(lia)).
      replace (at_layer S' j - at_layer T' j - (at_layer S j - at_layer T j))
        with ((at_layer S' j - at_layer S j) - (at_layer T' j - at_layer T j)) by ring.
      rewrite Rmult_minus_distr_l, HT, HS. unfold Rdiv. ring. }
    destruct (advance_mean tau D D' i ltac:(unfold D; rewrite LD; lia) HD Ht Hst ltac:(lia))
      as (a & b & Ha & Hb & Hab & E).
    unfold D, D' in E. rewrite !ND in E by lia.
    assert (Q1 := P i Hi). assert (Q2 := P (i+1)%nat ltac:(lia)). assert (Q0 := P (i-1)%nat ltac:(lia)).
    assert (0 <= (1-a-b) * (at_layer S i - at_layer T i)) by (apply Rmult_le_pos; lra).
    assert (0 <= a * (at_layer S (i+1) - at_layer T (i+1))) by (apply Rmult_le_pos; lra).
    assert (0 <= b * (at_layer S (i-1) - at_layer T (i-1))) by (apply Rmult_le_pos; lra).
    lra. }
  destruct HT as (L1 & _). destruct HS as (L2 & _). rewrite <- LT, <- L1 in P'.
  assert (L : length T' = length S') by lia. clear - P' L.
  revert S' L P'; induction T' as [|t T' IH]; intros [|s S'] L P'; cbn in *; try lia; constructor.
  - apply (P' 0%nat). lia.
  - apply IH; [lia|]. intros i Hi. apply (P' (1 + i)%nat). lia.
Qed.

(** ** The loop *)
Lemma heat_loop_steps fuel d dt : 0 < d -> (3 <= length h)%nat ->
  forall T t, length T = length h -> t <= dt -> dt - t <= INR fuel * d ->
  exists taus T', while_loop (S fuel)
    (fun s => Ok (Rltb (fst s) dt))
    (fun s => let dt_use := Rmin d (dt - fst s) in
              Ok (fst s + dt_use, heat_step h K dt_use (snd s))) (t, T) = Ok (dt, T') /\
    heat_steps h K taus T T' /\
    Forall (fun tau => 0 < tau <= d) taus /\ sum_list taus = dt - t /\
    (forall pre last, taus = pre ++ [last] -> Forall (fun tau => tau = d) pre).
Proof.
  intros Hd H3. induction fuel as [|fuel IH]; intros T t LT Ht Hf.
  { cbn in Hf. assert (t = dt) by lra. subst t. exists [], T.
    cbn [while_loop bind fst snd]. rewrite Rltb_false by lra. split; [reflexivity|]. split; [constructor|].
    split; [constructor|]. split; [rewrite sum_list_fold; cbn; ring|].
    intros pre last E. destruct pre; discriminate. }
  remember (S fuel) as n eqn:En. cbn [while_loop]. cbn [bind fst snd].
  destruct (Rltb_spec t dt) as [L|L].
  - set (u := Rmin d (dt - t)). cbn [bind].
    assert (U : 0 < u <= d) by (unfold u; split; [apply Rmin_glb_lt; lra|apply Rmin_l]).
    assert (U2 : u <= dt - t) by apply Rmin_r.
    destruct (IH (heat_step h K u T) (t + u)) as (taus & T' & W & HS & HF & HSum & Hlast).
    + rewrite heat_step_length; exact LT.
    + lra.
    + rewrite En, S_INR in Hf. unfold u, Rmin. destruct (Rle_dec d (dt - t)); [lra|].
      replace (dt - (t + (dt - t))) with 0 by ring. apply Rmult_le_pos; [apply pos_INR|lra].
    + exists (u :: taus), T'. cbv zeta in W. rewrite W. split; [reflexivity|]. split.
      { econstructor; [apply heat_step_advance; assumption|exact HS]. }
      split; [constructor; assumption|]. split; [rewrite sum_list_cons, HSum; ring|].
      intros pre last E. destruct pre as [|p pre]; [constructor|]. injection E as <- E.
      constructor; [|eapply Hlast; exact E].
      unfold u, Rmin. destruct (Rle_dec d (dt - t)) as [Q|Q]; [reflexivity|exfalso].
      (* a later step exists although this one has used up the time *)
      assert (u = dt - t) by (unfold u, Rmin; destruct (Rle_dec d (dt - t)); lra).
      assert (sum_list taus = 0) by lra. rewrite E in HF, H0.
      rewrite sum_list_app in H0. apply Forall_app in HF. destruct HF as [F1 F2].
      assert (0 <= sum_list pre).
      { clear - F1. induction F1 as [|x l Hx F IHl]; [rewrite sum_list_fold; cbn; lra|].
        rewrite sum_list_cons. lra. }
      assert (Hl := Forall_inv F2). cbv beta in Hl. rewrite sum_list_cons in H0.
      assert (sum_list [] = 0) by (rewrite sum_list_fold; reflexivity). lra.
  - assert (t = dt) by lra. subst t. exists [], T. split; [reflexivity|]. split; [constructor|].
    split; [constructor|]. split; [rewrite sum_list_fold; cbn; ring|].
    intros pre last E. destruct pre; discriminate.
Qed.

Lemma steps_length taus T T' : heat_steps h K taus T T' -> length T' = length T.
Proof. induction 1 as [|tau taus T T1 T2 H _ IH]; [reflexivity|]. destruct H as (L & _). congruence. Qed.

Lemma steps_ends taus T T' : heat_steps h K taus T T' ->
  at_layer T' 0 = at_layer T 0 /\ at_layer T' (length T - 1) = at_layer T (length T - 1).
Proof.
  induction 1 as [|tau taus T T1 T2 H _ IH]; [auto|]. destruct H as (L & E0 & E1 & _).
  rewrite L in IH. destruct IH as [I0 I1]. split; congruence.
Qed.

Lemma steps_bounds taus T T' m M : heat_steps h K taus T T' -> length T = length h -> (3 <= length h)%nat ->
  Forall (fun tau => 0 <= tau /\ stable_step h K tau) taus ->
  Forall (fun t => m <= t <= M) T -> Forall (fun t => m <= t <= M) T'.
Proof.
  induction 1 as [|tau taus T T1 T2 H _ IH]; intros LT H3 HF HB; [exact HB|].
  assert (Ht := Forall_inv HF). cbv beta in Ht. apply IH; [|exact H3|exact (Forall_inv_tail HF)|].
  - destruct H as (L & _). congruence.
  - eapply advance_bounds; try eassumption; tauto.
Qed.

Lemma steps_monotone taus T T' : heat_steps h K taus T T' -> forall S S', heat_steps h K taus S S' ->
  length T = length h -> length S = length h -> (3 <= length h)%nat ->
  Forall (fun tau => 0 <= tau /\ stable_step h K tau) taus ->
  Forall2 Rle T S -> Forall2 Rle T' S'.
Proof.
  induction 1 as [T|tau taus T T1 T2 H _ IH]; intros S S' HS LT LS H3 HF HB.
  - inversion HS; subst. exact HB.
  - inversion HS as [|? ? ? S1 ? A B]; subst. assert (Ht := Forall_inv HF). cbv beta in Ht.
    apply (IH S1 S'); [exact B| | |exact H3|exact (Forall_inv_tail HF)|].
    + destruct H as (L & _). congruence.
    + destruct A as (L & _). congruence.
    + eapply (advance_monotone tau T T1 S S1); try eassumption; tauto.
Qed.

End Arrays.

(** ** Writing a profile back *)
Lemma set_profile_loop (set : R -> Node -> Node) (v : list R) : forall l w pre vpre g,
  v = vpre ++ w -> length vpre = length pre -> length w = length l ->
  g_nodes g = pre ++ l ->
  for_loop (length l) (Z.of_nat (length pre)) (fun i g => x <- py_get v i ;; upd_node g i (set x)) g
  = Ok (with_nodes g (pre ++ map2 set w l)).
Proof.
  induction l as [|x l IH]; intros w pre vpre g Ev L1 L2 E.
  - destruct w; [|discriminate]. cbn. rewrite <- E, with_nodes_same. reflexivity.
  - destruct w as [|y w]; [discriminate|]. cbn [length for_loop map2].
    rewrite <- L1 at 1. rewrite Ev, py_get_mid. cbn [bind].
    rewrite (upd_node_mid g pre x l _ E). cbn [bind].
    set (g1 := with_nodes g _).
    assert (Lp : length (pre ++ [set y x]) = S (length pre)) by (rewrite app_length; cbn; lia).
    replace (Z.of_nat (length pre) + 1)%Z with (Z.of_nat (length (pre ++ [set y x]))) by (rewrite Lp; lia).
    rewrite <- Ev.
    rewrite (IH w (pre ++ [set y x]) (vpre ++ [y]) g1).
    + unfold g1. rewrite with_nodes_nodes, <- app_assoc. reflexivity.
    + rewrite <- app_assoc. exact Ev.
    + rewrite !app_length. cbn. lia.
    + cbn in L2. lia.
    + cbn. rewrite <- app_assoc. reflexivity.
Qed.

Lemma set_profile_counted set g v : counted g -> length v = length (g_nodes g) ->
  set_profile set g v = Ok (with_nodes g (map2 set v (g_nodes g))).
Proof.
  intros Hc L. unfold set_profile, for_range. rewrite Hc.
  replace (Z.to_nat (Z.of_nat (length (g_nodes g)) - 0)) with (length (g_nodes g)) by lia.
  exact (set_profile_loop set v (g_nodes g) v [] [] g eq_refl eq_refl L eq_refl).
Qed.

Lemma temperatures_set v l : length v = length l -> map n_temperature (map2 set_layer_temperature v l) = v.
Proof.
  revert l; induction v as [|t v IH]; intros [|x l] L; cbn in *; try lia; [reflexivity|].
  f_equal. apply IH. lia.
Qed.
Lemma only_temperature_set v l : length v = length l ->
  Forall2 only_temperature l (map2 set_layer_temperature v l).
Proof.
  revert l; induction v as [|t v IH]; intros [|x l] L; cbn in *; try lia; constructor.
  - repeat split.
  - apply IH. lia.
Qed.

(** ** The solver *)
Lemma heights_positive c l : conductive c l -> Forall (fun x => 0 < x) (map n_height l).
Proof.
  intros [H _]. apply Forall_map. eapply Forall_impl; [|exact H]. cbv beta. tauto.
Qed.

Lemma nat_above (x : R) : exists n, x <= INR n.
Proof.
  destruct (archimed x) as [H _]. exists (Z.to_nat (up x)). 
  destruct (Z_le_gt_dec 0 (up x)) as [L|L].
  - rewrite INR_IZR_INZ, Z2Nat.id by exact L. lra.
  - eapply Rle_trans with (IZR (up x)); [lra|]. replace (Z.to_nat (up x)) with 0%nat by lia.
    cbn. apply IZR_le. lia.
Qed.

Lemma solve_spec c g dt : constants_ok c -> counted g -> conductive c (g_nodes g) ->
  (3 <= length (g_nodes g))%nat ->
  exists K d N, map_res (layer_thermal_diffusivity c) (g_nodes g) = Ok K /\
    length K = length (g_nodes g) /\ Forall (fun k => 0 < k) K /\ 0 < d /\
    (forall tau, 0 <= tau <= d -> stable_step (heights (g_nodes g)) K tau) /\
    (exists i, (i + 1 < length (g_nodes g))%nat /\
       d * (at_layer K i + at_layer K (i + 1)) / 2
       = 0.8 * (((at_layer (heights (g_nodes g)) i + at_layer (heights (g_nodes g)) (i + 1)) / 2) ^ 2 / 2)) /\
    exists taus T',
      heat_steps (heights (g_nodes g)) K taus (temperatures (g_nodes g)) T' /\
      Forall (fun tau => 0 < tau <= d) taus /\ sum_list taus = Rmax dt 0 /\
      (forall pre last, taus = pre ++ [last] -> Forall (fun tau => tau = d) pre) /\
      forall fuel, (N <= fuel)%nat ->
        solveHeatEquation fuel c g dt
        = Ok (with_nodes g (map2 set_layer_temperature T' (g_nodes g))).
Proof.
  intros Hc Hn Hk H3.
  destruct (diffusivities c (g_nodes g) Hc Hk) as (K & EK & LK & HK).
  assert (Hh := heights_positive c _ Hk).
  set (h := heights (g_nodes g)). fold (heights (g_nodes g)) in Hh. fold h in Hh.
  assert (Lh : length h = length (g_nodes g)) by (unfold h, heights; apply map_length).
  assert (LT : length (temperatures (g_nodes g)) = length h)
    by (unfold temperatures; rewrite map_length; lia).
  destruct (dt_stab_ok h K Hh HK ltac:(lia) ltac:(lia)) as (d & Ed & Hd & Hst & Hbind).
  destruct (nat_above (Rmax dt 0 / d)) as [N HN].
  assert (HN' : Rmax dt 0 <= INR N * d).
  { apply Rmult_le_compat_r with (r := d) in HN; [|lra]. unfold Rdiv in HN.
    rewrite Rmult_assoc, Rinv_l, Rmult_1_r in HN by lra. exact HN. }
  exists K, d, (S N). rewrite Lh in Hbind.
  split; [exact EK|]. split; [lia|]. split; [exact HK|]. split; [exact Hd|]. split; [exact Hst|].
  split; [exact Hbind|].
  assert (P : forall fuel T', length T' = length h ->
     heat_loop fuel h K d dt (temperatures (g_nodes g)) = Ok (Rmax dt 0, T') ->
     solveHeatEquation fuel c g dt = Ok (with_nodes g (map2 set_layer_temperature T' (g_nodes g)))).
  { intros fuel T' LT' W. unfold solveHeatEquation.
    rewrite get_height_counted by exact Hn. cbn [bind]. 
    unfold get_thermal_diffusivity. rewrite get_profile_counted by exact Hn. rewrite EK. cbn [bind].
    rewrite get_temperature_counted by exact Hn. cbn [bind].
    unfold get_number_layers. rewrite Hn, Nat2Z.id. rewrite <- Lh. fold (heights (g_nodes g)). fold h.
    rewrite Ed. cbn [bind]. fold (temperatures (g_nodes g)). rewrite W. cbn [bind snd].
    unfold set_temperature. apply set_profile_counted; [exact Hn|lia]. }
  destruct (Rle_dec dt 0) as [Hdt|Hdt].
  - exists [], (temperatures (g_nodes g)). split; [constructor|]. split; [constructor|].
    split. { rewrite Rmax_right by lra. rewrite sum_list_fold; reflexivity. }
    split. { intros pre last E; destruct pre; discriminate. }
    intros fuel Hf. apply P; [exact LT|]. unfold heat_loop. destruct fuel; [lia|].
    cbn [while_loop bind fst]. rewrite Rltb_false by lra. rewrite Rmax_right by lra. reflexivity.
  - rewrite Rmax_left in HN' by lra.
    destruct (heat_loop_steps h K Hh ltac:(lia) N d dt Hd ltac:(lia) (temperatures (g_nodes g)) 0
       LT ltac:(lra) ltac:(lra)) as (taus & T' & W & HS & HF & HSum & Hl).
    exists taus, T'. split; [exact HS|]. split; [exact HF|].
    split; [rewrite Rmax_left by lra; lra|]. split; [exact Hl|].
    intros fuel Hf. apply P.
    + rewrite (steps_length h K _ _ _ HS). exact LT.
    + unfold heat_loop. rewrite Rmax_left by lra.
      rewrite <- W. apply while_mono; [exact Hf|rewrite W; discriminate|intros; discriminate|intros; discriminate].
Qed.

(** ** Heat balance *)
Lemma advance_balance h K tau T T' : heat_advance h K tau T T' ->
  forall n, (n + 1 < length T)%nat ->
  sum_upto (fun i => control_length h (i + 1) * (at_layer T' (i + 1) - at_layer T (i + 1))) (n - 0)
  = tau * (conductive_flux h K T n - conductive_flux h K T 0).
Proof.
  intros (_ & _ & _ & HA) n. rewrite Nat.sub_0_r.
  induction n as [|n IH]; intros Hn; cbn [sum_upto]; [ring|].
  rewrite IH by lia. rewrite HA by lia. replace (n + 1 - 1)%nat with n by lia.
  replace (S n) with (n + 1)%nat by lia. ring.
Qed.
