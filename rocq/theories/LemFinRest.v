(** * Heat conduction comes to rest at constant flux (C130) *)
From Verif Require Import ModelPy ModelConstants ModelNode ModelGrid ModelHeat Spec LemPy LemGridBase LemHeat LemFinHeat.

(** the same heat flows through all gaps between the layers *)
Definition constant_flux (h K T : list R) : Prop :=
  forall i, (i + 2 < length T)%nat -> conductive_flux h K T (i + 1) = conductive_flux h K T i.

(** [S] has the first and the last temperature of [T] *)
Definition same_ends (S T : list R) : Prop :=
  length S = length T /\ at_layer S 0 = at_layer T 0 /\ at_layer S (length T - 1) = at_layer T (length T - 1).

(** conduction over these time steps, one after the other *)
Inductive conducted (c : Consts) : list R -> Grid -> Grid -> Prop :=
| conducted_none g : conducted c [] g g
| conducted_more dt dts g g1 g2 :
    (exists N, forall fuel, (N <= fuel)%nat -> solveHeatEquation fuel c g dt = Ok g1) ->
    conducted c dts g1 g2 -> conducted c (dt :: dts) g g2.

(** ** Arrays *)

Definition tab (n : nat) (f : nat -> R) : list R := map f (seq 0 n).

Lemma tab_length n f : length (tab n f) = n.
Proof. unfold tab. rewrite map_length, seq_length. reflexivity. Qed.

Lemma tab_at n f i : (i < n)%nat -> at_layer (tab n f) i = f i.
Proof.
  intros H. unfold at_layer, tab. rewrite (nth_indep _ 0 (f O)) by (rewrite map_length, seq_length; exact H).
  rewrite map_nth, seq_nth by exact H. reflexivity.
Qed.

Lemma list_ext (A B : list R) : length A = length B -> (forall i, (i < length A)%nat -> at_layer A i = at_layer B i) -> A = B.
Proof. intros L E. apply nth_ext with 0 0; [exact L|exact E]. Qed.

Lemma Forall2_at (P : R -> R -> Prop) A B : length A = length B -> (forall i, (i < length A)%nat -> P (at_layer A i) (at_layer B i)) -> Forall2 P A B.
Proof.
  revert B. induction A as [|a A IH]; intros [|b B] L E; cbn in L; try lia; [constructor|]. constructor; [apply (E 0%nat); cbn; lia|].
  apply IH; [lia|]. intros i Hi. apply (E (S i)). cbn. lia.
Qed.

Lemma at_Forall2 (P : R -> R -> Prop) A B i : Forall2 P A B -> (i < length A)%nat -> P (at_layer A i) (at_layer B i).
Proof.
  intros F. revert i. induction F as [|a b A B H F IH]; intros i Hi; cbn in Hi; [lia|]. destruct i; [exact H|]. apply IH. lia.
Qed.

Lemma abs_le x a : Rabs x <= a -> - a <= x <= a.
Proof. unfold Rabs. destruct (Rcase_abs x); lra. Qed.

Section Gaps.
Variables h K : list R.
Hypothesis Hh : Forall (fun x => 0 < x) h.
Hypothesis HK : Forall (fun x => 0 < x) K.
Hypothesis HL : length K = length h.
Hypothesis H3 : (3 <= length h)%nat.

Let n := length h.

(** resistance of the gap below layer [i] *)
Definition gap (i : nat) : R := ((at_layer h i + at_layer h (i + 1)) / 2) / ((at_layer K i + at_layer K (i + 1)) / 2).

Lemma gap_positive i : (i + 1 < n)%nat -> 0 < gap i.
Proof.
  intros Hi. unfold gap.
  assert (0 < at_layer h i) by (apply at_pos; auto; unfold n in *; lia). assert (0 < at_layer h (i + 1)) by (apply at_pos; auto).
  assert (0 < at_layer K i) by (apply at_pos; auto; unfold n in *; lia). assert (0 < at_layer K (i + 1)) by (apply at_pos; auto; unfold n in *; lia).
  apply Rdiv_lt_0_compat; lra.
Qed.

Lemma flux_gap T i : (i + 1 < n)%nat -> at_layer T (i + 1) - at_layer T i = conductive_flux h K T i * gap i.
Proof.
  intros Hi. unfold conductive_flux, gap.
  assert (0 < at_layer h i) by (apply at_pos; auto; unfold n in *; lia). assert (0 < at_layer h (i + 1)) by (apply at_pos; auto).
  assert (0 < at_layer K i) by (apply at_pos; auto; unfold n in *; lia). assert (0 < at_layer K (i + 1)) by (apply at_pos; auto; unfold n in *; lia).
  field. lra.
Qed.

Lemma flux_from T i q : (i + 1 < n)%nat -> at_layer T (i + 1) - at_layer T i = q * gap i -> conductive_flux h K T i = q.
Proof.
  intros Hi E. assert (P := gap_positive i Hi). rewrite flux_gap in E by exact Hi. apply Rmult_eq_reg_r with (gap i); [exact E|lra].
Qed.

(** temperatures with the flux [q i] through gap [i] *)
Definition profile (t : R) (q : nat -> R) : list R := tab n (fun i => t + sum_upto (fun j => q j * gap j) i).

Lemma profile_flux t q i : (i + 1 < n)%nat -> conductive_flux h K (profile t q) i = q i.
Proof.
  intros Hi. apply flux_from; [exact Hi|]. unfold profile. rewrite !tab_at by lia. replace (i + 1)%nat with (S i) by lia. cbn. ring.
Qed.

Lemma sum_upto_pos f m : (forall j, (j < m)%nat -> 0 <= f j) -> 0 <= sum_upto f m.
Proof. induction m as [|m IH]; intros H; cbn; [lra|]. assert (0 <= f m) by (apply H; lia). assert (0 <= sum_upto f m) by (apply IH; intros; apply H; lia). lra. Qed.

Lemma sum_upto_mono f m m' : (m <= m')%nat -> (forall j, (j < m')%nat -> 0 <= f j) -> sum_upto f m <= sum_upto f m'.
Proof.
  induction 1 as [|m' L IH]; intros H; [lra|]. cbn. assert (0 <= f m') by (apply H; lia).
  assert (sum_upto f m <= sum_upto f m') by (apply IH; intros; apply H; lia). lra.
Qed.

Lemma sum_upto_scale q f m : sum_upto (fun j => q * f j) m = q * sum_upto f m.
Proof. induction m as [|m IH]; cbn; [ring|]. rewrite IH. ring. Qed.

Lemma constant_all T : length T = n -> constant_flux h K T -> forall i, (i + 1 < n)%nat -> conductive_flux h K T i = conductive_flux h K T 0.
Proof.
  intros L F. induction i as [|i IH]; intros Hi; [reflexivity|]. rewrite <- IH by lia. replace (S i) with (i + 1)%nat by lia. apply F. lia.
Qed.

Lemma constant_profile T : length T = n -> constant_flux h K T -> T = profile (at_layer T 0) (fun _ => conductive_flux h K T 0).
Proof.
  intros L F. apply list_ext; [unfold profile; rewrite tab_length; exact L|]. intros i Hi. unfold profile. rewrite tab_at by lia.
  induction i as [|i IH]; [cbn; ring|]. cbn. rewrite <- Rplus_assoc, <- IH by lia.
  assert (E := flux_gap T i ltac:(lia)). rewrite (constant_all T L F i ltac:(lia)) in E. replace (S i) with (i + 1)%nat by lia. lra.
Qed.

Lemma resistance_positive : 0 < sum_upto gap (n - 1).
Proof.
  apply Rlt_le_trans with (sum_upto gap 1); [cbn; assert (P := gap_positive 0); unfold n in *; specialize (P ltac:(lia)); lra|].
  apply sum_upto_mono; [unfold n; lia|]. intros j Hj. apply Rlt_le, gap_positive. lia.
Qed.

Lemma rest_exists T : length T = n -> exists! S, same_ends S T /\ constant_flux h K S.
Proof.
  intros L. assert (P := resistance_positive).
  set (q := (at_layer T (n - 1) - at_layer T 0) / sum_upto gap (n - 1)).
  exists (profile (at_layer T 0) (fun _ => q)). split.
  - split; [split; [|split]|].
    + unfold profile. rewrite tab_length. auto.
    + unfold profile. rewrite tab_at by (unfold n; lia). cbn. ring.
    + rewrite L. unfold profile. rewrite tab_at by (unfold n; lia). rewrite sum_upto_scale. unfold q. field. lra.
    + intros i Hi. unfold profile in Hi. rewrite tab_length in Hi. rewrite !profile_flux by lia. reflexivity.
  - intros S ((E1 & E2 & E3) & F). rewrite (constant_profile S) by (auto; lia). rewrite E2.
    assert (Q : conductive_flux h K S 0 = q); [|rewrite Q; reflexivity].
    assert (E := f_equal (fun l => at_layer l (n - 1)) (constant_profile S ltac:(lia) F)). cbv beta in E.
    unfold profile in E. rewrite tab_at in E by (unfold n; lia). rewrite sum_upto_scale, E2 in E. rewrite L in E3. rewrite E3 in E.
    unfold q. apply Rmult_eq_reg_r with (sum_upto gap (n - 1)); [|lra].
    replace ((at_layer T (n - 1) - at_layer T 0) / sum_upto gap (n - 1) * sum_upto gap (n - 1)) with (at_layer T (n - 1) - at_layer T 0) by (field; lra).
    lra.
Qed.

Lemma control_positive i : (1 <= i <= n - 2)%nat -> 0 < control_length h i.
Proof.
  intros Hi. unfold control_length.
  assert (0 < at_layer h (i - 1)) by (apply at_pos; auto; unfold n in *; lia).
  assert (0 < at_layer h i) by (apply at_pos; auto; unfold n in *; lia).
  assert (0 < at_layer h (i + 1)) by (apply at_pos; auto; unfold n in *; lia). lra.
Qed.

(** one step at rest *)
Lemma advance_rest tau T T' : length T = n -> constant_flux h K T -> heat_advance h K tau T T' -> T' = T.
Proof.
  intros L F (L' & E0 & E1 & A). apply list_ext; [exact L'|]. intros i Hi. rewrite L', L in Hi.
  destruct (Nat.eq_dec i 0) as [->|N0]; [exact E0|]. destruct (Nat.eq_dec i (n - 1)) as [->|N1]; [rewrite L in E1; exact E1|].
  specialize (A i ltac:(lia)). replace i with (i - 1 + 1)%nat in A at 4 by lia.
  rewrite (F (i - 1)%nat) in A by lia. unfold Rminus at 2 in A. rewrite Rplus_opp_r, Rmult_0_r in A.
  assert (P := control_positive i ltac:(lia)). apply Rmult_integral in A. destruct A; lra.
Qed.

Lemma steps_rest taus T T' : heat_steps h K taus T T' -> length T = n -> constant_flux h K T -> T' = T.
Proof.
  induction 1 as [|tau taus T T1 T2 H _ IH]; intros L F; [reflexivity|].
  assert (E := advance_rest tau T T1 L F H). subst T1. apply IH; assumption.
Qed.

(** a hill of temperature that only cools: the flux through gap [i] is [-i] *)
Definition top : R := 1 + sum_upto (fun j => INR j * gap j) n.
Definition hill (i : nat) : R := top - sum_upto (fun j => INR j * gap j) i.

Lemma hill_bounds i : (i < n)%nat -> 1 <= hill i <= top.
Proof.
  intros Hi. unfold hill, top.
  assert (P : forall m, (m <= n - 1)%nat -> 0 <= sum_upto (fun j => INR j * gap j) m).
  { intros m Hm. apply sum_upto_pos. intros j Hj. apply Rmult_le_pos; [apply pos_INR|]. apply Rlt_le, gap_positive. lia. }
  assert (A := P i ltac:(lia)).
  assert (B : sum_upto (fun j => INR j * gap j) i <= sum_upto (fun j => INR j * gap j) (n - 1)).
  { apply sum_upto_mono; [lia|]. intros j Hj. apply Rmult_le_pos; [apply pos_INR|]. apply Rlt_le, gap_positive. lia. }
  assert (C : sum_upto (fun j => INR j * gap j) n = sum_upto (fun j => INR j * gap j) (n - 1) + INR (n - 1) * gap (n - 1)).
  { replace n with (S (n - 1)) at 1 by (unfold n; lia). reflexivity. }
  assert (D : 0 <= gap (n - 1)).
  { unfold gap. assert (Z : forall l, length l = n -> at_layer l (n - 1 + 1) = 0).
    { intros l E. unfold at_layer. apply nth_overflow. lia. }
    rewrite !Z by (auto; unfold n; lia). unfold Rdiv.
    assert (0 < at_layer h (n - 1)) by (apply at_pos; auto; unfold n in *; lia).
    assert (0 < at_layer K (n - 1)) by (apply at_pos; auto; unfold n in *; lia).
    apply Rlt_le, Rmult_lt_0_compat; [lra|]. apply Rinv_0_lt_compat. lra. }
  assert (0 <= INR (n - 1) * gap (n - 1)) by (apply Rmult_le_pos; [apply pos_INR|exact D]). lra.
Qed.

Definition raised (S : list R) (M : R) : list R := tab n (fun i => at_layer S i + M * hill i).
Definition lowered (S : list R) (M tau : R) : list R :=
  tab n (fun i => at_layer S i + M * hill i - (if ((1 <=? i) && (i <=? n - 2))%nat then M * tau / control_length h i else 0)).

Lemma raised_advance S M tau : length S = n -> constant_flux h K S -> heat_advance h K tau (raised S M) (lowered S M tau).
Proof.
  intros L F. unfold raised, lowered. split; [rewrite !tab_length; reflexivity|]. rewrite tab_length.
  split; [rewrite !tab_at by (unfold n; lia); cbn; ring|]. split.
  - rewrite !tab_at by (unfold n; lia). replace (n - 1 <=? n - 2)%nat with false by (symmetry; apply Nat.leb_gt; unfold n; lia).
    rewrite andb_false_r. ring.
  - intros i Hi. rewrite !tab_at by lia.
    replace ((1 <=? i) && (i <=? n - 2))%nat with true by (symmetry; apply andb_true_iff; split; apply Nat.leb_le; lia).
    assert (FX : forall j, (j + 1 < n)%nat -> conductive_flux h K (tab n (fun i => at_layer S i + M * hill i)) j
       = conductive_flux h K S 0 - M * INR j).
    { intros j Hj. apply flux_from; [exact Hj|]. rewrite !tab_at by lia.
      assert (E := flux_gap S j Hj). rewrite (constant_all S L F j Hj) in E.
      unfold hill. replace (j + 1)%nat with (Datatypes.S j) in * by lia. cbn [sum_upto].
      replace (at_layer S (Datatypes.S j)) with (at_layer S j + conductive_flux h K S 0 * gap j) by lra. ring. }
    rewrite !FX by lia. assert (P := control_positive i Hi).
    rewrite minus_INR by lia. cbn [INR]. field. lra.
Qed.

(** the distance to rest shrinks *)
Definition near (S T : list R) (M : R) : Prop := forall i, (i < n)%nat -> Rabs (at_layer T i - at_layer S i) <= M * hill i.

Lemma near_advance S T T' M tau B : length S = n -> length T = n -> constant_flux h K S -> same_ends S T ->
  heat_advance h K tau T T' -> 0 <= tau <= B -> stable_step h K tau ->
  (forall i, (1 <= i <= n - 2)%nat -> control_length h i <= B) -> 0 < B -> 0 <= M ->
  near S T M -> near S T' (M * (1 - tau / (B * top))).
Proof.
  intros LS LT F (_ & S0 & S1) HA Ht Hs HB B0 HM HN.
  assert (T1 : 1 <= top) by (pose proof (hill_bounds 0 ltac:(unfold n; lia)); lra).
  assert (TB : 0 < B * top) by (apply Rmult_lt_0_compat; lra).
  assert (FR : 0 <= 1 - tau / (B * top)).
  { assert (tau / (B * top) <= 1); [|lra]. apply Rmult_le_reg_r with (B * top); [exact TB|].
    replace (tau / (B * top) * (B * top)) with tau by (field; lra). rewrite Rmult_1_l.
    rewrite <- (Rmult_1_r tau). apply Rmult_le_compat; lra. }
  assert (U := advance_monotone h K Hh HK HL tau T T' (raised S M) (lowered S M tau) LT ltac:(unfold raised; apply tab_length) H3 HA
    (raised_advance S M tau LS F) ltac:(lra) Hs).
  assert (D := advance_monotone h K Hh HK HL tau (raised S (- M)) (lowered S (- M) tau) T T' ltac:(unfold raised; apply tab_length) LT H3
    (raised_advance S (- M) tau LS F) HA ltac:(lra) Hs).
  assert (U1 : Forall2 Rle T (raised S M)).
  { apply Forall2_at; [unfold raised; rewrite tab_length; exact LT|]. intros i Hi. unfold raised. rewrite tab_at by lia.
    assert (X := HN i ltac:(lia)). apply abs_le in X. lra. }
  assert (D1 : Forall2 Rle (raised S (- M)) T).
  { apply Forall2_at; [unfold raised; rewrite tab_length; auto|]. unfold raised. rewrite tab_length. intros i Hi. rewrite tab_at by lia.
    assert (X := HN i ltac:(lia)). apply abs_le in X. lra. }
  specialize (U U1). specialize (D D1). destruct HA as (LT' & E0 & E1 & _).
  intros i Hi. assert (HI := hill_bounds i Hi).
  assert (MM : 0 <= M * (1 - tau / (B * top)) * hill i) by (apply Rmult_le_pos; [apply Rmult_le_pos|]; lra).
  destruct (Nat.eq_dec i 0) as [->|N0]; [rewrite E0, S0; rewrite Rminus_diag_eq, Rabs_R0 by reflexivity; exact MM|].
  destruct (Nat.eq_dec i (n - 1)) as [->|N1].
  { rewrite LT in E1, S1. rewrite E1, S1. rewrite Rminus_diag_eq, Rabs_R0 by reflexivity. exact MM. }
  assert (U2 := at_Forall2 _ _ _ i U ltac:(lia)). assert (D2 := at_Forall2 _ _ _ i D ltac:(unfold lowered; rewrite tab_length; lia)).
  unfold lowered in U2, D2. rewrite tab_at in U2, D2 by lia.
  replace ((1 <=? i) && (i <=? n - 2))%nat with true in U2, D2 by (symmetry; apply andb_true_iff; split; apply Nat.leb_le; lia).
  assert (CP := control_positive i ltac:(lia)). assert (CB := HB i ltac:(lia)).
  assert (Q : tau / (B * top) * hill i <= tau / control_length h i).
  { apply Rle_trans with (tau / B).
    - replace (tau / (B * top) * hill i) with (tau / B * (hill i / top)) by (field; lra).
      rewrite <- (Rmult_1_r (tau / B)) at 2. apply Rmult_le_compat_l; [apply Rmult_le_pos; [lra|apply Rlt_le, Rinv_0_lt_compat; lra]|].
      apply Rmult_le_reg_r with top; [lra|]. replace (hill i / top * top) with (hill i) by (field; lra). lra.
    - apply Rmult_le_compat_l; [lra|]. apply Rinv_le_contravar; lra. }
  assert (Q2 : M * (tau / (B * top) * hill i) <= M * (tau / control_length h i)) by (apply Rmult_le_compat_l; lra).
  replace (M * tau / control_length h i) with (M * (tau / control_length h i)) in U2 by (field; lra).
  replace (- M * tau / control_length h i) with (- (M * (tau / control_length h i))) in D2 by (field; lra).
  replace (M * (1 - tau / (B * top)) * hill i) with (M * hill i - M * (tau / (B * top) * hill i)) by ring.
  apply Rabs_le. lra.
Qed.

Lemma same_ends_advance S T T' tau : same_ends S T -> heat_advance h K tau T T' -> same_ends S T'.
Proof. intros (A & B & C) (L & E0 & E1 & _). split; [congruence|]. rewrite L. split; congruence. Qed.

Lemma near_weaken S T M M' : M <= M' -> near S T M -> near S T M'.
Proof.
  intros L H i Hi. eapply Rle_trans; [apply H; exact Hi|]. apply Rmult_le_compat_r; [|exact L]. assert (X := hill_bounds i Hi). lra.
Qed.

Lemma near_steps S B : length S = n -> constant_flux h K S -> (forall i, (1 <= i <= n - 2)%nat -> control_length h i <= B) -> 0 < B ->
  forall taus T T', heat_steps h K taus T T' -> length T = n -> same_ends S T ->
  Forall (fun tau => 0 <= tau <= B /\ stable_step h K tau) taus -> forall M, 0 <= M ->
  near S T M -> near S T' (M * exp (- (sum_list taus / (B * top)))).
Proof.
  intros LS F HB B0 taus T T' HS. induction HS as [T|tau taus T T1 T2 H _ IH]; intros LT SE Ft M HM HN.
  - eapply near_weaken; [|exact HN]. unfold sum_list. cbn. unfold Rdiv. rewrite Rmult_0_l, Ropp_0, exp_0. lra.
  - assert (Ht := Forall_inv Ft). cbv beta in Ht. destruct Ht as (Ht & Hs).
    assert (N1 := near_advance S T T1 M tau B LS LT F SE H Ht Hs HB B0 HM HN).
    assert (T1' : 1 <= top) by (pose proof (hill_bounds 0 ltac:(unfold n; lia)); lra).
    assert (X : 1 - tau / (B * top) <= exp (- (tau / (B * top)))) by (pose proof (exp_ineq1_le (- (tau / (B * top)))); lra).
    apply near_weaken with (M' := M * exp (- (tau / (B * top)))) in N1; [|apply Rmult_le_compat_l; assumption].
    assert (PE := exp_pos (- (tau / (B * top)))).
    specialize (IH ltac:(destruct H as (L & _); congruence) (same_ends_advance S T T1 tau SE H) (Forall_inv_tail Ft)
      (M * exp (- (tau / (B * top)))) ltac:(apply Rmult_le_pos; lra) N1).
    eapply near_weaken; [|exact IH]. rewrite Rmult_assoc, <- exp_plus. apply Req_le. f_equal. f_equal.
    rewrite !sum_list_fold. cbn. field. lra.
Qed.

End Gaps.

(** ** Columns *)

Lemma like_column c g l : conductive c (g_nodes g) -> Forall2 only_temperature (g_nodes g) l ->
  conductive c l /\ heights l = heights (g_nodes g) /\ length l = length (g_nodes g) /\
  map_res (layer_thermal_diffusivity c) l = map_res (layer_thermal_diffusivity c) (g_nodes g).
Proof.
  intros (Hk & Hm) F. split; [split; [|exact Hm]|split; [|split]].
  - clear - F Hk. induction F as [|x y l0 l' (H1 & H2 & H3 & H4) F IH]; constructor.
    + rewrite H1, H2, H3. exact (Forall_inv Hk).
    + apply IH. exact (Forall_inv_tail Hk).
  - clear - F. unfold heights. induction F as [|x y l0 l' (H1 & _) F IH]; cbn; congruence.
  - exact (Forall2_len _ _ _ F).
  - clear - F. induction F as [|x y l0 l' (H1 & H2 & H3 & H4) F IH]; [reflexivity|].
    cbn [map_res]. rewrite IH.
    assert (layer_thermal_diffusivity c y = layer_thermal_diffusivity c x) as ->; [|reflexivity].
    unfold layer_thermal_diffusivity, layer_thermal_conductivity, layer_density, layer_specific_heat, layer_air_porosity.
    rewrite H2, H3. reflexivity.
Qed.

Lemma set_same l : map2 set_layer_temperature (temperatures l) l = l.
Proof. unfold temperatures. induction l as [|[h t w f r] l IH]; [reflexivity|]. cbn. rewrite IH. reflexivity. Qed.

Lemma with_same g : with_nodes g (g_nodes g) = g.
Proof. destruct g. reflexivity. Qed.

(** a bound for the control lengths and the sub-steps *)
Lemma limit_exists h K : Forall (fun x => 0 < x) h -> Forall (fun x => 0 < x) K -> length K = length h -> (3 <= length h)%nat ->
  exists B, 0 < B /\ (forall i, (1 <= i <= length h - 2)%nat -> control_length h i <= B) /\
    forall tau, stable_step h K tau -> tau <= B.
Proof.
  intros Hh HK HL H3.
  assert (A : exists B, 0 < B /\ forall i, (i < length h)%nat -> control_length h i <= B).
  { generalize (length h). intros m. induction m as [|m (B & P & IH)]; [exists 1; split; [lra|intros; lia]|].
    exists (Rmax B (control_length h m)). split; [eapply Rlt_le_trans; [exact P|apply Rmax_l]|].
    intros i Hi. destruct (Nat.eq_dec i m) as [->|N]; [apply Rmax_r|]. eapply Rle_trans; [apply IH; lia|apply Rmax_l]. }
  destruct A as (B & P & A).
  assert (K0 : 0 < at_layer K 0) by (apply at_pos; auto; lia). assert (K1 : 0 < at_layer K (0 + 1)) by (apply at_pos; auto; lia).
  set (d := 0.8 * (((at_layer h 0 + at_layer h (0 + 1)) / 2) ^ 2 / 2) / ((at_layer K 0 + at_layer K (0 + 1)) / 2)).
  exists (Rmax B d). split; [eapply Rlt_le_trans; [exact P|apply Rmax_l]|]. split.
  - intros i Hi. eapply Rle_trans; [apply A; lia|apply Rmax_l].
  - intros tau Hs. eapply Rle_trans; [|apply Rmax_r]. specialize (Hs 0%nat ltac:(lia)). unfold d.
    apply Rmult_le_reg_r with ((at_layer K 0 + at_layer K (0 + 1)) / 2); [lra|].
    match goal with |- _ <= ?x / ?y * ?y => replace (x / y * y) with x by (field; lra) end. lra.
Qed.

(*@ C130 Every column has exactly one state of rest: temperatures with the first and the last one of the column, with the same heat flowing through all gaps. *)
Lemma one_rest_lem :
  forall (c : Consts) (g : Grid),
    constants_ok c -> counted g -> conductive c (g_nodes g) -> (3 <= length (g_nodes g))%nat ->
    exists K, get_thermal_diffusivity c g = Ok K /\
      exists! S, same_ends S (temperatures (g_nodes g)) /\ constant_flux (heights (g_nodes g)) K S.
Proof.
  intros c g Hc Hn Hk H3. destruct (diffusivities c (g_nodes g) Hc Hk) as (K & EK & LK & HK). exists K. split.
  - unfold get_thermal_diffusivity. rewrite get_profile_counted by exact Hn. exact EK.
  - assert (Lh : length (heights (g_nodes g)) = length (g_nodes g)) by (unfold heights; apply map_length).
    apply rest_exists; [exact (heights_positive c _ Hk)|exact HK|lia|lia|]. rewrite Lh. unfold temperatures. apply map_length.
Qed.

(*@ C130 Conduction changes nothing in the state of rest: a column with the same flux through all gaps stays as it is over every time step. *)
Lemma rest_stays_lem :
  forall (c : Consts) (g : Grid) (K : list R) (dt : R),
    constants_ok c -> counted g -> conductive c (g_nodes g) -> (3 <= length (g_nodes g))%nat ->
    get_thermal_diffusivity c g = Ok K ->
    constant_flux (heights (g_nodes g)) K (temperatures (g_nodes g)) ->
    exists N, forall fuel, (N <= fuel)%nat -> solveHeatEquation fuel c g dt = Ok g.
Proof.
  intros c g K dt Hc Hn Hk H3 EK CF.
  unfold get_thermal_diffusivity in EK. rewrite get_profile_counted in EK by exact Hn.
  assert (Lh : length (heights (g_nodes g)) = length (g_nodes g)) by (unfold heights; apply map_length).
  destruct (solve_spec c g dt Hc Hn Hk H3) as (K1 & d & N & E1 & LK & HK & _ & _ & _ & taus & T' & HS & _ & _ & _ & Sv).
  rewrite EK in E1. injection E1 as <-. exists N. intros fuel Hf. rewrite (Sv fuel Hf).
  assert (LT : length (temperatures (g_nodes g)) = length (heights (g_nodes g))) by (unfold temperatures; rewrite map_length; lia).
  assert (E : T' = temperatures (g_nodes g)) by (apply (steps_rest (heights (g_nodes g)) K) with taus; [exact (heights_positive c _ Hk)|lia|lia|exact HS|exact LT|exact CF]).
  rewrite E.
  rewrite set_same, with_same. reflexivity.
Qed.

(*@ C130 Left to itself the column comes to rest.  There is a relaxation time and a factor, the same for all temperatures and time steps, such that after conduction over any time steps the distance of every temperature from the state of rest has fallen at least like the exponential of the time over the relaxation time. *)
Lemma conduction_relaxes_lem :
  forall (c : Consts) (g : Grid) (K : list R),
    constants_ok c -> counted g -> conductive c (g_nodes g) -> (3 <= length (g_nodes g))%nat ->
    get_thermal_diffusivity c g = Ok K ->
    exists relaxation factor, 0 < relaxation /\ 0 < factor /\
      forall (g1 g2 : Grid) (dts S : list R) (M : R),
        counted g1 -> Forall2 only_temperature (g_nodes g) (g_nodes g1) -> Forall (fun dt => 0 <= dt) dts ->
        conducted c dts g1 g2 ->
        same_ends S (temperatures (g_nodes g1)) -> constant_flux (heights (g_nodes g)) K S ->
        (forall i, (i < length (g_nodes g))%nat -> Rabs (at_layer (temperatures (g_nodes g1)) i - at_layer S i) <= M) ->
        forall i, (i < length (g_nodes g))%nat ->
          Rabs (at_layer (temperatures (g_nodes g2)) i - at_layer S i) <= factor * M * exp (- (sum_list dts / relaxation)).
Proof.
  intros c g K Hc Hn Hk H3 EK.
  unfold get_thermal_diffusivity in EK. rewrite get_profile_counted in EK by exact Hn.
  destruct (diffusivities c (g_nodes g) Hc Hk) as (K' & EK' & LK & HK). rewrite EK in EK'. injection EK' as <-.
  assert (Hh := heights_positive c _ Hk). fold (heights (g_nodes g)) in Hh.
  set (h := heights (g_nodes g)) in *.
  assert (Lh : length h = length (g_nodes g)) by (unfold h, heights; apply map_length).
  destruct (limit_exists h K Hh HK ltac:(lia) ltac:(lia)) as (B & B0 & BC & BT).
  assert (T1 : 1 <= top h K) by (pose proof (hill_bounds h K Hh HK ltac:(lia) ltac:(lia) 0%nat ltac:(lia)); lra).
  exists (B * top h K), (top h K). split; [apply Rmult_lt_0_compat; lra|]. split; [lra|].
  intros g1 g2 dts S M Hn1 F1 Hd HC SE CF HM i Hi.
  assert (M0 : 0 <= M) by (eapply Rle_trans; [apply Rabs_pos|apply (HM 0%nat); lia]).
  assert (LT1 : length (temperatures (g_nodes g1)) = length h) by (unfold temperatures; rewrite map_length, (Forall2_len _ _ _ F1); lia).
  assert (LS : length S = length h) by (destruct SE as (A & _); lia).
  assert (N1 : near h K S (temperatures (g_nodes g1)) M).
  { intros j Hj. assert (X := hill_bounds h K Hh HK ltac:(lia) ltac:(lia) j Hj). eapply Rle_trans; [apply HM; lia|].
    rewrite <- (Rmult_1_r M) at 1. apply Rmult_le_compat_l; lra. }
  clear HM. assert (X : near h K S (temperatures (g_nodes g2)) (M * exp (- (sum_list dts / (B * top h K))))).
  { revert Hn1 F1 Hd SE LT1 M M0 N1. induction HC as [g1|dt dts g1 g2 g3 (N & HN) HC IH]; intros Hn1 F1 Hd SE LT1 M M0 N1.
    - eapply near_weaken; [exact Hh|exact HK|lia|lia| |exact N1]. unfold sum_list. cbn. unfold Rdiv. rewrite Rmult_0_l, Ropp_0, exp_0. lra.
    - destruct (like_column c g (g_nodes g1) Hk F1) as (Hk1 & Eh1 & El1 & Ek1).
      destruct (solve_spec c g1 dt Hc Hn1 Hk1 ltac:(lia)) as (K1 & d & N' & E1 & _ & _ & Pd & St & _ & taus & T' & HS & Ft & Sm & _ & Sv).
      rewrite Ek1, EK in E1. injection E1 as <-. rewrite Eh1 in HS, St. fold h in HS, St.
      assert (E2 := HN (N + N')%nat ltac:(lia)). rewrite (Sv (N + N')%nat ltac:(lia)) in E2. injection E2 as <-.
      assert (LT' : length T' = length (g_nodes g1)) by (rewrite (steps_length h K _ _ _ HS); unfold temperatures; apply map_length).
      assert (FX : Forall2 only_temperature (g_nodes g1) (map2 set_layer_temperature T' (g_nodes g1))) by (apply only_temperature_set; exact LT').
      cbn [g_nodes with_nodes] in IH.
      assert (ET : temperatures (map2 set_layer_temperature T' (g_nodes g1)) = T') by (unfold temperatures; apply temperatures_set; exact LT').
      assert (N2 : near h K S T' (M * exp (- (sum_list taus / (B * top h K))))).
      { eapply (near_steps h K Hh HK ltac:(lia) ltac:(lia) S B LS CF BC B0); [exact HS|exact LT1|exact SE| |exact M0|exact N1].
        eapply Forall_impl; [|exact Ft]. intros tau Q. cbv beta in Q. assert (ST := St tau ltac:(lra)). split; [|exact ST]. split; [lra|apply BT; exact ST]. }
      assert (SE' : same_ends S T').
      { destruct (steps_ends h K _ _ _ HS) as (Q1 & Q2). destruct SE as (P1 & P2 & P3). split; [lia|].
        replace (length T') with (length (temperatures (g_nodes g1))) by (unfold temperatures; rewrite map_length; lia). split; congruence. }
      rewrite ET in IH. assert (PE := exp_pos (- (sum_list taus / (B * top h K)))).
      assert (Hdt := Forall_inv Hd). cbv beta in Hdt.
      specialize (IH).
      assert (Y := IH ltac:(unfold counted in *; cbn [g_nodes g_number_nodes with_nodes]; rewrite (Forall2_len _ _ _ FX); exact Hn1)
         ltac:(clear - F1 FX; revert FX; generalize (map2 set_layer_temperature T' (g_nodes g1)); intros l FX; revert l FX;
               induction F1 as [|x y l0 l1 (A1 & A2 & A3 & A4) F1 IH]; intros l FX; inversion FX as [|? z ? l2 (B1 & B2 & B3 & B4) F2]; subst;
               constructor; [repeat split; congruence|apply IH; exact F2])
         (Forall_inv_tail Hd) SE' ltac:(lia) (M * exp (- (sum_list taus / (B * top h K)))) ltac:(apply Rmult_le_pos; lra) N2).
      rewrite Sm, Rmax_left in Y by lra. eapply near_weaken; [exact Hh|exact HK|lia|lia| |exact Y].
      rewrite Rmult_assoc, <- exp_plus. apply Req_le. f_equal. f_equal. rewrite sum_list_cons. field. lra. }
  eapply Rle_trans; [apply X; lia|]. assert (HB := hill_bounds h K Hh HK ltac:(lia) ltac:(lia) i ltac:(lia)).
  replace (top h K * M * exp (- (sum_list dts / (B * top h K)))) with (M * exp (- (sum_list dts / (B * top h K))) * top h K) by ring.
  apply Rmult_le_compat_l; [apply Rmult_le_pos; [exact M0|apply Rlt_le, exp_pos]|lra].
Qed.

Lemma conducted_repeat c g dt : (exists N, forall fuel, (N <= fuel)%nat -> solveHeatEquation fuel c g dt = Ok g) ->
  forall m, conducted c (repeat dt m) g g.
Proof. intros H. induction m as [|m IH]; cbn [repeat]; [constructor|]. econstructor; [exact H|exact IH]. Qed.

Lemma sum_repeat dt m : sum_list (repeat dt m) = INR m * dt.
Proof.
  induction m as [|m IH]; [unfold sum_list; cbn; ring|]. cbn [repeat]. rewrite sum_list_cons, IH, S_INR. ring.
Qed.

Lemma only_temperature_refl l : Forall2 only_temperature l l.
Proof. induction l; constructor; [repeat split|assumption]. Qed.

Lemma distance_bounded (S T : list R) m : exists M, forall i, (i < m)%nat -> Rabs (at_layer T i - at_layer S i) <= M.
Proof.
  induction m as [|m (M & IH)]; [exists 0; intros; lia|]. exists (Rmax M (Rabs (at_layer T m - at_layer S m))).
  intros i Hi. destruct (Nat.eq_dec i m) as [->|N]; [apply Rmax_r|]. eapply Rle_trans; [apply IH; lia|apply Rmax_l].
Qed.

Lemma squeezed x C a : 0 <= x -> 0 < a -> (forall m, x <= C * exp (- (INR m * a))) -> x = 0.
Proof.
  intros X A H. destruct (Rle_lt_or_eq_dec 0 x X) as [P|P]; [|auto]. exfalso.
  assert (C0 : 0 < C).
  { specialize (H 0%nat). cbn [INR] in H. rewrite Rmult_0_l, Ropp_0, exp_0 in H. lra. }
  destruct (nat_above (C / (x * a))) as (m & Hm). specialize (H m).
  assert (E : exp (INR m * a) <= C / x).
  { rewrite exp_Ropp in H. assert (Q := exp_pos (INR m * a)). apply Rmult_le_reg_r with x; [exact P|].
    replace (C / x * x) with C by (field; lra). apply Rmult_le_reg_r with (/ exp (INR m * a)); [apply Rinv_0_lt_compat; exact Q|].
    replace (exp (INR m * a) * x * / exp (INR m * a)) with x by (field; lra). exact H. }
  assert (G := exp_ineq1_le (INR m * a)).
  assert (L : C / x <= INR m * a).
  { apply Rmult_le_compat_r with (r := a) in Hm; [|lra]. replace (C / (x * a) * a) with (C / x) in Hm by (field; lra). exact Hm. }
  lra.
Qed.

(*@ C130 Conversely a column that a positive time step of conduction leaves as it is has the same flux through all gaps. *)
Lemma unchanged_is_rest_lem :
  forall (c : Consts) (g : Grid) (K : list R) (dt : R),
    constants_ok c -> counted g -> conductive c (g_nodes g) -> (3 <= length (g_nodes g))%nat ->
    get_thermal_diffusivity c g = Ok K -> 0 < dt ->
    (exists N, forall fuel, (N <= fuel)%nat -> solveHeatEquation fuel c g dt = Ok g) ->
    constant_flux (heights (g_nodes g)) K (temperatures (g_nodes g)).
Proof.
  intros c g K dt Hc Hn Hk H3 EK Hd HN.
  destruct (one_rest_lem c g Hc Hn Hk H3) as (K1 & E1 & S & (SE & CF) & _). rewrite EK in E1. injection E1 as <-.
  destruct (conduction_relaxes_lem c g K Hc Hn Hk H3 EK) as (r & f & R0 & F0 & H).
  destruct (distance_bounded S (temperatures (g_nodes g)) (length (g_nodes g))) as (M & HM).
  assert (E : temperatures (g_nodes g) = S); [|rewrite E; exact CF].
  assert (LT : length (temperatures (g_nodes g)) = length (g_nodes g)) by (unfold temperatures; apply map_length).
  apply list_ext; [destruct SE; lia|]. intros i Hi.
  assert (Z : Rabs (at_layer (temperatures (g_nodes g)) i - at_layer S i) = 0).
  { apply squeezed with (C := f * M) (a := dt / r); [apply Rabs_pos|apply Rdiv_lt_0_compat; lra|]. intros m.
    replace (INR m * (dt / r)) with (sum_list (repeat dt m) / r) by (rewrite sum_repeat; field; lra).
    apply (H g g (repeat dt m) S M Hn (only_temperature_refl _)); [|apply conducted_repeat; exact HN|exact SE|exact CF|exact HM|lia].
    apply Forall_forall. intros x Hx. apply repeat_spec in Hx. lra. }
  destruct (Req_dec (at_layer (temperatures (g_nodes g)) i - at_layer S i) 0) as [Q|Q]; [lra|]. apply Rabs_no_R0 in Q. contradiction.
Qed.

(*@ C130 The time steps can always be taken: conduction over any list of them finishes. *)
Lemma conduction_continues_lem :
  forall (c : Consts) (dts : list R) (g : Grid),
    constants_ok c -> counted g -> conductive c (g_nodes g) -> (3 <= length (g_nodes g))%nat ->
    exists g', conducted c dts g g' /\ Forall2 only_temperature (g_nodes g) (g_nodes g') /\ counted g'.
Proof.
  intros c dts. induction dts as [|dt dts IH]; intros g Hc Hn Hk H3.
  - exists g. split; [constructor|]. split; [apply only_temperature_refl|exact Hn].
  - destruct (heat_maximum_principle_lem c g dt Hc Hn Hk H3) as (g1 & N & S1 & F1 & _ & _ & _ & Hn1 & _).
    destruct (like_column c g (g_nodes g1) Hk F1) as (Hk1 & _ & L1 & _).
    destruct (IH g1 Hc Hn1 Hk1 ltac:(lia)) as (g2 & C2 & F2 & Hn2). exists g2.
    split; [econstructor; [exists N; exact S1|exact C2]|]. split; [|exact Hn2].
    clear - F1 F2. revert F2. generalize (g_nodes g2). induction F1 as [|x y l0 l1 (A1 & A2 & A3 & A4) F1 IH]; intros l F2;
      inversion F2 as [|? z ? l2 (B1 & B2 & B3 & B4) F3]; subst; constructor; [repeat split; congruence|apply IH; exact F3].
Qed.

(*@ex C130 Three layers of the same snow at 260, 265 and 270 K are at rest; with the middle one at 271 K they are not. *)
Lemma rest_example_lem :
  exists (g warm : Grid) (K : list R),
    constants_ok default_constants /\ counted g /\ conductive default_constants (g_nodes g) /\ length (g_nodes g) = 3%nat /\
    get_thermal_diffusivity default_constants g = Ok K /\ get_thermal_diffusivity default_constants warm = Ok K /\
    Forall2 only_temperature (g_nodes g) (g_nodes warm) /\
    constant_flux (heights (g_nodes g)) K (temperatures (g_nodes g)) /\
    ~ constant_flux (heights (g_nodes warm)) K (temperatures (g_nodes warm)).
Proof.
  set (n := fun t => mkNode (1/10) t 0 (4/10) 0).
  set (g := mkGrid [n 260; n 265; n 270] 3 0 0 0). set (w := mkGrid [n 260; n 271; n 270] 3 0 0 0).
  assert (Hk : conductive default_constants (g_nodes g)).
  { split; [repeat constructor; unfold n; cbn; lra|left; reflexivity]. }
  destruct (diffusivities default_constants (g_nodes g) default_ok Hk) as (K & EK & LK & HK).
  assert (F : Forall2 only_temperature (g_nodes g) (g_nodes w)) by (repeat constructor).
  destruct (like_column default_constants g (g_nodes w) Hk F) as (_ & _ & _ & EW).
  exists g, w, K. split; [exact default_ok|]. split; [reflexivity|]. split; [exact Hk|]. split; [reflexivity|].
  assert (P0 : 0 < at_layer K 0) by (apply at_pos; auto; rewrite LK; cbn; lia).
  assert (P1 : 0 < at_layer K 1) by (apply at_pos; auto; rewrite LK; cbn; lia).
  assert (P2 : 0 < at_layer K 2) by (apply at_pos; auto; rewrite LK; cbn; lia).
  assert (EQ : at_layer K 0 = at_layer K 1 /\ at_layer K 1 = at_layer K 2).
  { clear - EK. unfold g in EK. cbn [g_nodes map_res] in EK.
    assert (X : forall t t', layer_thermal_diffusivity default_constants (n t) = layer_thermal_diffusivity default_constants (n t')) by reflexivity.
    rewrite (X 265 260), (X 270 260) in EK. destruct (layer_thermal_diffusivity default_constants (n 260)) as [k|]; [|discriminate].
    cbn [bind] in EK. injection EK as <-. split; reflexivity. }
  split; [unfold get_thermal_diffusivity; rewrite get_profile_counted by reflexivity; exact EK|].
  split; [unfold get_thermal_diffusivity; rewrite get_profile_counted by reflexivity; congruence|].
  split; [exact F|]. split.
  - intros i Hi. cbn in Hi. assert (i = 0%nat) by lia. subst i. unfold conductive_flux. cbn [Nat.add].
    destruct EQ as (-> & ->). cbn. field.
  - intros Q. specialize (Q 0%nat ltac:(cbn; lia)). unfold conductive_flux in Q. cbn [Nat.add] in Q.
    destruct EQ as (E0 & E1). rewrite E0, E1 in Q. cbn in Q. nra.
Qed.
