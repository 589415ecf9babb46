(** * Water, melt and heat in portions (C119-C122) *)
From Verif Require Import ModelPy ModelConstants ModelNode ModelGrid ModelWater ModelHeat Spec LemPy
  LemGridBase LemGridMore LemCorrect LemWater LemFinWater LemHeat LemFinHeat.

(** ** Refreezing *)

(*@ C119 Refreezing freezes in every layer at or below the melting temperature exactly the least of three amounts: the water present, the pore space below close-off, and the water whose latent heat warms the ice alone to the melting temperature.  The fourth limit of the code, with the heat content of the water, never matters. *)
Lemma refreezing_exact_lem : forall (c : Consts) (g : Grid),
  constants_ok c -> counted g ->
  Forall (fun n => 0 <= n_height n /\ fractions_ok n /\ 0 < n_ice n /\ cold_ok c n) (g_nodes g) ->
  exists g' refrozen, refreezing c g = Ok (g', refrozen) /\
    Forall2 (fun x x' => exists d, frozen c x x' d) (g_nodes g) (g_nodes g').
Proof.
  intros c g Hc Hn Hf.
  destruct (refreezing_spec c g Hc Hn (freezing_refreeze_ok _ _ Hf)) as (g' & ps & W & E & N & C & F).
  exists g', (sumR (map snd ps)). split; [exact W|]. rewrite E. apply Forall2_map_r.
  eapply Forall2_mono; [|apply Forall_true|exact F]. intros x p _ (d & _ & H). exists d. exact H.
Qed.

(** what is missing to the melting temperature when water and pores remain *)
Lemma frozen_rest c x x' d : constants_ok c -> fractions_ok x -> 0 < n_ice x -> frozen c x x' d ->
  n_temperature x <= c_zero_temperature c -> 0 < n_lwc x' -> n_ice x' < close_off c ->
  heat_capacity c x' * (c_zero_temperature c - n_temperature x') =
  c_water_density c * (c_spec_heat_ice c * (n_lwc x - n_lwc x') + c_spec_heat_water c * n_lwc x')
  * (c_zero_temperature c - n_temperature x).
Proof.
  intros Hc HF Hi H HT Hw Hp. destruct (frozen_bounds c x x' d Hc HF H) as ((D1 & D2) & _ & I1 & _).
  destruct H as (H1 & H2 & H3 & H4 & H5 & H6).
  destruct (Rle_dec (n_temperature x) (c_zero_temperature c)) as [_|L]; [|lra].
  destruct Hc.
  set (b := c_spec_heat_ice c * c_ice_density c * n_ice x * (c_zero_temperature c - n_temperature x)
        / (c_water_density c * c_lat_heat_melting c)) in *.
  assert (HwL : 0 < c_water_density c * c_lat_heat_melting c) by (apply Rmult_lt_0_compat; assumption).
  assert (Ed : d = b).
  { unfold freezable in H6. fold b in H6.
    set (p := Rmax ((close_off c - n_ice x) * (c_ice_density c / c_water_density c)) 0) in *.
    assert (Np : d <> p).
    { intros Ep. unfold p in Ep.
      assert (Hx : 0 < (close_off c - n_ice x) * (c_ice_density c / c_water_density c)).
      { apply Rmult_lt_0_compat; [lra|]. apply Rmult_lt_0_compat; [lra|]. apply Rinv_0_lt_compat. lra. }
      rewrite Rmax_left in Ep by lra.
      assert (c_water_density c * d = c_ice_density c * (close_off c - n_ice x)) by (rewrite Ep; field; lra).
      assert (c_ice_density c * (n_ice x' - n_ice x) = c_water_density c * d) by (rewrite H2 in H3; lra).
      assert (n_ice x' - n_ice x = close_off c - n_ice x) by (apply Rmult_eq_reg_l with (c_ice_density c); lra).
      lra. }
    unfold Rmin in H6. destruct (Rle_dec (n_lwc x) p).
    - destruct (Rle_dec (n_lwc x) b); lra.
    - destruct (Rle_dec p b); lra. }
  assert (Hb : c_water_density c * c_lat_heat_melting c * d =
     c_spec_heat_ice c * c_ice_density c * n_ice x * (c_zero_temperature c - n_temperature x)).
  { rewrite Ed. unfold b. field. lra. }
  replace (c_zero_temperature c - n_temperature x')
    with ((c_zero_temperature c - n_temperature x) - (n_temperature x' - n_temperature x)) by ring.
  rewrite Rmult_minus_distr_l, H4, Hb.
  unfold heat_capacity. rewrite H2.
  replace (c_spec_heat_ice c * c_ice_density c * n_ice x') with (c_spec_heat_ice c * (c_ice_density c * n_ice x')) by ring.
  replace (c_ice_density c * n_ice x') with (c_ice_density c * n_ice x + c_water_density c * d) by (rewrite H2 in H3; lra).
  ring.
Qed.

(*@ C119 Water and cold stay side by side: a layer below the melting temperature in which water and pore space remain after refreezing is still below the melting temperature.  The heat that is missing is the one that would warm the water, frozen and not frozen. *)
Lemma refreezing_leaves_cold_lem : forall (c : Consts) (g g' : Grid) (refrozen : R),
  constants_ok c -> counted g ->
  Forall (fun n => 0 <= n_height n /\ fractions_ok n /\ 0 < n_ice n /\ cold_ok c n) (g_nodes g) ->
  refreezing c g = Ok (g', refrozen) ->
  Forall2 (fun x x' => n_temperature x < c_zero_temperature c -> 0 < n_lwc x' -> n_ice x' < close_off c ->
      n_temperature x' < c_zero_temperature c /\
      heat_capacity c x' * (c_zero_temperature c - n_temperature x') =
      c_water_density c * (c_spec_heat_ice c * (n_lwc x - n_lwc x') + c_spec_heat_water c * n_lwc x')
      * (c_zero_temperature c - n_temperature x)) (g_nodes g) (g_nodes g').
Proof.
  intros c g g' q Hc Hn Hf E.
  destruct (refreezing_exact_lem c g Hc Hn Hf) as (g1 & q1 & E1 & F). rewrite E in E1. injection E1 as <- <-.
  eapply Forall2_mono; [|exact Hf|exact F]. intros x x' (Q1 & Q2 & Q3 & Q4) (d & H) HT Hw Hp.
  assert (R := frozen_rest c x x' d Hc Q2 Q3 H (Rlt_le _ _ HT) Hw Hp). split; [|exact R].
  destruct (frozen_bounds c x x' d Hc Q2 H) as ((D1 & D2) & W & I1 & _).
  destruct H as (_ & H2 & _). destruct Hc.
  assert (P : 0 < heat_capacity c x').
  { unfold heat_capacity. assert (0 < c_spec_heat_ice c * c_ice_density c * n_ice x')
      by (apply Rmult_lt_0_compat; [apply Rmult_lt_0_compat|]; lra).
    assert (0 < c_spec_heat_water c * c_water_density c * n_lwc x')
      by (apply Rmult_lt_0_compat; [apply Rmult_lt_0_compat|]; lra). lra. }
  assert (0 < c_water_density c * (c_spec_heat_ice c * (n_lwc x - n_lwc x') + c_spec_heat_water c * n_lwc x')
      * (c_zero_temperature c - n_temperature x)).
  { apply Rmult_lt_0_compat; [|lra]. apply Rmult_lt_0_compat; [lra|].
    assert (0 <= c_spec_heat_ice c * (n_lwc x - n_lwc x')) by (apply Rmult_le_pos; lra).
    assert (0 < c_spec_heat_water c * n_lwc x') by (apply Rmult_lt_0_compat; lra). lra. }
  rewrite <- R in H. apply Rnot_le_lt. intros L.
  assert (heat_capacity c x' * (c_zero_temperature c - n_temperature x') <= 0); [|lra].
  rewrite <- (Rmult_0_r (heat_capacity c x')). apply Rmult_le_compat_l; lra.
Qed.

(*@ C119 Hence refreezing is not finished after one pass: a second pass over such a column would freeze more. *)
Lemma second_pass_freezes_lem : forall (c : Consts) (g g' : Grid) (refrozen : R),
  constants_ok c -> counted g ->
  Forall (fun n => 0 <= n_height n /\ fractions_ok n /\ 0 < n_ice n /\ cold_ok c n) (g_nodes g) ->
  refreezing c g = Ok (g', refrozen) -> Forall fractions_ok (g_nodes g') ->
  (exists x x', In (x, x') (combine (g_nodes g) (g_nodes g')) /\ 0 < n_height x /\
     n_temperature x < c_zero_temperature c /\ 0 < n_lwc x' /\ n_ice x' < close_off c) ->
  exists g2 again, refreezing c g' = Ok (g2, again) /\ 0 < again.
Proof.
  intros c g g' q Hc Hn Hf E Hf' (x & x' & I & Hh & HT & Hw & Hp).
  assert (LC := refreezing_leaves_cold_lem c g g' q Hc Hn Hf E).
  destruct (refreezing_stays_frozen_lem c g Hc Hn Hf) as (g1 & q1 & E1 & _ & S1).
  rewrite E in E1. injection E1 as <- <-.
  destruct (refreezing_conserves_mass_lem c g Hc Hn Hf) as (g1 & q1 & E1 & M1 & _ & _ & _ & _ & Hn' & _).
  rewrite E in E1. injection E1 as <- <-.
  assert (Hg' : freezing_column c (g_nodes g')).
  { unfold freezing_column. clear - Hf Hf' S1 M1 Hc. revert M1 Hf Hf'.
    induction S1 as [|a b l l' (A1 & A2 & A3 & A4 & A5 & A6) S1 IH]; intros M1 Hf Hf'; constructor.
    - inversion M1 as [|? ? ? ? (B1 & _) M2]; subst. destruct (Forall_inv Hf) as (Q1 & Q2 & Q3 & Q4).
      rewrite B1. split; [exact Q1|]. split; [exact (Forall_inv Hf')|]. split; [lra|].
      destruct Q4 as [Q4 Q5]. split; [lra|]. destruct Hc. eapply Rle_lt_trans; [|exact Q5].
      apply Rmult_le_compat_r; lra.
    - inversion M1; subst. apply IH; [assumption|exact (Forall_inv_tail Hf)|exact (Forall_inv_tail Hf')]. }
  destruct (refreezing_spec c g' Hc Hn' (freezing_refreeze_ok _ _ Hg')) as (g2 & ps & W & _ & _ & _ & F).
  exists g2, (sumR (map snd ps)). split; [exact W|].
  assert (Hx : exists x0, In x0 (g_nodes g') /\ 0 < n_height x0 /\ 0 < n_lwc x0 /\ n_ice x0 < close_off c /\
     n_temperature x0 < c_zero_temperature c).
  { exists x'. split; [exact (in_combine_r _ _ _ _ I)|].
    assert (A : n_height x' = n_height x /\ n_temperature x' < c_zero_temperature c).
    { clear - LC M1 I HT Hw Hp. revert M1 I. induction LC as [|a b l l' A LC IH]; intros M1 I; [destruct I|].
      inversion M1 as [|? ? ? ? (B1 & _) M2]; subst. destruct I as [I|I].
      - injection I as -> ->. split; [exact B1|]. apply A; assumption.
      - apply IH; assumption. }
    destruct A as [A1 A2]. rewrite A1. auto. }
  clear - F Hg' Hx Hc. destruct Hx as (y & Iy & Y1 & Y2 & Y3 & Y4). revert Iy Hg'.
  assert (Nn : forall l ps, freezing_column c l ->
    Forall2 (fun x p => exists d, snd p = d * n_height x /\ frozen c x (fst p) d) l ps -> 0 <= sumR (map snd ps)).
  { intros l p0 Hl F0. induction F0 as [|a p l p0 (d & Hd & H) F0 IH]; [apply Rle_refl|].
    unfold sumR in *. cbn [map fold_right]. destruct (Forall_inv Hl) as (Q1 & Q2 & Q3 & Q4).
    destruct (frozen_bounds c a (fst p) d Hc Q2 H) as ((D1 & _) & _).
    assert (0 <= snd p) by (rewrite Hd; apply Rmult_le_pos; lra). specialize (IH (Forall_inv_tail Hl)). lra. }
  induction F as [|a p l p0 (d & Hd & H) F IH]; intros Iy Hl; [destruct Iy|].
  assert (N1 := Nn _ _ (Forall_inv_tail Hl) F). destruct (Forall_inv Hl) as (Q1 & Q2 & Q3 & Q4).
  assert (B := frozen_bounds c a (fst p) d Hc Q2 H). destruct B as ((D1 & _) & _).
  assert (N2 : 0 <= snd p) by (rewrite Hd; apply Rmult_le_pos; lra).
  unfold sumR in *. cbn [map fold_right]. destruct Iy as [->|Iy].
  - assert (0 < d).
    { destruct H as (_ & _ & _ & _ & _ & H6). destruct (Rle_dec (n_temperature y) (c_zero_temperature c)); [|lra].
      rewrite H6. unfold freezable. destruct Hc.
      apply Rmin_glb_lt; [apply Rmin_glb_lt; [exact Y2|]|].
      - eapply Rlt_le_trans; [|apply Rmax_l]. apply Rmult_lt_0_compat; [lra|].
        apply Rmult_lt_0_compat; [lra|]. apply Rinv_0_lt_compat. lra.
      - apply Rmult_lt_0_compat; [|apply Rinv_0_lt_compat, Rmult_lt_0_compat; lra].
        repeat apply Rmult_lt_0_compat; lra. }
    assert (0 < snd p) by (rewrite Hd; apply Rmult_lt_0_compat; lra). lra.
  - specialize (IH Iy (Forall_inv_tail Hl)). lra.
Qed.

(*@ex C119 A layer of half ice at one degree below melting with five per cent of water: after refreezing it is still below melting with water left, and a second pass freezes more. *)
Lemma side_by_side_case_lem :
  exists g g' refrozen x x' g2 again,
    constants_ok default_constants /\ counted g /\
    Forall (fun n => 0 <= n_height n /\ fractions_ok n /\ 0 < n_ice n /\ cold_ok default_constants n) (g_nodes g) /\
    refreezing default_constants g = Ok (g', refrozen) /\ 0 < refrozen /\ g_nodes g = [x] /\ g_nodes g' = [x'] /\
    n_temperature x < n_temperature x' < c_zero_temperature default_constants /\ 0.04 < n_lwc x' /\
    Forall fractions_ok (g_nodes g') /\ n_ice x' < close_off default_constants /\
    refreezing default_constants g' = Ok (g2, again) /\ 0 < again.
Proof.
  set (x := mkNode 0.1 272.16 0.05 0.5 0). set (g := mkGrid [x] 1 0 0 0).
  assert (Hf : freezing_column default_constants (g_nodes g)).
  { constructor; [|constructor]. unfold fractions_ok, cold_ok; cbn. lra. }
  destruct (refreezing_spec default_constants g default_ok eq_refl (freezing_refreeze_ok _ _ Hf))
    as (g' & ps & W & E & N & C & F).
  inversion F as [|? p ? ps' (d & Hd & Hx) F' E1 E2]; subst. inversion F'; subst. cbn [map] in E.
  assert (Fx : fractions_ok x) by (unfold fractions_ok; cbn; lra).
  assert (Hx' := Hx). destruct Hx as (H1 & H2 & H3 & H4 & H5 & H6).
  assert (B : 0 < d <= 0.003).
  { rewrite H6. cbn [n_temperature x]. destruct (Rle_dec 272.16 (c_zero_temperature default_constants)) as [L|L];
      [|cbn in L; lra].
    unfold freezable, close_off. cbn. split.
    - repeat apply Rmin_glb_lt; try lra. eapply Rlt_le_trans; [|apply Rmax_l]. lra.
    - eapply Rle_trans; [apply Rmin_r|]. lra. }
  assert (W' : 0.04 < n_lwc (fst p)) by (rewrite H2; cbn; lra).
  assert (I' : 0.5 < n_ice (fst p) < 0.51) by (rewrite H2 in H3; cbn in H3; lra).
  assert (Cl : n_ice (fst p) < close_off default_constants) by (unfold close_off; cbn; lra).
  assert (T1 : n_temperature x < n_temperature (fst p)).
  { apply Rnot_le_lt. intros L. assert (0 < heat_capacity default_constants (fst p)).
    { unfold heat_capacity; cbn. lra. }
    cbn [c_water_density c_lat_heat_melting default_constants] in H4.
    assert (heat_capacity default_constants (fst p) * (n_temperature (fst p) - n_temperature x) <= 0).
    { rewrite <- (Rmult_0_r (heat_capacity default_constants (fst p))). apply Rmult_le_compat_l; lra. }
    rewrite H4 in H0. cbn in H0. lra. }
  assert (LC := refreezing_leaves_cold_lem default_constants g _ _ default_ok eq_refl Hf W). rewrite E in LC.
  inversion LC as [|? ? ? ? LC1 _]; subst. destruct LC1 as [T2 _]; [cbn; lra|lra|exact Cl|].
  assert (Hf' : Forall fractions_ok (g_nodes g')).
  { rewrite E. constructor; [|constructor]. unfold fractions_ok. cbn [n_lwc x] in H2. lra. }
  destruct (second_pass_freezes_lem default_constants g _ _ default_ok eq_refl Hf W Hf') as (g2 & again & W2 & P2).
  { exists x, (fst p). rewrite E. cbn. split; [left; reflexivity|]. repeat split; lra || exact Cl. }
  exists g, g', (sumR (map snd [p])), x, (fst p), g2, again.
  split; [exact default_ok|]. split; [reflexivity|]. split; [exact Hf|]. split; [exact W|].
  split. { cbn. rewrite Hd. cbn [n_height x]. lra. }
  repeat (split; [first [reflexivity | exact E | exact (conj T1 T2) | assumption]|]). exact P2.
Qed.

(** ** Percolation *)
Lemma only_lwc_trans x y z : only_lwc x y -> only_lwc y z -> only_lwc x z.
Proof. intros (A1 & A2 & A3 & A4) (B1 & B2 & B3 & B4). repeat split; congruence. Qed.

Lemma bucket_portions w1 l l1 q1 : positive_heights l -> bucket w1 l l1 q1 ->
  forall w2 l2 q2, 0 <= w2 -> bucket w2 l1 l2 q2 -> bucket (w1 + w2) l l2 (q1 + q2).
Proof.
  intros Hp B. induction B as [w x x' H1 H2|w x x' y t t' e q H1 H2 H3 B IH]; intros w2 l2 q2 Hw B2.
  - inversion B2 as [w0 x0 x'' G1 G2 E0 E1 E2|w0 x0 x'' z t0 t'' e' q0 G1 G2 G3 G4 E0 E1 E2]; subst.
    rewrite H2. replace (n_lwc x * n_height x + w + (0 * n_height x' + w2)) with (n_lwc x * n_height x + (w + w2)) by ring.
    constructor; [exact (only_lwc_trans _ _ _ H1 G1)|exact G2].
  - assert (Hx := Forall_inv Hp). cbn in Hx.
    inversion B2 as [w0 x0 x'' G1 G2 E0 E1 E2|w0 x0 x'' z t0 t'' e' q0 G1 G2 G3 G4 E0 E1 E2]; subst.
    + inversion B.
    + assert (Hh : n_height x' = n_height x) by apply H2. assert (Hi : n_ice x' = n_ice x) by apply H2.
      rewrite Hh, Hi in G3. rewrite Hh in G4.
      set (A := n_lwc x * n_height x) in *. set (E := irreducible_content (n_ice x) * n_height x) in *.
      set (a1 := n_lwc x' * n_height x) in *. set (a2 := n_lwc x'' * n_height x) in *.
      assert (M : a2 = Rmin (A + (w + w2)) E).
      { rewrite G3, H3. unfold Rmin. repeat destruct Rle_dec; lra. }
      eapply bucket_step; [reflexivity|exact (only_lwc_trans _ _ _ H2 G2)|exact M|].
      fold A a2. replace (A + (w + w2) - a2) with (A + w - a1 + (a1 + w2 - a2)) by ring.
      apply IH; [exact (Forall_inv_tail Hp)| |exact G4].
      assert (a2 <= a1 + w2) by (rewrite G3; apply Rmin_l). lra.
Qed.

Lemma bucket_unique w l a q : positive_heights l -> bucket w l a q -> forall b r, bucket w l b r -> a = b /\ q = r.
Proof.
  assert (N : forall x a b : Node, 0 < n_height x -> only_lwc x a -> only_lwc x b ->
    n_lwc a * n_height x = n_lwc b * n_height x -> a = b).
  { intros x [ah at_ aw ai ar] [bh bt bw bi br] Hh (A1 & A2 & A3 & A4) (B1 & B2 & B3 & B4) E. cbn in *. subst.
    f_equal. apply Rmult_eq_reg_r with (n_height x); lra. }
  intros Hp B. induction B as [w x x' H1 H2|w x x' y t t' e q H1 H2 H3 B IH]; intros b r B2.
  - inversion B2 as [w0 x0 x'' G1 G2 E0 E1 E2|]; subst. assert (Hx := Forall_inv Hp). cbn in Hx.
    split; [|reflexivity]. f_equal. apply (N x); auto. rewrite H2, G2. reflexivity.
  - inversion B2 as [|w0 x0 x'' z t0 t'' e' q0 G1 G2 G3 G4 E0 E1 E2]; subst. assert (Hx := Forall_inv Hp). cbn in Hx.
    assert (x' = x'') by (apply (N x); auto; congruence). subst x''.
    destruct (IH (Forall_inv_tail Hp) _ _ G4) as [-> ->]. split; reflexivity.
Qed.

Lemma bucket_monotone w l a q : positive_heights l -> bucket w l a q -> forall w' b r, w <= w' -> bucket w' l b r ->
  Forall2 (fun x y => n_lwc x <= n_lwc y) a b /\ q <= r.
Proof.
  intros Hp B. induction B as [w x x' H1 H2|w x x' y t t' e q H1 H2 H3 B IH]; intros w' b r Hw B2.
  - inversion B2 as [w0 x0 x'' G1 G2 E0 E1 E2|]; subst. split; [|lra]. constructor; [rewrite H2, G2; apply Rle_refl|constructor].
  - inversion B2 as [|w0 x0 x'' z t0 t'' e' q0 G1 G2 G3 G4 E0 E1 E2]; subst. assert (Hx := Forall_inv Hp). cbn in Hx.
    set (A := n_lwc x * n_height x) in *. set (E := irreducible_content (n_ice x) * n_height x) in *.
    destruct (IH (Forall_inv_tail Hp) (A + w' - n_lwc x'' * n_height x) t'' r) as [I1 I2]; [|exact G4|].
    { rewrite H3, G3. unfold Rmin. repeat destruct Rle_dec; lra. }
    split; [|exact I2]. constructor; [|exact I1].
    apply Rmult_le_reg_r with (n_height x); [exact Hx|]. rewrite H3, G3. unfold Rmin. repeat destruct Rle_dec; lra.
Qed.

Lemma only_lwc_column_ok l l' : Forall2 only_lwc l l' -> column_ok l -> column_ok l'.
Proof.
  intros F H. induction F as [|x x' l l' (A1 & A2 & A3 & A4) F IH]; constructor.
  - rewrite A1, A3. exact (Forall_inv H).
  - apply IH. exact (Forall_inv_tail H).
Qed.

(*@ C120 Water that is given to the surface in two portions ends exactly where it ends when it is given at once, and the runoff adds up. *)
Lemma percolation_in_portions_lem : forall (g : Grid) (first second : R),
  counted g -> column_ok (g_nodes g) -> g_nodes g <> [] -> 0 <= second ->
  exists g1 runoff1 g2 runoff2,
    percolation g first = Ok (g1, runoff1) /\ percolation g1 second = Ok (g2, runoff2) /\
    percolation g (first + second) = Ok (g2, runoff1 + runoff2).
Proof.
  intros g w1 w2 Hn Hok Hne Hw.
  destruct (percolation_bucket g w1 Hn Hok Hne) as (g1 & q1 & W1 & B1 & N1 & C1).
  assert (F1 := bucket_only_lwc _ _ _ _ B1).
  assert (Hn1 : counted g1).
  { unfold counted in *. rewrite N1, Hn. f_equal. symmetry. eapply Forall2_len; exact F1. }
  assert (Hok1 := only_lwc_column_ok _ _ F1 Hok).
  assert (Hne1 : g_nodes g1 <> []) by (intros E; rewrite E in F1; inversion F1; congruence).
  destruct (percolation_bucket g1 w2 Hn1 Hok1 Hne1) as (g2 & q2 & W2 & B2 & N2 & C2).
  destruct (percolation_bucket g (w1 + w2) Hn Hok Hne) as (g3 & q3 & W3 & B3 & N3 & C3).
  exists g1, q1, g2, q2. split; [exact W1|]. split; [exact W2|]. rewrite W3.
  destruct (bucket_unique _ _ _ _ (column_ok_positive _ Hok) B3 _ _
    (bucket_portions _ _ _ _ (column_ok_positive _ Hok) B1 _ _ _ Hw B2)) as [E ->].
  f_equal. f_equal. destruct g2, g3, C1 as (? & ? & ?), C2 as (? & ? & ?), C3 as (? & ? & ?). cbn in *. congruence.
Qed.

(*@ C120 More water at the surface leaves no layer with less water and never makes the runoff smaller. *)
Lemma percolation_monotone_lem : forall (g : Grid) (less more : R),
  counted g -> column_ok (g_nodes g) -> g_nodes g <> [] -> less <= more ->
  exists g1 runoff1 g2 runoff2,
    percolation g less = Ok (g1, runoff1) /\ percolation g more = Ok (g2, runoff2) /\
    Forall2 (fun x y => n_lwc x <= n_lwc y) (g_nodes g1) (g_nodes g2) /\ runoff1 <= runoff2.
Proof.
  intros g w1 w2 Hn Hok Hne Hw.
  destruct (percolation_bucket g w1 Hn Hok Hne) as (g1 & q1 & W1 & B1 & N1 & C1).
  destruct (percolation_bucket g w2 Hn Hok Hne) as (g2 & q2 & W2 & B2 & N2 & C2).
  exists g1, q1, g2, q2. split; [exact W1|]. split; [exact W2|].
  exact (bucket_monotone _ _ _ _ (column_ok_positive _ Hok) B1 _ _ _ Hw B2).
Qed.

(*@ex C120 Wet snow over cold firn over ice meets the hypotheses. *)
Lemma portions_case_lem :
  counted (mkGrid [mkNode 0.1 273.16 0.05 0.4 0; mkNode 0.2 270 0.01 0.5 0; mkNode 1 270 0 1 0] 3 0.1 0 0) /\
  column_ok [mkNode 0.1 273.16 0.05 0.4 0; mkNode 0.2 270 0.01 0.5 0; mkNode 1 270 0 1 0].
Proof. split; [reflexivity|]. repeat constructor; cbn; lra. Qed.

(** ** Melt *)

(** layers that remain, melt that finds nothing, water of the layers that go *)
Fixpoint melt_to (c : Consts) (m : R) (l : list Node) : list Node * R * R :=
  match l with
  | [] => ([], m, 0)
  | x :: t =>
      let q := layer_density c x / c_water_density c in
      if Rltb 0 m then
        if Rltb m (n_height x * q) then (set_layer_height ((n_height x * q - m) / q) x :: t, 0, 0)
        else let '(l', r, w) := melt_to c (m - n_height x * q) t in (l', r, n_lwc x * n_height x + w)
      else (x :: t, m, 0)
  end.

Lemma melt_loop_to c : 0 < c_water_density c -> forall l g m w0 fuel,
  0 <= m -> g_nodes g = l -> counted g -> weighty c l -> (S (length l) < fuel)%nat ->
  let '(l', r, w) := melt_to c m l in
  while_loop fuel (melt_cond 0) (melt_body c 0) (g, m, w0)
  = Ok (with_number (with_nodes g l') (Z.of_nat (length l')), r, w0 + w).
Proof.
  intros Hw l; induction l as [|x l IH]; intros g m w0 fuel Hm Hg Hc Hwt Hf.
  - destruct fuel as [|fuel]; [lia|]. cbn [melt_to while_loop melt_cond bind].
    replace (0 <? g_number_nodes g)%Z with false by (symmetry; apply Z.ltb_ge; rewrite Hc, Hg; cbn; lia).
    rewrite andb_false_r. f_equal. f_equal; [f_equal|ring]. destruct g; unfold counted in Hc; cbn in *. subst. reflexivity.
  - destruct fuel as [|fuel]; [lia|]. cbn [melt_to while_loop melt_cond bind].
    replace (0 <? g_number_nodes g)%Z with true by (symmetry; apply Z.ltb_lt; rewrite Hc, Hg; cbn [length]; lia).
    rewrite andb_true_r.
    assert (Hx := Forall_inv Hwt). cbn in Hx. destruct Hx as [Hh Hd].
    assert (Hq : 0 < layer_density c x / c_water_density c).
    { apply Rmult_lt_0_compat; [exact Hd | now apply Rinv_0_lt_compat]. }
    destruct (Rltb_spec 0 m) as [Hpos|Hpos].
    2:{ f_equal. f_equal; [f_equal|ring]. destruct g; unfold counted in Hc; cbn in *. subst. reflexivity. }
    cbn [melt_body]. unfold get_node_height, get_node_density, get_node_lwc.
    rewrite (get_node_mid g [] x l Hg : get_node g 0 = _). cbn [bind].
    rewrite fdiv_ok by lra. cbn [bind].
    set (q := layer_density c x / c_water_density c) in *.
    destruct (Rltb_spec m (n_height x * q)) as [L|L].
    + rewrite fdiv_ok by lra. cbn [bind]. unfold set_node_height.
      rewrite (upd_node_mid g [] x l _ Hg : upd_node g 0 _ = _). cbn [bind].
      destruct fuel as [|fuel]; [cbn [length] in Hf; lia|].
      cbn [while_loop melt_cond bind]. rewrite (Rltb_false 0 0) by lra. cbn [andb app].
      f_equal. f_equal; [f_equal|ring]. destruct g; unfold counted in Hc; cbn in *. subst. reflexivity.
    + rewrite Rleb_true by lra. cbn [bind].
      rewrite (remove_one_mid g [] x l Hg : remove_node g (Some [0%Z]) = _). cbn [bind app].
      specialize (IH (with_number (with_nodes g l) (g_number_nodes g - 1)) (m - n_height x * q)
                  (w0 + n_lwc x * n_height x) fuel ltac:(lra) eq_refl).
      destruct (melt_to c (m - n_height x * q) l) as [[l' r] w].
      rewrite IH.
      * f_equal. f_equal. ring.
      * unfold counted in *. cbn [g_number_nodes with_nodes with_number g_nodes]. rewrite Hc, Hg. cbn [length]. lia.
      * exact (Forall_inv_tail Hwt).
      * cbn [length] in Hf. lia.
Qed.

Lemma remove_melt_to c g m fuel : 0 < c_water_density c -> 0 <= m -> counted g -> weighty c (g_nodes g) ->
  (S (length (g_nodes g)) < fuel)%nat ->
  let '(l', r, w) := melt_to c m (g_nodes g) in
  remove_melt_weq fuel c g m 0 =
  Ok (mkGrid l' (Z.of_nat (length l')) (g_new_snow_height g - r) (g_new_snow_timestamp g) (g_old_snow_timestamp g), w).
Proof.
  intros Hw Hm Hc Hwt Hf. assert (W := melt_loop_to c Hw (g_nodes g) g m 0 fuel Hm eq_refl Hc Hwt Hf).
  destruct (melt_to c m (g_nodes g)) as [[l' r] w]. unfold remove_melt_weq. rewrite W. cbn [bind].
  rewrite Rplus_0_l. reflexivity.
Qed.

Lemma melt_to_length c l : forall m, (length (fst (fst (melt_to c m l))) <= length l)%nat.
Proof.
  induction l as [|x l IH]; intros m; cbn [melt_to]; [reflexivity|].
  destruct (Rltb 0 m); [|reflexivity]. destruct (Rltb m _); [cbn; lia|].
  specialize (IH (m - n_height x * (layer_density c x / c_water_density c))).
  destruct (melt_to c _ l) as [[l' r] w]. cbn [fst length] in *. lia.
Qed.

Lemma melt_to_zero c m l : m = 0 -> melt_to c m l = (l, m, 0).
Proof. intros ->. destruct l; cbn [melt_to]; [reflexivity|]. rewrite Rltb_false by lra. reflexivity. Qed.

Lemma melt_to_portions c : 0 < c_water_density c -> forall l m1 m2, 0 <= m1 -> 0 <= m2 ->
  weighty c l -> Forall (fun n => 0 <= n_lwc n) l ->
  let '(l1, r1, w1) := melt_to c m1 l in
  let '(l2, r2, w2) := melt_to c m2 l1 in
  let '(l3, r3, w3) := melt_to c (m1 + m2) l in
  l3 = l2 /\ r3 = r1 + r2 /\ w1 + w2 <= w3 /\ weighty c l1 /\ 0 <= r1.
Proof.
  intros Hw. induction l as [|x l IH]; intros m1 m2 H1 H2 Hwt Hl.
  - cbn [melt_to]. repeat split; try lra. constructor.
  - assert (Hx := Forall_inv Hwt). cbn in Hx. destruct Hx as [Hh Hd].
    assert (Hlx := Forall_inv Hl). cbn in Hlx.
    assert (Hq : 0 < layer_density c x / c_water_density c).
    { apply Rmult_lt_0_compat; [exact Hd | now apply Rinv_0_lt_compat]. }
    destruct (Req_dec m1 0) as [Z1|Z1].
    { rewrite (melt_to_zero c m1) by exact Z1. replace (m1 + m2) with m2 by lra.
      destruct (melt_to c m2 (x :: l)) as [[l2 r2] w2]. repeat split; try lra. exact Hwt. }
    destruct (Req_dec m2 0) as [Z2|Z2].
    { replace (m1 + m2) with m1 by lra. specialize (IH (m1 - n_height x * (layer_density c x / c_water_density c)) 0).
      cbn [melt_to]. rewrite (Rltb_true 0 m1) by lra. set (q := layer_density c x / c_water_density c) in *.
      destruct (Rltb_spec m1 (n_height x * q)) as [L|L].
      - rewrite (melt_to_zero c m2) by exact Z2. repeat split; try lra.
        constructor; [|exact (Forall_inv_tail Hwt)]. cbn. split; [|exact Hd].
        apply Rmult_lt_0_compat; [lra|apply Rinv_0_lt_compat; exact Hq].
      - specialize (IH ltac:(lra) ltac:(lra) (Forall_inv_tail Hwt) (Forall_inv_tail Hl)).
        destruct (melt_to c (m1 - n_height x * q) l) as [[l1 r1] w1].
        rewrite (melt_to_zero c 0) in IH by reflexivity. rewrite (melt_to_zero c m2) by exact Z2.
        destruct (melt_to c (m1 - n_height x * q + 0) l) as [[l3 r3] w3].
        destruct IH as (_ & _ & _ & I4 & I5). repeat split; try lra. exact I4. }
    cbn [melt_to]. rewrite (Rltb_true 0 m1) by lra. rewrite (Rltb_true 0 (m1 + m2)) by lra.
    set (q := layer_density c x / c_water_density c) in *.
    destruct (Rltb_spec m1 (n_height x * q)) as [L|L].
    + cbn [melt_to]. rewrite (Rltb_true 0 m2) by lra.
      change (layer_density c (set_layer_height ((n_height x * q - m1) / q) x)) with (layer_density c x). fold q.
      change (n_height (set_layer_height ((n_height x * q - m1) / q) x)) with ((n_height x * q - m1) / q).
      change (n_lwc (set_layer_height ((n_height x * q - m1) / q) x)) with (n_lwc x).
      assert (Eh : (n_height x * q - m1) / q * q = n_height x * q - m1) by (field; lra). rewrite Eh.
      assert (Hh' : 0 < (n_height x * q - m1) / q).
      { apply Rmult_lt_0_compat; [lra|apply Rinv_0_lt_compat; exact Hq]. }
      assert (Wt1 : weighty c (set_layer_height ((n_height x * q - m1) / q) x :: l)).
      { constructor; [|exact (Forall_inv_tail Hwt)]. cbn. split; [exact Hh'|exact Hd]. }
      destruct (Rltb_spec m2 (n_height x * q - m1)) as [L2|L2].
      * rewrite Rltb_true by lra. repeat split; try lra; [|exact Wt1].
        f_equal. unfold set_layer_height; cbn. f_equal. f_equal. ring.
      * rewrite Rltb_false by lra. replace (m1 + m2 - n_height x * q) with (m2 - (n_height x * q - m1)) by ring.
        destruct (melt_to c (m2 - (n_height x * q - m1)) l) as [[l2 r2] w2].
        repeat split; try lra; [|exact Wt1].
        assert (n_lwc x * ((n_height x * q - m1) / q) <= n_lwc x * n_height x); [|lra].
        apply Rmult_le_compat_l; [exact Hlx|]. apply Rmult_le_reg_r with q; [exact Hq|]. rewrite Eh. lra.
    + rewrite Rltb_false by lra.
      specialize (IH (m1 - n_height x * q) m2 ltac:(lra) H2 (Forall_inv_tail Hwt) (Forall_inv_tail Hl)).
      replace (m1 + m2 - n_height x * q) with (m1 - n_height x * q + m2) by ring.
      destruct (melt_to c (m1 - n_height x * q) l) as [[l1 r1] w1].
      destruct (melt_to c m2 l1) as [[l2 r2] w2].
      destruct (melt_to c (m1 - n_height x * q + m2) l) as [[l3 r3] w3].
      destruct IH as (I1 & I2 & I3 & I4 & I5). repeat split; auto; lra.
Qed.

(*@ C121 Melt that is removed in two portions leaves exactly the column and the snow clock that one removal leaves, but may return less water of the layers that disappear, never more. *)
Lemma melt_in_portions_lem : forall c g first second fuel,
  0 < c_water_density c -> 0 <= first -> 0 <= second -> counted g ->
  Forall (fun n => 0 < n_height n /\ 0 < layer_density c n) (g_nodes g) -> Forall (fun n => 0 <= n_lwc n) (g_nodes g) ->
  (length (g_nodes g) + 2 <= fuel)%nat ->
  exists g1 water1 g2 water2 water,
    remove_melt_weq fuel c g first 0 = Ok (g1, water1) /\ remove_melt_weq fuel c g1 second 0 = Ok (g2, water2) /\
    remove_melt_weq fuel c g (first + second) 0 = Ok (g2, water) /\ water1 + water2 <= water.
Proof.
  intros c g m1 m2 fuel Hw H1 H2 Hc Hwt Hl Hf.
  assert (P := melt_to_portions c Hw (g_nodes g) m1 m2 H1 H2 Hwt Hl).
  assert (L := melt_to_length c (g_nodes g) m1).
  assert (A1 := remove_melt_to c g m1 fuel Hw H1 Hc Hwt ltac:(lia)).
  assert (A3 := remove_melt_to c g (m1 + m2) fuel Hw ltac:(lra) Hc Hwt ltac:(lia)).
  destruct (melt_to c m1 (g_nodes g)) as [[l1 r1] w1]. cbn [fst] in L.
  pose (g1 := mkGrid l1 (Z.of_nat (length l1)) (g_new_snow_height g - r1) (g_new_snow_timestamp g) (g_old_snow_timestamp g)).
  destruct (melt_to c m2 l1) as [[l2 r2] w2] eqn:E2. destruct (melt_to c (m1 + m2) (g_nodes g)) as [[l3 r3] w3].
  destruct P as (-> & -> & P3 & P4 & P5).
  assert (A2 := remove_melt_to c g1 m2 fuel Hw H2 eq_refl P4 ltac:(cbn [g1 g_nodes]; lia)).
  cbn [g1 g_nodes g_new_snow_height g_new_snow_timestamp g_old_snow_timestamp] in A2. rewrite E2 in A2.
  exists g1, w1. eexists. exists w2, w3. split; [exact A1|]. split; [exact A2|]. split; [|exact P3].
  rewrite A3. f_equal. f_equal. f_equal. ring.
Qed.

(*@ C121 That the same water is returned is refuted: a wet layer that melts in two halves returns half of its water. *)
Lemma melt_portions_water_refuted_lem :
  exists g g1 g2 half water1 water2 water fuel,
    counted g /\ Forall (fun n => 0 < n_height n /\ 0 < layer_density default_constants n) (g_nodes g) /\ 0 < half /\
    remove_melt_weq fuel default_constants g half 0 = Ok (g1, water1) /\
    remove_melt_weq fuel default_constants g1 half 0 = Ok (g2, water2) /\
    remove_melt_weq fuel default_constants g (half + half) 0 = Ok (g2, water) /\
    0 < water /\ water1 + water2 = water / 2.
Proof.
  pose (x := mkNode 0.1 273.16 0.1 0.5 0). pose (g := mkGrid [x] 1 0 0 0).
  set (c := default_constants).
  assert (Hw : 0 < c_water_density c) by (cbn; lra).
  assert (Hd : 0 < layer_density c x).
  { unfold layer_density, layer_air_porosity. cbn [n_ice n_lwc x]. rewrite Rmax_right by lra. cbn. lra. }
  set (q := layer_density c x / c_water_density c).
  assert (Hq : 0 < q) by (apply Rmult_lt_0_compat; [exact Hd|apply Rinv_0_lt_compat; exact Hw]).
  assert (Wt : weighty c [x]) by (constructor; [split; [cbn; lra|exact Hd]|constructor]).
  pose (half := 0.05 * q). assert (Hhalf : 0 < half) by (unfold half; lra).
  pose (y := set_layer_height ((0.1 * q - half) / q) x).
  assert (Ey : (0.1 * q - half) / q = 0.05) by (unfold half; replace (0.1 * q - 0.05 * q) with (0.05 * q) by lra; unfold Rdiv; rewrite Rmult_assoc, Rinv_r by lra; lra).
  assert (M1 : melt_to c half [x] = ([y], 0, 0)).
  { cbn [melt_to n_height x]. fold x. fold q. rewrite (Rltb_true 0 half) by lra.
    rewrite Rltb_true by (unfold half; lra). reflexivity. }
  assert (M2 : melt_to c half [y] = ([], 0, 0.1 * 0.05)).
  { cbn [melt_to]. change (layer_density c y) with (layer_density c x). fold q.
    change (n_height y) with ((0.1 * q - half) / q). rewrite Ey. rewrite (Rltb_true 0 half) by lra.
    rewrite Rltb_false by (unfold half; lra). change (n_lwc y) with 0.1. unfold half. f_equal; [f_equal|]; lra. }
  assert (M3 : melt_to c (half + half) [x] = ([], 0, 0.1 * 0.1)).
  { cbn [melt_to n_height n_lwc x]. fold x. fold q. rewrite (Rltb_true 0 (half + half)) by lra.
    rewrite Rltb_false by (unfold half; lra). unfold half. f_equal; [f_equal|]; lra. }
  assert (Wy : weighty c [y]).
  { constructor; [split; [change (n_height y) with ((0.1 * q - half) / q); rewrite Ey; lra|exact Hd]|constructor]. }
  pose (g1 := mkGrid [y] 1 (0 - 0) 0 0).
  assert (A1 := remove_melt_to c g half 5 Hw (Rlt_le _ _ Hhalf) eq_refl Wt ltac:(cbn; lia)).
  assert (A2 := remove_melt_to c g1 half 5 Hw (Rlt_le _ _ Hhalf) eq_refl Wy ltac:(cbn; lia)).
  assert (A3 := remove_melt_to c g (half + half) 5 Hw ltac:(lra) eq_refl Wt ltac:(cbn; lia)).
  cbn [g g1 g_nodes] in A1, A2, A3. rewrite M1 in A1. rewrite M2 in A2. rewrite M3 in A3.
  exists g, g1. do 6 eexists. split; [reflexivity|]. split; [exact Wt|]. split; [exact Hhalf|].
  split; [exact A1|]. split; [exact A2|]. split.
  - etransitivity; [exact A3|]. f_equal. f_equal. f_equal. cbn. lra.
  - lra.
Qed.

(*@ex C121 Snow over ice meets the hypotheses of the theorem. *)
Lemma melt_portions_case_lem :
  0 < c_water_density default_constants /\
  counted (mkGrid [mkNode 0.1 273.16 0.05 0.4 0; mkNode 1 270 0 1 0] 2 0.1 0 0) /\
  Forall (fun n => 0 < n_height n /\ 0 < layer_density default_constants n)
    [mkNode 0.1 273.16 0.05 0.4 0; mkNode 1 270 0 1 0].
Proof.
  split; [cbn; lra|]. split; [reflexivity|].
  constructor; [|constructor; [|constructor]]; (split; [cbn; lra|]);
    apply density_positive; try exact default_ok; cbn; lra.
Qed.

(** ** Heat conduction *)

(** [C] is the combination of [A] and [B], point by point *)
Definition combined (a b k : R) (A B C : list R) : Prop :=
  length B = length A /\ length C = length A /\
  forall i, (i < length A)%nat -> at_layer C i = a * at_layer A i + b * at_layer B i + k.

Lemma heat_step_combined h K u a b k A B C : combined a b k A B C ->
  combined a b k (heat_step h K u A) (heat_step h K u B) (heat_step h K u C).
Proof.
  intros (LB & LC & E). split; [|split]; rewrite ?heat_step_length; auto.
  intros i Hi. rewrite !heat_step_at by lia. rewrite LB, LC.
  destruct ((1 <=? i) && (i <=? length A - 2))%nat eqn:Q.
  - apply andb_true_iff in Q. destruct Q as [Q1 Q2]. apply Nat.leb_le in Q1, Q2.
    unfold heat_point. change at_ with at_layer in *.
    rewrite !E by lia. unfold Rdiv. ring.
  - apply E. exact Hi.
Qed.

Lemma heat_loop_combined h K d dt a b k n : forall t A B C, combined a b k A B C ->
  let loop T := while_loop n (fun s : R * list R => Ok (Rltb (fst s) dt))
    (fun s => let dt_use := Rmin d (dt - fst s) in Ok (fst s + dt_use, heat_step h K dt_use (snd s))) (t, T) in
  forall ta A' tb B' tc C', loop A = Ok (ta, A') -> loop B = Ok (tb, B') -> loop C = Ok (tc, C') ->
  combined a b k A' B' C'.
Proof.
  induction n as [|n IH]; intros t A B C H loop ta A' tb B' tc C' EA EB EC; [discriminate|].
  unfold loop in *. cbn [while_loop bind fst snd] in EA, EB, EC. destruct (Rltb t dt).
  - cbn [bind] in EA, EB, EC. exact (IH _ _ _ _ (heat_step_combined h K _ a b k A B C H) _ _ _ _ _ _ EA EB EC).
  - injection EA as <- <-. injection EB as <- <-. injection EC as <- <-. exact H.
Qed.

Lemma solve_temperatures fuel c g dt g' : counted g -> solveHeatEquation fuel c g dt = Ok g' ->
  exists K d t T', map_res (layer_thermal_diffusivity c) (g_nodes g) = Ok K /\
    heat_dt_stab (heights (g_nodes g)) K (length (g_nodes g)) = Ok d /\
    while_loop fuel (fun s : R * list R => Ok (Rltb (fst s) dt))
      (fun s => let dt_use := Rmin d (dt - fst s) in Ok (fst s + dt_use, heat_step (heights (g_nodes g)) K dt_use (snd s)))
      (0, temperatures (g_nodes g)) = Ok (t, T') /\
    (length T' = length (g_nodes g) -> temperatures (g_nodes g') = T').
Proof.
  intros Hn H. unfold solveHeatEquation in H.
  rewrite get_height_counted in H by exact Hn. cbn [bind] in H.
  unfold get_thermal_diffusivity in H. rewrite get_profile_counted in H by exact Hn.
  destruct (map_res (layer_thermal_diffusivity c) (g_nodes g)) as [K|] eqn:EK; [|discriminate]. cbn [bind] in H.
  rewrite get_temperature_counted in H by exact Hn. cbn [bind] in H.
  unfold get_number_layers in H. rewrite Hn, Nat2Z.id in H. fold (heights (g_nodes g)) in H.
  destruct (heat_dt_stab (heights (g_nodes g)) K (length (g_nodes g))) as [d|] eqn:Ed; [|discriminate]. cbn [bind] in H.
  fold (temperatures (g_nodes g)) in H. apply bind_ok in H. destruct H as ([t T'] & W & H).
  exists K, d, t, T'. split; [reflexivity|]. split; [exact Ed|]. split; [exact W|]. intros L.
  cbn [snd] in H. unfold set_temperature in H. rewrite set_profile_counted in H by assumption.
  injection H as <-. cbn [g_nodes with_nodes]. unfold temperatures. apply temperatures_set. exact L.
Qed.

Lemma loop_length h K d dt n : forall t T t' T',
  while_loop n (fun s : R * list R => Ok (Rltb (fst s) dt))
    (fun s => let dt_use := Rmin d (dt - fst s) in Ok (fst s + dt_use, heat_step h K dt_use (snd s))) (t, T) = Ok (t', T') ->
  length T' = length T.
Proof.
  induction n as [|n IH]; intros t T t' T' E; [discriminate|]. cbn [while_loop bind fst snd] in E. destruct (Rltb t dt).
  - cbn [bind] in E. rewrite (IH _ _ _ _ E). apply heat_step_length.
  - injection E as <- <-. reflexivity.
Qed.

(*@ C122 Heat conduction is linear: if the temperatures of a column are a combination of those of two others that differ from it only in temperature, plus a constant, they stay this combination. *)
Lemma heat_superposition_lem : forall (c : Consts) (g1 g2 g3 : Grid) (a b k dt : R),
  constants_ok c -> counted g1 -> counted g2 -> counted g3 -> conductive c (g_nodes g1) ->
  (3 <= length (g_nodes g1))%nat ->
  Forall2 only_temperature (g_nodes g1) (g_nodes g2) -> Forall2 only_temperature (g_nodes g1) (g_nodes g3) ->
  combined a b k (temperatures (g_nodes g1)) (temperatures (g_nodes g2)) (temperatures (g_nodes g3)) ->
  exists g1' g2' g3' N,
    (forall fuel, (N <= fuel)%nat -> solveHeatEquation fuel c g1 dt = Ok g1' /\
       solveHeatEquation fuel c g2 dt = Ok g2' /\ solveHeatEquation fuel c g3 dt = Ok g3') /\
    combined a b k (temperatures (g_nodes g1')) (temperatures (g_nodes g2')) (temperatures (g_nodes g3')).
Proof.
  intros c g1 g2 g3 a b k dt Hc Hn1 Hn2 Hn3 Hk L3 F2 F3 HC.
  assert (Q : forall g, Forall2 only_temperature (g_nodes g1) (g_nodes g) -> conductive c (g_nodes g) /\
    heights (g_nodes g) = heights (g_nodes g1) /\ length (g_nodes g) = length (g_nodes g1) /\
    map_res (layer_thermal_diffusivity c) (g_nodes g) = map_res (layer_thermal_diffusivity c) (g_nodes g1)).
  { intros g F. destruct Hk as [Hk Hm]. split; [split; [|exact Hm]|split; [|split]].
    - clear - F Hk. induction F as [|x y l l' (H1 & H2 & H3 & H4) F IH]; constructor.
      + rewrite H1, H2, H3. exact (Forall_inv Hk).
      + apply IH. exact (Forall_inv_tail Hk).
    - clear - F. unfold heights. induction F as [|x y l l' (H1 & _) F IH]; cbn; congruence.
    - exact (Forall2_len _ _ _ F).
    - clear - F. induction F as [|x y l l' (H1 & H2 & H3 & H4) F IH]; [reflexivity|].
      cbn [map_res]. rewrite IH.
      assert (layer_thermal_diffusivity c y = layer_thermal_diffusivity c x) as ->; [|reflexivity].
      unfold layer_thermal_diffusivity, layer_thermal_conductivity, layer_density, layer_specific_heat, layer_air_porosity.
      rewrite H2, H3. reflexivity. }
  destruct (Q g2 F2) as (Hk2 & Eh2 & El2 & Ek2). destruct (Q g3 F3) as (Hk3 & Eh3 & El3 & Ek3).
  destruct (heat_maximum_principle_lem c g1 dt Hc Hn1 Hk L3) as (g1' & N1 & S1 & _).
  destruct (heat_maximum_principle_lem c g2 dt Hc Hn2 Hk2 ltac:(lia)) as (g2' & N2 & S2 & _).
  destruct (heat_maximum_principle_lem c g3 dt Hc Hn3 Hk3 ltac:(lia)) as (g3' & N3 & S3 & _).
  pose (N := (N1 + N2 + N3)%nat). exists g1', g2', g3', N. split.
  { intros fuel Hf. split; [apply S1|split; [apply S2|apply S3]]; lia. }
  destruct (solve_temperatures N c g1 dt g1' Hn1 (S1 N ltac:(lia))) as (K & d & t1 & T1 & EK & Ed & W1 & R1).
  destruct (solve_temperatures N c g2 dt g2' Hn2 (S2 N ltac:(lia))) as (K2 & d2 & t2 & T2 & EK2 & Ed2 & W2 & R2).
  destruct (solve_temperatures N c g3 dt g3' Hn3 (S3 N ltac:(lia))) as (K3 & d3 & t3 & T3 & EK3 & Ed3 & W3 & R3).
  rewrite Ek2, EK in EK2. injection EK2 as <-. rewrite Ek3, EK in EK3. injection EK3 as <-.
  rewrite Eh2, El2, Ed in Ed2. injection Ed2 as <-. rewrite Eh3, El3, Ed in Ed3. injection Ed3 as <-.
  rewrite Eh2 in W2. rewrite Eh3 in W3.
  rewrite R1 by (rewrite (loop_length _ _ _ _ _ _ _ _ _ W1); unfold temperatures; apply map_length).
  rewrite R2 by (rewrite (loop_length _ _ _ _ _ _ _ _ _ W2); unfold temperatures; apply map_length).
  rewrite R3 by (rewrite (loop_length _ _ _ _ _ _ _ _ _ W3); unfold temperatures; apply map_length).
  exact (heat_loop_combined _ K d dt a b k N 0 _ _ _ HC _ _ _ _ _ _ W1 W2 W3).
Qed.

(*@ex C122 A column, the same column isothermal, and the mean of the two. *)
Lemma superposition_case_lem :
  exists g1 g2 g3, constants_ok default_constants /\ counted g1 /\ counted g2 /\ counted g3 /\
    conductive default_constants (g_nodes g1) /\ (3 <= length (g_nodes g1))%nat /\
    Forall2 only_temperature (g_nodes g1) (g_nodes g2) /\ Forall2 only_temperature (g_nodes g1) (g_nodes g3) /\
    combined 0.5 0.5 0 (temperatures (g_nodes g1)) (temperatures (g_nodes g2)) (temperatures (g_nodes g3)) /\
    temperatures (g_nodes g1) <> temperatures (g_nodes g3).
Proof.
  exists (mkGrid [mkNode 0.1 263 0 0.4 0; mkNode 0.2 268 0.01 0.5 0; mkNode 1 270 0 1 0] 3 0 0 0),
    (mkGrid [mkNode 0.1 270 0 0.4 0; mkNode 0.2 270 0.01 0.5 0; mkNode 1 270 0 1 0] 3 0 0 0),
    (mkGrid [mkNode 0.1 266.5 0 0.4 0; mkNode 0.2 269 0.01 0.5 0; mkNode 1 270 0 1 0] 3 0 0 0).
  split; [exact default_ok|]. do 3 (split; [reflexivity|]).
  split. { split; [repeat constructor; cbn; lra|left; reflexivity]. }
  split; [cbn; lia|]. split; [repeat constructor|]. split; [repeat constructor|].
  split; [split; [reflexivity|split; [reflexivity|]]|].
  - cbn [temperatures map g_nodes length n_temperature]. intros i Hi.
    destruct i as [|[|[|i]]]; cbn; try lra; lia.
  - cbn. intros E. injection E as E _. lra.
Qed.
