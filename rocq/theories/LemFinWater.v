(** * Percolation and refreezing (C18-C21) *)
From Verif Require Import ModelPy ModelConstants ModelNode ModelGrid ModelWater Spec LemPy
  LemGridBase LemWater.

(** a column as the time step leaves it to percolation: fractions in range *)
Definition wet_column (l : list Node) : Prop :=
  Forall (fun n => 0 < n_height n /\ 0 < n_ice n <= 1 /\ 0 <= n_lwc n) l.

(** what refreezing needs: fractions in range and not absurdly cold *)
Definition freezing_column (c : Consts) (l : list Node) : Prop :=
  Forall (fun n => 0 <= n_height n /\ fractions_ok n /\ 0 < n_ice n /\ cold_ok c n) l.

(** wet snow over cold firn over ice *)
Definition ex_w1 : Node := mkNode 0.1 273.16 0.05 0.4 0.
Definition ex_w2 : Node := mkNode 0.2 270 0.01 0.5 0.
Definition ex_w3 : Node := mkNode 1 270 0 1 0.
Definition ex_water_grid : Grid := mkGrid [ex_w1; ex_w2; ex_w3] 3 0.1 0 0.

Lemma column_ok_positive l : column_ok l -> positive_heights l.
Proof. intros H. eapply Forall_impl; [|exact H]. cbv beta. tauto. Qed.

(*@ C18 Percolation never fails on a column with positive heights and ice contents.
    The water put on top plus the water stored before equals the water stored
    after plus the runoff; of every layer only the water content changes; the
    number of layers and the fresh-snow clock stay. *)
Lemma percolation_conserves_water_lem : forall (g : Grid) (water : R),
  counted g -> column_ok (g_nodes g) -> g_nodes g <> [] ->
  exists g' runoff,
    percolation g water = Ok (g', runoff) /\
    column_water (g_nodes g) + water = column_water (g_nodes g') + runoff /\
    Forall2 only_lwc (g_nodes g) (g_nodes g') /\
    column_ice (g_nodes g') = column_ice (g_nodes g) /\
    column_height (g_nodes g') = column_height (g_nodes g) /\
    column_heat (g_nodes g') = column_heat (g_nodes g) /\
    counted g' /\ g_number_nodes g' = g_number_nodes g /\ same_clock g g'.
Proof.
  intros g water Hn Hok Hne.
  destruct (percolation_bucket g water Hn Hok Hne) as (g' & q & W & B & N & C).
  assert (B2 := bucket_only_lwc _ _ _ _ B).
  assert (B1 := bucket_water _ _ _ _ (column_ok_positive _ Hok) B).
  exists g', q. split; [exact W|]. split; [lra|]. split; [exact B2|].
  split; [|split; [|split]].
  1-3: apply (only_lwc_total _ _ _) with (2 := B2); intros x x' (H1 & H2 & H3 & H4);
    rewrite ?H1, ?H2, ?H3; reflexivity.
  split; [|split; [exact N|exact C]].
  unfold counted in *. rewrite N, Hn. f_equal. symmetry. eapply Forall2_len; exact B2.
Qed.

(*@ C18,C19 Percolation is exactly the bucket scheme: from the top down every layer but the
    last keeps what it has and receives up to its irreducible water content and
    passes the rest on; the last layer passes on everything, which is the runoff. *)
Lemma percolation_is_bucket_scheme_lem : forall (g : Grid) (water : R),
  counted g -> column_ok (g_nodes g) -> g_nodes g <> [] ->
  exists g' runoff,
    percolation g water = Ok (g', runoff) /\
    bucket water (g_nodes g) (g_nodes g') runoff.
Proof.
  intros g water Hn Hok Hne.
  destruct (percolation_bucket g water Hn Hok Hne) as (g' & q & W & B & N & C). eauto.
Qed.

(*@ C19 After percolation every layer but the last holds at most its irreducible water
    content and the last layer holds none; with non-negative input no layer's water
    and no runoff is negative. *)
Lemma percolation_leaves_irreducible_water_lem : forall (g g' : Grid) (water runoff : R),
  counted g -> column_ok (g_nodes g) -> percolation g water = Ok (g', runoff) ->
  (exists upper last, g_nodes g' = upper ++ [last] /\ n_lwc last = 0 /\
     Forall (fun n => n_lwc n <= irreducible_content (n_ice n)) upper) /\
  (wet_column (g_nodes g) -> 0 <= water ->
     Forall (fun n => 0 <= n_lwc n) (g_nodes g') /\ 0 <= runoff).
Proof.
  intros g g' water q Hn Hok W.
  destruct (g_nodes g) as [|x t] eqn:E.
  { exfalso. unfold percolation, get_node_height, get_node in W. rewrite E in W. discriminate W. }
  destruct (percolation_bucket g water Hn) as (g1 & q1 & W1 & B & _).
  { rewrite E; exact Hok. } { rewrite E; discriminate. }
  rewrite W in W1. injection W1 as <- <-. rewrite E in B.
  split.
  - apply (bucket_limits _ _ _ _ (column_ok_positive _ Hok) B).
  - intros Hw Hq. apply (bucket_nonneg _ _ _ _ Hw Hq B).
Qed.

(*@ C19 Where no layer holds more than its irreducible content, percolation without input
    only empties the last layer. *)
Lemma percolation_at_rest_lem : forall (g : Grid) (upper : list Node) (last : Node),
  counted g -> column_ok (g_nodes g) -> g_nodes g = upper ++ [last] ->
  Forall (fun n => n_lwc n <= irreducible_content (n_ice n)) upper ->
  exists g', percolation g 0 = Ok (g', n_lwc last * n_height last) /\
    g_nodes g' = upper ++ [set_layer_lwc 0 last] /\ same_clock g g'.
Proof.
  intros g upper last Hn Hok E Hup.
  destruct (percolation_bucket g 0 Hn Hok) as (g' & q & W & B & N & C).
  { rewrite E. destruct upper; discriminate. }
  assert (K : forall l w l' q, bucket w l l' q -> w = 0 -> forall u z, l = u ++ [z] -> column_ok l ->
     Forall (fun n => n_lwc n <= irreducible_content (n_ice n)) u ->
     q = n_lwc z * n_height z /\ l' = u ++ [set_layer_lwc 0 z]).
  { clear. intros l w l' q B. induction B as [w x x' H1 H2|w x x' y t t' e q H1 H2 H3 B IH];
      intros Hw u z E Hok Hu.
    - destruct u as [|? u]; [|destruct u; discriminate]. injection E as ->. subst w.
      split; [ring|]. cbn. f_equal. destruct H1 as (A1 & A2 & A3 & A4).
      destruct x', z; unfold set_layer_lwc; cbn in *; subst; reflexivity.
    - destruct u as [|x0 u]; [discriminate|]. injection E as <- E.
      assert (Hx := Forall_inv Hok). assert (Hu0 := Forall_inv Hu). cbv beta in Hx, Hu0.
      rewrite <- H1 in Hu0. subst w.
      rewrite Rmin_left in H3 by nra.
      assert (n_lwc x' = n_lwc x) by (apply Rmult_eq_reg_r with (n_height x); lra).
      destruct (IH ltac:(rewrite H; ring) u z E (Forall_inv_tail Hok) (Forall_inv_tail Hu)) as (-> & ->).
      split; [reflexivity|]. cbn. f_equal. destruct H2 as (A1 & A2 & A3 & A4).
      destruct x', x; cbn in *; subst; reflexivity. }
  destruct (K _ _ _ _ B eq_refl upper last E Hok Hup) as (-> & E').
  exists g'. auto.
Qed.

(*@ex the example column meets the hypotheses, and water does run through it *)
Lemma percolation_example_lem :
  counted ex_water_grid /\ column_ok (g_nodes ex_water_grid) /\ wet_column (g_nodes ex_water_grid) /\
  g_nodes ex_water_grid <> [] /\
  irreducible_content (n_ice ex_w1) < n_lwc ex_w1.
Proof.
  split; [reflexivity|]. split; [repeat constructor; cbn; lra|].
  split; [repeat constructor; cbn; lra|]. split; [discriminate|].
  unfold irreducible_content. cbn. destruct (Rle_dec 0.4 0.23); [lra|].
  destruct (Rle_dec 0.4 0.812); lra.
Qed.

Lemma freezing_refreeze_ok c l : freezing_column c l -> Forall (refreeze_ok c) l.
Proof. intros H. eapply Forall_impl; [|exact H]. intros n (_ & A & _ & B). split; assumption. Qed.

Lemma frozen_warm c x x' d : constants_ok c -> 0 < n_ice x -> fractions_ok x -> frozen c x x' d ->
  c_zero_temperature c < n_temperature x ->
  n_temperature x' = n_temperature x /\ n_lwc x' = n_lwc x /\ n_ice x' = n_ice x.
Proof.
  intros Hc Hi (F1 & F2 & F3) (H1 & H2 & H3 & H4 & H5 & H6) HT.
  destruct (Rle_dec (n_temperature x) (c_zero_temperature c)) as [L|L]; [lra|].
  subst d. assert (n_lwc x' = n_lwc x) by lra. destruct Hc.
  assert (n_ice x' = n_ice x) by (apply Rmult_eq_reg_l with (c_ice_density c); [rewrite H in H3; lra|lra]).
  split; [|split; assumption].
  apply Rmult_eq_reg_l with (heat_capacity c x'); [lra|].
  unfold heat_capacity. rewrite H, H0.
  assert (0 <= c_spec_heat_water c * c_water_density c * n_lwc x)
    by (apply Rmult_le_pos; [apply Rmult_le_pos|]; lra).
  assert (0 < c_spec_heat_ice c * c_ice_density c * n_ice x)
    by (apply Rmult_lt_0_compat; [apply Rmult_lt_0_compat|]; lra).
  lra.
Qed.

(*@ C20 Refreezing succeeds on every column with fractions in range that is not absurdly
    cold.  In every layer the mass of ice plus water is unchanged, as is the height;
    the layer's diagnostic is the water that froze in it; the returned amount is the
    column's loss of liquid water. *)
Lemma refreezing_conserves_mass_lem : forall (c : Consts) (g : Grid),
  constants_ok c -> counted g -> freezing_column c (g_nodes g) ->
  exists g' refrozen,
    refreezing c g = Ok (g', refrozen) /\
    Forall2 (fun x x' =>
      n_height x' = n_height x /\
      c_ice_density c * n_ice x' + c_water_density c * n_lwc x'
        = c_ice_density c * n_ice x + c_water_density c * n_lwc x /\
      n_refreeze x' = (n_lwc x - n_lwc x') * n_height x) (g_nodes g) (g_nodes g') /\
    column_mass c (g_nodes g') = column_mass c (g_nodes g) /\
    column_height (g_nodes g') = column_height (g_nodes g) /\
    refrozen = column_water (g_nodes g) - column_water (g_nodes g') /\
    refrozen = total n_refreeze (g_nodes g') /\
    counted g' /\ same_clock g g'.
Proof.
  intros c g Hc Hn Hf.
  destruct (refreezing_spec c g Hc Hn (freezing_refreeze_ok _ _ Hf)) as (g' & ps & W & E & N & C & F).
  exists g', (sumR (map snd ps)). split; [exact W|].
  rewrite E.
  assert (F' : Forall2 (fun x p => n_height (fst p) = n_height x /\
      c_ice_density c * n_ice (fst p) + c_water_density c * n_lwc (fst p)
        = c_ice_density c * n_ice x + c_water_density c * n_lwc x /\
      n_refreeze (fst p) = (n_lwc x - n_lwc (fst p)) * n_height x /\
      snd p = (n_lwc x - n_lwc (fst p)) * n_height x) (g_nodes g) ps).
  { eapply Forall2_mono; [|apply Forall_true|exact F]. intros x p _ (d & Hd & H1 & H2 & H3 & H4 & H5 & H6).
    split; [exact H1|]. split; [exact H3|]. rewrite H5, Hd, H2. split; ring. }
  split.
  { clear - F'. induction F' as [|x p l ps Hx F' IH]; cbn [map]; constructor; [tauto|exact IH]. }
  assert (K : column_mass c (map fst ps) = column_mass c (g_nodes g) /\
     column_height (map fst ps) = column_height (g_nodes g) /\
     sumR (map snd ps) = column_water (g_nodes g) - column_water (map fst ps) /\
     sumR (map snd ps) = total n_refreeze (map fst ps)).
  { clear - F'. unfold column_mass, column_height, column_water, column_ice.
    induction F' as [|x p l ps Hx F' IH]; cbn [map sumR fold_right]; rewrite ?total_cons, ?total_nil.
    - unfold sumR; cbn. repeat split; ring.
    - destruct IH as (I1 & I2 & I3 & I4). destruct Hx as (H1 & H2 & H3 & H4).
      unfold sumR in *. rewrite H1, H3, H4, I2, <- I4.
      split; [|repeat split; rewrite ?I3; ring].
      rewrite !Rmult_plus_distr_l. 
      assert (c_ice_density c * (n_ice (fst p) * n_height x) + c_water_density c * (n_lwc (fst p) * n_height x)
        = c_ice_density c * (n_ice x * n_height x) + c_water_density c * (n_lwc x * n_height x)).
      { replace (c_ice_density c * (n_ice (fst p) * n_height x) + c_water_density c * (n_lwc (fst p) * n_height x))
          with ((c_ice_density c * n_ice (fst p) + c_water_density c * n_lwc (fst p)) * n_height x) by ring.
        rewrite H2. ring. }
      lra. }
  destruct K as (K1 & K2 & K3 & K4).
  repeat (split; [assumption|]). split; [|exact C].
  unfold counted in *. rewrite N, Hn, E, map_length. f_equal. symmetry. eapply Forall2_len; exact F.
Qed.

(*@ C21 In every layer refreezing keeps the water non-negative, does not reduce the ice,
    does not raise the ice fraction above the larger of its old value and the pore
    close-off fraction, does not cool, and does not warm a layer at or below the
    melting temperature past it; layers above the melting temperature are untouched. *)
Lemma refreezing_stays_frozen_lem : forall (c : Consts) (g : Grid),
  constants_ok c -> counted g -> freezing_column c (g_nodes g) ->
  exists g' refrozen,
    refreezing c g = Ok (g', refrozen) /\ 0 <= refrozen /\
    Forall2 (fun x x' =>
      0 <= n_lwc x' <= n_lwc x /\
      n_ice x <= n_ice x' <= Rmax (n_ice x) (close_off c) /\
      n_ice x' <= 1 /\
      n_temperature x <= n_temperature x' /\
      (n_temperature x <= c_zero_temperature c -> n_temperature x' <= c_zero_temperature c) /\
      (c_zero_temperature c < n_temperature x ->
         n_temperature x' = n_temperature x /\ n_lwc x' = n_lwc x /\ n_ice x' = n_ice x))
      (g_nodes g) (g_nodes g').
Proof.
  intros c g Hc Hn Hf.
  destruct (refreezing_spec c g Hc Hn (freezing_refreeze_ok _ _ Hf)) as (g' & ps & W & E & N & C & F).
  exists g', (sumR (map snd ps)). split; [exact W|].
  assert (H0 : Forall2 (fun (x : Node) (p : Node * R) => 0 <= snd p) (g_nodes g) ps).
  { eapply Forall2_mono; [|exact Hf|exact F]. intros x p (Q1 & Q2 & Q3 & Q4) (d & Hd & Hx).
    destruct (frozen_bounds c x (fst p) d Hc Q2 Hx) as ((D1 & D2) & _).
    rewrite Hd. apply Rmult_le_pos; lra. }
  split. { clear - H0. induction H0; unfold sumR in *; cbn [map fold_right]; lra. }
  rewrite E. apply Forall2_map_r. eapply Forall2_mono; [|exact Hf|exact F].
  intros x p (Q1 & Q2 & Q3 & Q4) (d & Hd & Hx).
  destruct (frozen_bounds c x (fst p) d Hc Q2 Hx) as ((D1 & D2) & W1 & I1 & I2).
  destruct (frozen_temperature c x (fst p) d Hc Q2 Hx) as [(T1 & T2)|T]; [|lra].
  assert (Hb := close_off_bounds c Hc).
  assert (T3 := frozen_warm c x (fst p) d Hc Q3 Q2 Hx).
  destruct Hx as (H1 & H2 & H3 & H4 & H5 & H6). destruct Q2 as (F1 & F2 & F3).
  split; [split; lra|]. split; [split; assumption|]. split.
  { eapply Rle_trans; [exact I2|]. apply Rmax_lub; lra. }
  split; [exact T1|]. split; [|exact T3].
  intros HT. rewrite Rmax_right in T2 by exact HT. exact T2.
Qed.

(*@ C21 Refreezing alone can overfill a layer, because ice takes more room than the water
    it comes from: a saturated layer at 263.16 K holds more than 100 % ice plus water
    afterwards. *)
Lemma refreezing_fits_refuted_lem :
  exists (g g' : Grid) (q : R) (x' : Node),
    constants_ok default_constants /\ counted g /\
    freezing_column default_constants (g_nodes g) /\
    refreezing default_constants g = Ok (g', q) /\ g_nodes g' = [x'] /\
    1 < n_ice x' + n_lwc x'.
Proof.
  set (x := mkNode 0.1 263.16 0.5 0.5 0). set (g := mkGrid [x] 1 0 0 0).
  assert (Hf : freezing_column default_constants (g_nodes g)).
  { constructor; [|constructor]. unfold fractions_ok, cold_ok; cbn. lra. }
  destruct (refreezing_spec default_constants g default_ok eq_refl (freezing_refreeze_ok _ _ Hf))
    as (g' & ps & W & E & N & C & F).
  inversion F as [|? p ? ps' (d & Hd & Hx) F' E1 E2]; subst. inversion F'; subst.
  exists g, g', (sumR (map snd [p])), (fst p). cbn [map] in E.
  split; [exact default_ok|]. split; [reflexivity|]. split; [exact Hf|]. split; [exact W|].
  split; [exact E|].
  destruct Hx as (H1 & H2 & H3 & H4 & H5 & H6).
  assert (Hd0 : 0 < d).
  { rewrite H6. cbn [n_temperature x]. destruct (Rle_dec 263.16 (c_zero_temperature default_constants)) as [L|L];
      [|cbn in L; lra].
    unfold freezable, close_off. cbn. repeat apply Rmin_glb_lt; try lra.
    eapply Rlt_le_trans; [|apply Rmax_l]. lra. }
  rewrite H2. cbn in H3 |- *. rewrite H2 in H3. cbn in H3. lra.
Qed.

(*@ C21 In the order of the time step, percolation followed by refreezing, this cannot
    happen: as long as every layer is at least 5 % ice, neither step fails and
    afterwards every layer has its fractions in range. *)
Lemma percolation_then_refreezing_fits_lem : forall (c : Consts) (g : Grid) (water : R),
  constants_ok c -> 11 * c_water_density c <= 12 * c_ice_density c ->
  counted g -> g_nodes g <> [] -> 0 <= water ->
  Forall (fun n => 0 < n_height n /\ 0.05 <= n_ice n <= 1 /\ 0 <= n_lwc n /\ cold_ok c n)
    (g_nodes g) ->
  exists g1 runoff g2 refrozen,
    percolation g water = Ok (g1, runoff) /\ refreezing c g1 = Ok (g2, refrozen) /\
    0 <= runoff /\ 0 <= refrozen /\
    Forall fractions_ok (g_nodes g1) /\ Forall fractions_ok (g_nodes g2) /\
    column_mass c (g_nodes g2) + c_water_density c * runoff
      = column_mass c (g_nodes g) + c_water_density c * water.
Proof.
  intros c g water Hc Hr Hn Hne Hw Hok.
  assert (Hok1 : column_ok (g_nodes g)) by (eapply Forall_impl; [|exact Hok]; cbv beta; intros; lra).
  destruct (percolation_bucket g water Hn Hok1 Hne) as (g1 & q & W & B & N1 & C1).
  assert (B1 := bucket_water _ _ _ _ (column_ok_positive _ Hok1) B).
  assert (B2 := bucket_only_lwc _ _ _ _ B).
  destruct (bucket_limits _ _ _ _ (column_ok_positive _ Hok1) B) as (t & z & Ez & Hz & Ht).
  destruct (bucket_nonneg _ _ _ _ ltac:(eapply Forall_impl; [|exact Hok]; cbv beta; intros; lra) Hw B) as (Hnn & Hq).
  assert (Hn1 : counted g1).
  { unfold counted in *. rewrite N1, Hn. f_equal. symmetry. eapply Forall2_len; exact B2. }
  assert (HP : Forall (fun n => 0 < n_height n /\ 0.05 <= n_ice n <= 1 /\ cold_ok c n) (g_nodes g1)).
  { clear - Hok B2. induction B2 as [|x x' l l' (H1 & H2 & H3 & H4) _ IH]; constructor.
    - assert (Hx := Forall_inv Hok). cbv beta in Hx. unfold cold_ok in *. rewrite H1, H2, H3. tauto.
    - apply IH. exact (Forall_inv_tail Hok). }
  assert (HQ : Forall (fun n => n_lwc n <= Rmax 0 (irreducible_content (n_ice n)) ) (g_nodes g1)).
  { rewrite Ez. apply Forall_app. split.
    - eapply Forall_impl; [|exact Ht]. cbv beta. intros n L. eapply Rle_trans; [exact L|apply Rmax_r].
    - constructor; [|constructor]. rewrite Hz. apply Rmax_l. }
  assert (HA : Forall (fun n => 0 < n_height n /\ fractions_ok n /\ 0.05 <= n_ice n /\ cold_ok c n /\
      n_ice n + 12/11 * n_lwc n <= 1) (g_nodes g1)).
  { clear - HP HQ Hnn. induction (g_nodes g1) as [|x l IH]; constructor.
    - assert (A1 := Forall_inv HP). assert (A2 := Forall_inv HQ). assert (A3 := Forall_inv Hnn).
      cbv beta in A1, A2, A3. destruct A1 as (P1 & P2 & P3).
      assert (K : n_ice x + 12/11 * n_lwc x <= 1).
      { assert (n_ice x + 12/11 * Rmax 0 (irreducible_content (n_ice x)) <= 1); [|lra].
        unfold Rmax. destruct (Rle_dec 0 (irreducible_content (n_ice x))) as [L|L]; [|lra].
        unfold irreducible_content. destruct (Rle_dec (n_ice x) 0.23) as [L1|L1];
          [|destruct (Rle_dec (n_ice x) 0.812); lra].
        assert ((1 - n_ice x) / n_ice x <= 19); [|lra].
        apply Rmult_le_reg_r with (n_ice x); [lra|]. unfold Rdiv.
        rewrite Rmult_assoc, Rinv_l by lra. lra. }
      unfold fractions_ok. repeat split; lra || apply P3.
    - apply IH; eapply Forall_inv_tail; eassumption. }
  assert (HF1 : freezing_column c (g_nodes g1)).
  { eapply Forall_impl; [|exact HA]. intros n (A1 & A2 & A3 & A4 & A5). split; [lra|]. split; [exact A2|].
    split; [lra|exact A4]. }
  destruct (refreezing_conserves_mass_lem c g1 Hc Hn1 HF1) as (g2 & r & W2 & R1 & R2 & R3 & R4 & R5 & R6 & R7).
  destruct (refreezing_stays_frozen_lem c g1 Hc Hn1 HF1) as (g2' & r' & W2' & S1 & S2).
  rewrite W2 in W2'. injection W2' as <- <-.
  exists g1, q, g2, r. split; [exact W|]. split; [exact W2|]. split; [exact Hq|]. split; [exact S1|].
  split. { eapply Forall_impl; [|exact HA]. cbv beta. tauto. }
  split.
  - clear - Hc Hr HA R1 S2. revert S2. induction R1 as [|x x' l l' (H1 & H2 & H3) R1 IH]; intros S2; constructor.
    + inversion S2 as [|? ? ? ? Hs S2' E1 E2]; subst.
      destruct Hs as (I1 & I2 & I3 & _). destruct (Forall_inv HA) as (A1 & A2 & A3 & A4 & A5).
      destruct A2 as (F1 & F2 & F3). split; [lra|]. split; [lra|].
      destruct Hc.
      assert (n_ice x' - n_ice x <= 12/11 * (n_lwc x - n_lwc x')); [|lra].
      apply Rmult_le_reg_l with (c_ice_density c); [lra|].
      apply Rle_trans with (c_water_density c * (n_lwc x - n_lwc x')); [lra|].
      replace (c_ice_density c * (12/11 * (n_lwc x - n_lwc x')))
        with ((12/11 * c_ice_density c) * (n_lwc x - n_lwc x')) by ring.
      apply Rmult_le_compat_r; lra.
    + inversion S2; subst. apply IH; [exact (Forall_inv_tail HA)|assumption].
  - rewrite R2. unfold column_mass.
    assert (column_ice (g_nodes g1) = column_ice (g_nodes g)).
    { unfold column_ice. apply (only_lwc_total _ _ _) with (2 := B2); intros x x' (H1 & H2 & H3 & H4);
      rewrite ?H1, ?H2, ?H3; reflexivity. }
    rewrite H. replace (column_water (g_nodes g1)) with (column_water (g_nodes g) + water - q) by lra. ring.
Qed.

(*@ex the example column meets the hypotheses; its second layer is cold and wet *)
Lemma refreezing_example_lem :
  constants_ok default_constants /\ 11 * c_water_density default_constants <= 12 * c_ice_density default_constants /\
  freezing_column default_constants (g_nodes ex_water_grid) /\
  Forall (fun n => 0 < n_height n /\ 0.05 <= n_ice n <= 1 /\ 0 <= n_lwc n /\ cold_ok default_constants n)
    (g_nodes ex_water_grid) /\
  0 < freezable default_constants ex_w2.
Proof.
  split; [exact default_ok|]. split; [cbn; lra|]. split; [|split].
  - repeat constructor; cbn; lra.
  - repeat constructor; cbn; lra.
  - unfold freezable, close_off. cbn. repeat apply Rmin_glb_lt; try lra.
    eapply Rlt_le_trans; [|apply Rmax_l]. lra.
Qed.
