(** * The profile towards the sun on a regular grid *)
From Verif Require Import ModelPy ModelConstants ModelNode ModelGrid ModelHeat ModelSurface ModelInit
  ModelCore ModelConfig ModelIO ModelMain ModelRadCor Spec SpecIO SpecRadCor LemPy LemGridBase LemDict
  LemIO LemIO5 LemSim LemHeat LemSurface LemRadCor LemShad.

(** ** Rounding *)

Lemma abs_inv x a : Rabs x <= a -> - a <= x <= a.
Proof. unfold Rabs. destruct (Rcase_abs x); lra. Qed.

Lemma round_near x : Rabs (x - IZR (py_round x)) <= 1/2.
Proof.
  unfold py_round. cbv zeta. destruct (base_Int_part x) as [A B].
  destruct (Rlt_dec _ _); [apply Rabs_le; lra|].
  destruct (Rlt_dec _ _); [rewrite plus_IZR; apply Rabs_le; lra|].
  destruct (Z.even _); [apply Rabs_le; lra|]. rewrite plus_IZR. apply Rabs_le; lra.
Qed.

Lemma round_mono_lo x n : IZR n <= x -> (n <= py_round x)%Z.
Proof.
  intros H. pose proof (round_near x) as N. apply abs_inv in N.
  destruct (Z_le_gt_dec n (py_round x)) as [L|G]; [exact L|exfalso].
  assert (L: (py_round x + 1 <= n)%Z) by lia. apply IZR_le in L. rewrite plus_IZR in L. lra.
Qed.

Lemma round_mono_hi x n : x <= IZR n -> (py_round x <= n)%Z.
Proof.
  intros H. pose proof (round_near x) as N. apply abs_inv in N.
  destruct (Z_le_gt_dec (py_round x) n) as [L|G]; [exact L|exfalso].
  assert (L: (n + 1 <= py_round x)%Z) by lia. apply IZR_le in L. rewrite plus_IZR in L. lra.
Qed.

Lemma round_int n : py_round (IZR n) = n.
Proof. apply Z.le_antisymm; [apply round_mono_hi|apply round_mono_lo]; lra. Qed.

(** ** Filtering a straight line *)

Definition inside (lo hi v : R) : bool := (Rltb v hi && Rltb lo v)%bool.
Lemma inside_spec lo hi v : inside lo hi v = true <-> lo < v < hi.
Proof.
  unfold inside. destruct (Rltb_spec v hi), (Rltb_spec lo v); cbn; split; intros; try lra; try discriminate; reflexivity.
Qed.

Lemma line_convex a s lo hi (i j : Z) : lo < a < hi -> (0 <= i <= j)%Z ->
  inside lo hi (a + IZR j * s) = true -> inside lo hi (a + IZR i * s) = true.
Proof.
  rewrite !inside_spec. intros H [H0 H1] [B1 B2]. apply IZR_le in H0, H1.
  destruct (Rle_dec 0 s); split; nra.
Qed.

Lemma zseq_app lo n m : zseq lo (n + m) = zseq lo n ++ zseq (lo + Z.of_nat n)%Z m.
Proof.
  revert lo; induction n as [|n IH]; intros lo; cbn [zseq Nat.add app]; [f_equal; lia|].
  rewrite IH. do 3 f_equal. lia.
Qed.

Lemma nth_zseq n k lo : (k < n)%nat -> nth_error (zseq lo n) k = Some (lo + Z.of_nat k)%Z.
Proof.
  revert k lo. induction n as [|n IH]; intros k lo Hk; [lia|]. destruct k; cbn [zseq nth_error].
  - f_equal; lia.
  - rewrite IH by lia. f_equal; lia.
Qed.

Lemma zseq_len lo n : length (zseq lo n) = n.
Proof. revert lo; induction n; intros; cbn; auto. Qed.

Lemma firstn_zseq k lo n : firstn k (zseq lo n) = zseq lo (Nat.min k n).
Proof.
  revert k lo; induction n as [|n IH]; intros [|k] lo; cbn [zseq firstn Nat.min]; try reflexivity.
  rewrite IH. reflexivity.
Qed.

Lemma filter_line a s lo hi : lo < a < hi -> forall n j, (0 <= j)%Z ->
  exists c, (c <= n)%nat /\
    filter (inside lo hi) (map (fun i => a + IZR i * s) (zseq j n)) = map (fun i => a + IZR i * s) (zseq j c) /\
    (forall i, (j <= i < j + Z.of_nat c)%Z -> inside lo hi (a + IZR i * s) = true) /\
    (forall i, (j <= i < j + Z.of_nat n)%Z -> inside lo hi (a + IZR i * s) = true -> (i < j + Z.of_nat c)%Z).
Proof.
  intros H. induction n as [|n IH]; intros j Hj.
  - exists O. split; [lia|]. split; [reflexivity|]. split; intros; lia.
  - cbn [zseq map filter]. destruct (inside lo hi (a + IZR j * s)) eqn:E.
    + destruct (IH (j + 1)%Z ltac:(lia)) as (c & L & F & G1 & G2). exists (S c). split; [lia|].
      split; [cbn [zseq map]; rewrite F; reflexivity|]. split.
      * intros i Hi. destruct (Z.eq_dec i j) as [->|N]; [exact E|apply G1; lia].
      * intros i Hi Hin. destruct (Z.eq_dec i j) as [->|N]; [lia|]. specialize (G2 i ltac:(lia) Hin). lia.
    + assert (N: forall i, (j <= i)%Z -> inside lo hi (a + IZR i * s) = false).
      { intros i Hi. destruct (inside lo hi (a + IZR i * s)) eqn:E2; [|reflexivity].
        rewrite (line_convex a s lo hi j i H ltac:(lia) E2) in E. discriminate. }
      exists O. split; [lia|]. split; [|split; intros i Hi; [lia|rewrite N by lia; discriminate]].
      destruct (IH (j + 1)%Z ltac:(lia)) as (c & L & F & G1 & G2). rewrite F.
      destruct c as [|c]; [reflexivity|].
      specialize (G1 (j + 1)%Z ltac:(lia)). rewrite N in G1 by lia. discriminate.
Qed.

(** ** The nearest grid index *)

Lemma regular_nth from step l k : regular from step l -> (k < length l)%nat ->
  nth k l 0 = from + INR k * step.
Proof.
  intros Hr Hk. destruct (nth_error l k) as [v|] eqn:E; [|apply nth_error_None in E; lia].
  rewrite (nth_error_nth _ _ _ E). apply Hr; exact E.
Qed.

Lemma nearest_index from step l v ey : regular from step l -> step <> 0 -> within l v ->
  argmin (map (fun w => Rabs (w - v)) l) = Ok ey ->
  (0 <= ey < Z.of_nat (length l))%Z /\ Rabs (IZR ey - (v - from) / step) <= 1/2.
Proof.
  intros Hr Hs [(a & Ia & La) (b & Ib & Lb)] E.
  set (u := (v - from) / step). assert (Hv: v = from + u * step) by (unfold u; field; exact Hs).
  assert (NE: map (fun w => Rabs (w - v)) l <> []) by (destruct l; [destruct Ia|discriminate]).
  destruct (argmin_spec _ NE) as (k & E2 & Hk & Hm). rewrite E2 in E. injection E as <-.
  rewrite map_length in Hk, Hm. split; [lia|].
  assert (D: forall j, (j < length l)%nat -> nth j (map (fun w => Rabs (w - v)) l) 0 = Rabs (INR j - u) * Rabs step).
  { intros j Hj. rewrite (nth_indep _ 0 (Rabs (0 - v))) by (rewrite map_length; exact Hj).
    rewrite (map_nth (fun w => Rabs (w - v))). rewrite (regular_nth from step) by assumption.
    rewrite <- Rabs_mult. f_equal. rewrite Hv. ring. }
  assert (exists i1 i2, (i1 < length l)%nat /\ (i2 < length l)%nat /\ INR i1 < u < INR i2) as (i1 & i2 & L1 & L2 & Hu).
  { apply In_nth_error in Ia as (ka & Ea). apply In_nth_error in Ib as (kb & Eb).
    assert (ka < length l)%nat by (apply nth_error_Some; congruence).
    assert (kb < length l)%nat by (apply nth_error_Some; congruence).
    pose proof (Hr _ _ Ea) as Va. pose proof (Hr _ _ Eb) as Vb.
    destruct (Rlt_dec 0 step) as [P|P].
    - exists ka, kb. repeat split; try assumption.
      + apply Rmult_lt_reg_r with step; [exact P|lra].
      + apply Rmult_lt_reg_r with step; [exact P|lra].
    - assert (P': step < 0) by lra. exists kb, ka. repeat split; try assumption; nra. }
  pose proof (round_near u) as N. set (j := py_round u) in *.
  assert (Hj1: (0 <= j)%Z). { apply round_mono_lo. pose proof (pos_INR i1). lra. }
  assert (Hj2: (j <= Z.of_nat i2)%Z). { apply round_mono_hi. rewrite <- INR_IZR_INZ. lra. }
  specialize (Hm (Z.to_nat j) ltac:(lia)). rewrite !D in Hm by lia.
  apply Rmult_le_reg_r in Hm; [|apply Rabs_pos_lt; exact Hs].
  rewrite !INR_IZR_INZ in Hm. rewrite Z2Nat.id in Hm by lia.
  rewrite (Rabs_minus_sym (IZR j) u) in Hm. lra.
Qed.

(** index of the line in the profile, compared to the true index of the sampled point *)
Lemma index_line from step (l : list R) (start e : Z) (d : R) (c k : nat) :
  step <> 0 -> (2 <= c)%nat -> (k < c)%nat -> (0 <= start)%Z -> (0 <= e)%Z ->
  let a := from + IZR start * step in
  Rabs (IZR e - (a + IZR (Z.of_nat c - 1) * d - from) / step) <= 1/2 ->
  let i := py_round (IZR start + IZR (Z.of_nat k) * ((IZR e - IZR start) / IZR (Z.of_nat c - 1))) in
  (0 <= i)%Z /\ Rabs (from + IZR i * step - (a + IZR (Z.of_nat k) * d)) <= Rabs step /\
  ((start < Z.of_nat (length l))%Z -> (e < Z.of_nat (length l))%Z -> (i < Z.of_nat (length l))%Z).
Proof.
  intros Hs Hc Hk H0 He a Hn i.
  set (C := IZR (Z.of_nat c - 1)) in *. set (K := IZR (Z.of_nat k)) in *.
  assert (HC: 0 < C). { unfold C. apply (IZR_lt 0). lia. }
  assert (HK: 0 <= K <= C). { unfold K, C. split; [apply (IZR_le 0)|apply IZR_le]; lia. }
  set (f := K / C). assert (Hf: 0 <= f <= 1).
  { unfold f. split; [apply Rle_mult_inv_pos; lra|]. apply Rmult_le_reg_r with C; [exact HC|].
    unfold Rdiv. rewrite Rmult_assoc, Rinv_l by lra. lra. }
  assert (HKf: K = f * C) by (unfold f; field; lra).
  assert (Ei: IZR start + K * ((IZR e - IZR start) / C) = (1 - f) * IZR start + f * IZR e).
  { rewrite HKf. field. lra. }
  pose proof (IZR_le _ _ H0) as P0. pose proof (IZR_le _ _ He) as P1.
  set (w := (1 - f) * IZR start + f * IZR e) in *. unfold i. rewrite Ei.
  split; [|split].
  - apply round_mono_lo. unfold w. nra.
  - pose proof (round_near w) as N. set (r := IZR (py_round w)) in *.
    set (u := (a + C * d - from) / step) in *.
    assert (Hd: d = (from + u * step - a) / C) by (unfold u; field; split; lra).
    assert (Ev: a + K * d = from + ((1 - f) * IZR start + f * u) * step).
    { rewrite Hd, HKf. unfold a. field. lra. }
    rewrite Ev. replace (from + r * step - (from + ((1 - f) * IZR start + f * u) * step))
      with ((r - w + f * (IZR e - u)) * step) by (unfold w; ring).
    rewrite Rabs_mult. rewrite <- (Rmult_1_l (Rabs step)) at 2. apply Rmult_le_compat_r; [apply Rabs_pos|].
    apply abs_inv in N. apply abs_inv in Hn. apply Rabs_le.
    set (g := IZR e - u) in *. nra.
  - intros L1 L2. set (n := Z.of_nat (length l)) in *.
    assert ((py_round w <= n - 1)%Z); [|lia]. apply round_mono_hi. rewrite minus_IZR.
    assert (IZR start <= IZR n - 1) by (rewrite <- minus_IZR; apply IZR_le; lia).
    assert (IZR e <= IZR n - 1) by (rewrite <- minus_IZR; apply IZR_le; lia).
    unfold w. nra.
Qed.

(** ** The profile *)

Lemma map_res_nth {A B} (f : A -> res B) l r k v : map_res f l = Ok r -> nth_error r k = Some v ->
  exists a, nth_error l k = Some a /\ f a = Ok v.
Proof.
  revert r k; induction l as [|a l IH]; intros r k H E; cbn in H.
  - injection H as <-. destruct k; discriminate.
  - apply bind_ok in H as (b & Eb & H). apply bind_ok in H as (bs & Ebs & H). injection H as <-.
    destruct k as [|k]; cbn in E; [injection E as <-; exists a; auto|]. cbn [nth_error]. eapply IH; eassumption.
Qed.

Lemma combine_maps {A B C} (f : A -> B) (g : A -> C) l : combine (map f l) (map g l) = map (fun i => (f i, g i)) l.
Proof. induction l; cbn; congruence. Qed.

Lemma nth_combine {A B} (l : list A) (m : list B) k a b :
  nth_error (combine l m) k = Some (a, b) <-> nth_error l k = Some a /\ nth_error m k = Some b.
Proof.
  revert m k; induction l as [|x l IH]; intros [|y m] [|k]; cbn; split; try (intros [? ?]); try discriminate; try congruence.
  - intros H; injection H as -> ->; auto.
  - apply IH.
  - intros; apply IH; auto.
Qed.

Lemma nth_tl {A} (l : list A) k : nth_error (tl l) k = nth_error l (S k).
Proof. destruct l; [destruct k|]; reflexivity. Qed.

Lemma py_get_last {A} (f : Z -> A) c v : py_get (map f (zseq 0 c)) (-1) = Ok v ->
  (1 <= c)%nat /\ v = f (Z.of_nat c - 1)%Z.
Proof.
  destruct c as [|c]. { cbn. discriminate. }
  intros H. split; [lia|]. replace (S c) with (c + 1)%nat in H by lia.
  rewrite zseq_app, map_app in H. cbn [zseq map] in H.
  unfold py_get, py_index in H. rewrite app_length, map_length, zseq_len in H. cbn [length] in H.
  destruct (Z.leb_spec 0 (-1)); [lia|]. cbn [andb] in H.
  destruct (Z.leb_spec (- Z.of_nat (c + 1)) (-1)); [|lia]. destruct (Z.ltb_spec (-1) 0); [|lia]. cbn [andb] in H.
  rewrite nth_error_app2 in H; rewrite map_length, zseq_len in *; [|lia].
  replace (Z.to_nat (Z.of_nat (c + 1) + -1) - c)%nat with O in H by lia. cbn in H. injection H as <-.
  f_equal. lia.
Qed.

Lemma py_get_regular from step l i v : regular from step l -> (0 <= i)%Z -> py_get l i = Ok v ->
  v = from + IZR i * step /\ (i < Z.of_nat (length l))%Z.
Proof.
  intros Hr Hi H. rewrite py_get_nonneg in H by exact Hi.
  destruct (nth_error l (Z.to_nat i)) as [w|] eqn:E; [|discriminate]. injection H as <-.
  split. { rewrite (Hr _ _ E), INR_IZR_INZ, Z2Nat.id by exact Hi. reflexivity. }
  assert (Z.to_nat i < length l)%nat by (apply nth_error_Some; congruence). lia.
Qed.

Lemma within_inside l mx mn v : py_max l = Ok mx -> py_min l = Ok mn ->
  (inside mn mx v = true <-> within l v).
Proof.
  intros H1 H2. apply py_max_spec in H1 as [I1 F1]. apply py_min_spec in H2 as [I2 F2].
  rewrite Forall_forall in F1, F2. rewrite inside_spec. split.
  - intros [A B]. split; [exists mn|exists mx]; auto.
  - intros [(a & Ia & La) (b & Ib & Lb)]. specialize (F1 b Ib). specialize (F2 a Ia). lra.
Qed.

Lemma interior_within from step l i : regular from step l -> step <> 0 ->
  (1 <= i < Z.of_nat (length l) - 1)%Z -> within l (from + IZR i * step).
Proof.
  intros Hr Hs Hi.
  assert (A: In (from + IZR (i - 1) * step) l).
  { destruct (nth_error l (Z.to_nat (i - 1))) as [v|] eqn:E; [|apply nth_error_None in E; lia].
    rewrite (Hr _ _ E) in E. rewrite INR_IZR_INZ, Z2Nat.id in E by lia. apply nth_error_In in E. exact E. }
  assert (B: In (from + IZR (i + 1) * step) l).
  { destruct (nth_error l (Z.to_nat (i + 1))) as [v|] eqn:E; [|apply nth_error_None in E; lia].
    rewrite (Hr _ _ E) in E. rewrite INR_IZR_INZ, Z2Nat.id in E by lia. apply nth_error_In in E. exact E. }
  rewrite minus_IZR in A. rewrite plus_IZR in B.
  destruct (Rlt_dec 0 step); split.
  - eexists; split; [exact A|nra].
  - eexists; split; [exact B|nra].
  - eexists; split; [exact B|nra].
  - eexists; split; [exact A|nra].
Qed.

Lemma linspace_map a b n : (0 <= n)%Z ->
  linspace a b n = Ok (map (fun i => a + IZR i * ((b - a) / IZR (n - 1))) (zseq 0 (Z.to_nat n))).
Proof.
  intros H. unfold linspace, zrange. destruct (Z.ltb_spec n 0); [lia|]. rewrite Z.sub_0_r. reflexivity.
Qed.

Lemma atan_above h q : -90 < h < 90 -> (h < degrees (atan q) <-> tan (radians h) < q).
Proof.
  intros Hh. pose proof PI_RGT_0 as PP. assert (Hr: - PI / 2 < radians h < PI / 2) by (unfold radians; split; nra).
  replace (h < degrees (atan q)) with (h < degrees (atan q)) by reflexivity.
  assert (E: h < degrees (atan q) <-> radians h < atan q).
  { unfold radians, degrees. split; intros L.
    - apply Rmult_lt_compat_r with (r := PI / 180) in L; [|lra].
      replace (atan q * 180 / PI * (PI / 180)) with (atan q) in L by (field; lra). lra.
    - apply Rmult_lt_compat_r with (r := 180 / PI) in L; [|apply Rmult_lt_0_compat; [lra|apply Rinv_0_lt_compat; lra]].
      replace (h * PI / 180 * (180 / PI)) with h in L by (field; lra). lra. }
  rewrite E. pose proof (atan_bound q) as Ba. split; intros L.
  - rewrite <- (tan_atan q). apply tan_increasing; lra.
  - destruct (Rlt_dec (radians h) (atan q)) as [|N]; [assumption|exfalso].
    destruct (Req_dec (atan q) (radians h)) as [Eq|Ne].
    + rewrite <- Eq, tan_atan in L. lra.
    + assert (tan (atan q) < tan (radians h)) by (apply tan_increasing; lra). rewrite tan_atan in H. lra.
Qed.

Lemma haversine_pos a b c d v : haversine a b c d = Ok v -> v <> 0 -> 0 < v.
Proof.
  rewrite haversine_exact. intros H; injection H as <-. pose proof (asin_chord_range a b c d). intros N.
  destruct (Rtotal_order 0 (2 * 6371000 * asin (chord a b c d))) as [L|[L|L]]; lra.
Qed.

Section Profile.
Variables (dem : raster R) (lats lons : list R) (oy sy ox sx : R).
Hypothesis Ry : regular oy sy lats.
Hypothesis Rx : regular ox sx lons.
Hypothesis Sy : sy <> 0.
Hypothesis Sx : sx <> 0.

Lemma horizon_profile nums dy dx y x m :
  (1 <= y < Z.of_nat (length lats) - 1)%Z -> (1 <= x < Z.of_nat (length lons) - 1)%Z ->
  horizon dem lats lons nums dy dx y x = Ok m ->
  let la := oy + IZR y * sy in
  let lo := ox + IZR x * sx in
  let lat_k := fun k => la + INR (S k) * (dy / IZR (nums - 1)) in
  let lon_k := fun k => lo + INR (S k) * (dx / IZR (nums - 1)) in
  (2 <= nums)%Z /\
  exists z0 pts, cell_at dem y x = Some z0 /\ pts <> [] /\
    (forall k z d, nth_error pts k = Some (z, d) ->
       haversine la lo (lat_k k) (lon_k k) = Ok d /\ 0 < d /\
       within lats (lat_k k) /\ within lons (lon_k k) /\
       exists y' x', cell_at dem y' x' = Some z /\
         Rabs (oy + IZR y' * sy - lat_k k) <= Rabs sy /\ Rabs (ox + IZR x' * sx - lon_k k) <= Rabs sx) /\
    (forall k, (Z.of_nat (S k) < nums)%Z -> within lats (lat_k k) -> within lons (lon_k k) ->
       nth_error pts k <> None) /\
    (forall h, -90 < h < 90 -> (h < m <-> exists z d, In (z, d) pts /\ z0 + d * tan (radians h) < z)).
Proof.
  intros Hy Hx H la lo lat_k lon_k.
  unfold horizon in H. cbv zeta in H.
  apply bind_ok in H as (s0 & E0 & H). apply bind_ok in H as (s1 & E1 & H).
  apply (py_get_regular oy sy) in E0 as [-> Ly]; [|exact Ry|lia].
  apply (py_get_regular ox sx) in E1 as [-> Lx]; [|exact Rx|lia]. fold la lo in H.
  apply bind_ok in H as (latl & El & H). apply bind_ok in H as (lonl & Eo & H).
  assert (Hn: (0 <= nums)%Z). { unfold linspace in El. destruct (Z.ltb_spec nums 0); [discriminate|lia]. }
  rewrite linspace_map in El, Eo by exact Hn. injection El as <-. injection Eo as <-.
  replace (la + dy - la) with dy in H by ring. replace (lo + dx - lo) with dx in H by ring.
  set (ty := dy / IZR (nums - 1)) in *. set (tx := dx / IZR (nums - 1)) in *.
  apply bind_ok in H as (mxy & Emxy & H). apply bind_ok in H as (mny & Emny & H).
  apply bind_ok in H as (mxx & Emxx & H). apply bind_ok in H as (mnx & Emnx & H).
  change (fun v => (Rltb v mxy && Rltb mny v)%bool) with (inside mny mxy) in H.
  change (fun v => (Rltb v mxx && Rltb mnx v)%bool) with (inside mnx mxx) in H.
  assert (Iy: inside mny mxy la = true) by (eapply within_inside; eauto; apply interior_within; assumption).
  assert (Ix: inside mnx mxx lo = true) by (eapply within_inside; eauto; apply interior_within; assumption).
  apply inside_spec in Iy, Ix.
  destruct (filter_line la ty mny mxy Iy (Z.to_nat nums) 0 ltac:(lia)) as (c1 & Lc1 & F1 & G1 & G1').
  destruct (filter_line lo tx mnx mxx Ix (Z.to_nat nums) 0 ltac:(lia)) as (c2 & Lc2 & F2 & G2 & G2').
  rewrite F1, F2 in H. rewrite !map_length, zseq_len in H. rewrite !firstn_map, !firstn_zseq in H.
  rewrite ?map_length, ?zseq_len in H. rewrite ?firstn_zseq in H.
  set (c := Nat.min c2 c1) in *. replace (Nat.min c c2) with c in H by lia.
  rewrite ?map_length, ?zseq_len in H.
  apply bind_ok in H as (late & Elate & H). apply bind_ok in H as (ey & Eey & H).
  apply bind_ok in H as (lone & Elone & H). apply bind_ok in H as (ex & Eex & H).
  apply py_get_last in Elate as [Hc ->]. apply py_get_last in Elone as [_ ->].
  rewrite !linspace_map in H by lia. cbn [bind] in H. rewrite Nat2Z.id in H.
  rewrite !combine_maps in H.
  apply bind_ok in H as (zi & Ezi & H). apply bind_ok in H as (ds & Eds & H).
  apply bind_ok in H as (z0 & Ez0 & H). apply bind_ok in H as (hang & Eh & H).
  assert (Lzi: length zi = c) by (rewrite (map_res_length _ _ _ Ezi), map_length, zseq_len; reflexivity).
  assert (Lds: length ds = c) by (rewrite (map_res_length _ _ _ Eds), map_length, zseq_len; reflexivity).
  assert (Lh: length hang = (c - 1)%nat).
  { rewrite (map_res_length _ _ _ Eh), combine_length. destruct zi, ds; cbn in *; lia. }
  assert (Hc2: (2 <= c)%nat). { destruct hang; [discriminate|]. cbn in Lh. lia. }
  split; [lia|].
  assert (Wy: forall i, (0 <= i < Z.of_nat c)%Z -> within lats (la + IZR i * ty)).
  { intros i Hi. apply (within_inside lats mxy mny); auto. apply G1. lia. }
  assert (Wx: forall i, (0 <= i < Z.of_nat c)%Z -> within lons (lo + IZR i * tx)).
  { intros i Hi. apply (within_inside lons mxx mnx); auto. apply G2. lia. }
  destruct (nearest_index oy sy lats _ ey Ry Sy (Wy (Z.of_nat c - 1)%Z ltac:(lia)) Eey) as [Bey Ney].
  destruct (nearest_index ox sx lons _ ex Rx Sx (Wx (Z.of_nat c - 1)%Z ltac:(lia)) Eex) as [Bex Nex].
  exists z0, (combine (tl zi) (tl ds)).
  assert (Z0: cell_at dem y x = Some z0).
  { rewrite py_get_nonneg in Ez0 by lia. destruct (nth_error zi (Z.to_nat 0)) as [w|] eqn:Ew; [|discriminate].
    injection Ez0 as <-. destruct (map_res_nth _ _ _ _ _ Ezi Ew) as (p & Ep & Gp).
    rewrite nth_error_map, nth_zseq in Ep by lia. cbn [option_map] in Ep. injection Ep as <-.
    cbn [fst snd] in Gp. change (Z.of_nat (Z.to_nat 0)) with 0%Z in Gp. rewrite ?Z.add_0_l in Gp.
    rewrite !Rmult_0_l, !Rplus_0_r, !round_int in Gp. apply raster_get_ok in Gp; [exact Gp|lia|lia]. }
  split; [exact Z0|]. split.
  { destruct zi as [|a [|b zi]], ds as [|e [|f ds]]; cbn in Lzi, Lds; try lia. cbn. discriminate. }
  assert (PT: forall k z d, nth_error (combine (tl zi) (tl ds)) k = Some (z, d) ->
     (S k < c)%nat /\ nth_error zi (S k) = Some z /\ nth_error ds (S k) = Some d /\ d <> 0).
  { intros k z d Hk. apply nth_combine in Hk as Hk'. rewrite !nth_tl in Hk'. destruct Hk' as [K1 K2].
    assert (S k < length zi)%nat by (apply nth_error_Some; congruence).
    split; [lia|]. split; [exact K1|]. split; [exact K2|].
    assert (Q: exists q, nth_error hang k = Some q).
    { destruct (nth_error hang k) as [q|] eqn:Eq; [eauto|]. apply nth_error_None in Eq. lia. }
    destruct Q as (q & Eq). destruct (map_res_nth _ _ _ _ _ Eh Eq) as (p & Ep & Gp).
    rewrite Hk in Ep. injection Ep as <-. cbn [fst snd] in Gp. apply bind_ok in Gp as (q' & Gq & _).
    unfold adiv in Gq. destruct (Req_EM_T d 0); [discriminate|assumption]. }
  split; [|split].
  - intros k z d Hk. destruct (PT k z d Hk) as (Lk & K1 & K2 & Nd).
    assert (El: lat_k k = la + IZR (Z.of_nat (S k)) * ty) by (unfold lat_k; rewrite INR_IZR_INZ; reflexivity).
    assert (Eo: lon_k k = lo + IZR (Z.of_nat (S k)) * tx) by (unfold lon_k; rewrite INR_IZR_INZ; reflexivity).
    rewrite El, Eo.
    destruct (map_res_nth _ _ _ _ _ Eds K2) as (p & Ep & Gp). rewrite nth_error_map, nth_zseq in Ep by lia.
    cbn [option_map] in Ep. injection Ep as <-. cbn [fst snd] in Gp. rewrite ?Z.add_0_l in Gp.
    split; [exact Gp|]. split.
    { exact (haversine_pos _ _ _ _ _ Gp Nd). }
    split; [apply Wy; lia|]. split; [apply Wx; lia|].
    destruct (map_res_nth _ _ _ _ _ Ezi K1) as (p & Ep & Gz). rewrite nth_error_map, nth_zseq in Ep by lia.
    cbn [option_map] in Ep. injection Ep as <-. cbn [fst snd] in Gz. rewrite ?Z.add_0_l in Gz.
    destruct (index_line oy sy lats y ey ty c (S k) Sy Hc2 Lk ltac:(lia) ltac:(lia) Ney) as (I1 & I2 & _).
    destruct (index_line ox sx lons x ex tx c (S k) Sx Hc2 Lk ltac:(lia) ltac:(lia) Nex) as (J1 & J2 & _).
    eexists _, _. split; [apply raster_get_ok in Gz; [exact Gz|exact I1|exact J1]|]. split; assumption.
  - intros k Hk W1 W2.
    assert (El: lat_k k = la + IZR (Z.of_nat (S k)) * ty) by (unfold lat_k; rewrite INR_IZR_INZ; reflexivity).
    assert (Eo: lon_k k = lo + IZR (Z.of_nat (S k)) * tx) by (unfold lon_k; rewrite INR_IZR_INZ; reflexivity).
    rewrite El in W1. rewrite Eo in W2.
    apply (within_inside lats mxy mny) in W1; auto. apply (within_inside lons mxx mnx) in W2; auto.
    apply G1' in W1; [|lia]. apply G2' in W2; [|lia].
    apply nth_error_Some. rewrite combine_length. destruct zi, ds; cbn in *; lia.
  - intros h Hh. rewrite (py_max_lt _ _ _ H). rewrite Exists_exists. split.
    + intros (a & Ia & La). apply map_res_forall2 in Eh.
      destruct (forall2_right _ _ _ _ Eh Ia) as ([z d] & Ip & Ep). cbn [fst snd] in Ep.
      apply bind_ok in Ep as (q & Eq & Ep). injection Ep as <-. exists z, d. split; [exact Ip|].
      apply atan_above in La; [|exact Hh]. unfold adiv in Eq.
      destruct (Req_EM_T d 0) as [|Nd]; [discriminate|]. injection Eq as <-.
      apply In_nth_error in Ip as (k & Ek). destruct (PT k z d Ek) as (Lk & K1 & K2 & _).
      assert (Pd: 0 < d).
      { destruct (map_res_nth _ _ _ _ _ Eds K2) as (p & _ & Gp). exact (haversine_pos _ _ _ _ _ Gp Nd). }
      apply Rmult_lt_compat_r with (r := d) in La; [|exact Pd].
      replace ((z - z0) / d * d) with (z - z0) in La by (field; exact Nd). lra.
    + intros (z & d & Ip & L). apply map_res_forall2 in Eh.
      destruct (forall2_left _ _ _ _ Eh Ip) as (a & Ia & Ep). cbn [fst snd] in Ep. exists a. split; [exact Ia|].
      apply bind_ok in Ep as (q & Eq & Ep). injection Ep as <-. apply atan_above; [exact Hh|].
      unfold adiv in Eq. destruct (Req_EM_T d 0) as [|Nd]; [discriminate|]. injection Eq as <-.
      apply In_nth_error in Ip as (k & Ek). destruct (PT k z d Ek) as (Lk & K1 & K2 & _).
      assert (Pd: 0 < d).
      { destruct (map_res_nth _ _ _ _ _ Eds K2) as (p & _ & Gp). exact (haversine_pos _ _ _ _ _ Gp Nd). }
      apply Rmult_lt_reg_r with d; [exact Pd|].
      replace ((z - z0) / d * d) with (z - z0) by (field; exact Nd). lra.
Qed.
End Profile.
