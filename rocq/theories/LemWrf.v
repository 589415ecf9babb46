From Verif Require Import ModelPy ModelConstants ModelNode ModelGrid ModelHeat ModelSurface ModelInit
  ModelCore ModelConfig ModelIO ModelMain ModelRadCor SpecIO SpecRadCor ModelAws ModelWrf SpecWrf.
From Verif Require Import LemPy LemDict LemIO LemIO4 LemIO5 LemShad LemShad2 LemShad3 LemShad4 LemShad5 LemAws LemAws2 LemAws5.
From Coq Require Import Ascii.

(** ** Arrays *)
Lemma at_time_map {A B} (f : A -> B) a k y x : at_time (map_array f a) k y x = option_map f (at_time a k y x).
Proof.
  unfold at_time, map_array, raster in *. rewrite nth_error_map. destruct (nth_error a k); cbn [option_map]; [|reflexivity]. apply cell_at_mapmap.
Qed.

Lemma cell_pos {A} (a : raster A) y x v : cell_at a y x = Some v -> (0 <= y)%Z /\ (0 <= x)%Z.
Proof. unfold cell_at. destruct (Z.leb_spec 0 y), (Z.leb_spec 0 x); cbn; intros H1; try discriminate; auto. Qed.

Lemma zip_slab_at {A B C} (f : A -> B -> C) a b r y x u : zip_slab f a b = Ok r -> cell_at a y x = Some u ->
  exists v, cell_at b y x = Some v /\ cell_at r y x = Some (f u v).
Proof.
  intros H E. pose proof (raster_map_at _ _ _ y x H) as R. rewrite E in R. destruct R as (w & R1 & R2).
  apply bind_ok in R1 as (v & V & R1). injection R1 as <-. exists v. split; [|exact R2].
  destruct (cell_pos _ _ _ _ E). apply raster_get_ok; auto.
Qed.

Lemma zip_res_at {A B C} (f : A -> B -> res C) a : forall b r k u, zip_res f a b = Ok r -> nth_error a k = Some u ->
  exists v w, nth_error b k = Some v /\ nth_error r k = Some w /\ f u v = Ok w.
Proof.
  induction a as [|a0 a IH]; intros b r k u H E; [destruct k; discriminate|].
  destruct b as [|b0 b]; [discriminate|]. cbn [zip_res] in H. apply bind_ok in H as (z & Z & H). apply bind_ok in H as (t & T & H). injection H as <-.
  destruct k; cbn in E; [injection E as <-; exists b0, z; auto|]. cbn. eauto.
Qed.

Lemma zip_array_at {A B C} (f : A -> B -> C) a b r k y x u : zip_array f a b = Ok r -> at_time a k y x = Some u ->
  exists v, at_time b k y x = Some v /\ at_time r k y x = Some (f u v).
Proof.
  unfold at_time. intros H E. destruct (nth_error a k) as [s|] eqn:EA; [|discriminate].
  destruct (zip_res_at _ _ _ _ _ _ H EA) as (t & w & -> & -> & Z). eapply zip_slab_at; eauto.
Qed.

Lemma zip_slab_total {A B C} (f : A -> B -> C) a b ny nx : sized a ny nx -> sized b ny nx ->
  exists r, zip_slab f a b = Ok r /\ sized r ny nx.
Proof.
  intros SA SB. destruct (raster_map_ok (fun y x v => u <- raster_get b y x ;; Ok (f v u)) a) as (r & E).
  - intros y x v E. destruct (cell_pos _ _ _ _ E) as [Y X].
    assert (exists u, cell_at b y x = Some u) as (u & U).
    { assert (Y2 : (y < Z.of_nat ny)%Z /\ (x < Z.of_nat nx)%Z).
      { destruct SA as [L F]. unfold cell_at in E. destruct (Z.leb_spec 0 y), (Z.leb_spec 0 x); cbn [andb] in E; try discriminate.
        destruct (nth_error a (Z.to_nat y)) as [row|] eqn:ER; [|discriminate].
        assert (Z.to_nat y < length a)%nat by (apply nth_error_Some; congruence).
        rewrite Forall_forall in F. specialize (F row (nth_error_In _ _ ER)).
        assert (Z.to_nat x < length row)%nat by (apply nth_error_Some; congruence). lia. }
      apply (sized_at _ _ _ _ _ SB); lia. }
    rewrite (proj2 (raster_get_ok b y x u Y X) U). cbn [bind]. eauto.
  - exists r. split; [exact E|]. eapply raster_map_sized; eauto.
Qed.

Lemma zip_array_total {A B C} (f : A -> B -> C) ny nx a : forall b n, shaped n ny nx a -> shaped n ny nx b ->
  exists r, zip_array f a b = Ok r /\ shaped n ny nx r.
Proof.
  unfold zip_array. induction a as [|s a IH]; intros b n [LA FA] [LB FB]; destruct b as [|t b]; cbn in LA, LB; try congruence.
  - exists []. split; [reflexivity|split; [exact LA|constructor]].
  - subst n. apply Forall_cons_iff in FA, FB. destruct FA as [F1 F2], FB as [G1 G2].
    destruct (zip_slab_total f s t ny nx F1 G1) as (r & E & SR).
    destruct (IH b (length a)) as (rs & ES & LR & FR); [split; auto|split; [lia|exact G2]|].
    exists (r :: rs). cbn [zip_res]. rewrite E. cbn [bind]. rewrite ES. cbn [bind]. split; [reflexivity|]. split; [cbn; congruence|constructor; auto].
Qed.

Lemma map_array_shaped {A B} (f : A -> B) n ny nx a : shaped n ny nx a -> shaped n ny nx (map_array f a).
Proof.
  intros [L F]. split; [unfold map_array; rewrite map_length; exact L|]. apply Forall_map. eapply Forall_impl; [|exact F].
  intros r [L1 F1]. split; [rewrite map_length; exact L1|]. apply Forall_map. eapply Forall_impl; [|exact F1]. intros l E. cbn. rewrite map_length. exact E.
Qed.

Lemma shaped_first {A} n ny nx (a : list (raster A)) : shaped n ny nx a -> (0 < n)%nat -> exists r, py_get a 0 = Ok r /\ nth_error a 0 = Some r /\ sized r ny nx.
Proof.
  intros [L F] N. destruct a as [|r a]; [cbn in L; lia|]. exists r. apply Forall_cons_iff in F. repeat split; try apply F; try reflexivity.
Qed.

(** ** Increments *)
Lemma update_at {A} (l l' : list A) i f : (0 <= i)%Z -> py_update l i f = Ok l' ->
  length l' = length l /\ (Z.to_nat i < length l)%nat /\
  forall k, nth_error l' k = if Nat.eqb k (Z.to_nat i) then option_map f (nth_error l k) else nth_error l k.
Proof.
  intros HI H. split; [eapply py_update_length; eauto|]. unfold py_update in H. unfold py_index in H.
  destruct (Z.leb_spec 0 i); [|lia]. destruct (Z.ltb_spec i (Z.of_nat (length l))); cbn [andb] in H.
  2:{ destruct (Z.ltb_spec i 0); [lia|]. rewrite andb_false_r in H. discriminate. }
  split; [lia|]. injection H as <-. clear. generalize (Z.to_nat i) as n. intros n. revert n; induction l as [|a l IH]; intros n k; destruct n, k; cbn; auto.
  - destruct (k =? n)%nat; reflexivity.
Qed.

Lemma get_nth {A} (l : list A) i x : (0 <= i)%Z -> py_get l i = Ok x -> nth_error l (Z.to_nat i) = Some x.
Proof.
  intros HI H. apply py_get_pos_inv in H; [|exact HI]. destruct H as (pre & post & -> & ->).
  rewrite Nat2Z.id, nth_error_app2, Nat.sub_diag by lia. reflexivity.
Qed.

Lemma increments_slabs n acc zero r : increments n acc zero = Ok r ->
  nth_error r 0 = nth_error zero 0 /\
  forall k, (0 < k < n)%nat -> exists a b d, nth_error acc k = Some a /\ nth_error acc (k - 1) = Some b /\
    zip_slab Rminus a b = Ok d /\ nth_error r k = Some d.
Proof.
  unfold increments, for_range. intros H.
  set (I := fun (j : Z) (s : list (raster R)) => (1 <= j)%Z /\ nth_error s 0 = nth_error zero 0 /\
    forall k, (0 < k)%nat -> (Z.of_nat k < j)%Z -> exists a b d, nth_error acc k = Some a /\ nth_error acc (k - 1) = Some b /\
    zip_slab Rminus a b = Ok d /\ nth_error s k = Some d).
  apply for_loop_inv with (I := I) in H.
  - destruct H as (_ & H0 & H1). split; [exact H0|]. intros k K. apply H1; lia.
  - intros j t t' J (J1 & T0 & T1) B. apply bind_ok in B as (a & EA & B). apply bind_ok in B as (b & EB & B). apply bind_ok in B as (d & ED & B).
    apply update_at in B; [|lia]. destruct B as (L & LT & B).
    split; [lia|]. split; [rewrite B; destruct (Nat.eqb_spec 0 (Z.to_nat j)); [lia|exact T0]|].
    intros k K1 K2. destruct (Nat.eqb_spec k (Z.to_nat j)) as [->|NE].
    + apply get_nth in EA; [|lia]. apply get_nth in EB; [|lia].
      exists a, b, d. split; [exact EA|]. split; [replace (Z.to_nat j - 1)%nat with (Z.to_nat (j - 1)) by lia; exact EB|].
      split; [exact ED|]. rewrite B, Nat.eqb_refl.
      destruct (nth_error t (Z.to_nat j)) eqn:ET; [reflexivity|exfalso]. apply nth_error_None in ET. lia.
    + destruct (T1 k K1 ltac:(lia)) as (a' & b' & d' & E1 & E2 & E3 & E4). exists a', b', d'. repeat split; auto.
      rewrite B. destruct (Nat.eqb_spec k (Z.to_nat j)); [congruence|exact E4].
  - split; [lia|]. split; [reflexivity|]. intros k K1 K2. lia.
Qed.

Lemma increments_at n acc zero r y x : increments n acc zero = Ok r ->
  at_time r 0 y x = at_time zero 0 y x /\
  forall k a, (0 < k < n)%nat -> at_time acc k y x = Some a ->
    exists b, at_time acc (k - 1) y x = Some b /\ at_time r k y x = Some (a - b).
Proof.
  intros H. apply increments_slabs in H. destruct H as [H0 H1]. split; [unfold at_time; rewrite H0; reflexivity|].
  intros k a K E. destruct (H1 k K) as (s & t & d & E1 & E2 & E3 & E4). unfold at_time in *. rewrite E1 in E. rewrite E2, E4.
  eapply zip_slab_at; eauto.
Qed.

Lemma increments_total n ny nx acc zero : shaped n ny nx acc -> shaped n ny nx zero ->
  exists r, increments n acc zero = Ok r /\ shaped n ny nx r.
Proof.
  intros [LA FA] SZ. unfold increments.
  match goal with |- exists r, for_range 1 ?h ?b ?s = _ /\ _ => pose proof (for_range_res (shaped n ny nx) (fun _ => False) b 1%Z h s) as X end.
  match type of X with ?P -> ?Q -> _ => assert P as HP; [|specialize (X HP SZ)] end.
  - intros i s I [LS FS].
    assert (G : forall j, (0 <= j < Z.of_nat n)%Z -> exists a, py_get acc j = Ok a /\ sized a ny nx).
    { intros j J. destruct (nth_error acc (Z.to_nat j)) as [a|] eqn:E; [|apply nth_error_None in E; lia].
      exists a. split; [|rewrite Forall_forall in FA; apply FA; eapply nth_error_In; eauto].
      replace j with (Z.of_nat (Z.to_nat j)) by lia. apply py_get_nth. exact E. }
    destruct (G i ltac:(lia)) as (a & -> & SA). destruct (G (i - 1)%Z ltac:(lia)) as (b & -> & SB). cbn [bind].
    destruct (zip_slab_total Rminus a b ny nx SA SB) as (d & -> & SD). cbn [bind].
    assert (exists s', py_update s i (fun _ => d) = Ok s') as (s' & E).
    { unfold py_update, py_index. destruct (Z.leb_spec 0 i); [|lia]. destruct (Z.ltb_spec i (Z.of_nat (length s))); [|lia]. cbn [andb]. eauto. }
    rewrite E. apply update_at in E; [|lia]. destruct E as (L & LT & U). split; [congruence|].
    apply Forall_forall. intros q Q. apply In_nth_error in Q as (k & Q). rewrite U in Q.
    destruct (k =? Z.to_nat i)%nat.
    + destruct (nth_error s k); cbn in Q; [injection Q as <-; exact SD|discriminate].
    + rewrite Forall_forall in FS. apply FS. eapply nth_error_In; eauto.
  - match goal with |- exists r, ?f = _ /\ _ => destruct f as [r|e] end; [eauto|contradiction].
Qed.

(** ** Entries *)
Lemma wrf_rh_exact t q p : p <> 0 -> t <> 35.86 -> wrf_rh t q p = Some (humidity_percent t q p).
Proof.
  intros P T. unfold wrf_rh. destruct (Req_EM_T p 0); [contradiction|]. destruct (Req_EM_T (t - 35.86) 0); [exfalso; apply T; lra|].
  f_equal. unfold humidity_percent.
  replace (q * 100 / (379.90516 / p * exp (17.2693882 * (t - 273.16) / (t - 35.86)))) with (saturation_ratio t q p).
  - generalize (saturation_ratio t q p). intros r. unfold Rmax, Rmin.
    destruct (Rlt_dec 100.0 r), (Rle_dec 100 r); repeat match goal with |- context [Rlt_dec ?a ?b] => destruct (Rlt_dec a b) | |- context [Rle_dec ?a ?b] => destruct (Rle_dec a b) end; lra.
  - unfold saturation_ratio. generalize (exp_pos (17.2693882 * (t - 273.16) / (t - 35.86))). generalize (exp (17.2693882 * (t - 273.16) / (t - 35.86))).
    intros e E. assert (379.90516 <> 0) by lra. generalize dependent 379.90516. intros c C. field. repeat split; auto; lra.
Qed.

Lemma wrf_rh_some t q p h : wrf_rh t q p = Some h -> p <> 0 /\ t <> 35.86.
Proof.
  unfold wrf_rh. destruct (Req_EM_T p 0); [discriminate|]. destruct (Req_EM_T (t - 35.86) 0); [discriminate|]. intros _. split; [auto|lra].
Qed.

Lemma wrf_wind_log u v : wrf_wind u v = log_wind u v.
Proof.
  unfold wrf_wind, log_wind. cbv zeta. replace (v ^ 2 + u ^ 2) with (u * u + v * v) by ring.
  replace (2 / 0.0040) with 500 by lra. replace (10 / 0.0040) with 2500 by lra. reflexivity.
Qed.

Lemma wrf_mask_cases lu v : (lu = 0 /\ wrf_mask lu v = 1) \/ (lu <> 0 /\ v = lu /\ wrf_mask lu v = 1) \/ (lu <> 0 /\ v <> lu /\ wrf_mask lu v = 0).
Proof.
  unfold wrf_mask. destruct (Req_EM_T v lu) as [->|N].
  - destruct (Req_EM_T lu lu); [|congruence]. destruct (Req_EM_T lu 0); [left|right; left]; auto.
  - destruct (Req_EM_T 0 lu) as [<-|M]; [left; auto|right; right; auto].
Qed.
