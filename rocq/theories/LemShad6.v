(** * The shading table of a year *)
From Verif Require Import ModelPy ModelConstants ModelNode ModelGrid ModelHeat ModelSurface ModelInit
  ModelCore ModelConfig ModelIO ModelMain ModelRadCor Spec SpecIO SpecRadCor LemPy LemGridBase LemDict
  LemIO LemIO5 LemSim LemHeat LemSurface LemRadCor LemShad LemShad2 LemShad3 LemShad4 LemShad5 LemFinInit.

Lemma py_int_int n : (0 <= n)%Z -> py_int (IZR n) = n.
Proof. intros H. rewrite <- (Z2Nat.id n) by exact H. apply py_int_nat. Qed.

Section Table.
Variables (solparam timecorr : raster R) (lat : R) (dem : raster R) (mask : raster number)
  (lats lons : list R) (TCART : R) (k m : Z).
Hypothesis Hk : (1 <= k)%Z.
Hypothesis Hm : (k * m = 24)%Z.
Notation STEP := (3600 * IZR k).

Lemma Hm1 : (1 <= m <= 24)%Z. Proof. nia. Qed.
Lemma kpos : 0 < IZR k. Proof. apply (IZR_lt 0). lia. Qed.
Lemma km : IZR k * IZR m = 24. Proof. rewrite <- mult_IZR, Hm. reflexivity. Qed.
Lemma inv_k : / IZR k = IZR m / 24.
Proof. pose proof km. pose proof kpos. apply (Rmult_eq_reg_l (IZR k)); [|lra]. rewrite Rinv_r by lra. lra. Qed.

Definition blank : raster number := repeat (repeat None (length lons)) (length lats).

Lemma nth_repeat_lt {A} (a : A) n i : (i < n)%nat -> nth_error (repeat a n) i = Some a.
Proof. revert i. induction n as [|n IH]; intros [|i] H; cbn; try lia; auto. apply IH. lia. Qed.

Lemma blank_at y x : (0 <= y < Z.of_nat (length lats))%Z -> (0 <= x < Z.of_nat (length lons))%Z ->
  cell_at blank y x = Some None.
Proof.
  intros Hy Hx. unfold cell_at, blank. destruct (Z.leb_spec 0 y); [|lia]. destruct (Z.leb_spec 0 x); [|lia].
  cbn [andb]. rewrite !nth_repeat_lt by lia. reflexivity.
Qed.

(** content of a slot *)
Definition filled (doy hod : Z) (slot : raster number) : Prop :=
  exists soldec tcorr sin_h h a, raster_get solparam doy 3 = Ok soldec /\ raster_get timecorr doy 3 = Ok tcorr /\
    shad_sun lat soldec tcorr TCART (IZR hod) = Ok (sin_h, h, a) /\
    (0.01 < sin_h -> exists illu, relshad dem mask lats lons h a = Ok illu /\
       forall y x, (0 <= y < Z.of_nat (length lats))%Z -> (0 <= x < Z.of_nat (length lons))%Z ->
       exists b, cell_at mask y x = Some b /\
         (b = Some 1 -> cell_at slot y x <> None /\ cell_at slot y x = cell_at illu y x) /\
         (b <> Some 1 -> cell_at slot y x = Some None)) /\
    (~ 0.01 < sin_h ->
       forall y x, (0 <= y < Z.of_nat (length lats))%Z -> (0 <= x < Z.of_nat (length lons))%Z ->
       exists b, cell_at mask y x = Some b /\
         (b = Some 1 -> cell_at slot y x = Some (Some (-1))) /\
         (b <> Some 1 -> cell_at slot y x = Some None)).

Lemma slot_index doy i : (0 <= doy)%Z -> (0 <= i)%Z ->
  py_round (IZR doy * (3600 / STEP) * 24 + IZR (i * k) * 3600 / STEP) = (doy * m + i)%Z.
Proof.
  intros Hd Hi. pose proof kpos. replace (IZR doy * (3600 / STEP) * 24 + IZR (i * k) * 3600 / STEP)
    with (IZR (doy * m + i)); [apply round_int|].
  rewrite plus_IZR, !mult_IZR.
  replace (IZR doy * (3600 / (3600 * IZR k)) * 24) with (IZR doy * 24 * / IZR k) by (field; lra).
  rewrite inv_k. field. lra.
Qed.

Lemma slot_lookup doy i : (0 <= doy)%Z -> (0 <= i)%Z ->
  rad_slot (doy + 1) (IZR (i * k)) STEP = (doy * m + i)%Z.
Proof.
  intros Hd Hi. pose proof kpos. unfold rad_slot.
  replace ((IZR (doy + 1) - 1) * (86400 / STEP) + IZR (i * k) / (STEP / 3600)) with (IZR (doy * m + i)).
  - apply py_int_int. pose proof Hm1. nia.
  - rewrite !plus_IZR, !mult_IZR.
    replace ((IZR doy + 1 - 1) * (86400 / (3600 * IZR k))) with (IZR doy * 24 * / IZR k) by (field; lra).
    rewrite inv_k. field. lra.
Qed.

Lemma cell_at_some_range {A} (a : raster A) y x v : cell_at a y x = Some v ->
  (0 <= y)%Z /\ (0 <= x)%Z.
Proof. apply cell_at_nonneg. Qed.

Lemma slot_step soldec tcorr doy i s s' :
  (0 <= doy)%Z -> (0 <= i)%Z ->
  raster_get solparam doy 3 = Ok soldec -> raster_get timecorr doy 3 = Ok tcorr ->
  shad_slot dem mask lats lons lat STEP TCART soldec tcorr doy (i * k) s = Ok s' ->
  nth_error s (Z.to_nat (doy * m + i)) = Some blank ->
  exists new, filled doy (i * k) new /\
    s' = list_update (Z.to_nat (doy * m + i)) (fun _ => new) s.
Proof.
  intros Hd Hi Es Et H Hb. unfold shad_slot in H. apply bind_ok in H as ([[sh h] a] & Esun & H). cbv zeta iota in H.
  rewrite slot_index in H by assumption.
  assert (Hp: (0 <= doy * m + i)%Z) by (pose proof Hm1; nia).
  rewrite py_get_nonneg in H by exact Hp. rewrite Hb in H. cbn [bind] in H.
  apply bind_ok in H as (new & En & H). rewrite py_update_nonneg in H by exact Hp. rewrite Hb in H.
  injection H as <-. exists new. split; [|reflexivity].
  exists soldec, tcorr, sh, h, a. split; [exact Es|]. split; [exact Et|]. split; [exact Esun|].
  destruct (Rltb_spec 0.01 sh) as [L|L].
  - split; [|contradiction]. intros _. apply bind_ok in En as (il & Eil & En). exists il. split; [exact Eil|].
    intros y x Hy Hx. unfold masked_write in En. pose proof (raster_map_at _ _ _ y x En) as M.
    rewrite (blank_at y x Hy Hx) in M. destruct M as (w & M1 & M2).
    apply bind_ok in M1 as (b & Eb & M1). apply raster_get_ok in Eb; [|lia|lia]. exists b. split; [exact Eb|].
    destruct (num_eqb b 1) eqn:E.
    + apply num_eqb_spec in E. split; [|contradiction]. intros _. apply raster_get_ok in M1; [|lia|lia].
      rewrite M2. split; [discriminate|symmetry; exact M1].
    + injection M1 as <-. split; [|intros _; exact M2]. intros ->. cbn in E. destruct (Reqb_spec 1 1); [discriminate|congruence].
  - split; [contradiction|]. intros _ y x Hy Hx. unfold masked_write in En. pose proof (raster_map_at _ _ _ y x En) as M.
    rewrite (blank_at y x Hy Hx) in M. destruct M as (w & M1 & M2).
    apply bind_ok in M1 as (b & Eb & M1). apply raster_get_ok in Eb; [|lia|lia]. exists b. split; [exact Eb|].
    destruct (num_eqb b 1) eqn:E.
    + apply num_eqb_spec in E. split; [|contradiction]. intros _. injection M1 as <-. exact M2.
    + injection M1 as <-. split; [|intros _; exact M2]. intros ->. cbn in E. destruct (Reqb_spec 1 1); [discriminate|congruence].
Qed.

Definition total := (366 * m)%Z.

Definition table_inv (j : Z) (s : list (raster number)) : Prop :=
  length s = Z.to_nat total /\
  (forall doy i, (0 <= doy < 366)%Z -> (0 <= i < m)%Z -> (doy * m + i < j)%Z ->
     exists slot, nth_error s (Z.to_nat (doy * m + i)) = Some slot /\ filled doy (i * k) slot) /\
  (forall t, (j <= t < total)%Z -> nth_error s (Z.to_nat t) = Some blank).

Lemma table_step soldec tcorr doy i s s' :
  (0 <= doy < 366)%Z -> (0 <= i < m)%Z ->
  raster_get solparam doy 3 = Ok soldec -> raster_get timecorr doy 3 = Ok tcorr ->
  shad_slot dem mask lats lons lat STEP TCART soldec tcorr doy (i * k) s = Ok s' ->
  table_inv (doy * m + i) s -> table_inv (doy * m + (i + 1)) s'.
Proof.
  intros Hd Hi Es Et H (I1 & I2 & I3).
  assert (Hp: (0 <= doy * m + i < total)%Z) by (unfold total; pose proof Hm1; nia).
  destruct (slot_step soldec tcorr doy i s s' ltac:(lia) ltac:(lia) Es Et H) as (new & Fn & ->). { apply I3. lia. }
  split; [rewrite list_update_length; exact I1|]. split.
  - intros doy' i' Hd' Hi' L.
    destruct (Z.eq_dec (doy' * m + i') (doy * m + i)) as [E|E].
    + assert (doy' = doy /\ i' = i) as [-> ->] by (pose proof Hm1; nia). exists new. split; [|exact Fn].
      rewrite nth_error_update. rewrite Nat.eqb_refl. rewrite I3 by lia. reflexivity.
    + destruct (I2 doy' i' Hd' Hi' ltac:(lia)) as (slot & N1 & N2). exists slot. split; [|exact N2].
      rewrite nth_error_update. destruct (Nat.eqb_spec (Z.to_nat (doy' * m + i')) (Z.to_nat (doy * m + i))) as [E2|E2]; [|exact N1].
      exfalso. apply E. pose proof Hm1. nia.
  - intros t Ht. rewrite nth_error_update.
    destruct (Nat.eqb_spec (Z.to_nat t) (Z.to_nat (doy * m + i))) as [E2|E2]; [exfalso; lia|]. apply I3. lia.
Qed.

Lemma hours_exact : hours_of_day (py_int (STEP / 3600)) = Ok (map (fun i => (i * k)%Z) (zseq 0 (Z.to_nat m))).
Proof.
  pose proof kpos. replace (STEP / 3600) with (IZR k) by (field; lra). rewrite py_int_int by lia.
  unfold hours_of_day. destruct (Z.eqb_spec k 0); [lia|]. destruct (Z.ltb_spec k 0); [lia|].
  replace ((24 + k - 1) / k)%Z with m. { unfold zrange. rewrite Z.sub_0_r. reflexivity. }
  apply (Z.div_unique _ _ m (k - 1)); lia.
Qed.

Lemma table_hours soldec tcorr doy : (0 <= doy < 366)%Z ->
  raster_get solparam doy 3 = Ok soldec -> raster_get timecorr doy 3 = Ok tcorr ->
  forall n i s s', (0 <= i)%Z -> (i + Z.of_nat n = m)%Z ->
  for_each (map (fun i => (i * k)%Z) (zseq i n)) (fun hod s =>
    shad_slot dem mask lats lons lat STEP TCART soldec tcorr doy hod s) s = Ok s' ->
  table_inv (doy * m + i) s -> table_inv (doy * m + m) s'.
Proof.
  intros Hd Es Et. induction n as [|n IH]; intros i s s' Hi Hn H I0; cbn [zseq map for_each] in H.
  - injection H as <-. replace m with i at 2 by lia. exact I0.
  - apply bind_ok in H as (t & E & H). apply (IH (i + 1)%Z t s'); [lia|lia|exact H|].
    eapply table_step; eauto; lia.
Qed.

Lemma table_all table :
  LUTshad solparam timecorr lat dem mask lats lons STEP TCART = Ok table -> table_inv total table.
Proof.
  pose proof kpos as Pk. pose proof Hm1 as M1. unfold LUTshad. rewrite fdiv_ok by lra. cbn [bind].
  replace (366 * (3600 / STEP) * 24) with (IZR total).
  2:{ unfold total. rewrite mult_IZR. replace (366 * (3600 / STEP) * 24) with (366 * 24 * / IZR k) by (field; lra).
      rewrite inv_k. field. }
  rewrite py_int_int by (unfold total; lia). destruct (Z.ltb_spec total 0); [unfold total in *; lia|].
  fold blank. unfold for_range. intros HL.
  assert (K: (fun j s => table_inv (j * m) s) (0 + Z.of_nat (Z.to_nat (366 - 0)))%Z table).
  { eapply (for_loop_inv (fun j s => table_inv (j * m) s)); [| |exact HL].
    - intros doy s s' Hd I0 E. replace (0 + Z.of_nat (Z.to_nat (366 - 0)))%Z with 366%Z in Hd by lia.
      apply bind_ok in E as (soldec & Es & E). apply bind_ok in E as (tcorr & Et & E). rewrite hours_exact in E.
      cbn [bind] in E. replace ((doy + 1) * m)%Z with (doy * m + m)%Z by ring.
      eapply (table_hours soldec tcorr doy Hd Es Et (Z.to_nat m) 0%Z); [lia|lia|exact E|].
      rewrite Z.add_0_r. exact I0.
    - split; [rewrite repeat_length; reflexivity|]. split; [intros doy i Hd Hi L; nia|].
      intros t Ht. apply nth_repeat_lt. lia. }
  cbv beta in K. replace ((0 + Z.of_nat (Z.to_nat (366 - 0))) * m)%Z with total in K by (unfold total; lia). exact K.
Qed.
End Table.
