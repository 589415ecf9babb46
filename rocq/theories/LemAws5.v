(** * Lemmas on the spatial window of the gridded conversion *)
From Verif Require Import ModelPy ModelConstants ModelNode ModelGrid ModelHeat ModelSurface ModelInit
  ModelCore ModelConfig ModelIO ModelMain ModelRadCor SpecIO SpecRadCor ModelAws SpecAws.
From Verif Require Import LemPy LemDict LemIO LemIO4 LemIO5 LemShad LemShad3 LemShad4 LemShad5 LemAws LemAws2 LemAws3 LemAws4.
From Coq Require Import Sorted.

Lemma pick_map {A B} (f : A -> B) k l : pick k (map f l) = map f (pick k l).
Proof. revert l. induction k as [|[] k IH]; intros [|a l]; cbn; auto. rewrite IH. reflexivity. Qed.

(** positions kept *)
Definition kept_at (k : list bool) : list nat := pick k (seq 0 (length k)).

Lemma seq_values {A} (l : list A) d : l = map (fun i => nth i l d) (seq 0 (length l)).
Proof.
  apply nth_error_ext'; [rewrite map_length, seq_length; reflexivity|]. intros i Hi.
  rewrite nth_error_map. rewrite (nth_error_nth' l d Hi).
  rewrite (nth_error_nth' (seq 0 (length l)) 0%nat) by (rewrite seq_length; exact Hi). cbn [option_map].
  rewrite seq_nth by exact Hi. reflexivity.
Qed.

Lemma pick_values {A} (k : list bool) (l : list A) d : length k = length l ->
  pick k l = map (fun i => nth i l d) (kept_at k).
Proof.
  intros H. unfold kept_at. rewrite H. rewrite (seq_values l d) at 1. apply pick_map.
Qed.

Lemma pick_sub {A} k (l : list A) x : In x (pick k l) -> In x l.
Proof. revert l. induction k as [|[] k IH]; intros [|a l]; cbn; auto; try tauto. intros [->|H]; auto. Qed.

Lemma kept_lt k i : In i (kept_at k) -> (i < length k)%nat.
Proof. intros H. apply pick_sub in H. apply in_seq in H. lia. Qed.

Lemma pick_seq_in k : forall lo i, In i (pick k (seq lo (length k))) <-> (lo <= i)%nat /\ nth_error k (i - lo) = Some true.
Proof.
  induction k as [|b k IH]; intros lo i.
  - cbn. split; [tauto|]. intros [_ H]. destruct (i - lo)%nat; discriminate.
  - cbn [length seq]. destruct b; cbn [pick In]; rewrite IH.
    + split.
      * intros [->|[H1 H2]]; [split; [lia|rewrite Nat.sub_diag; reflexivity]|].
        split; [lia|]. replace (i - lo)%nat with (S (i - S lo)) by lia. exact H2.
      * intros [H1 H2]. destruct (Nat.eq_dec lo i) as [->|NE]; [left; reflexivity|right]. split; [lia|].
        replace (i - lo)%nat with (S (i - S lo)) in H2 by lia. exact H2.
    + split.
      * intros [H1 H2]. split; [lia|]. replace (i - lo)%nat with (S (i - S lo)) by lia. exact H2.
      * intros [H1 H2]. destruct (Nat.eq_dec lo i) as [->|NE]; [rewrite Nat.sub_diag in H2; discriminate|]. split; [lia|].
        replace (i - lo)%nat with (S (i - S lo)) in H2 by lia. exact H2.
Qed.

Lemma kept_in k i : In i (kept_at k) <-> nth_error k i = Some true.
Proof. unfold kept_at. rewrite pick_seq_in, Nat.sub_0_r. split; [tauto|split; [lia|auto]]. Qed.

Lemma pick_sorted {A} (R : A -> A -> Prop) k l : StronglySorted R l -> StronglySorted R (pick k l).
Proof.
  intros H. revert k. induction H as [|a l HS IH HF]; intros [|[] k]; cbn; try constructor; auto.
  apply Forall_forall. intros x HI. apply pick_sub in HI. rewrite Forall_forall in HF. auto.
Qed.
Lemma seq_sorted n : forall lo, StronglySorted lt (seq lo n).
Proof.
  induction n as [|n IH]; intros lo; cbn; constructor; auto. apply Forall_forall. intros x HI. apply in_seq in HI. lia.
Qed.
Lemma kept_sorted k : StronglySorted lt (kept_at k).
Proof. apply pick_sorted, seq_sorted. Qed.

Lemma pick_length {A B} k (l : list A) (m : list B) : length l = length m -> length (pick k l) = length (pick k m).
Proof. revert l m. induction k as [|[] k IH]; intros [|a l] [|b m] H; cbn in *; try discriminate; auto. Qed.

Lemma pick_all {A} k (l : list A) : length k = length l -> (forall b, In b k -> b = true) -> pick k l = l.
Proof.
  revert l. induction k as [|b k IH]; intros [|a l] H HB; cbn in *; try discriminate; auto.
  rewrite (HB b) by auto. f_equal. apply IH; auto.
Qed.

(** ** Rasters *)
Lemma pick_raster_sized {A B C} ky kx (a : raster A) (ly : list B) (lx : list C) : sized a (length ly) (length lx) ->
  sized (pick_raster ky kx a) (length (pick ky ly)) (length (pick kx lx)).
Proof.
  intros [H1 H2]. unfold pick_raster. split.
  - rewrite map_length. apply pick_length. exact H1.
  - apply Forall_forall. intros row HI. apply in_map_iff in HI. destruct HI as (r & <- & HI). apply pick_sub in HI.
    rewrite Forall_forall in H2. apply pick_length. apply H2. exact HI.
Qed.

Lemma pick_raster_at {A B C} ky kx (a : raster A) (ly : list B) (lx : list C) y x i j : sized a (length ly) (length lx) ->
  length ky = length ly -> length kx = length lx ->
  nth_error (kept_at ky) y = Some i -> nth_error (kept_at kx) x = Some j ->
  cell_at (pick_raster ky kx a) (Z.of_nat y) (Z.of_nat x) = cell_at a (Z.of_nat i) (Z.of_nat j).
Proof.
  intros [H1 H2] K1 K2 E1 E2. unfold cell_at, pick_raster.
  assert (ZZ : forall n : nat, (0 <=? Z.of_nat n)%Z = true) by (intros n; apply Z.leb_le; lia).
  rewrite !ZZ. cbn [andb]. rewrite !Nat2Z.id. rewrite nth_error_map.
  rewrite (pick_values ky a []) by congruence. rewrite nth_error_map, E1. cbn [option_map].
  assert (I : (i < length a)%nat) by (rewrite H1, <- K1; apply kept_lt; eapply nth_error_In; eauto).
  rewrite (nth_error_nth' a [] I). set (row := nth i a []).
  assert (LR : length row = length lx). { rewrite Forall_forall in H2. apply H2. apply nth_In. exact I. }
  assert (J : (j < length row)%nat) by (rewrite LR, <- K2; apply kept_lt; eapply nth_error_In; eauto).
  destruct row as [|d t] eqn:ER; [cbn in J; lia|]. rewrite <- ER in *. clear ER.
  rewrite (pick_values kx row d) by congruence. rewrite nth_error_map, E2. cbn [option_map].
  rewrite (nth_error_nth' row d J). reflexivity.
Qed.

Lemma pick_raster_all {A} ky kx (a : raster A) ny nx : sized a ny nx -> length ky = ny -> length kx = nx ->
  (forall b, In b ky -> b = true) -> (forall b, In b kx -> b = true) -> pick_raster ky kx a = a.
Proof.
  intros [H1 H2] K1 K2 B1 B2. unfold pick_raster. rewrite pick_all by (auto; congruence).
  rewrite <- (map_id a) at 2. apply map_ext_in. intros r HI. apply pick_all; auto.
  rewrite Forall_forall in H2. rewrite (H2 r HI). exact K2.
Qed.

(** ** Labels *)
Lemma label_length l a b : length (label_slice l a b) = length l.
Proof. unfold label_slice. destruct (ascending_values l); apply map_length. Qed.

Lemma in_bounds_iff a b v : in_bounds a b v = true <-> within a b v.
Proof.
  unfold in_bounds, within. rewrite andb_true_iff.
  assert (L : forall x y, Rleb x y = true <-> x <= y) by (intros x y; unfold Rleb; destruct (Rle_dec x y); intuition congruence).
  destruct a as [a|], b as [b|]; rewrite ?L; split; intros [H1 H2]; split; auto;
    try (intros u E; injection E as <-; assumption); try (intros u E; discriminate).
Qed.

Lemma ascending_true l : StronglySorted Rlt l -> ascending_values l = true.
Proof.
  unfold ascending_values. induction 1 as [|a l HS IH HF]; [reflexivity|]. destruct l as [|b l]; [reflexivity|].
  cbn [tl combine forallb fst snd] in *. rewrite IH, andb_true_r. unfold Rleb. destruct (Rle_dec a b); [reflexivity|].
  inversion HF; subst. lra.
Qed.
Lemma ascending_false l : StronglySorted Rgt l -> (2 <= length l)%nat -> ascending_values l = false.
Proof.
  unfold ascending_values. intros H HL. destruct l as [|a [|b l]]; cbn in HL; try lia.
  inversion H as [|? ? _ HF]; subst. inversion HF; subst. cbn [tl combine forallb fst snd]. unfold Rleb.
  destruct (Rle_dec a b); [lra|reflexivity].
Qed.

Lemma kept_labels l a b i :
  (StronglySorted Rlt l -> (In i (kept_at (label_slice l a b)) <-> (i < length l)%nat /\ within a b (nth i l 0))) /\
  (StronglySorted Rgt l -> (2 <= length l)%nat ->
     (In i (kept_at (label_slice l a b)) <-> (i < length l)%nat /\ within b a (nth i l 0))).
Proof.
  assert (G : forall f : R -> bool, nth_error (map f l) i = Some true <-> (i < length l)%nat /\ f (nth i l 0) = true).
  { intros f. rewrite nth_error_map. destruct (lt_dec i (length l)) as [H|H].
    - rewrite (nth_error_nth' l 0 H). cbn. split; [intros E; injection E as E; auto|intros [_ ->]; reflexivity].
    - assert (N : nth_error l i = None) by (apply nth_error_None; lia). rewrite N. cbn. split; [discriminate|lia]. }
  split.
  - intros HS. rewrite kept_in. unfold label_slice. rewrite ascending_true by auto. rewrite G, in_bounds_iff. tauto.
  - intros HS HL. rewrite kept_in. unfold label_slice. rewrite ascending_false by auto. rewrite G, in_bounds_iff. tauto.
Qed.

Lemma label_all l b : In b (label_slice l None None) -> b = true.
Proof.
  unfold label_slice. destruct (ascending_values l); intros H; apply in_map_iff in H; destruct H as (v & <- & _); reflexivity.
Qed.

Lemma subset_shape st x0 x1 y0 y1 : static_shape st -> static_shape (subset st x0 x1 y0 y1).
Proof.
  unfold static_shape, subset. cbn [st_lats st_lons st_HGT st_SLOPE st_ASPECT st_MASK st_other].
  intros (H1 & H2 & H3 & H4 & H5). do 4 (split; [apply pick_raster_sized; assumption|]).
  apply Forall_map. eapply Forall_impl; [|exact H5]. intros [n r] H. cbn [fst snd] in *. apply pick_raster_sized. exact H.
Qed.

Lemma subset_plain st x0 x1 y0 y1 : plain_static st -> plain_static (subset st x0 x1 y0 y1).
Proof.
  unfold plain_static, subset. cbn [st_other]. intros H n MD. specialize (H n MD). revert H.
  generalize (st_other st). intros d. induction d as [|[m r] t IH]; cbn; auto. destruct (String.eqb m n); [discriminate|auto].
Qed.
