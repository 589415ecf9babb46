(** * Lemmas on the plots of results *)
From Verif Require Import ModelPy ModelConstants ModelNode ModelGrid ModelHeat ModelSurface ModelInit
  ModelCore ModelConfig ModelIO ModelMain ModelRadCor ModelAws ModelSetup ModelPost SpecPost.
From Verif Require Import LemPy LemSurface LemIO5 LemAws4 LemShad LemShad2.

Lemma Rltb_cases a b : (Rltb a b = true /\ a < b) \/ (Rltb a b = false /\ b <= a).
Proof. unfold Rltb. destruct (Rlt_dec a b); [left|right]; split; auto; lra. Qed.

(** ** nanargmin *)
Lemma nanargmin_from_spec l : forall best i0,
  match nanargmin_from best i0 l with
  | None => best = None /\ forall j b, ~ is_number l j b
  | Some (i, a) =>
      (best = Some (i, a) /\ forall j b, is_number l j b -> a <= b) \/
      (exists k, i = (i0 + k)%nat /\ is_number l k a /\
         (forall j b, best = Some (j, b) -> a < b) /\
         forall j b, is_number l j b -> a <= b /\ ((j < k)%nat -> a < b))
  end.
Proof.
  induction l as [|x t IH]; intros best i0; cbn [nanargmin_from].
  - destruct best as [[i a]|].
    + left. split; [reflexivity|]. intros [|j] b H; discriminate.
    + split; [reflexivity|]. intros [|j] b H; discriminate.
  - destruct x as [x|].
    + set (best' := match best with Some (j, b) => if Rltb x b then Some (i0, x) else Some (j, b) | None => Some (i0, x) end).
      specialize (IH best' (S i0)). destruct (nanargmin_from best' (S i0) t) as [[i a]|] eqn:E.
      * destruct IH as [[B H]|(k & -> & N & B & H)].
        -- unfold best' in B. destruct best as [[j b]|].
           ++ destruct (Rltb_cases x b) as [[E1 L]|[E1 L]]; rewrite E1 in B; injection B as <- <-.
              ** right. exists 0%nat. split; [lia|]. split; [reflexivity|]. split; [intros ? ? [= <- <-]; exact L|].
                 intros [|j'] b' HB; [injection HB as <-; split; [lra|lia]|]. split; [apply (H j'); exact HB|lia].
              ** left. split; [reflexivity|]. intros [|j'] b' HB; [injection HB as <-; lra|]. apply (H j'); exact HB.
           ++ injection B as <- <-. right. exists 0%nat. split; [lia|]. split; [reflexivity|]. split; [discriminate|].
              intros [|j'] b' HB; [injection HB as <-; split; [lra|lia]|]. split; [apply (H j'); exact HB|lia].
        -- right. exists (S k). split; [lia|]. split; [exact N|].
           assert (AX : a < x /\ forall j b, best = Some (j, b) -> a < b).
           { unfold best' in B. destruct best as [[j b]|].
             - destruct (Rltb_cases x b) as [[E1 L]|[E1 L]]; rewrite E1 in B.
               + pose proof (B _ _ eq_refl). split; [lra|]. intros ? ? [= <- <-]. lra.
               + pose proof (B _ _ eq_refl). split; [lra|]. intros ? ? [= <- <-]. lra.
             - split; [apply (B _ _ eq_refl)|discriminate]. }
           split; [apply AX|]. intros [|j] b HB.
           ++ injection HB as <-. split; [lra|intros; apply AX].
           ++ destruct (H j b HB) as [H1 H2]. split; [exact H1|]. intros. apply H2. lia.
      * destruct IH as [B _]. exfalso. unfold best' in B. destruct best as [[j b]|]; [destruct (Rltb x b)|]; discriminate.
    + specialize (IH best (S i0)). destruct (nanargmin_from best (S i0) t) as [[i a]|].
      * destruct IH as [[B H]|(k & -> & N & B & H)].
        -- left. split; [exact B|]. intros [|j] b HB; [discriminate|]. apply (H j). exact HB.
        -- right. exists (S k). split; [lia|]. split; [exact N|]. split; [exact B|].
           intros [|j] b HB; [discriminate|]. destruct (H j b HB) as [H1 H2]. split; [exact H1|]. intros; apply H2; lia.
      * destruct IH as [B H]. split; [exact B|]. intros [|j] b HB; [discriminate|]. apply (H j b HB).
Qed.

Lemma nanargmin_ok l i : nanargmin l = Ok i <->
  exists a, is_number l i a /\ forall j b, is_number l j b -> a <= b /\ ((j < i)%nat -> a < b).
Proof.
  unfold nanargmin. pose proof (nanargmin_from_spec l None 0) as S0.
  destruct (nanargmin_from None 0 l) as [[k a]|].
  - destruct S0 as [[E _]|(k' & -> & N & _ & H)]; [discriminate|]. cbn [plus]. split.
    + intros [= <-]. exists a. auto.
    + intros (a' & N' & H'). f_equal.
      destruct (H _ _ N') as [P1 P2]. destruct (H' _ _ N) as [Q1 Q2].
      destruct (Nat.lt_trichotomy k' i) as [L|[L|L]]; [|exact L|]; [specialize (Q2 L)|specialize (P2 L)]; lra.
  - destruct S0 as [_ H]. split; [discriminate|]. intros (a & N & _). destruct (H _ _ N).
Qed.

Lemma nanargmin_err l e : nanargmin l = Err e <-> e = ValueError /\ forall j b, ~ is_number l j b.
Proof.
  unfold nanargmin. pose proof (nanargmin_from_spec l None 0) as S0.
  destruct (nanargmin_from None 0 l) as [[k a]|].
  - destruct S0 as [[E _]|(k' & -> & N & _ & H)]; [discriminate|]. split; [discriminate|].
    intros [_ F]. destruct (F _ _ N).
  - destruct S0 as [_ H]. split; [intros [= <-]; auto|intros [-> _]; reflexivity].
Qed.

Lemma is_number_map (f : R -> R) l i b : is_number (map (option_map f) l) i b <-> exists a, is_number l i a /\ b = f a.
Proof.
  unfold is_number, number in *. rewrite nth_error_map. destruct (nth_error l i) as [[a|]|]; cbn.
  - split; [intros [= <-]; eauto|intros (a' & E & ->); inversion E; reflexivity].
  - split; [discriminate|intros (a' & E & _); discriminate].
  - split; [discriminate|intros (a' & E & _); discriminate].
Qed.

Lemma find_nearest_ok l v i x : find_nearest l v = Ok (i, x) <-> exists a, x = Some a /\ first_nearest l v i a.
Proof.
  unfold find_nearest. destruct (nanargmin (map (option_map (fun a => Rabs (a - v))) l)) as [k|e] eqn:E; cbn [bind].
  - apply nanargmin_ok in E. destruct E as (b & N & H). apply is_number_map in N. destruct N as (a & N & ->).
    assert (FN : first_nearest l v k a).
    { split; [exact N|]. intros j b NB. apply (H j (Rabs (b - v))). apply is_number_map. eauto. }
    split.
    + intros [= <- <-]. exists a. split; [|exact FN]. unfold is_number in N. exact (nth_error_nth _ _ _ N).
    + intros (a' & -> & N' & H'). destruct FN as [_ F]. destruct (F _ _ N') as [P1 P2]. destruct (H' _ _ N) as [Q1 Q2].
      assert (k = i) as ->.
      { destruct (Nat.lt_trichotomy k i) as [L|[L|L]]; [|exact L|]; [specialize (Q2 L)|specialize (P2 L)]; lra. }
      do 2 f_equal. exact (nth_error_nth _ _ _ N').
  - apply nanargmin_err in E. destruct E as [_ H]. split; [discriminate|]. intros (a & _ & N & _).
    destruct (H i (Rabs (a - v))). apply is_number_map. eauto.
Qed.

Lemma find_nearest_err l v e : find_nearest l v = Err e <-> e = ValueError /\ forall j b, ~ is_number l j b.
Proof.
  unfold find_nearest. destruct (nanargmin (map (option_map (fun a => Rabs (a - v))) l)) as [k|e'] eqn:E; cbn [bind].
  - apply nanargmin_ok in E. destruct E as (b & N & H). apply is_number_map in N. destruct N as (a & N & ->).
    split; [discriminate|]. intros [_ F]. destruct (F _ _ N).
  - apply nanargmin_err in E. destruct E as [-> H]. split.
    + intros [= <-]. split; [reflexivity|]. intros j b N. apply (H j (Rabs (b - v))). apply is_number_map. eauto.
    + intros [-> _]. reflexivity.
Qed.

(** ** Cumulated heights *)
Lemma cumsum_none n : number_cumsum_from None (repeat None n) = repeat None n.
Proof. induction n; cbn; [reflexivity|]. rewrite IHn. reflexivity. Qed.
Lemma cumsum_none_some a n : number_cumsum_from (Some a) (repeat None n) = repeat None n.
Proof. destruct n; cbn; [reflexivity|]. rewrite cumsum_none. reflexivity. Qed.
Lemma cumsum_stored h n : forall a, number_cumsum_from (Some a) (stored h n) = stored (cumsum_from a h) n.
Proof.
  induction h as [|x t IH]; intros a; cbn; [apply cumsum_none_some|]. f_equal. apply (IH (a + x)).
Qed.

Lemma is_number_stored h n i a : is_number (stored h n) i a <-> (i < length h)%nat /\ a = nth i h 0.
Proof.
  unfold is_number, stored. destruct (Nat.lt_ge_cases i (length h)) as [L|L].
  - rewrite nth_error_app1 by (rewrite map_length; exact L). rewrite nth_error_map.
    rewrite (nth_error_nth' h 0 L). cbn. split; [intros [= <-]; auto|intros [_ ->]; reflexivity].
  - rewrite nth_error_app2 by (rewrite map_length; exact L). split; [|lia].
    intros H. apply nth_error_In in H. apply repeat_spec in H. discriminate.
Qed.

Lemma cumsum_top h k : (k < length h)%nat -> nth k (cumsum_from 0 h) 0 = layer_top h (S k).
Proof. intros H. rewrite cumsum_from_nth by exact H. unfold layer_top. lra. Qed.

Lemma layer_top_S h k : (k < length h)%nat -> layer_top h (S k) = layer_top h k + nth k h 0.
Proof.
  unfold layer_top. revert k. induction h as [|x t IH]; intros k H; cbn in H; [lia|].
  destruct k as [|k].
  - cbn [firstn nth]. rewrite sum_list_cons. unfold sum_list. cbn. lra.
  - change (firstn (S (S k)) (x :: t)) with (x :: firstn (S k) t). change (firstn (S k) (x :: t)) with (x :: firstn k t).
    rewrite !sum_list_cons. cbn [nth]. rewrite IH by lia. lra.
Qed.
Lemma layer_top_0 h : layer_top h 0 = 0.
Proof. reflexivity. Qed.

Lemma layer_top_lt h : Forall (fun x => 0 < x) h -> forall i j, (i < j)%nat -> (j <= length h)%nat -> layer_top h i < layer_top h j.
Proof.
  intros P i j. induction 1 as [|j L IH]; intros HJ.
  - rewrite layer_top_S by lia. assert (0 < nth i h 0) by (rewrite Forall_forall in P; apply P; apply nth_In; lia). lra.
  - rewrite layer_top_S by lia. assert (0 < nth j h 0) by (rewrite Forall_forall in P; apply P; apply nth_In; lia).
    assert (layer_top h i < layer_top h j) by (apply IH; lia). lra.
Qed.

Lemma layer_top_le h : Forall (fun x => 0 < x) h -> forall i j, (i <= j)%nat -> (j <= length h)%nat -> layer_top h i <= layer_top h j.
Proof. intros P i j L HJ. destruct (Nat.eq_dec i j) as [->|N]; [lra|]. apply Rlt_le. apply layer_top_lt; auto; lia. Qed.

(** every depth from 0 on is held by exactly one layer *)
Lemma holds_exists h d : Forall (fun x => 0 < x) h -> h <> [] -> 0 <= d -> exists k, holds_depth h k d.
Proof.
  intros P N D. 
  assert (G : forall m, (m <= length h)%nat -> (exists k, (k < m)%nat /\ layer_top h k <= d < layer_top h (S k)) \/ layer_top h m <= d).
  { induction m as [|m IH]; intros HM; [right; rewrite layer_top_0; exact D|].
    destruct IH as [(k & K & H)|H]; [lia|left; exists k; split; [lia|exact H]|].
    destruct (Rlt_le_dec d (layer_top h (S m))); [left; exists m; split; [lia|lra]|right; lra]. }
  destruct (G (length h) (le_n _)) as [(k & K & H)|H].
  - exists k. split; [exact K|]. split; [apply H|]. left. apply H.
  - destruct h as [|x t]; [congruence|]. exists (length t). split; [cbn; lia|]. split; [|right; reflexivity].
    eapply Rle_trans; [|exact H]. apply layer_top_le; auto; cbn; lia.
Qed.

Lemma holds_unique h d k k' : Forall (fun x => 0 < x) h -> holds_depth h k d -> holds_depth h k' d -> k = k'.
Proof.
  intros P (K & L & U) (K' & L' & U').
  destruct (Nat.lt_trichotomy k k') as [X|[X|X]]; auto; exfalso.
  - assert (layer_top h (S k) <= layer_top h k') by (apply layer_top_le; auto; lia). destruct U as [U|U]; [lra|lia].
  - assert (layer_top h (S k') <= layer_top h k) by (apply layer_top_le; auto; lia). destruct U' as [U'|U']; [lra|lia].
Qed.

(** ** The interface next to a depth *)

(** interfaces including the surface *)
Lemma nearest_interface h d k : Forall (fun x => 0 < x) h -> holds_depth h k d ->
  let m := if Rle_dec (d - layer_top h k) (layer_top h (S k) - d) then k else S k in
  forall j, (j <= length h)%nat ->
    Rabs (layer_top h m - d) <= Rabs (layer_top h j - d) /\
    ((j < m)%nat -> Rabs (layer_top h m - d) < Rabs (layer_top h j - d)).
Proof.
  intros P (K & L & U) m j HJ.
  assert (TK : layer_top h k < layer_top h (S k)) by (apply layer_top_lt; auto; lia).
  assert (JL : (j < k)%nat -> layer_top h j < layer_top h k) by (intros; apply layer_top_lt; auto; lia).
  assert (JU : (S k < j)%nat -> layer_top h (S k) < layer_top h j) by (intros; apply layer_top_lt; auto).
  unfold m. destruct (Rle_dec (d - layer_top h k) (layer_top h (S k) - d)) as [C|C].
  - destruct (Nat.lt_trichotomy j k) as [X|[->|X]].
    + specialize (JL X). rewrite !Rabs_left1 by lra. split; intros; lra.
    + split; [lra|lia].
    + split; [|lia]. destruct (Nat.eq_dec j (S k)) as [->|Y].
      * rewrite (Rabs_left1 (layer_top h k - d)) by lra. unfold Rabs. destruct (Rcase_abs _); lra.
      * specialize (JU ltac:(lia)). rewrite (Rabs_left1 (layer_top h k - d)) by lra. unfold Rabs. destruct (Rcase_abs _); lra.
  - destruct (Nat.lt_trichotomy j (S k)) as [X|[->|X]].
    + assert (layer_top h j <= layer_top h k) by (destruct (Nat.eq_dec j k) as [->|]; [lra|specialize (JL ltac:(lia)); lra]).
      rewrite (Rabs_left1 (layer_top h j - d)) by lra. split; intros; unfold Rabs; destruct (Rcase_abs _); lra.
    + split; [lra|lia].
    + split; [|lia]. destruct U as [U|U]; [|lia]. specialize (JU X). rewrite !Rabs_right by lra. lra.
Qed.

(** the position of the interface next to a depth, the upper one of two *)
Lemma interface_in_range h d k : (k < length h)%nat ->
  ((if Rle_dec (d - layer_top h k) (layer_top h (S k) - d) then k else S k) <= length h)%nat.
Proof. intros. destruct (Rle_dec _ _); lia. Qed.

Lemma stored_cons x h n : Some x :: stored h n = stored (x :: h) n.
Proof. reflexivity. Qed.

Lemma tops_nth h i : (i <= length h)%nat -> nth i (0 :: cumsum_from 0 h) 0 = layer_top h i.
Proof.
  destruct i as [|i]; intros H; [reflexivity|]. cbn [nth]. apply cumsum_top. exact H.
Qed.

(** with the surface as first entry *)
Lemma find_nearest_depth h n d k : Forall (fun x => 0 < x) h -> holds_depth h k d ->
  let m := if Rle_dec (d - layer_top h k) (layer_top h (S k) - d) then k else S k in
  find_nearest (Some 0 :: number_cumsum (stored h n)) d = Ok (m, Some (layer_top h m)).
Proof.
  intros P K m. apply find_nearest_ok. exists (layer_top h m). split; [reflexivity|].
  unfold number_cumsum. rewrite cumsum_stored, stored_cons.
  assert (M : (m <= length h)%nat) by (apply interface_in_range; apply K).
  split.
  - apply is_number_stored. cbn [length]. rewrite cumsum_from_length. split; [lia|]. rewrite tops_nth by exact M. reflexivity.
  - intros j b N. apply is_number_stored in N. cbn [length] in N. rewrite cumsum_from_length in N. destruct N as [L ->].
    rewrite tops_nth by lia. apply (nearest_interface h d k P K). lia.
Qed.

(** without the surface, in heights above the base of the snow *)
Lemma find_nearest_height h n s y k : Forall (fun x => 0 < x) h -> holds_depth h k (s - y) -> y < s ->
  let m := if Rle_dec (s - y - layer_top h k) (layer_top h (S k) - (s - y)) then k else S k in
  exists v, find_nearest (map (above_base (Some s)) (number_cumsum (stored h n))) y = Ok (pred m, v).
Proof.
  intros P K Y m.
  assert (E : map (above_base (Some s)) (number_cumsum (stored h n)) = stored (map (fun x => - (x - s)) (cumsum_from 0 h)) n).
  { unfold number_cumsum. rewrite cumsum_stored. unfold stored. rewrite map_app, !map_map. f_equal.
    generalize n. intros q. induction q; cbn; [reflexivity|]. f_equal. exact IHq. }
  rewrite E.
  assert (NT : forall j, (j < length h)%nat -> nth j (map (fun x => - (x - s)) (cumsum_from 0 h)) 0 = s - layer_top h (S j)).
  { intros j L. rewrite (nth_indep _ _ ((fun x => - (x - s)) 0)) by (rewrite map_length, cumsum_from_length; exact L).
    rewrite (map_nth (fun x => - (x - s))). rewrite cumsum_top by exact L. lra. }
  assert (KL := proj1 K).
  assert (M : (m <= length h)%nat) by (apply interface_in_range; exact KL).
  assert (PM : (pred m < length h)%nat) by lia.
  exists (Some (s - layer_top h (S (pred m)))). apply find_nearest_ok. eexists. split; [reflexivity|].
  split.
  - apply is_number_stored. rewrite map_length, cumsum_from_length. split; [exact PM|]. rewrite NT by exact PM. reflexivity.
  - intros j b N. apply is_number_stored in N. rewrite map_length, cumsum_from_length in N. destruct N as [L ->].
    rewrite NT by exact L.
    assert (AB : forall q, Rabs (s - layer_top h q - y) = Rabs (layer_top h q - (s - y))).
    { intros q. rewrite <- Rabs_Ropp. f_equal. lra. }
    rewrite !AB. destruct m as [|m'] eqn:EM.
    + cbn [pred]. assert (k = 0)%nat as -> by (unfold m in EM; destruct (Rle_dec _ _); [exact EM|discriminate]).
      destruct K as (_ & K1 & K2). assert (T : layer_top h 1 < layer_top h (S j) \/ j = 0%nat).
      { destruct j; [auto|left; apply layer_top_lt; auto; lia]. }
      unfold m in EM. destruct (Rle_dec _ _) as [C|C]; [|discriminate]. clear EM.
      destruct T as [T| ->]; [|split; [lra|lia]]. split; [|lia].
      assert (s - y <= layer_top h 1). { rewrite layer_top_0 in *. lra. }
      rewrite !Rabs_right by lra. lra.
    + cbn [pred]. destruct (nearest_interface h (s - y) k P K (S j) ltac:(lia)) as [Q1 Q2]. fold m in Q1, Q2. rewrite EM in Q1, Q2.
      split; [exact Q1|]. intros; apply Q2. lia.
Qed.
