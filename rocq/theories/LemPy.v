(** * Lemmas about the runtime conventions of ModelPy *)
From Verif Require Import ModelPy.

(** ** Boolean comparisons *)
Lemma Rltb_spec (a b : R) : reflect (a < b) (Rltb a b).
Proof. unfold Rltb; destruct (Rlt_dec a b); constructor; assumption. Qed.
Lemma Rleb_spec (a b : R) : reflect (a <= b) (Rleb a b).
Proof. unfold Rleb; destruct (Rle_dec a b); constructor; assumption. Qed.
Lemma Reqb_spec (a b : R) : reflect (a = b) (Reqb a b).
Proof. unfold Reqb; destruct (Req_EM_T a b); constructor; assumption. Qed.

Lemma Rltb_true (a b : R) : a < b -> Rltb a b = true.
Proof. intros H; destruct (Rltb_spec a b); [reflexivity | contradiction]. Qed.
Lemma Rltb_false (a b : R) : b <= a -> Rltb a b = false.
Proof. intros H; destruct (Rltb_spec a b); [lra | reflexivity]. Qed.
Lemma Rleb_true (a b : R) : a <= b -> Rleb a b = true.
Proof. intros H; destruct (Rleb_spec a b); [reflexivity | contradiction]. Qed.
Lemma Rleb_false (a b : R) : b < a -> Rleb a b = false.
Proof. intros H; destruct (Rleb_spec a b); [lra | reflexivity]. Qed.
Lemma Reqb_true (a b : R) : a = b -> Reqb a b = true.
Proof. intros H; destruct (Reqb_spec a b); [reflexivity | contradiction]. Qed.
Lemma Reqb_false (a b : R) : a <> b -> Reqb a b = false.
Proof. intros H; destruct (Reqb_spec a b); [contradiction | reflexivity]. Qed.

Lemma fdiv_ok (a b : R) : b <> 0 -> fdiv a b = Ok (a / b).
Proof. intros H; unfold fdiv; destruct (Req_EM_T b 0); [contradiction | reflexivity]. Qed.
Lemma fdiv_zero (a : R) : fdiv a 0 = Err ZeroDivisionError.
Proof. unfold fdiv; destruct (Req_EM_T 0 0); [reflexivity | congruence]. Qed.
Lemma fdiv_inv (a b q : R) : fdiv a b = Ok q -> b <> 0 /\ q = a / b.
Proof.
  unfold fdiv; destruct (Req_EM_T b 0) as [E|E]; intros H; [discriminate|].
  split; [exact E | congruence].
Qed.

(** ** Monad inversion *)
Lemma bind_ok {A B} (m : res A) (k : A -> res B) (b : B) :
  bind m k = Ok b -> exists a, m = Ok a /\ k a = Ok b.
Proof. destruct m as [a|e]; cbn; intros H; [eauto | discriminate]. Qed.

Ltac inv_bind H :=
  let a := fresh "a" in let E := fresh "E" in
  apply bind_ok in H; destruct H as [a [E H]].

(** ** Lists with Python indices *)
Lemma py_index_nat (n k : nat) : (k < n)%nat -> py_index n (Z.of_nat k) = Some k.
Proof.
  intros H; unfold py_index.
  replace ((0 <=? Z.of_nat k)%Z && (Z.of_nat k <? Z.of_nat n)%Z) with true.
  - now rewrite Nat2Z.id.
  - symmetry; apply andb_true_iff; split; [apply Z.leb_le | apply Z.ltb_lt]; lia.
Qed.

Lemma py_index_inv (n : nat) (i : Z) (k : nat) :
  py_index n i = Some k ->
  (k < n)%nat /\ (i = Z.of_nat k \/ i = Z.of_nat k - Z.of_nat n)%Z.
Proof.
  unfold py_index.
  destruct ((0 <=? i)%Z && (i <? Z.of_nat n)%Z) eqn:E1.
  - apply andb_true_iff in E1; destruct E1 as [Ha Hb].
    apply Z.leb_le in Ha; apply Z.ltb_lt in Hb.
    intros H; injection H as <-; lia.
  - destruct ((- Z.of_nat n <=? i)%Z && (i <? 0)%Z) eqn:E2; [|discriminate].
    apply andb_true_iff in E2; destruct E2 as [Ha Hb].
    apply Z.leb_le in Ha; apply Z.ltb_lt in Hb.
    intros H; injection H as <-; lia.
Qed.

Lemma py_index_nonneg (n : nat) (i : Z) :
  (0 <= i)%Z -> py_index n i = if (i <? Z.of_nat n)%Z then Some (Z.to_nat i) else None.
Proof.
  intros H; unfold py_index.
  replace (0 <=? i)%Z with true by (symmetry; apply Z.leb_le; lia).
  cbn [andb].
  destruct (i <? Z.of_nat n)%Z; [reflexivity|].
  replace (i <? 0)%Z with false by (symmetry; apply Z.ltb_ge; lia).
  now rewrite andb_false_r.
Qed.

Lemma py_index_oob (n : nat) (i : Z) :
  (Z.of_nat n <= i \/ i < - Z.of_nat n)%Z -> py_index n i = None.
Proof.
  intros H; unfold py_index.
  destruct ((0 <=? i)%Z && (i <? Z.of_nat n)%Z) eqn:E1.
  - apply andb_true_iff in E1; destruct E1 as [Ha Hb].
    apply Z.leb_le in Ha; apply Z.ltb_lt in Hb; lia.
  - destruct ((- Z.of_nat n <=? i)%Z && (i <? 0)%Z) eqn:E2; [|reflexivity].
    apply andb_true_iff in E2; destruct E2 as [Ha Hb].
    apply Z.leb_le in Ha; apply Z.ltb_lt in Hb; lia.
Qed.

Lemma py_index_neg (n k : nat) : (0 < k <= n)%nat ->
  py_index n (- Z.of_nat k) = Some (n - k)%nat.
Proof.
  intros H; unfold py_index.
  replace (0 <=? - Z.of_nat k)%Z with false by (symmetry; apply Z.leb_gt; lia).
  cbn [andb].
  replace ((- Z.of_nat n <=? - Z.of_nat k)%Z && (- Z.of_nat k <? 0)%Z) with true.
  - f_equal; lia.
  - symmetry; apply andb_true_iff; split; [apply Z.leb_le | apply Z.ltb_lt]; lia.
Qed.

Lemma nth_error_split_exact {A} (l : list A) (k : nat) (x : A) :
  nth_error l k = Some x -> exists pre post, l = pre ++ x :: post /\ length pre = k.
Proof. apply nth_error_split. Qed.

Lemma split_at {A} (l : list A) (k : nat) :
  (k < length l)%nat -> exists pre x post, l = pre ++ x :: post /\ length pre = k.
Proof.
  intros H.
  destruct (nth_error l k) as [x|] eqn:E.
  - apply nth_error_split in E; destruct E as [pre [post [E1 E2]]]; eauto 6.
  - apply nth_error_None in E; lia.
Qed.

Lemma py_get_mid {A} (pre post : list A) (x : A) :
  py_get (pre ++ x :: post) (Z.of_nat (length pre)) = Ok x.
Proof.
  unfold py_get. rewrite py_index_nat.
  - rewrite nth_error_app2 by lia. now rewrite Nat.sub_diag.
  - rewrite app_length; cbn; lia.
Qed.

Lemma py_get_nth {A} (l : list A) (k : nat) (x : A) :
  nth_error l k = Some x -> py_get l (Z.of_nat k) = Ok x.
Proof.
  intros H. apply nth_error_split in H; destruct H as [pre [post [-> <-]]].
  apply py_get_mid.
Qed.

Lemma py_get_inv {A} (l : list A) (i : Z) (x : A) :
  py_get l i = Ok x ->
  exists pre post, l = pre ++ x :: post /\
    (i = Z.of_nat (length pre) \/ i = Z.of_nat (length pre) - Z.of_nat (length l))%Z.
Proof.
  unfold py_get. destruct (py_index (length l) i) as [k|] eqn:E; [|discriminate].
  destruct (nth_error l k) as [y|] eqn:En; [|discriminate].
  intros H; injection H as ->.
  apply py_index_inv in E; destruct E as [Hk Hi].
  apply nth_error_split in En; destruct En as [pre [post [-> <-]]].
  eauto 6.
Qed.

Lemma py_get_pos_inv {A} (l : list A) (i : Z) (x : A) :
  (0 <= i)%Z -> py_get l i = Ok x ->
  exists pre post, l = pre ++ x :: post /\ i = Z.of_nat (length pre).
Proof.
  intros Hi H. apply py_get_inv in H. destruct H as [pre [post [-> [H|H]]]].
  - eauto.
  - rewrite app_length in H; cbn in H; lia.
Qed.

Lemma py_get_err {A} (l : list A) (i : Z) (e : exn) :
  py_get l i = Err e -> e = IndexError /\
  (Z.of_nat (length l) <= i \/ i < - Z.of_nat (length l))%Z.
Proof.
  unfold py_get, py_index.
  destruct ((0 <=? i)%Z && (i <? Z.of_nat (length l))%Z) eqn:E1.
  - apply andb_true_iff in E1; destruct E1 as [Ha Hb].
    apply Z.leb_le in Ha; apply Z.ltb_lt in Hb.
    destruct (nth_error l (Z.to_nat i)) eqn:En; [discriminate|].
    apply nth_error_None in En; lia.
  - destruct ((- Z.of_nat (length l) <=? i)%Z && (i <? 0)%Z) eqn:E2.
    + apply andb_true_iff in E2; destruct E2 as [Ha Hb].
      apply Z.leb_le in Ha; apply Z.ltb_lt in Hb.
      destruct (nth_error l (Z.to_nat (Z.of_nat (length l) + i))) eqn:En; [discriminate|].
      apply nth_error_None in En; lia.
    + intros H; injection H as <-; split; [reflexivity|].
      apply andb_false_iff in E1; apply andb_false_iff in E2.
      rewrite Z.leb_gt, Z.ltb_ge in E1, E2. lia.
Qed.

Lemma py_get_oob {A} (l : list A) (i : Z) :
  (Z.of_nat (length l) <= i \/ i < - Z.of_nat (length l))%Z ->
  py_get l i = Err IndexError.
Proof. intros H; unfold py_get; now rewrite py_index_oob. Qed.

Lemma list_update_mid {A} (f : A -> A) (pre post : list A) (x : A) :
  list_update (length pre) f (pre ++ x :: post) = pre ++ f x :: post.
Proof. induction pre as [|a pre IH]; cbn; congruence. Qed.

Lemma list_update_length {A} (f : A -> A) (l : list A) (k : nat) :
  length (list_update k f l) = length l.
Proof. revert k; induction l as [|a l IH]; intros [|k]; cbn; auto. Qed.

Lemma list_delete_mid {A} (pre post : list A) (x : A) :
  list_delete (length pre) (pre ++ x :: post) = pre ++ post.
Proof. induction pre as [|a pre IH]; cbn; congruence. Qed.

Lemma list_delete_length {A} (l : list A) (k : nat) :
  (k < length l)%nat -> length (list_delete k l) = (length l - 1)%nat.
Proof.
  revert k; induction l as [|a l IH]; intros [|k] H; cbn in *; try lia.
  rewrite IH by lia. lia.
Qed.

Lemma py_update_mid {A} (f : A -> A) (pre post : list A) (x : A) :
  py_update (pre ++ x :: post) (Z.of_nat (length pre)) f = Ok (pre ++ f x :: post).
Proof.
  unfold py_update. rewrite py_index_nat.
  - now rewrite list_update_mid.
  - rewrite app_length; cbn; lia.
Qed.

Lemma py_update_length {A} (f : A -> A) (l l' : list A) (i : Z) :
  py_update l i f = Ok l' -> length l' = length l.
Proof.
  unfold py_update. destruct (py_index (length l) i); [|discriminate].
  intros H; injection H as <-. apply list_update_length.
Qed.

Lemma py_del_mid {A} (pre post : list A) (x : A) :
  py_del (pre ++ x :: post) (Z.of_nat (length pre)) = Ok (pre ++ post).
Proof.
  unfold py_del. rewrite py_index_nat.
  - now rewrite list_delete_mid.
  - rewrite app_length; cbn; lia.
Qed.

Lemma py_del_length {A} (l l' : list A) (i : Z) :
  py_del l i = Ok l' -> (length l' = length l - 1 /\ 1 <= length l)%nat.
Proof.
  unfold py_del. destruct (py_index (length l) i) as [k|] eqn:E; [|discriminate].
  apply py_index_inv in E. intros H; injection H as <-.
  rewrite list_delete_length by lia. lia.
Qed.

Lemma py_insert_mid {A} (pre post : list A) (x : A) :
  py_insert (pre ++ post) (Z.of_nat (length pre)) x = pre ++ x :: post.
Proof.
  unfold py_insert.
  replace (Z.of_nat (length pre) <? 0)%Z with false by (symmetry; apply Z.ltb_ge; lia).
  rewrite app_length.
  rewrite Z.min_l by lia. rewrite Nat2Z.id.
  rewrite firstn_app, Nat.sub_diag, firstn_all, firstn_O, app_nil_r.
  rewrite skipn_app, Nat.sub_diag, skipn_all, skipn_O. reflexivity.
Qed.

Lemma py_insert_length {A} (l : list A) (i : Z) (x : A) :
  length (py_insert l i x) = S (length l).
Proof.
  unfold py_insert. rewrite app_length; cbn [length].
  rewrite firstn_length, skipn_length. lia.
Qed.

Lemma py_insert_0 {A} (l : list A) (x : A) : py_insert l 0 x = x :: l.
Proof. exact (py_insert_mid [] l x). Qed.

(** ** Loops *)
Lemma for_loop_app {S} (n m : nat) (i : Z) (body : Z -> S -> res S) (s : S) :
  for_loop (n + m) i body s =
  (s' <- for_loop n i body s ;; for_loop m (i + Z.of_nat n) body s').
Proof.
  revert i s; induction n as [|n IH]; intros i s.
  - cbn. now rewrite Z.add_0_r.
  - cbn [for_loop Nat.add]. destruct (body i s) as [s'|e]; cbn [bind]; [|reflexivity].
    rewrite IH. replace (i + 1 + Z.of_nat n)%Z with (i + Z.of_nat (Datatypes.S n))%Z by lia.
    reflexivity.
Qed.

Lemma for_loop_ext {S} (n : nat) (i : Z) (f g : Z -> S -> res S) (s : S) :
  (forall j t, f j t = g j t) -> for_loop n i f s = for_loop n i g s.
Proof.
  intros H; revert i s; induction n as [|n IH]; intros i s; [reflexivity|].
  cbn. rewrite H. destruct (g i s); cbn; auto.
Qed.

Lemma for_loop_inv {S} (I : Z -> S -> Prop) (n : nat) (i : Z)
  (body : Z -> S -> res S) (s s' : S) :
  (forall j t t', (i <= j < i + Z.of_nat n)%Z -> I j t -> body j t = Ok t' -> I (j + 1)%Z t') ->
  I i s -> for_loop n i body s = Ok s' -> I (i + Z.of_nat n)%Z s'.
Proof.
  revert i s; induction n as [|n IH]; intros i s Hb Hi H.
  - cbn in H. injection H as <-. now rewrite Z.add_0_r.
  - cbn [for_loop] in H. inv_bind H.
    replace (i + Z.of_nat (Datatypes.S n))%Z with (i + 1 + Z.of_nat n)%Z by lia.
    apply (IH (i + 1)%Z a); [|apply (Hb i s a); [lia|exact Hi|exact E] | exact H].
    intros j t t' Hj; apply Hb; lia.
Qed.

Lemma while_inv {S} (I : S -> Prop) (fuel : nat) (cond : S -> res bool)
  (body : S -> res S) (s s' : S) :
  (forall t t', I t -> cond t = Ok true -> body t = Ok t' -> I t') ->
  I s -> while_loop fuel cond body s = Ok s' -> I s' /\ cond s' = Ok false.
Proof.
  intros Hb; revert s; induction fuel as [|fuel IH]; intros s Hi H; cbn in H; [discriminate|].
  inv_bind H. destruct a.
  - inv_bind H. apply (IH a); [|exact H]. eapply Hb; eauto.
  - injection H as <-. auto.
Qed.

(** more fuel never changes an answer *)
Lemma while_mono {S} (fuel fuel' : nat) (cond : S -> res bool) (body : S -> res S) (s : S) :
  (fuel <= fuel')%nat -> while_loop fuel cond body s <> Err OutOfFuel ->
  (forall t, body t <> Err OutOfFuel) -> (forall t, cond t <> Err OutOfFuel) ->
  while_loop fuel' cond body s = while_loop fuel cond body s.
Proof.
  revert fuel' s; induction fuel as [|fuel IH]; intros fuel' s Hle H Hb Hc.
  - cbn in H; congruence.
  - destruct fuel' as [|fuel']; [lia|]. cbn in *.
    destruct (cond s) as [b|e]; cbn [bind] in *; [|reflexivity].
    destruct b; [|reflexivity].
    destruct (body s) as [s1|e]; cbn [bind] in *; [|reflexivity].
    apply IH; auto; lia.
Qed.

(** termination from a measure *)
Lemma while_term {S} (I : S -> Prop) (mu : S -> nat) (cond : S -> res bool)
  (body : S -> res S) :
  (forall s, I s -> exists b, cond s = Ok b) ->
  (forall s, I s -> cond s = Ok true ->
     exists s', body s = Ok s' /\ I s' /\ (mu s' < mu s)%nat) ->
  forall fuel s, I s -> (mu s < fuel)%nat ->
    exists s', while_loop fuel cond body s = Ok s' /\ I s' /\ cond s' = Ok false.
Proof.
  intros Hc Hb fuel; induction fuel as [|fuel IH]; intros s Hi Hmu; [lia|].
  cbn [while_loop]. destruct (Hc s Hi) as [b Eb]. rewrite Eb; cbn [bind].
  destruct b.
  - destruct (Hb s Hi Eb) as [s1 [E1 [Hi1 Hmu1]]]. rewrite E1; cbn [bind].
    apply IH; [exact Hi1 | lia].
  - eauto.
Qed.

Lemma map_res_ok {A B} (f : A -> res B) (g : A -> B) (l : list A) :
  (forall x, In x l -> f x = Ok (g x)) -> map_res f l = Ok (map g l).
Proof.
  induction l as [|x l IH]; intros H; cbn; [reflexivity|].
  rewrite H by (left; reflexivity). cbn. rewrite IH by (intros; apply H; right; assumption).
  reflexivity.
Qed.

Lemma map_res_length {A B} (f : A -> res B) (l : list A) (l' : list B) :
  map_res f l = Ok l' -> length l' = length l.
Proof.
  revert l'; induction l as [|x l IH]; intros l' H; cbn in H.
  - now injection H as <-.
  - inv_bind H. inv_bind H. injection H as <-. cbn. f_equal; auto.
Qed.

(** indexing loop over all positions = map over the list *)
Lemma map_res_zseq {A B} (f : A -> res B) (pre l : list A) :
  map_res (fun i => x <- py_get (pre ++ l) i ;; f x) (zseq (Z.of_nat (length pre)) (length l))
  = map_res f l.
Proof.
  revert pre; induction l as [|x l IH]; intros pre; [reflexivity|].
  cbn [length zseq map_res].
  rewrite py_get_mid. cbn [bind].
  specialize (IH (pre ++ [x])).
  rewrite <- app_assoc in IH. cbn [app] in IH.
  rewrite app_length in IH. cbn [length] in IH.
  replace (Z.of_nat (length pre) + 1)%Z with (Z.of_nat (length pre + 1)) by lia.
  rewrite IH. reflexivity.
Qed.

(** ** Sums *)
Lemma fold_left_Rplus (l : list R) (a : R) : fold_left Rplus l a = a + fold_right Rplus 0 l.
Proof.
  revert a; induction l as [|x l IH]; intros a; cbn; [ring|].
  rewrite IH. ring.
Qed.

Lemma sum_list_fold (l : list R) : sum_list l = fold_right Rplus 0 l.
Proof. unfold sum_list; rewrite fold_left_Rplus; ring. Qed.

Lemma sum_list_cons (x : R) (l : list R) : sum_list (x :: l) = x + sum_list l.
Proof. rewrite !sum_list_fold; reflexivity. Qed.

Lemma sum_list_app (l1 l2 : list R) : sum_list (l1 ++ l2) = sum_list l1 + sum_list l2.
Proof.
  induction l1 as [|x l IH].
  - rewrite (sum_list_fold []); cbn [fold_right app]. ring.
  - cbn [app]. rewrite !sum_list_cons, IH. ring.
Qed.

(** ** Lists related element by element *)
Lemma Forall2_len {A B} (R1 : A -> B -> Prop) l l' : Forall2 R1 l l' -> length l' = length l.
Proof. induction 1; cbn [length]; congruence. Qed.

Lemma Forall2_mono {A B} (P : A -> Prop) (R1 R2 : A -> B -> Prop) l l' :
  (forall x y, P x -> R1 x y -> R2 x y) -> Forall P l -> Forall2 R1 l l' -> Forall2 R2 l l'.
Proof.
  intros H HP HF. induction HF as [|x y l l' Hx HF IH]; constructor.
  - apply H; [exact (Forall_inv HP)|exact Hx].
  - apply IH. exact (Forall_inv_tail HP).
Qed.

Lemma Forall2_map_r {A B C} (f : B -> C) (R1 : A -> C -> Prop) l l' :
  Forall2 (fun x y => R1 x (f y)) l l' -> Forall2 R1 l (map f l').
Proof. induction 1; cbn [map]; constructor; auto. Qed.

Lemma Forall_true {A} (l : list A) : Forall (fun _ => True) l.
Proof. induction l; constructor; auto. Qed.

Lemma exists_last_or_nil {A} (l : list A) : l = [] \/ exists p y, l = p ++ [y].
Proof.
  destruct l as [|x l]; [left; reflexivity|right].
  destruct (@exists_last A (x :: l)) as (p & y & E); [discriminate|]. eauto.
Qed.

Lemma Forall2_weaken {A B} (R1 R2 : A -> B -> Prop) l l' :
  (forall x y, R1 x y -> R2 x y) -> Forall2 R1 l l' -> Forall2 R2 l l'.
Proof. intros H. induction 1; constructor; auto. Qed.

Lemma Forall2_diag {A} (R1 : A -> A -> Prop) l : (forall x, R1 x x) -> Forall2 R1 l l.
Proof. intros H. induction l; constructor; auto. Qed.
