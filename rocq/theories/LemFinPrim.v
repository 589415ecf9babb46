(** * Rules of lists, loops and dictionaries in the model *)
From Verif Require Import ModelPy ModelConfig.
From Verif Require Import LemPy.

(*@ C137 Reading an element: indices from 0 count from the front, negative ones from the end, all others are an IndexError. *)
Lemma python_index_lem :
  forall (A : Type) (l : list A) (i : Z),
    let n := Z.of_nat (length l) in
    ((0 <= i < n)%Z -> exists a, nth_error l (Z.to_nat i) = Some a /\ py_get l i = Ok a) /\
    ((- n <= i < 0)%Z -> exists a, nth_error l (Z.to_nat (n + i)) = Some a /\ py_get l i = Ok a) /\
    ((i < - n \/ n <= i)%Z -> py_get l i = Err IndexError).
Proof.
  intros A l i n. subst n. unfold py_get, py_index.
  assert (G : forall k, (k < length l)%nat -> exists a, nth_error l k = Some a).
  { intros k K. apply nth_error_Some in K. destruct (nth_error l k) as [a|]; [exists a; reflexivity|congruence]. }
  repeat split.
  - intros H. destruct (G (Z.to_nat i)) as (a & E); [lia|]. exists a. split; [exact E|].
    replace ((0 <=? i) && (i <? Z.of_nat (length l)))%Z%bool with true by (symmetry; apply andb_true_intro; lia).
    rewrite E. reflexivity.
  - intros H. destruct (G (Z.to_nat (Z.of_nat (length l) + i))) as (a & E); [lia|]. exists a. split; [exact E|].
    replace ((0 <=? i) && (i <? Z.of_nat (length l)))%Z%bool with false by (symmetry; apply andb_false_intro1; lia).
    replace ((- Z.of_nat (length l) <=? i) && (i <? 0))%Z%bool with true by (symmetry; apply andb_true_intro; lia).
    rewrite E. reflexivity.
  - intros H.
    replace ((0 <=? i) && (i <? Z.of_nat (length l)))%Z%bool with false by (symmetry; apply andb_false_iff; lia).
    replace ((- Z.of_nat (length l) <=? i) && (i <? 0))%Z%bool with false by (symmetry; apply andb_false_iff; lia).
    reflexivity.
Qed.

Lemma index_front {A} (pre post : list A) (x : A) :
  py_index (length (pre ++ x :: post)) (Z.of_nat (length pre)) = Some (length pre).
Proof. apply py_index_nat. rewrite app_length. cbn. lia. Qed.

Lemma index_back {A} (pre post : list A) (x : A) :
  py_index (length (pre ++ x :: post)) (- Z.of_nat (S (length post))) = Some (length pre).
Proof.
  unfold py_index. rewrite app_length. cbn [length].
  set (n := (length pre + S (length post))%nat). set (i := (- Z.of_nat (S (length post)))%Z).
  replace ((0 <=? i) && (i <? Z.of_nat n))%Z%bool with false by (symmetry; apply andb_false_iff; lia).
  replace ((- Z.of_nat n <=? i) && (i <? 0))%Z%bool with true by (symmetry; apply andb_true_intro; lia). f_equal. lia.
Qed.

Lemma index_outside (n : nat) (i : Z) : (i < - Z.of_nat n \/ Z.of_nat n <= i)%Z -> py_index n i = None.
Proof.
  intros H. unfold py_index.
  replace ((0 <=? i) && (i <? Z.of_nat n))%Z%bool with false by (symmetry; apply andb_false_iff; lia).
  replace ((- Z.of_nat n <=? i) && (i <? 0))%Z%bool with false by (symmetry; apply andb_false_iff; lia).
  reflexivity.
Qed.

(*@ C137 Changing and deleting one element, counted from the front or from the end, leaves all others as they are and in order; indices outside are an IndexError. *)
Lemma python_change_delete_lem :
  forall (A : Type) (f : A -> A) (pre post : list A) (x : A) (i : Z),
    (i = Z.of_nat (length pre) \/ i = - Z.of_nat (S (length post)) ->
       py_update (pre ++ x :: post) i f = Ok (pre ++ f x :: post) /\
       py_del (pre ++ x :: post) i = Ok (pre ++ post))%Z /\
    (forall l : list A, (i < - Z.of_nat (length l) \/ Z.of_nat (length l) <= i)%Z ->
       py_update l i f = Err IndexError /\ py_del l i = Err IndexError).
Proof.
  intros A f pre post x i. split.
  - intros [-> | ->]; unfold py_update, py_del; rewrite ?index_front, ?index_back, list_update_mid, list_delete_mid;
      split; reflexivity.
  - intros l H. unfold py_update, py_del. rewrite (index_outside _ _ H). split; reflexivity.
Qed.

(*@ C137 Inserting never fails: the new element comes before the one that the index names, at the end for an index behind the list, and at the front for one before it. *)
Lemma python_insert_lem :
  forall (A : Type) (pre post : list A) (x : A),
    py_insert (pre ++ post) (Z.of_nat (length pre)) x = pre ++ x :: post /\
    (post <> [] -> py_insert (pre ++ post) (- Z.of_nat (length post)) x = pre ++ x :: post) /\
    (forall (l : list A) (i : Z),
       ((Z.of_nat (length l) <= i)%Z -> py_insert l i x = l ++ [x]) /\
       ((i < - Z.of_nat (length l))%Z -> py_insert l i x = x :: l)).
Proof.
  intros A pre post x. split; [apply py_insert_mid|]. split.
  - intros N. assert (L : (0 < length post)%nat) by (destruct post; [congruence|cbn; lia]).
    unfold py_insert. rewrite app_length.
    replace (- Z.of_nat (length post) <? 0)%Z with true by (symmetry; apply Z.ltb_lt; lia).
    replace (Z.to_nat (Z.max (Z.of_nat (length pre + length post) + - Z.of_nat (length post)) 0)) with (length pre) by lia.
    rewrite firstn_app, firstn_all, Nat.sub_diag, skipn_app, skipn_all, Nat.sub_diag. cbn [firstn skipn app].
    rewrite app_nil_r. reflexivity.
  - intros l i. unfold py_insert. split; intros H.
    + replace (i <? 0)%Z with false by (symmetry; apply Z.ltb_ge; lia).
      replace (Z.to_nat (Z.min i (Z.of_nat (length l)))) with (length l) by lia.
      rewrite firstn_all, skipn_all. reflexivity.
    + replace (i <? 0)%Z with true by (symmetry; apply Z.ltb_lt; lia).
      replace (Z.to_nat (Z.max (Z.of_nat (length l) + i) 0)) with 0%nat by lia. reflexivity.
Qed.

Lemma cumsum_from_nth l : forall acc k, (k < length l)%nat ->
  nth_error (cumsum_from acc l) k = Some (acc + fold_right Rplus 0 (firstn (S k) l)).
Proof.
  induction l as [|x l IH]; intros acc k K; cbn [length] in K; [lia|].
  destruct k as [|k]; cbn [cumsum_from nth_error firstn fold_right].
  - f_equal. lra.
  - rewrite IH by lia. f_equal. cbn [firstn fold_right]. destruct l; cbn [length] in K; [lia|]. cbn [firstn fold_right]. lra.
Qed.

Lemma cumsum_from_len l : forall acc, length (cumsum_from acc l) = length l.
Proof. induction l as [|x l IH]; intros acc; cbn; [reflexivity|]. rewrite IH. reflexivity. Qed.

(*@ C137 The sum of a list and its running sums: entry k of the running sums adds up the entries 0 to k. *)
Lemma running_sums_lem :
  forall l : list R,
    sum_list l = fold_right Rplus 0 l /\ length (cumsum l) = length l /\
    (forall k, (k < length l)%nat -> nth_error (cumsum l) k = Some (fold_right Rplus 0 (firstn (S k) l))).
Proof.
  intros l. split; [apply sum_list_fold|]. split; [apply cumsum_from_len|].
  intros k K. unfold cumsum. rewrite cumsum_from_nth by exact K. f_equal. lra.
Qed.

Lemma zseq_nth n : forall lo k, (k < n)%nat -> nth_error (zseq lo n) k = Some (lo + Z.of_nat k)%Z.
Proof.
  induction n as [|n IH]; intros lo k K; [lia|]. destruct k as [|k]; cbn [zseq nth_error]; [f_equal; lia|].
  rewrite IH by lia. f_equal. lia.
Qed.

Lemma zseq_len n : forall lo, length (zseq lo n) = n.
Proof. induction n as [|n IH]; intros lo; cbn; [reflexivity|]. rewrite IH. reflexivity. Qed.

(*@ C137 The numbers of a range are those from the lower bound on and before the upper bound, in order, and a loop over a range does one pass for each of them, the first one first, and stops at the first pass that raises; without numbers in the range it changes nothing. *)
Lemma python_range_lem :
  forall (S : Type) (lo hi : Z) (body : Z -> S -> res S) (s : S),
    ((hi <= lo)%Z -> zrange lo hi = [] /\ for_range lo hi body s = Ok s) /\
    ((lo < hi)%Z ->
       Z.of_nat (length (zrange lo hi)) = (hi - lo)%Z /\
       (forall k, (Z.of_nat k < hi - lo)%Z -> nth_error (zrange lo hi) k = Some (lo + Z.of_nat k)%Z) /\
       (forall e, body lo s = Err e -> for_range lo hi body s = Err e) /\
       (forall s', body lo s = Ok s' -> for_range lo hi body s = for_range (lo + 1) hi body s')).
Proof.
  intros S lo hi body s. unfold zrange, for_range. split.
  - intros H. replace (Z.to_nat (hi - lo)) with 0%nat by lia. split; reflexivity.
  - intros H. split; [rewrite zseq_len; lia|]. split; [intros k K; apply zseq_nth; lia|].
    replace (Z.to_nat (hi - lo)) with (Datatypes.S (Z.to_nat (hi - (lo + 1)))) by lia.
    cbn [for_loop]. split; [intros e E|intros s' E]; rewrite E; reflexivity.
Qed.

Lemma set_find {V} (d : dict V) k v k' :
  dict_find (dict_set d k v) k' = if String.eqb k k' then Some v else dict_find d k'.
Proof.
  induction d as [|[n w] d IH]; cbn [dict_set dict_find]; [reflexivity|].
  destruct (String.eqb_spec n k) as [->|N]; cbn [dict_find].
  - destruct (String.eqb k k'); reflexivity.
  - rewrite IH. destruct (String.eqb_spec n k') as [->|N']; [|reflexivity].
    destruct (String.eqb_spec k k') as [->|]; [congruence|reflexivity].
Qed.

Lemma union_find {V} (d2 : dict V) : forall d1 k, NoDup (map fst d2) ->
  dict_find (dict_union d1 d2) k = match dict_find d2 k with Some v => Some v | None => dict_find d1 k end.
Proof.
  unfold dict_union. induction d2 as [|[n v] d2 IH]; intros d1 k D; cbn [fold_left dict_find fst snd]; [reflexivity|].
  cbn [map fst] in D. inversion D as [|? ? N D']; subst. rewrite IH by exact D'. rewrite set_find.
  destruct (String.eqb_spec n k) as [->|]; [|reflexivity].
  destruct (dict_find d2 k) as [w|] eqn:E; [|reflexivity]. exfalso. apply N.
  clear -E. induction d2 as [|[m u] d2 IH]; cbn [dict_find] in E; [discriminate|].
  destruct (String.eqb_spec m k) as [->|]; [left; reflexivity|right; apply IH, E].
Qed.

(*@ C137 A dictionary answers with the value that was set last under the key, other keys keep theirs, an unknown key is a KeyError, and in the union of two dictionaries the second one has precedence. *)
Lemma python_dict_lem :
  forall (V : Type) (d : dict V) (k : string) (v : V),
    dict_get (dict_set d k v) k = Ok v /\
    (forall k', k' <> k -> dict_get (dict_set d k v) k' = dict_get d k') /\
    ((forall w, ~ In (k, w) d) -> dict_get d k = Err KeyError) /\
    (forall d2, NoDup (map fst d2) ->
       (forall w, In (k, w) d2 -> dict_get (dict_union d d2) k = Ok w) /\
       ((forall w, ~ In (k, w) d2) -> dict_get (dict_union d d2) k = dict_get d k)).
Proof.
  intros V d k v.
  assert (MISS : forall e : dict V, (forall w, ~ In (k, w) e) -> dict_find e k = None).
  { induction e as [|[n u] e IH]; intros H; cbn [dict_find]; [reflexivity|].
    destruct (String.eqb_spec n k) as [->|]; [exfalso; apply (H u); left; reflexivity|].
    apply IH. intros w I. apply (H w). right. exact I. }
  unfold dict_get. split; [|split; [|split]].
  - rewrite set_find, String.eqb_refl. reflexivity.
  - intros k' N. rewrite set_find. destruct (String.eqb_spec k k') as [->|]; [congruence|reflexivity].
  - intros H. rewrite MISS by exact H. reflexivity.
  - intros d2 D. rewrite (union_find d2 d k D). split.
    + intros w I. replace (dict_find d2 k) with (Some w); [reflexivity|]. symmetry.
      clear -D I. induction d2 as [|[m u] d2 IH]; [destruct I|]. cbn [map fst] in D. inversion D as [|? ? N D']; subst.
      cbn [dict_find]. destruct (String.eqb_spec m k) as [->|NE].
      * destruct I as [I|I]; [congruence|]. exfalso. apply N. apply (in_map fst) in I. exact I.
      * destruct I as [I|I]; [congruence|]. apply IH; assumption.
    + intros H. rewrite MISS by exact H. reflexivity.
Qed.

(*@ex C137 A list of three numbers: the last one is number -1 and number 2, there is no number 3; deleting and inserting at -1. *)
Lemma primitives_example_lem :
  py_get [10; 20; 30]%Z (-1) = Ok 30%Z /\ py_get [10; 20; 30]%Z 2 = Ok 30%Z /\ py_get [10; 20; 30]%Z 3 = Err IndexError /\
  py_del [10; 20; 30]%Z (-1) = Ok [10; 20]%Z /\ py_insert [10; 20; 30]%Z (-1) 25%Z = [10; 20; 25; 30]%Z /\
  zrange 2 5 = [2; 3; 4]%Z /\
  dict_get (dict_union [("a", 1%Z); ("b", 2%Z)] [("b", 3%Z)])%string "b"%string = Ok 3%Z.
Proof. repeat split. Qed.
