(** * Rules of lists, loops and dictionaries in the model

    Theorems only; the proofs are in LemFinPrim.v and the files it uses. *)

From Verif Require Import ModelPy ModelConfig.
From Verif Require Import LemFinPrim.

(** C137.  Reading an element: indices from 0 count from the front, negative ones from the end, all others are an IndexError. *)
Theorem python_index :
  forall (A : Type) (l : list A) (i : Z),
    let n := Z.of_nat (length l) in
    ((0 <= i < n)%Z -> exists a, nth_error l (Z.to_nat i) = Some a /\ py_get l i = Ok a) /\
    ((- n <= i < 0)%Z -> exists a, nth_error l (Z.to_nat (n + i)) = Some a /\ py_get l i = Ok a) /\
    ((i < - n \/ n <= i)%Z -> py_get l i = Err IndexError).
Proof. exact python_index_lem. Qed.
Print Assumptions python_index.

(** C137.  Changing and deleting one element, counted from the front or from the end, leaves all others as they are and in order; indices outside are an IndexError. *)
Theorem python_change_delete :
  forall (A : Type) (f : A -> A) (pre post : list A) (x : A) (i : Z),
    (i = Z.of_nat (length pre) \/ i = - Z.of_nat (S (length post)) ->
       py_update (pre ++ x :: post) i f = Ok (pre ++ f x :: post) /\
       py_del (pre ++ x :: post) i = Ok (pre ++ post))%Z /\
    (forall l : list A, (i < - Z.of_nat (length l) \/ Z.of_nat (length l) <= i)%Z ->
       py_update l i f = Err IndexError /\ py_del l i = Err IndexError).
Proof. exact python_change_delete_lem. Qed.
Print Assumptions python_change_delete.

(** C137.  Inserting never fails: the new element comes before the one that the index names, at the end for an index behind the list, and at the front for one before it. *)
Theorem python_insert :
  forall (A : Type) (pre post : list A) (x : A),
    py_insert (pre ++ post) (Z.of_nat (length pre)) x = pre ++ x :: post /\
    (post <> [] -> py_insert (pre ++ post) (- Z.of_nat (length post)) x = pre ++ x :: post) /\
    (forall (l : list A) (i : Z),
       ((Z.of_nat (length l) <= i)%Z -> py_insert l i x = l ++ [x]) /\
       ((i < - Z.of_nat (length l))%Z -> py_insert l i x = x :: l)).
Proof. exact python_insert_lem. Qed.
Print Assumptions python_insert.

(** C137.  The sum of a list and its running sums: entry k of the running sums adds up the entries 0 to k. *)
Theorem running_sums :
  forall l : list R,
    sum_list l = fold_right Rplus 0 l /\ length (cumsum l) = length l /\
    (forall k, (k < length l)%nat -> nth_error (cumsum l) k = Some (fold_right Rplus 0 (firstn (S k) l))).
Proof. exact running_sums_lem. Qed.
Print Assumptions running_sums.

(** C137.  The numbers of a range are those from the lower bound on and before the upper bound, in order, and a loop over a range does one pass for each of them, the first one first, and stops at the first pass that raises; without numbers in the range it changes nothing. *)
Theorem python_range :
  forall (S : Type) (lo hi : Z) (body : Z -> S -> res S) (s : S),
    ((hi <= lo)%Z -> zrange lo hi = [] /\ for_range lo hi body s = Ok s) /\
    ((lo < hi)%Z ->
       Z.of_nat (length (zrange lo hi)) = (hi - lo)%Z /\
       (forall k, (Z.of_nat k < hi - lo)%Z -> nth_error (zrange lo hi) k = Some (lo + Z.of_nat k)%Z) /\
       (forall e, body lo s = Err e -> for_range lo hi body s = Err e) /\
       (forall s', body lo s = Ok s' -> for_range lo hi body s = for_range (lo + 1) hi body s')).
Proof. exact python_range_lem. Qed.
Print Assumptions python_range.

(** C137.  A dictionary answers with the value that was set last under the key, other keys keep theirs, an unknown key is a KeyError, and in the union of two dictionaries the second one has precedence. *)
Theorem python_dict :
  forall (V : Type) (d : dict V) (k : string) (v : V),
    dict_get (dict_set d k v) k = Ok v /\
    (forall k', k' <> k -> dict_get (dict_set d k v) k' = dict_get d k') /\
    ((forall w, ~ In (k, w) d) -> dict_get d k = Err KeyError) /\
    (forall d2, NoDup (map fst d2) ->
       (forall w, In (k, w) d2 -> dict_get (dict_union d d2) k = Ok w) /\
       ((forall w, ~ In (k, w) d2) -> dict_get (dict_union d d2) k = dict_get d k)).
Proof. exact python_dict_lem. Qed.
Print Assumptions python_dict.

(** C137 A list of three numbers: the last one is number -1 and number 2, there is no number 3; deleting and inserting at -1. *)
Example primitives_example :
  py_get [10; 20; 30]%Z (-1) = Ok 30%Z /\ py_get [10; 20; 30]%Z 2 = Ok 30%Z /\ py_get [10; 20; 30]%Z 3 = Err IndexError /\
  py_del [10; 20; 30]%Z (-1) = Ok [10; 20]%Z /\ py_insert [10; 20; 30]%Z (-1) 25%Z = [10; 20; 25; 30]%Z /\
  zrange 2 5 = [2; 3; 4]%Z /\
  dict_get (dict_union [("a", 1%Z); ("b", 2%Z)] [("b", 3%Z)])%string "b"%string = Ok 3%Z.
Proof. exact primitives_example_lem. Qed.
