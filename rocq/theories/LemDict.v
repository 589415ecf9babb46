(** * Lemmas about dictionaries *)
From Verif Require Import ModelPy ModelConfig.
From Coq Require Import Permutation.

Section Dict.
Context {V : Type}.
Implicit Types (d : dict V) (k : string) (v : V).

Lemma eqb_spec_s (a b : string) : reflect (a = b) (String.eqb a b).
Proof. apply String.eqb_spec. Qed.

Lemma find_set_same d k v : dict_find (dict_set d k v) k = Some v.
Proof.
  induction d as [|[n w] t IH]; cbn.
  - rewrite String.eqb_refl; reflexivity.
  - destruct (eqb_spec_s n k) as [->|N]; cbn.
    + rewrite String.eqb_refl; reflexivity.
    + destruct (eqb_spec_s n k); [contradiction|exact IH].
Qed.

Lemma find_set_other d k k' v : k <> k' -> dict_find (dict_set d k v) k' = dict_find d k'.
Proof.
  intros N. induction d as [|[n w] t IH]; cbn.
  - destruct (eqb_spec_s k k'); [contradiction|reflexivity].
  - destruct (eqb_spec_s n k) as [->|M]; cbn.
    + destruct (eqb_spec_s k k'); [contradiction|reflexivity].
    + destruct (eqb_spec_s n k'); [reflexivity|exact IH].
Qed.

Lemma find_set d k k' v :
  dict_find (dict_set d k v) k' = if String.eqb k k' then Some v else dict_find d k'.
Proof.
  destruct (eqb_spec_s k k') as [->|N]; [apply find_set_same|apply find_set_other; exact N].
Qed.

Lemma find_in d k v : dict_find d k = Some v -> In (k, v) d.
Proof.
  induction d as [|[n w] t IH]; cbn; [discriminate|].
  destruct (eqb_spec_s n k) as [->|N]; intros H.
  - injection H as ->; left; reflexivity.
  - right; exact (IH H).
Qed.

Lemma find_key d k v : dict_find d k = Some v -> In k (map fst d).
Proof. intros H; apply find_in in H; apply (in_map fst) in H; exact H. Qed.

Lemma find_none d k : dict_find d k = None <-> ~ In k (map fst d).
Proof.
  induction d as [|[n w] t IH]; cbn; [tauto|].
  destruct (eqb_spec_s n k) as [->|N].
  - split; [discriminate|intros H; exfalso; apply H; left; reflexivity].
  - rewrite IH; split; intros H; [intros [E|E]; tauto|tauto].
Qed.

Lemma find_some_key d k : In k (map fst d) -> exists v, dict_find d k = Some v.
Proof.
  intros H. destruct (dict_find d k) as [v|] eqn:E; [eauto|].
  apply find_none in E; contradiction.
Qed.

Lemma in_find d k v : NoDup (map fst d) -> In (k, v) d -> dict_find d k = Some v.
Proof.
  induction d as [|[n w] t IH]; cbn; [tauto|]; intros ND [E|E].
  - injection E as -> ->. rewrite String.eqb_refl; reflexivity.
  - inversion ND as [|? ? N1 N2]; subst.
    destruct (eqb_spec_s n k) as [->|_].
    + exfalso; apply N1; apply (in_map fst) in E; exact E.
    + exact (IH N2 E).
Qed.

(** keys *)
Fixpoint add_key (ks : list string) (k : string) : list string :=
  match ks with
  | [] => [k]
  | n :: t => if String.eqb n k then n :: t else n :: add_key t k
  end.

Lemma keys_set d k v : map fst (dict_set d k v) = add_key (map fst d) k.
Proof.
  induction d as [|[n w] t IH]; cbn; [reflexivity|].
  destruct (String.eqb n k); cbn; [reflexivity|rewrite IH; reflexivity].
Qed.

Lemma add_key_in ks k k' : In k' (add_key ks k) <-> k' = k \/ In k' ks.
Proof.
  induction ks as [|n t IH]; cbn.
  - split; intros [H|H]; try tauto; left; congruence.
  - destruct (eqb_spec_s n k) as [->|N]; cbn.
    + split; [intros [H|H]|intros [H|[H|H]]]; try tauto; left; congruence.
    + rewrite IH; tauto.
Qed.

Lemma add_key_present ks k : In k ks -> add_key ks k = ks.
Proof.
  induction ks as [|n t IH]; cbn; [tauto|].
  destruct (eqb_spec_s n k) as [->|N]; [reflexivity|].
  intros [E|E]; [contradiction|rewrite (IH E); reflexivity].
Qed.

Lemma add_key_nodup ks k : NoDup ks -> NoDup (add_key ks k).
Proof.
  induction ks as [|n t IH]; cbn; intros ND.
  - constructor; [tauto|constructor].
  - inversion ND as [|? ? N1 N2]; subst.
    destruct (eqb_spec_s n k) as [->|N]; [exact ND|].
    constructor; [|exact (IH N2)].
    rewrite add_key_in; intros [E|E]; [contradiction|exact (N1 E)].
Qed.

Lemma keys_set_present d k v : In k (map fst d) -> map fst (dict_set d k v) = map fst d.
Proof. intros H; rewrite keys_set; apply add_key_present; exact H. Qed.

(** dictionaries with the same keys in the same order and the same entries are equal *)
Lemma dict_ext d d' :
  NoDup (map fst d) -> map fst d = map fst d' ->
  (forall k, dict_find d k = dict_find d' k) -> d = d'.
Proof.
  revert d'; induction d as [|[n w] t IH]; intros [|[n' w'] t']; cbn; intros ND K F;
    try discriminate; [reflexivity|].
  injection K as -> K. inversion ND as [|? ? N1 N2]; subst.
  assert (w = w') as ->.
  { specialize (F n'). rewrite !String.eqb_refl in F. congruence. }
  f_equal. apply IH; [exact N2|exact K|].
  intros k. specialize (F k).
  destruct (eqb_spec_s n' k) as [->|_]; [|exact F].
  transitivity (@None V); [apply find_none; exact N1|symmetry; apply find_none; rewrite <- K; exact N1].
Qed.

Lemma set_overwrite d k v w : dict_set (dict_set d k v) k w = dict_set d k w.
Proof.
  induction d as [|[n u] t IH]; cbn.
  - rewrite String.eqb_refl; reflexivity.
  - destruct (eqb_spec_s n k) as [->|N]; cbn.
    + rewrite String.eqb_refl; reflexivity.
    + destruct (eqb_spec_s n k); [contradiction|rewrite IH; reflexivity].
Qed.

Lemma set_swap d k k' v w : k <> k' -> In k (map fst d) ->
  dict_set (dict_set d k v) k' w = dict_set (dict_set d k' w) k v.
Proof.
  intros N. induction d as [|[n u] t IH]; cbn; [tauto|].
  intros H.
  destruct (eqb_spec_s n k) as [->|M]; destruct (eqb_spec_s k k'); try contradiction.
  - cbn. destruct (eqb_spec_s k k'); [contradiction|cbn].
    rewrite String.eqb_refl; reflexivity.
  - cbn. destruct (eqb_spec_s n k') as [->|M']; cbn.
    + destruct (eqb_spec_s k' k); [congruence|reflexivity].
    + destruct (eqb_spec_s n k); [contradiction|].
      rewrite IH; [reflexivity|destruct H; [contradiction|exact H]].
Qed.

Lemma set_same d k v : dict_find d k = Some v -> dict_set d k v = d.
Proof.
  induction d as [|[n u] t IH]; cbn; [discriminate|].
  destruct (eqb_spec_s n k) as [->|N]; intros H.
  - injection H as ->; reflexivity.
  - rewrite (IH H); reflexivity.
Qed.

(** unions *)
Lemma union_cons d k v p : dict_union d ((k, v) :: p) = dict_union (dict_set d k v) p.
Proof. reflexivity. Qed.

Lemma union_app d p q : dict_union d (p ++ q) = dict_union (dict_union d p) q.
Proof. unfold dict_union; apply fold_left_app. Qed.

Lemma keys_union d p : map fst (dict_union d p) = fold_left add_key (map fst p) (map fst d).
Proof.
  revert d; induction p as [|[k v] p IH]; intros d; [reflexivity|].
  rewrite union_cons, IH, keys_set; reflexivity.
Qed.

Lemma add_keys_in ps ks k : In k (fold_left add_key ps ks) <-> In k ps \/ In k ks.
Proof.
  revert ks; induction ps as [|p ps IH]; intros ks; cbn; [tauto|].
  rewrite IH, add_key_in. split; [intros [H|[H|H]]|intros [[H|H]|H]]; auto.
Qed.

Lemma add_keys_nodup ps ks : NoDup ks -> NoDup (fold_left add_key ps ks).
Proof.
  revert ks; induction ps as [|p ps IH]; intros ks ND; cbn; [exact ND|].
  apply IH, add_key_nodup; exact ND.
Qed.

Lemma add_keys_present ps ks : (forall k, In k ps -> In k ks) -> fold_left add_key ps ks = ks.
Proof.
  revert ks; induction ps as [|p ps IH]; intros ks H; cbn; [reflexivity|].
  rewrite add_key_present by (apply H; left; reflexivity).
  apply IH; intros k Hk; apply H; right; exact Hk.
Qed.

(** last entry of a list of pairs *)
Fixpoint find_last (p : dict V) (k : string) : option V :=
  match p with
  | [] => None
  | (n, v) :: t =>
      match find_last t k with
      | Some w => Some w
      | None => if String.eqb n k then Some v else None
      end
  end.

Lemma find_union d p k :
  dict_find (dict_union d p) k =
  match find_last p k with Some v => Some v | None => dict_find d k end.
Proof.
  revert d; induction p as [|[n v] p IH]; intros d; [reflexivity|].
  rewrite union_cons, IH; cbn.
  destruct (find_last p k); [reflexivity|].
  rewrite find_set. destruct (String.eqb n k); reflexivity.
Qed.

Lemma find_last_key p k : In k (map fst p) <-> exists v, find_last p k = Some v.
Proof.
  induction p as [|[n v] p IH]; cbn.
  - split; [tauto|intros [v H]; discriminate].
  - split.
    + intros [->|H].
      * destruct (find_last p k); [eauto|rewrite String.eqb_refl; eauto].
      * apply IH in H as [w ->]; eauto.
    + intros [w H]. destruct (find_last p k) eqn:E.
      * right; apply IH; eauto.
      * destruct (eqb_spec_s n k) as [->|_]; [left; reflexivity|discriminate].
Qed.

(** writing twice under the same names leaves what the second pass has written *)
Lemma union_overwrite d p q :
  NoDup (map fst d) -> map fst p = map fst q ->
  dict_union (dict_union d p) q = dict_union d q.
Proof.
  intros ND K. apply dict_ext.
  - rewrite !keys_union. do 2 apply add_keys_nodup. exact ND.
  - rewrite !keys_union, K. apply add_keys_present.
    intros k Hk; apply add_keys_in; left; exact Hk.
  - intros k. rewrite !find_union.
    destruct (find_last q k) eqn:Eq; [reflexivity|].
    destruct (find_last p k) eqn:Ep; [|reflexivity].
    exfalso. assert (In k (map fst q)) as H by (rewrite <- K; apply find_last_key; eauto).
    apply find_last_key in H as [w H]; congruence.
Qed.

Lemma find_combine (ks : list string) (vs : list V) k :
  length vs = length ks -> In k ks -> exists v, dict_find (combine ks vs) k = Some v.
Proof.
  intros L H. apply find_some_key.
  revert vs L H; induction ks as [|n t IH]; intros [|v vs] L H; cbn in *; try discriminate;
    [tauto|].
  destruct H as [->|H]; [left; reflexivity|right; apply IH; [lia|exact H]].
Qed.

End Dict.

Lemma map_fst_combine {A B} (l : list A) (l' : list B) :
  length l' = length l -> map fst (combine l l') = l.
Proof.
  revert l'; induction l as [|a l IH]; intros [|b l'] L; cbn in *; try discriminate; [reflexivity|].
  rewrite IH by lia; reflexivity.
Qed.

(** a decision procedure for distinct keys *)
Fixpoint nodupb (l : list string) : bool :=
  match l with [] => true | a :: t => (negb (existsb (String.eqb a) t) && nodupb t)%bool end.
Lemma nodupb_spec l : nodupb l = true -> NoDup l.
Proof.
  induction l as [|a t IH]; cbn; [constructor|]. rewrite Bool.andb_true_iff, Bool.negb_true_iff. intros [E H].
  constructor; [|auto]. intro I.
  assert (existsb (String.eqb a) t = true) by (apply existsb_exists; exists a; split; [exact I|apply String.eqb_refl]).
  congruence.
Qed.
