(** * Lemmas about the conversion of old configuration modules *)
From Verif Require Import ModelPy ModelConfig ModelConvert SpecConfig SpecConvert.
From Verif Require Import LemPy LemDict.
From Coq Require Import Ascii.

Lemma converted_new module k : converted module k = new_value module k.
Proof. unfold converted, wrapped, new_value. destruct (dict_find module k) as [[]|]; reflexivity. Qed.

Definition plain (module : dict value) (kp : list (string * list string)) : toml :=
  map (fun ka => (fst ka, map (fun a => (a, converted module a)) (snd ka))) kp.

Lemma set_new {V} (d : dict V) k v : ~ In k (map fst d) -> dict_set d k v = d ++ [(k, v)].
Proof.
  induction d as [|[n w] t IH]; cbn; intro H; [reflexivity|].
  destruct (String.eqb_spec n k) as [->|N]; [exfalso; apply H; auto|]. rewrite IH by tauto. reflexivity.
Qed.

Lemma fold_set_new {A V} (f : A -> string) (g : A -> V) l : forall d,
  NoDup (map fst d ++ map f l) ->
  fold_left (fun t a => dict_set t (f a) (g a)) l d = d ++ map (fun a => (f a, g a)) l.
Proof.
  induction l as [|a l IH]; cbn [fold_left map]; intros d N; [rewrite app_nil_r; reflexivity|].
  assert (F : ~ In (f a) (map fst d)).
  { intro I. apply NoDup_remove_2 in N. apply N, in_or_app. auto. }
  rewrite set_new by exact F. rewrite IH.
  - rewrite <- app_assoc. reflexivity.
  - rewrite map_app. cbn [map fst]. rewrite <- app_assoc. exact N.
Qed.

Lemma set_module_plain module kp :
  NoDup (map fst kp) -> Forall (fun ka => NoDup (snd ka)) kp ->
  set_module_params module [] kp = plain module kp.
Proof.
  intros N F. unfold set_module_params, plain.
  rewrite (fold_set_new (V := table) (fun ka => fst ka)
    (fun ka => fold_left (fun t attr => dict_set t attr (converted module attr)) (snd ka) [])) by (cbn; exact N).
  cbn [app]. apply map_ext_in. intros [h l] I. cbn [fst snd]. f_equal.
  rewrite Forall_forall in F. specialize (F _ I). cbn in F.
  rewrite (fold_set_new (fun a => a) (converted module)) by (cbn; rewrite map_id; exact F). reflexivity.
Qed.

Lemma keys_ok kp : (nodupb (map fst kp) && forallb (fun ka => nodupb (snd ka)) kp)%bool = true ->
  NoDup (map fst kp) /\ Forall (fun ka => NoDup (snd ka)) kp.
Proof.
  rewrite Bool.andb_true_iff. intros [A B]. split; [apply nodupb_spec, A|].
  rewrite forallb_forall in B. apply Forall_forall. intros ka I. apply nodupb_spec, B, I.
Qed.

Lemma config_plain module : set_module_params module [] config_keys = plain module config_keys.
Proof. destruct (keys_ok config_keys eq_refl). apply set_module_plain; assumption. Qed.
Lemma constants_plain module : get_constants_params module = plain module constants_keys.
Proof. destruct (keys_ok constants_keys eq_refl). apply set_module_plain; assumption. Qed.
Lemma aws_plain module : get_aws2cosipy_params module = plain module aws2cosipy_keys.
Proof. destruct (keys_ok aws2cosipy_keys eq_refl). apply set_module_plain; assumption. Qed.

Lemma entries_plain module kp : entries (plain module kp) = map (fun a => (a, converted module a)) (flat_map snd kp).
Proof.
  unfold entries, plain. induction kp as [|[h l] t IH]; [reflexivity|].
  cbn [map flat_map snd fst]. rewrite map_app, IH. reflexivity.
Qed.

Lemma find_mapped {V} (g : string -> V) l k :
  dict_find (map (fun a => (a, g a)) l) k = if existsb (String.eqb k) l then Some (g k) else None.
Proof.
  induction l as [|a t IH]; [reflexivity|]. cbn [map dict_find existsb].
  destruct (String.eqb_spec a k) as [->|N]; [rewrite String.eqb_refl; reflexivity|].
  destruct (String.eqb_spec k a); [congruence|]. exact IH.
Qed.

Lemma existsb_in k l : existsb (String.eqb k) l = true <-> In k l.
Proof.
  rewrite existsb_exists. split.
  - intros (x & I & E). apply String.eqb_eq in E. subst. exact I.
  - intro I. exists k. split; [exact I|apply String.eqb_refl].
Qed.

Lemma last_plain module kp k : In k (flat_map snd kp) -> last_setting (plain module kp) k = Some (converted module k).
Proof.
  intro I. unfold last_setting. rewrite entries_plain, <- map_rev, find_mapped.
  rewrite (proj2 (existsb_in k _)); [reflexivity|]. apply in_rev in I. exact I.
Qed.

Lemma last_plain_none module kp k : ~ In k (flat_map snd kp) -> last_setting (plain module kp) k = None.
Proof.
  intro I. unfold last_setting. rewrite entries_plain, <- map_rev, find_mapped.
  destruct (existsb _ _) eqn:E; [|reflexivity]. apply existsb_in in E. apply in_rev in E. contradiction.
Qed.

Lemma entry_plain module kp h k : NoDup (map fst kp) ->
  entry (plain module kp) h k =
    match dict_find kp h with
    | Some l => if existsb (String.eqb k) l then Some (converted module k) else None
    | None => None
    end.
Proof.
  intros _. unfold entry, plain. induction kp as [|[n l] t IH]; [reflexivity|].
  cbn [map dict_find fst snd]. destruct (String.eqb n h); [apply find_mapped|exact IH].
Qed.

(** ** Names of the output *)
Lemma split_nonempty c s : split_char c s <> [].
Proof.
  destruct s as [|a s]; cbn; [discriminate|]. destruct (Ascii.eqb a c); [discriminate|].
  destruct (split_char c s); discriminate.
Qed.

Lemma split_without c t : without c t -> split_char c t = [t].
Proof.
  unfold without. induction t as [|a t IH]; cbn; intro H; [reflexivity|].
  destruct (Ascii.eqb_spec a c) as [->|N]; [exfalso; apply H; auto|]. rewrite IH by tauto. reflexivity.
Qed.

Lemma split_snoc c p t : without c t -> split_char c (p ++ String c t) = split_char c p ++ [t].
Proof.
  intro W. induction p as [|a p IH]; cbn [append split_char].
  - rewrite Ascii.eqb_refl, split_without by exact W. reflexivity.
  - destruct (Ascii.eqb a c); [rewrite IH; reflexivity|]. rewrite IH.
    destruct (split_char c p) as [|w ws] eqn:E; [destruct (split_nonempty c p E)|]. reflexivity.
Qed.

Lemma concat_cons a w ws : String.concat "_" (String a w :: ws) = String a (String.concat "_" (w :: ws)).
Proof. destruct ws; reflexivity. Qed.

Lemma concat_split c p : String.concat "_" (split_char c p) = replace_char c "_" p.
Proof.
  unfold replace_char. induction p as [|a p IH]; [reflexivity|].
  cbn [split_char list_ascii_of_string map string_of_list_ascii].
  destruct (Ascii.eqb a c).
  - destruct (split_char c p) as [|w ws] eqn:E; [destruct (split_nonempty c p E)|].
    change (String.concat "_" (""%string :: w :: ws)) with ("_" ++ String.concat "_" (w :: ws))%string.
    rewrite IH. reflexivity.
  - destruct (split_char c p) as [|w ws] eqn:E; [destruct (split_nonempty c p E)|].
    rewrite concat_cons, IH. reflexivity.
Qed.

Lemma replace_same c p : replace_char c c p = p.
Proof.
  unfold replace_char. induction p as [|a p IH]; [reflexivity|]. cbn [list_ascii_of_string map string_of_list_ascii].
  rewrite IH. destruct (Ascii.eqb_spec a c); congruence.
Qed.

Lemma has_char_spec c s : has_char c s = true <-> In c (list_ascii_of_string s).
Proof.
  unfold has_char. rewrite existsb_exists. split.
  - intros (x & I & E). apply Ascii.eqb_eq in E. subst. exact I.
  - intro I. exists c. split; [exact I|apply Ascii.eqb_refl].
Qed.

Lemma in_snoc c p t : In c (list_ascii_of_string (p ++ String c t)).
Proof. induction p; cbn; auto. Qed.
