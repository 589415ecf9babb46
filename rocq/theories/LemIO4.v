(** * Content of the result and restart datasets *)
From Verif Require Import ModelPy ModelConstants ModelNode ModelGrid ModelSurface ModelInit
  ModelCore ModelConfig ModelIO ModelMain SpecIO LemPy LemDict LemIO LemIO2 LemIO3.
From Coq Require Import Permutation.

(** ** Names *)

Lemma append_inj (p a b : string) : (p ++ a = p ++ b)%string -> a = b.
Proof. induction p as [|ch p IH]; cbn; intros H; [exact H|injection H as H; exact (IH H)]. Qed.

Lemma in_names_true n l : In n l -> in_names n l = true.
Proof. intros H. apply existsb_exists. exists n. split; [exact H|apply String.eqb_refl]. Qed.

Lemma in_names_iff n l : in_names n l = true <-> In n l.
Proof.
  split; [|apply in_names_true]. intros H. apply existsb_exists in H as (m & H & E).
  apply String.eqb_eq in E. subst; exact H.
Qed.

Lemma calls_key prefix names env calls k :
  In k (map fst (ops_of_calls prefix names env calls)) ->
  exists n, In n (map fst calls) /\ In n names /\ k = (prefix ++ n)%string.
Proof.
  intros H. apply in_map_iff in H as ([k' v] & E & H). cbn in E; subst k'.
  apply in_flat_map in H as (call & Hc & H).
  destruct (in_names (fst call) names) eqn:En; [|destruct H].
  destruct (dict_find env (snd call)); [|destruct H].
  destruct H as [H|[]]. injection H as <- <-.
  exists (fst call). split; [apply in_map; exact Hc|]. split; [apply in_names_iff; exact En|reflexivity].
Qed.

Lemma calls_last prefix names env calls n par v :
  NoDup (map fst calls) -> In (n, par) calls -> In n names -> dict_find env par = Some v ->
  find_last (ops_of_calls prefix names env calls) (prefix ++ n)%string = Some v.
Proof.
  intros ND H Hn Hv. induction calls as [|call calls IH]; [destruct H|].
  cbn [map] in ND. inversion ND as [|? ? N1 N2]; subst.
  unfold ops_of_calls; cbn [flat_map]; fold (ops_of_calls prefix names env calls).
  rewrite find_last_app. destruct H as [->|H].
  - rewrite find_last_none.
    + cbn [fst snd]. rewrite in_names_true by exact Hn. rewrite Hv. cbn.
      rewrite String.eqb_refl. reflexivity.
    + intros G. apply calls_key in G as (n' & G1 & G2 & G3). apply append_inj in G3. subst n'.
      apply N1. exact G1.
  - rewrite (IH N2 H). reflexivity.
Qed.

Lemma named_ops_keys pg pl r names os :
  named_ops pg pl r names = Ok os -> map fst os = map (fun n => (pg ++ n)%string) names.
Proof.
  revert os; induction names as [|n t IH]; cbn [named_ops]; intros os H.
  - injection H as <-. reflexivity.
  - apply bind_ok in H as (v & Ev & H). apply bind_ok in H as (os' & E & H). injection H as <-.
    cbn [map fst]. rewrite (IH _ E). reflexivity.
Qed.

Lemma named_ops_last pg pl r names os n :
  NoDup names -> In n names -> named_ops pg pl r names = Ok os ->
  exists v, ds_get r (pl ++ n)%string = Ok v /\
    find_last os (pg ++ n)%string = Some (PBlock (Series v)).
Proof.
  revert os; induction names as [|k t IH]; cbn [named_ops]; intros os ND Hn H; [destruct Hn|].
  apply bind_ok in H as (v & Ev & H). apply bind_ok in H as (os' & E & H). injection H as <-.
  inversion ND as [|? ? N1 N2]; subst. cbn [find_last]. destruct Hn as [->|Hn].
  - exists v. split; [exact Ev|]. rewrite find_last_none.
    + rewrite String.eqb_refl. reflexivity.
    + rewrite (named_ops_keys _ _ _ _ _ E). intros G. apply in_map_iff in G as (n' & G1 & G2).
      apply append_inj in G1. subst; contradiction.
  - destruct (IH _ N2 Hn E) as (w & W1 & W2). exists w. split; [exact W1|]. rewrite W2. reflexivity.
Qed.

Definition restart_keys : list string :=
  ["RES_NLAYERS"; "RES_NEWSNOWHEIGHT"; "RES_NEWSNOWTIMESTAMP"; "RES_OLDSNOWTIMESTAMP";
   "RES_LAYER_HEIGHT"; "RES_LAYER_RHO"; "RES_LAYER_T"; "RES_LAYER_LWC"; "RES_LAYER_IF"]%string.

Lemma restart_ops_keys d os : restart_ops d = Ok os -> map fst os = restart_keys.
Proof.
  intros H. apply bind_ok in H as (a & Ea & H). apply bind_ok in H as (b & Eb & H).
  injection H as <-. apply named_ops_keys in Ea, Eb. unfold op in *. rewrite map_app, Ea, Eb.
  reflexivity.
Qed.

(** ** The first arrays *)

Lemma find_fold_set {V} (p : string) (v : V) names d k :
  dict_find (fold_left (fun a n => dict_set a (p ++ n)%string v) names d) k =
  if existsb (fun n => String.eqb (p ++ n) k) names then Some v else dict_find d k.
Proof.
  revert d; induction names as [|n t IH]; intros d; cbn [fold_left existsb]; [reflexivity|].
  rewrite IH, find_set.
  destruct (String.eqb (p ++ n) k); destruct (existsb _ t); reflexivity.
Qed.

Lemma existsb_false_iff {A} (f : A -> bool) l : existsb f l = false <-> forall a, In a l -> f a = false.
Proof.
  induction l as [|a l IH]; cbn; [split; [intros _ b []|reflexivity]|].
  rewrite Bool.orb_false_iff, IH. split.
  - intros [H1 H2] b [<-|Hb]; auto.
  - intros H; split; [apply H; left; reflexivity|intros b Hb; apply H; right; exact Hb].
Qed.

Definition first_io (cfg : RunConfig) (c : Consts) (io : IO) : IO :=
  create_global_restart_arrays c (create_global_result_arrays cfg c io).

Definition layer_name (k : string) : Prop := exists n, k = ("LAYER_" ++ n)%string.
Definition restart_name (k : string) : Prop := exists n, k = ("RES_" ++ n)%string.

Lemma first_series cfg c io k :
  In k (io_atm io) \/ In k (io_internal io) -> ~ layer_name k -> ~ restart_name k ->
  dict_find (io_arrays (first_io cfg c io)) k =
  Some (tabulate (io_ny io) (io_nx io) (fun _ _ => nan_series (io_time io))).
Proof.
  intros H L Rn. unfold first_io, create_global_restart_arrays, create_global_result_arrays.
  cbn [io_arrays with_arrays io_ny io_nx].
  rewrite (find_fold_set "RES_LAYER_").
  replace (existsb _ restart_layers) with false.
  2:{ symmetry. apply existsb_false_iff. intros n Hn. apply String.eqb_neq. intros E.
      apply Rn. exists ("LAYER_" ++ n)%string. symmetry. exact E. }
  rewrite (find_fold_set "RES_").
  replace (existsb _ restart_scalars) with false.
  2:{ symmetry. apply existsb_false_iff. intros n Hn. apply String.eqb_neq. intros E.
      apply Rn. exists n. symmetry. exact E. }
  assert (G : forall base,
    dict_find (fold_left (fun a name => dict_set a name
      (tabulate (io_ny io) (io_nx io) (fun _ _ => nan_series (io_time io)))) (io_internal io)
      (fold_left (fun a name => dict_set a name
      (tabulate (io_ny io) (io_nx io) (fun _ _ => nan_series (io_time io)))) (io_atm io) base)) k
    = Some (tabulate (io_ny io) (io_nx io) (fun _ _ => nan_series (io_time io)))).
  { intros base. rewrite (find_fold_set ""). rewrite (find_fold_set "").
    destruct (existsb (fun n => String.eqb ("" ++ n) k) (io_internal io)) eqn:E1; [reflexivity|].
    destruct (existsb (fun n => String.eqb ("" ++ n) k) (io_atm io)) eqn:E2; [reflexivity|].
    exfalso. rewrite existsb_false_iff in E1, E2.
    destruct H as [H|H]; [apply E2 in H|apply E1 in H]; cbn in H; rewrite String.eqb_refl in H;
      discriminate. }
  destruct (rc_full_field cfg); [|apply G].
  rewrite (find_fold_set "LAYER_").
  replace (existsb _ (io_full io)) with false; [apply G|].
  symmetry. apply existsb_false_iff. intros n Hn. apply String.eqb_neq. intros E.
  apply L. exists n. symmetry. exact E.
Qed.

Lemma first_layers cfg c io n :
  In n (io_full io) -> rc_full_field cfg = true ->
  dict_find (io_arrays (first_io cfg c io)) ("LAYER_" ++ n)%string =
  Some (tabulate (io_ny io) (io_nx io) (fun _ _ => nan_layers (io_time io) (c_max_layers c))).
Proof.
  intros H F. unfold first_io, create_global_restart_arrays, create_global_result_arrays.
  cbn [io_arrays with_arrays io_ny io_nx]. rewrite F.
  rewrite (find_fold_set "RES_LAYER_"). cbn [existsb restart_layers append].
  rewrite (find_fold_set "RES_"). cbn [existsb restart_scalars append].
  rewrite (find_fold_set "LAYER_").
  replace (existsb _ (io_full io)) with true; [reflexivity|].
  symmetry. apply existsb_exists. exists n. split; [exact H|apply String.eqb_refl].
Qed.

Lemma first_restart cfg c io :
  (forall n, In n restart_scalars ->
    dict_find (io_arrays (first_io cfg c io)) ("RES_" ++ n)%string =
    Some (tabulate (io_ny io) (io_nx io) (fun _ _ => nan_series 1))) /\
  (forall n, In n restart_layers ->
    dict_find (io_arrays (first_io cfg c io)) ("RES_LAYER_" ++ n)%string =
    Some (tabulate (io_ny io) (io_nx io) (fun _ _ => nan_series (c_max_layers c)))).
Proof.
  unfold first_io, create_global_restart_arrays. cbn [io_arrays with_arrays].
  split; intros n H; rewrite (find_fold_set "RES_LAYER_").
  - rewrite (find_fold_set "RES_").
    cbn in H. repeat (destruct H as [<-|H]; [reflexivity|]). destruct H.
  - replace (existsb _ restart_layers) with true; [reflexivity|].
    symmetry. apply existsb_exists. exists n. split; [exact H|apply String.eqb_refl].
Qed.

(** ** What a worker assigns *)

Definition param_block (par : string) (r : list pyval) : block :=
  match dict_find (worker_env r) par with Some (PBlock b) => b | _ => Series [] end.

Lemma find_case {A} (d : list (string * A)) name a : dict_find d name = Some a -> In (name, a) d.
Proof. apply find_in. Qed.

Ltac one_of H := cbn in H; repeat (destruct H as [H|H]; [injection H as <- <-|]); [..|destruct H].

Ltac worker_value := lazy -[series layer_series]; reflexivity.

Lemma atm_parameter name f :
  atm_field name = Some f ->
  exists par, In (name, par) atm_calls /\ ~ In name (map fst internal_calls) /\
    ~ layer_name name /\ ~ restart_name name /\
    forall ff m y x d outs names stat df,
      dict_find (worker_env (core_return ff m y x d outs names stat df)) par =
      Some (PBlock (Series (map f outs))).
Proof.
  intros H. apply find_case in H. one_of H;
  (eexists; split; [cbn; auto 20|]; split;
    [intros G; cbn in G; repeat (destruct G as [G|G]; [discriminate|]); destruct G|];
    split; [intros [n G]; discriminate|]; split; [intros [n G]; discriminate|];
    intros; worker_value).
Qed.

Lemma internal_parameter name f :
  internal_field name = Some f ->
  exists par, In (name, par) internal_calls /\ ~ In name (map fst atm_calls) /\
    ~ layer_name name /\ ~ restart_name name /\
    forall ff m y x d outs names stat df,
      dict_find (worker_env (core_return ff m y x d outs names stat df)) par =
      Some (PBlock (Series (map f outs))).
Proof.
  intros H. apply find_case in H. one_of H;
  (eexists; split; [cbn; auto 20|]; split;
    [intros G; cbn in G; repeat (destruct G as [G|G]; [discriminate|]); destruct G|];
    split; [intros [n G]; discriminate|]; split; [intros [n G]; discriminate|];
    intros; worker_value).
Qed.

Lemma layer_parameter name f :
  layer_field name = Some f ->
  exists par, In (name, par) full_field_calls /\
    forall m y x d outs names stat df,
      dict_find (worker_env (core_return true m y x d outs names stat df)) par =
      Some (PBlock (Layers (map (profile_row m f) outs))).
Proof.
  intros H. apply find_case in H. one_of H;
  (eexists; split; [cbn; auto 20|]; intros; worker_value).
Qed.

Lemma atm_calls_nodup : NoDup (map fst atm_calls).
Proof. cbn. repeat constructor; cbn; intuition discriminate. Qed.
Lemma internal_calls_nodup : NoDup (map fst internal_calls).
Proof. cbn. repeat constructor; cbn; intuition discriminate. Qed.
Lemma full_field_calls_nodup : NoDup (map fst full_field_calls).
Proof. cbn. repeat constructor; cbn; intuition discriminate. Qed.

Lemma ops_last_app (p q : list op) (k : string) :
  find_last (p ++ q) k = match find_last q k with Some v => Some v | None => find_last p k end.
Proof. apply find_last_app. Qed.

Lemma worker_ops_parts cfg nm r os :
  worker_ops cfg nm r = Ok os ->
  exists d ros, worker_restart r = Some d /\ restart_ops d = Ok ros /\
    os = (ops_of_calls "" (nm_atm nm) (worker_env r) atm_calls ++
           ops_of_calls "" (nm_int nm) (worker_env r) internal_calls ++
           (if rc_full_field cfg
            then ops_of_calls "LAYER_" (nm_full nm) (worker_env r) full_field_calls else [])) ++ ros.
Proof.
  unfold worker_ops. destruct (worker_restart r) as [d|]; [|discriminate].
  intros H. apply bind_ok in H as (ros & E & H). injection H as <-. exists d, ros. auto.
Qed.

Lemma restart_ops_none d ros k : restart_ops d = Ok ros -> ~ restart_name k -> find_last ros k = None.
Proof.
  intros E N. apply find_last_none. rewrite (restart_ops_keys _ _ E). intros G. apply N.
  cbn in G. repeat (destruct G as [<-|G]; [eexists; cbn; reflexivity|]). destruct G.
Qed.

Lemma calls_none prefix names env calls k :
  (forall n, In n (map fst calls) -> In n names -> (prefix ++ n)%string <> k) ->
  find_last (ops_of_calls prefix names env calls) k = None.
Proof.
  intros H. apply find_last_none. intros G. apply calls_key in G as (n & G1 & G2 & G3).
  exact (H n G1 G2 (eq_sym G3)).
Qed.

Lemma full_none cfg nm r k :
  ~ layer_name k ->
  find_last (if rc_full_field cfg
            then ops_of_calls "LAYER_" (nm_full nm) (worker_env r) full_field_calls else []) k = None.
Proof.
  intros N. destruct (rc_full_field cfg); [|reflexivity].
  apply calls_none. intros n _ _ E. apply N. exists n. symmetry; exact E.
Qed.

Lemma atm_assigns cfg nm name f r os ff m y x d outs names stat df :
  atm_field name = Some f -> In name (nm_atm nm) -> worker_ops cfg nm r = Ok os ->
  r = core_return ff m y x d outs names stat df ->
  find_last os name = Some (PBlock (Series (map f outs))).
Proof.
  intros Hf Hn E ->. apply worker_ops_parts in E as (d' & ros & _ & Er & ->).
  destruct (atm_parameter _ _ Hf) as (par & P1 & P2 & P3 & P4 & P5).
  rewrite !ops_last_app, (restart_ops_none _ _ _ Er P4), (full_none _ _ _ _ P3).
  rewrite calls_none by (intros n G1 _ <-; contradiction).
  exact (calls_last "" _ _ _ _ _ _ atm_calls_nodup P1 Hn (P5 _ _ _ _ _ _ _ _ _)).
Qed.

Lemma internal_assigns cfg nm name f r os ff m y x d outs names stat df :
  internal_field name = Some f -> In name (nm_int nm) -> worker_ops cfg nm r = Ok os ->
  r = core_return ff m y x d outs names stat df ->
  find_last os name = Some (PBlock (Series (map f outs))).
Proof.
  intros Hf Hn E ->. apply worker_ops_parts in E as (d' & ros & _ & Er & ->).
  destruct (internal_parameter _ _ Hf) as (par & P1 & P2 & P3 & P4 & P5).
  rewrite !ops_last_app, (restart_ops_none _ _ _ Er P4), (full_none _ _ _ _ P3).
  rewrite (calls_last "" _ _ _ _ _ _ internal_calls_nodup P1 Hn (P5 _ _ _ _ _ _ _ _ _)).
  reflexivity.
Qed.

Lemma layer_assigns cfg nm name f r os m y x d outs names stat df :
  layer_field name = Some f -> In name (nm_full nm) -> rc_full_field cfg = true ->
  worker_ops cfg nm r = Ok os ->
  r = core_return true m y x d outs names stat df ->
  find_last os ("LAYER_" ++ name)%string = Some (PBlock (Layers (map (profile_row m f) outs))).
Proof.
  intros Hf Hn F E ->. apply worker_ops_parts in E as (d' & ros & _ & Er & ->).
  destruct (layer_parameter _ _ Hf) as (par & P1 & P5).
  rewrite F, !ops_last_app, (restart_ops_none _ _ _ Er) by (intros [n G]; discriminate).
  rewrite (calls_last "LAYER_" _ _ _ _ _ _ full_field_calls_nodup P1 Hn (P5 _ _ _ _ _ _ _ _)).
  reflexivity.
Qed.

Lemma none_assigned cfg nm k r os :
  worker_ops cfg nm r = Ok os ->
  (In k (nm_atm nm) -> ~ In k (map fst atm_calls)) ->
  (In k (nm_int nm) -> ~ In k (map fst internal_calls)) ->
  ~ layer_name k -> ~ restart_name k -> find_last os k = None.
Proof.
  intros E H1 H2 H3 H4. apply worker_ops_parts in E as (d' & ros & _ & Er & ->).
  rewrite !ops_last_app, (restart_ops_none _ _ _ Er H4), (full_none _ _ _ _ H3).
  rewrite !calls_none; [reflexivity|intros n G1 G2 <-; exact (H1 G2 G1)|intros n G1 G2 <-; exact (H2 G2 G1)].
Qed.

Lemma layer_none_assigned cfg nm n r os :
  worker_ops cfg nm r = Ok os ->
  ~ In n (map fst full_field_calls) -> find_last os ("LAYER_" ++ n)%string = None.
Proof.
  intros E H. apply worker_ops_parts in E as (d' & ros & _ & Er & ->).
  rewrite !ops_last_app, (restart_ops_none _ _ _ Er) by (intros [k G]; discriminate).
  assert (forall calls, (forall k, In k (map fst calls) -> k <> ("LAYER_" ++ n)%string) -> forall nms,
    find_last (ops_of_calls "" nms (worker_env r) calls) ("LAYER_" ++ n)%string = None) as G.
  { intros calls Hc nms. apply calls_none. intros k G1 G2. exact (Hc k G1). }
  rewrite !G.
  - destruct (rc_full_field cfg); [|reflexivity]. rewrite calls_none; [reflexivity|].
    intros k G1 _ G2. apply append_inj in G2. subst; contradiction.
  - intros k Hk. cbn in Hk. repeat (destruct Hk as [<-|Hk]; [discriminate|]). destruct Hk.
  - intros k Hk. cbn in Hk. repeat (destruct Hk as [<-|Hk]; [discriminate|]). destruct Hk.
Qed.

Lemma restart_scalars_nodup : NoDup restart_scalars.
Proof. repeat constructor; cbn; intuition discriminate. Qed.
Lemma restart_layers_nodup : NoDup restart_layers.
Proof. repeat constructor; cbn; intuition discriminate. Qed.

Lemma restart_assigns cfg nm r os d :
  worker_ops cfg nm r = Ok os -> worker_restart r = Some d ->
  (forall n, In n restart_scalars -> exists v, ds_get d n = Ok v /\
     find_last os ("RES_" ++ n)%string = Some (PBlock (Series v))) /\
  (forall n, In n restart_layers -> exists v, ds_get d ("LAYER_" ++ n)%string = Ok v /\
     find_last os ("RES_LAYER_" ++ n)%string = Some (PBlock (Series v))).
Proof.
  intros E W. apply worker_ops_parts in E as (d' & ros & W' & Er & ->).
  rewrite W in W'. injection W' as <-.
  apply bind_ok in Er as (a & Ea & Er). apply bind_ok in Er as (b & Eb & Er). injection Er as <-.
  split; intros n Hn.
  - destruct (named_ops_last _ _ _ _ _ _ restart_scalars_nodup Hn Ea) as (v & V1 & V2).
    exists v. split; [exact V1|]. rewrite !ops_last_app.
    rewrite (find_last_none b).
    + unfold op in *. rewrite V2. reflexivity.
    + rewrite (named_ops_keys _ _ _ _ _ Eb). intros G. apply in_map_iff in G as (k & G & _).
      cbn in Hn. repeat (destruct Hn as [<-|Hn]; [discriminate|]). destruct Hn.
  - destruct (named_ops_last _ _ _ _ _ _ restart_layers_nodup Hn Eb) as (v & V1 & V2).
    exists v. split; [exact V1|]. rewrite !ops_last_app.
    unfold op in *. rewrite V2. reflexivity.
Qed.
