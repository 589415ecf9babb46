(** * A run with fitting workers succeeds *)
From Verif Require Import ModelPy ModelConstants ModelNode ModelGrid ModelSurface ModelInit
  ModelCore ModelConfig ModelIO ModelMain SpecIO LemPy LemDict LemIO LemIO2 LemIO3 LemIO4 LemIO5
  LemIO6.
From Coq Require Import Permutation.

Definition like (b sh : block) : Prop :=
  match b, sh with
  | Series l, Series l' => length l = length l'
  | Layers l, Layers l' => map (@length number) l = map (@length number) l'
  | _, _ => False
  end.

Lemma same_shape_iff a b : same_shape a b = true <-> map (@length number) a = map (@length number) b.
Proof.
  revert b; induction a as [|r a IH]; intros [|s b]; cbn; try (split; [discriminate|discriminate]).
  - tauto.
  - rewrite andb_true_iff, Nat.eqb_eq, IH. split.
    + intros [-> ->]; reflexivity.
    + intros H; injection H as -> ->; auto.
Qed.

Lemma assign_like b n sh : like b sh -> like n sh -> assign b (PBlock n) = Ok n.
Proof.
  destruct b as [b|b], n as [n|n], sh as [s|s]; cbn; try contradiction; intros H1 H2.
  - rewrite (proj2 (Nat.eqb_eq _ _)) by congruence. reflexivity.
  - rewrite (proj2 (same_shape_iff n b)) by congruence. reflexivity.
Qed.

Section Like.
Variables (ny nx : Z) (first : dict (cells block)).

(** the arrays have the shape of the first ones *)
Definition shaped (a : dict (cells block)) : Prop :=
  map fst a = map fst first /\
  forall k sh, dict_find first k = Some (tabulate ny nx (fun _ _ => sh)) ->
    exists arr, dict_find a k = Some arr /\
      forall y x, (0 <= y < ny)%Z -> (0 <= x < nx)%Z -> exists b, cell_at arr y x = Some b /\ like b sh.

Definition fits (o : op) : Prop :=
  exists b sh, dict_find first (fst o) = Some (tabulate ny nx (fun _ _ => sh)) /\
    snd o = PBlock b /\ like b sh.

Lemma do_op_progress y x o a :
  (0 <= y < ny)%Z -> (0 <= x < nx)%Z -> shaped a -> fits o ->
  exists a', do_op y x o a = Ok a' /\ shaped a'.
Proof.
  intros Hy Hx [K S] (b & sh & F1 & F2 & F3). destruct o as [k v]. cbn in F1, F2. subst v.
  destruct (S _ _ F1) as (arr & A1 & A2). destruct (A2 _ _ Hy Hx) as (old & O1 & O2).
  assert (E : do_op y x (k, PBlock b) a = Ok (dict_set a k (put y x b arr))).
  { apply (do_op_intro y x (k, PBlock b) a arr old b); try lia; try assumption.
    apply (assign_like _ _ sh); assumption. }
  exists (dict_set a k (put y x b arr)). split; [exact E|]. split.
  - rewrite keys_set_present; [exact K|]. eapply find_key; exact A1.
  - intros k' sh' F'. destruct (S _ _ F') as (arr' & A1' & A2').
    destruct (eqb_spec_s k k') as [<-|N].
    + rewrite A1 in A1'. injection A1' as <-. exists (put y x b arr).
      split; [apply find_set_same|]. intros y' x' Hy' Hx'. rewrite cell_at_put by lia.
      destruct (A2' _ _ Hy' Hx') as (b' & B1 & B2). rewrite B1.
      destruct (Z.eqb_spec y' y) as [->|]; destruct (Z.eqb_spec x' x) as [->|]; cbn [andb option_map].
      * exists b. split; [reflexivity|]. rewrite F' in F1. injection F1 as F1.
        assert (Some sh' = Some sh) as Es.
        { pose proof (cell_at_tabulate ny nx (fun _ _ => sh') y x Hy Hx) as T1.
          pose proof (cell_at_tabulate ny nx (fun _ _ => sh) y x Hy Hx) as T2.
          rewrite F1 in T1. cbn in T1, T2. congruence. }
        injection Es as ->. exact F3.
      * exists b'; auto.
      * exists b'; auto.
      * exists b'; auto.
    + exists arr'. split; [rewrite find_set_other by exact N; exact A1'|exact A2'].
Qed.

Lemma do_ops_progress y x os a :
  (0 <= y < ny)%Z -> (0 <= x < nx)%Z -> shaped a -> Forall fits os ->
  exists a', do_ops y x os a = Ok a' /\ shaped a'.
Proof.
  intros Hy Hx. revert a; induction os as [|o os IH]; intros a S F; cbn [do_ops]; [eauto|].
  inversion F as [|? ? F1 F2]; subst.
  destruct (do_op_progress _ _ _ _ Hy Hx S F1) as (a1 & E & S1). rewrite E. cbn [bind]. auto.
Qed.
End Like.

Lemma pairs_progress add pg pl md arrays names :
  (forall n, In n names -> In (pg ++ n)%string (map fst arrays)) ->
  (forall n, In n names -> dict_find md (pl ++ n)%string <> None) ->
  exists p, pairs add pg pl md arrays names = Ok p.
Proof.
  induction names as [|n t IH]; cbn [pairs]; intros H1 H2; [eauto|].
  destruct IH as [p Ep]; [intros k Hk; apply H1; right; exact Hk|intros k Hk; apply H2; right; exact Hk|].
  destruct (find_some_key arrays (pg ++ n)%string) as [arr Ea]; [apply H1; left; reflexivity|].
  unfold attr_get, dict_get. rewrite Ea. cbn [bind].
  pose proof (H2 n (or_introl eq_refl)) as H. destruct (dict_find md (pl ++ n)%string); [|contradiction].
  cbn [bind]. rewrite Ep. cbn. eauto.
Qed.

Lemma keys_fold_set {V} (p : string) (v : V) names d k :
  In k (map fst (fold_left (fun a n => dict_set a (p ++ n)%string v) names d)) <->
  (exists n, In n names /\ k = (p ++ n)%string) \/ In k (map fst d).
Proof.
  revert d; induction names as [|n t IH]; intros d; cbn [fold_left].
  - split; [auto|]. intros [(n & [] & _)|H]; exact H.
  - rewrite IH, keys_set, add_key_in. cbn [In]. split.
    + intros [(m & H1 & H2)|[->|H]]; [left; exists m; auto|left; exists n; auto|auto].
    + intros [(m & [<-|H1] & H2)|H]; [auto|left; exists m; auto|auto].
Qed.

Lemma first_keys cfg c io :
  (forall k, In k (io_atm io) \/ In k (io_internal io) ->
     In k (map fst (io_arrays (first_io cfg c io)))) /\
  (rc_full_field cfg = true -> forall n, In n (io_full io) ->
     In ("LAYER_" ++ n)%string (map fst (io_arrays (first_io cfg c io)))) /\
  (forall n, In n restart_scalars -> In ("RES_" ++ n)%string (map fst (io_arrays (first_io cfg c io)))) /\
  (forall n, In n restart_layers -> In ("RES_LAYER_" ++ n)%string (map fst (io_arrays (first_io cfg c io)))).
Proof.
  unfold first_io, create_global_restart_arrays, create_global_result_arrays.
  cbn [io_arrays with_arrays io_ny io_nx].
  split; [|split; [|split]].
  - intros k H. rewrite (keys_fold_set "RES_LAYER_"), (keys_fold_set "RES_"). right; right.
    assert (G : forall base v,
      In k (map fst (fold_left (fun (a : dict (cells block)) name => dict_set a name v) (io_internal io)
        (fold_left (fun a name => dict_set a name v) (io_atm io) base)))).
    { intros base v. rewrite (keys_fold_set "" v), (keys_fold_set "" v).
      destruct H as [H|H]; [right; left; exists k; auto|left; exists k; auto]. }
    destruct (rc_full_field cfg); [|apply G].
    rewrite (keys_fold_set "LAYER_"). right. apply G.
  - intros F n H. rewrite F, (keys_fold_set "RES_LAYER_"), (keys_fold_set "RES_"), (keys_fold_set "LAYER_").
    right; right; left. exists n. auto.
  - intros n H. rewrite (keys_fold_set "RES_LAYER_"), (keys_fold_set "RES_"). right; left. exists n. auto.
  - intros n H. rewrite (keys_fold_set "RES_LAYER_"). left. exists n. auto.
Qed.

Lemma pairs_ok cfg c io a :
  names_known (rc_full_field cfg) io -> map fst a = map fst (io_arrays (first_io cfg c io)) ->
  (exists p, result_pairs cfg (names_of io) a = Ok p) /\ (exists q, restart_pairs cfg a = Ok q).
Proof.
  intros [M1 M2] K. destruct (first_keys cfg c io) as (F1 & F2 & F3 & F4).
  unfold result_pairs, restart_pairs. cbn [names_of nm_atm nm_int nm_full]. split.
  - destruct (pairs_progress (var_time cfg) "" "" result_metadata a (io_atm io)) as [p1 E1].
    { intros n H. rewrite K. apply F1. auto. } { intros n H. apply M1. auto. }
    destruct (pairs_progress (var_time cfg) "" "" result_metadata a (io_internal io)) as [p2 E2].
    { intros n H. rewrite K. apply F1. auto. } { intros n H. apply M1. auto. }
    rewrite E1, E2. cbn [bind].
    destruct (rc_full_field cfg).
    + destruct (pairs_progress (var_layertime cfg) "LAYER_" "LAYER_" result_metadata a (io_full io)) as [p3 E3].
      { intros n H. rewrite K. apply F2; auto. } { intros n H. apply M2; auto. }
      rewrite E3. cbn. eauto.
    + cbn. eauto.
  - destruct (pairs_progress (var_latlon cfg) "RES_" "" restart_metadata a restart_scalars) as [p1 E1].
    { intros n H. rewrite K. apply F3. auto. }
    { intros n H. cbn in H. repeat (destruct H as [<-|H]; [discriminate|]). destruct H. }
    destruct (pairs_progress (var_layer cfg) "RES_LAYER_" "LAYER_" restart_metadata a restart_layers) as [p2 E2].
    { intros n H. rewrite K. apply F4. auto. }
    { intros n H. cbn in H. repeat (destruct H as [<-|H]; [discriminate|]). destruct H. }
    rewrite E1, E2. cbn. eauto.
Qed.

Lemma ops_in prefix names env calls k v :
  In (k, v) (ops_of_calls prefix names env calls) ->
  exists n par, In (n, par) calls /\ In n names /\ k = (prefix ++ n)%string /\ dict_find env par = Some v.
Proof.
  intros H. apply in_flat_map in H as ([n par] & Hc & H). cbn [fst snd] in H.
  destruct (in_names n names) eqn:En; [|destruct H].
  destruct (dict_find env par) eqn:Ev; [|destruct H].
  destruct H as [H|[]]. injection H as <- <-. exists n, par.
  split; [exact Hc|]. split; [apply in_names_iff; exact En|]. auto.
Qed.

Lemma atm_call_field n par : In (n, par) atm_calls -> exists f, atm_field n = Some f.
Proof. intros H. cbn in H. repeat (destruct H as [H|H]; [injection H as <- <-; eexists; reflexivity|]). destruct H. Qed.
Lemma internal_call_field n par : In (n, par) internal_calls -> exists f, internal_field n = Some f.
Proof. intros H. cbn in H. repeat (destruct H as [H|H]; [injection H as <- <-; eexists; reflexivity|]). destruct H. Qed.
Lemma full_call_field n par : In (n, par) full_field_calls -> exists f, layer_field n = Some f /\
  In f [lf_HEIGHT; lf_RHO; lf_T; lf_LWC; lf_CC; lf_POROSITY; lf_ICE_FRACTION; lf_IRREDUCIBLE_WATER; lf_REFREEZE].
Proof.
  intros H. cbn in H.
  repeat (destruct H as [H|H]; [injection H as <- <-; eexists; split; [reflexivity|]; cbn; auto 20|]). destruct H.
Qed.

Lemma nodup_pair {A B} (l : list (A * B)) a b b' :
  NoDup (map fst l) -> In (a, b) l -> In (a, b') l -> b = b'.
Proof.
  induction l as [|[x y] l IH]; cbn; intros N H1 H2; [destruct H1|].
  inversion N as [|? ? N1 N2]; subst.
  destruct H1 as [H1|H1], H2 as [H2|H2]; try congruence.
  - injection H1 as -> ->. exfalso. apply N1. apply (in_map fst) in H2. exact H2.
  - injection H2 as -> ->. exfalso. apply N1. apply (in_map fst) in H1. exact H1.
  - exact (IH N2 H1 H2).
Qed.

Lemma named_ops_progress pg pl d names :
  (forall n, In n names -> exists v, ds_get d (pl ++ n)%string = Ok v) ->
  exists os, named_ops pg pl d names = Ok os /\
    forall k v, In (k, v) os -> exists n w, In n names /\ k = (pg ++ n)%string /\
      ds_get d (pl ++ n)%string = Ok w /\ v = PBlock (Series w).
Proof.
  induction names as [|n t IH]; cbn [named_ops]; intros H.
  - exists []. split; [reflexivity|]. intros k v [].
  - destruct IH as (os & E & G). { intros m Hm; apply H; right; exact Hm. }
    destruct (H n (or_introl eq_refl)) as [w Ew]. rewrite Ew, E. cbn [bind].
    eexists; split; [reflexivity|]. intros k v [I|I].
    + injection I as <- <-. exists n, w. cbn; auto.
    + destruct (G _ _ I) as (m & u & G1 & G2). exists m, u. cbn; tauto.
Qed.

Lemma worker_fits cfg c io y x d outs names stat df :
  answer_fits (c_max_layers c) (io_time io) d outs ->
  exists os, worker_ops cfg (names_of io)
      (core_return (rc_full_field cfg) (c_max_layers c) y x d outs names stat df) = Ok os /\
    Forall (fits (io_ny io) (io_nx io) (io_arrays (first_io cfg c io))) os.
Proof.
  intros (L & P & R1 & R2). unfold worker_ops.
  change (worker_restart (core_return (rc_full_field cfg) (c_max_layers c) y x d outs names stat df)) with (Some d).
  cbv beta iota.
  destruct (named_ops_progress "RES_" "" d restart_scalars) as (o1 & E1 & G1).
  { intros n H. destruct (R1 n H) as [v Ev]. eauto. }
  destruct (named_ops_progress "RES_LAYER_" "LAYER_" d restart_layers) as (o2 & E2 & G2).
  { intros n H. destruct (R2 ("LAYER_" ++ n)%string) as (l & El & _); [|eauto].
    cbn in H. repeat (destruct H as [<-|H]; [cbn; tauto|]). destruct H. }
  unfold restart_ops. rewrite E1, E2. cbn [bind].
  eexists; split; [reflexivity|].
  destruct (first_restart cfg c io) as [F1 F2].
  apply Forall_forall. intros [k v] H. unfold fits. cbn [fst snd].
  rewrite !in_app_iff in H. destruct H as [[H|[H|H]]|[H|H]].
  - apply ops_in in H as (n & par & H1 & H2 & -> & H4). cbn [append].
    destruct (atm_call_field _ _ H1) as [f Hf].
    destruct (atm_parameter _ _ Hf) as (par' & P1 & P2 & P3 & P4 & P5).
    rewrite <- (nodup_pair _ _ _ _ atm_calls_nodup H1 P1) in P5.
    rewrite P5 in H4. injection H4 as <-.
    exists (Series (map f outs)), (nan_series (io_time io)). split; [|split; [reflexivity|]].
    + apply first_series; auto.
    + cbn. rewrite map_length, repeat_length. exact L.
  - apply ops_in in H as (n & par & H1 & H2 & -> & H4). cbn [append].
    destruct (internal_call_field _ _ H1) as [f Hf].
    destruct (internal_parameter _ _ Hf) as (par' & P1 & P2 & P3 & P4 & P5).
    rewrite <- (nodup_pair _ _ _ _ internal_calls_nodup H1 P1) in P5.
    rewrite P5 in H4. injection H4 as <-.
    exists (Series (map f outs)), (nan_series (io_time io)). split; [|split; [reflexivity|]].
    + apply first_series; auto.
    + cbn. rewrite map_length, repeat_length. exact L.
  - destruct (rc_full_field cfg) eqn:F; [|destruct H].
    apply ops_in in H as (n & par & H1 & H2 & -> & H4).
    destruct (full_call_field _ _ H1) as (f & Hf & If).
    destruct (layer_parameter _ _ Hf) as (par' & P1 & P5).
    rewrite <- (nodup_pair _ _ _ _ full_field_calls_nodup H1 P1) in P5.
    rewrite P5 in H4. injection H4 as <-.
    exists (Layers (map (profile_row (c_max_layers c) f) outs)), (nan_layers (io_time io) (c_max_layers c)).
    split; [apply first_layers; auto|]. split; [reflexivity|].
    cbn. rewrite map_map. rewrite <- L. clear L.
    induction P as [|o outs Po P IH]; [reflexivity|]. cbn [map length repeat].
    rewrite IH. f_equal. unfold profile_row. rewrite repeat_length.
    destruct (o_profiles o) as [p|].
    + specialize (Po f If). rewrite app_length, map_length, repeat_length. lia.
    + apply repeat_length.
  - destruct (G1 _ _ H) as (n & w & N1 & -> & N3 & ->).
    exists (Series w), (nan_series 1). split; [apply F1; exact N1|]. split; [reflexivity|].
    destruct (R1 n N1) as [u Eu]. cbn [append] in N3. rewrite N3 in Eu. injection Eu as ->. reflexivity.
  - destruct (G2 _ _ H) as (n & w & N1 & -> & N3 & ->).
    exists (Series w), (nan_series (c_max_layers c)). split; [apply F2; exact N1|]. split; [reflexivity|].
    destruct (R2 ("LAYER_" ++ n)%string) as (l & El & Ll).
    { cbn in N1. repeat (destruct N1 as [<-|N1]; [cbn; tauto|]). destruct N1. }
    rewrite N3 in El. injection El as ->. cbn. rewrite repeat_length. exact Ll.
Qed.

Lemma first_shaped cfg c io :
  shaped (io_ny io) (io_nx io) (io_arrays (first_io cfg c io)) (io_arrays (first_io cfg c io)).
Proof.
  split; [reflexivity|]. intros k sh H. eexists; split; [exact H|].
  intros y x Hy Hx. exists sh. split; [apply cell_at_tabulate; assumption|].
  destruct sh; reflexivity.
Qed.

Lemma collect_progress cfg c work io jobs :
  rc_stake_evaluation cfg = false -> names_known (rc_full_field cfg) io ->
  (forall j, In j jobs -> (0 <= j_y j < io_ny io)%Z /\ (0 <= j_x j < io_nx io)%Z /\
     exists d outs names stat df,
       work j = Ok (core_return (rc_full_field cfg) (c_max_layers c) (j_y j) (j_x j) d outs names stat df) /\
       answer_fits (c_max_layers c) (io_time io) d outs) ->
  forall acc, names_of (col_io acc) = names_of io ->
    shaped (io_ny io) (io_nx io) (io_arrays (first_io cfg c io)) (io_arrays (col_io acc)) ->
    exists col, collect cfg work jobs acc = Ok col.
Proof.
  intros St Nk. induction jobs as [|j jobs IH]; intros H acc Nm Sh; cbn [collect]; [eauto|].
  destruct (H j (or_introl eq_refl)) as (Hy & Hx & d & outs & names & stat & df & Ew & Fit).
  rewrite Ew. cbn [bind].
  destruct (worker_fits cfg c io (j_y j) (j_x j) d outs names stat df Fit) as (os & Eo & Fo).
  destruct (do_ops_progress _ _ _ _ _ _ _ Hy Hx Sh Fo) as (a & Ea & Sa).
  destruct (pairs_ok cfg c io a Nk (proj1 Sa)) as [[p Ep] [q Eq]].
  assert (E : store_result cfg
    (core_return (rc_full_field cfg) (c_max_layers c) (j_y j) (j_x j) d outs names stat df) acc =
    Ok (mkCollected (rebuild (col_io acc) a (dict_union (io_RESULT (col_io acc)) p)
                (dict_union (io_RESTART (col_io acc)) q)) (col_stat acc) (col_val acc))).
  { apply (store_result_ok cfg _ (j_y j) (j_x j)); [reflexivity|]. split; [reflexivity|].
    exists os, a, p, q, (col_stat acc), (col_val acc). rewrite Nm.
    split; [exact Eo|]. split; [exact Ea|]. split; [exact Ep|]. split; [exact Eq|].
    split; [|reflexivity]. unfold store_stakes. rewrite St. reflexivity. }
  rewrite E. cbn [bind]. apply IH.
  - intros i Hi. apply H. right; exact Hi.
  - exact Nm.
  - exact Sa.
Qed.
