(** * Lemmas about collecting the results of the workers *)
From Verif Require Import ModelPy ModelConstants ModelNode ModelGrid ModelSurface ModelInit
  ModelCore ModelConfig ModelIO ModelMain SpecIO LemPy LemDict LemIO.
From Coq Require Import Permutation.

(** ** Restart data as assignments *)

Fixpoint named_ops (prefix_g prefix_l : string) (r : dataset) (names : list string)
  : res (list op) :=
  match names with
  | [] => Ok []
  | n :: t =>
      v <- ds_get r (prefix_l ++ n)%string ;;
      os <- named_ops prefix_g prefix_l r t ;;
      Ok (((prefix_g ++ n)%string, PBlock (Series v)) :: os)
  end.

Lemma put_fold_ok prefix_g prefix_l r y x names io io' :
  fold_left (fun acc name =>
               s <- acc ;; v <- ds_get r (prefix_l ++ name)%string ;;
               set_cell (prefix_g ++ name)%string y x (PBlock (Series v)) s) names (Ok io) = Ok io' <->
  exists os a, named_ops prefix_g prefix_l r names = Ok os /\
    do_ops y x os (io_arrays io) = Ok a /\ io' = with_arrays io a.
Proof.
  revert io; induction names as [|n t IH]; intros io; cbn [fold_left named_ops].
  - split.
    + intros H; injection H as <-. exists [], (io_arrays io). cbn. rewrite with_arrays_self. auto.
    + intros (os & a & E1 & E2 & ->). injection E1 as <-. cbn in E2. injection E2 as <-.
      rewrite with_arrays_self; reflexivity.
  - cbn [bind]. destruct (ds_get r (prefix_l ++ n)%string) as [v|e] eqn:Ev; cbn [bind].
    2:{ rewrite fold_err by reflexivity. split; [discriminate|].
        intros (os & a & E1 & _); discriminate. }
    rewrite set_cell_op.
    destruct (do_op y x ((prefix_g ++ n)%string, PBlock (Series v)) (io_arrays io)) as [a|e] eqn:Ea;
      cbn [bind].
    + rewrite IH. cbn [io_arrays with_arrays]. split.
      * intros (os & b & E1 & E2 & ->). rewrite E1. cbn [bind].
        eexists _, b. split; [reflexivity|]. cbn [do_ops]. rewrite Ea. cbn. auto.
      * intros (os & b & E1 & E2 & ->).
        apply bind_ok in E1 as (os' & E1 & E3). injection E3 as <-.
        cbn [do_ops] in E2. rewrite Ea in E2. cbn in E2.
        exists os', b. auto.
    + rewrite fold_err by reflexivity. split; [discriminate|].
      intros (os & b & E1 & E2 & ->).
      apply bind_ok in E1 as (os' & E1 & E3). injection E3 as <-.
      cbn [do_ops] in E2. rewrite Ea in E2. discriminate.
Qed.

Definition restart_ops (r : dataset) : res (list op) :=
  a <- named_ops "RES_" "" r restart_scalars ;;
  b <- named_ops "RES_LAYER_" "LAYER_" r restart_layers ;;
  Ok (a ++ b).

Lemma copy_restart_ops y x r io io' :
  copy_local_restart_to_global y x r io = Ok io' <->
  exists os a, restart_ops r = Ok os /\ do_ops y x os (io_arrays io) = Ok a /\
    io' = with_arrays io a.
Proof.
  unfold copy_local_restart_to_global, restart_ops. split.
  - intros H. apply bind_ok in H as (io1 & H1 & H2).
    apply put_fold_ok in H1 as (os1 & a1 & E1 & F1 & ->).
    apply put_fold_ok in H2 as (os2 & a2 & E2 & F2 & ->).
    rewrite E1, E2. cbn [bind]. exists (os1 ++ os2), a2. split; [reflexivity|].
    split; [|reflexivity]. rewrite do_ops_app, F1. exact F2.
  - intros (os & a & E & F & ->).
    apply bind_ok in E as (os1 & E1 & E). apply bind_ok in E as (os2 & E2 & E).
    injection E as <-. rewrite do_ops_app in F. apply bind_ok in F as (a1 & F1 & F2).
    assert (G : fold_left
      (fun (acc : res IO) (name : string) =>
        s <- acc;; v <- ds_get r ("" ++ name);;
        set_cell ("RES_" ++ name) y x (PBlock (Series v)) s) restart_scalars (Ok io)
        = Ok (with_arrays io a1)).
    { apply put_fold_ok. exists os1, a1. auto. }
    rewrite G. cbn [bind]. apply put_fold_ok. exists os2, a. auto.
Qed.

(** ** Writing the datasets *)

Section Pairs.
Variable add : cells block -> string -> string -> variable.
Variable prefix_g prefix_l : string.
Variable md : metadata.

Fixpoint pairs (arrays : dict (cells block)) (names : list string) : res (dict variable) :=
  match names with
  | [] => Ok []
  | n :: t =>
      arr <- attr_get arrays (prefix_g ++ n)%string ;;
      m <- dict_get md (prefix_l ++ n)%string ;;
      p <- pairs arrays t ;;
      Ok (((prefix_l ++ n)%string, add arr (fst m) (snd m)) :: p)
  end.

Lemma write_fold_ok arrays names ds ds' :
  fold_left (fun acc n =>
               ds <- acc ;;
               arr <- attr_get arrays (prefix_g ++ n)%string ;;
               m <- dict_get md (prefix_l ++ n)%string ;;
               Ok (dict_set ds (prefix_l ++ n)%string (add arr (fst m) (snd m)))) names (Ok ds)
  = Ok ds' <->
  exists p, pairs arrays names = Ok p /\ ds' = dict_union ds p.
Proof.
  revert ds; induction names as [|n t IH]; intros ds; cbn [fold_left pairs].
  - split.
    + intros H; injection H as <-. exists []. auto.
    + intros (p & E & ->). injection E as <-. reflexivity.
  - cbn [bind]. destruct (attr_get arrays (prefix_g ++ n)%string) as [arr|e]; cbn [bind].
    2:{ rewrite fold_err by reflexivity. split; [discriminate|intros (p & E & _); discriminate]. }
    destruct (dict_get md (prefix_l ++ n)%string) as [m|e]; cbn [bind].
    2:{ rewrite fold_err by reflexivity. split; [discriminate|intros (p & E & _); discriminate]. }
    rewrite IH. split.
    + intros (p & E & ->). rewrite E. cbn [bind]. eexists; split; reflexivity.
    + intros (p & E & ->). apply bind_ok in E as (q & E & F). injection F as <-.
      exists q. auto.
Qed.

(** whether the writing succeeds, and under which names, depends only on the names of the
    arrays *)
Lemma pairs_keys arrays arrays' names p :
  map fst arrays' = map fst arrays -> pairs arrays names = Ok p ->
  exists p', pairs arrays' names = Ok p' /\ map fst p' = map fst p.
Proof.
  intros K. revert p; induction names as [|n t IH]; cbn [pairs]; intros p E.
  - injection E as <-. exists []. auto.
  - apply bind_ok in E as (arr & E1 & E). apply bind_ok in E as (m & E2 & E).
    apply bind_ok in E as (q & E3 & E). injection E as <-.
    destruct (IH _ E3) as (q' & F & G).
    assert (exists arr', attr_get arrays' (prefix_g ++ n)%string = Ok arr') as [arr' F'].
    { unfold attr_get in *. destruct (dict_find arrays (prefix_g ++ n)%string) eqn:Ea; [|discriminate].
      destruct (find_some_key arrays' (prefix_g ++ n)%string) as [w Ew].
      - rewrite K. eapply find_key; exact Ea.
      - rewrite Ew. eauto. }
    rewrite F', E2. cbn [bind]. rewrite F. cbn [bind].
    eexists; split; [reflexivity|]. cbn. rewrite G. reflexivity.
Qed.

Lemma pairs_find arrays names p n :
  pairs arrays names = Ok p -> In n names ->
  exists arr m, dict_find arrays (prefix_g ++ n)%string = Some arr /\
    dict_find md (prefix_l ++ n)%string = Some m /\
    In ((prefix_l ++ n)%string, add arr (fst m) (snd m)) p.
Proof.
  revert p; induction names as [|k t IH]; cbn [pairs]; intros p E H; [destruct H|].
  apply bind_ok in E as (arr & E1 & E). apply bind_ok in E as (m & E2 & E).
  apply bind_ok in E as (q & E3 & E). injection E as <-.
  destruct H as [->|H].
  - exists arr, m. unfold attr_get in E1. unfold dict_get in E2.
    destruct (dict_find arrays (prefix_g ++ n)%string); [|discriminate].
    destruct (dict_find md (prefix_l ++ n)%string); [|discriminate].
    injection E1 as ->. injection E2 as ->. cbn. auto.
  - destruct (IH _ E3 H) as (arr' & m' & F1 & F2 & F3).
    exists arr', m'. cbn. auto.
Qed.

(** every entry written under a name comes from the array of that name *)
Lemma pairs_in arrays names p k v :
  pairs arrays names = Ok p -> In (k, v) p ->
  exists n arr m, In n names /\ k = (prefix_l ++ n)%string /\
    dict_find arrays (prefix_g ++ n)%string = Some arr /\
    dict_find md k = Some m /\ v = add arr (fst m) (snd m).
Proof.
  revert p; induction names as [|n t IH]; cbn [pairs]; intros p E H.
  - injection E as <-. destruct H.
  - apply bind_ok in E as (arr & E1 & E). apply bind_ok in E as (m & E2 & E).
    apply bind_ok in E as (q & E3 & E). injection E as <-.
    destruct H as [H|H].
    + injection H as <- <-. exists n, arr, m. unfold attr_get in E1. unfold dict_get in E2.
      destruct (dict_find arrays (prefix_g ++ n)%string); [|discriminate].
      destruct (dict_find md (prefix_l ++ n)%string); [|discriminate].
      injection E1 as ->. injection E2 as ->. cbn. auto 6.
    + destruct (IH _ E3 H) as (n' & arr' & m' & F1 & F2).
      exists n', arr', m'. cbn. tauto.
Qed.
End Pairs.

Definition var_time (cfg : RunConfig) (arr : cells block) (u l : string) : variable :=
  mkVariable ["time"%string; rc_northing cfg; rc_easting cfg] arr u l.
Definition var_layertime (cfg : RunConfig) (arr : cells block) (u l : string) : variable :=
  mkVariable ["time"%string; rc_northing cfg; rc_easting cfg; "layer"%string] arr u l.
Definition var_latlon (cfg : RunConfig) (arr : cells block) (u l : string) : variable :=
  mkVariable [rc_northing cfg; rc_easting cfg] arr u l.
Definition var_layer (cfg : RunConfig) (arr : cells block) (u l : string) : variable :=
  mkVariable [rc_northing cfg; rc_easting cfg; "layer"%string] arr u l.

(** names of an IO object *)
Record Names : Type := mkNames { nm_atm : list string; nm_int : list string; nm_full : list string }.
Definition names_of (io : IO) : Names := mkNames (io_atm io) (io_internal io) (io_full io).

Definition result_pairs (cfg : RunConfig) (nm : Names) (arrays : dict (cells block))
  : res (dict variable) :=
  p1 <- pairs (var_time cfg) "" "" result_metadata arrays (nm_atm nm) ;;
  p2 <- pairs (var_time cfg) "" "" result_metadata arrays (nm_int nm) ;;
  p3 <- (if rc_full_field cfg
         then pairs (var_layertime cfg) "LAYER_" "LAYER_" result_metadata arrays (nm_full nm)
         else Ok []) ;;
  Ok (p1 ++ p2 ++ p3).

Definition restart_pairs (cfg : RunConfig) (arrays : dict (cells block)) : res (dict variable) :=
  p1 <- pairs (var_latlon cfg) "RES_" "" restart_metadata arrays restart_scalars ;;
  p2 <- pairs (var_layer cfg) "RES_LAYER_" "LAYER_" restart_metadata arrays restart_layers ;;
  Ok (p1 ++ p2).

Lemma write_results_ok cfg io io' :
  write_results_to_file cfg io = Ok io' <->
  exists p, result_pairs cfg (names_of io) (io_arrays io) = Ok p /\
    io' = with_RESULT io (dict_union (io_RESULT io) p).
Proof.
  unfold write_results_to_file, result_pairs. cbn [names_of nm_atm nm_int nm_full].
  pose proof (write_fold_ok (var_time cfg) "" "" result_metadata (io_arrays io)) as W1.
  pose proof (write_fold_ok (var_layertime cfg) "LAYER_" "LAYER_" result_metadata (io_arrays io)) as W2.
  unfold add_variable_along_latlontime, add_variable_along_latlonlayertime.
  unfold var_time at 1 in W1. unfold var_layertime at 1 in W2.
  split.
  - intros H. apply bind_ok in H as (r1 & H1 & H). apply bind_ok in H as (r2 & H2 & H).
    apply bind_ok in H as (r3 & H3 & H). injection H as <-.
    apply W1 in H1 as (p1 & E1 & ->). apply W1 in H2 as (p2 & E2 & ->).
    rewrite E1, E2. cbn [bind].
    destruct (rc_full_field cfg).
    + apply W2 in H3 as (p3 & E3 & ->). rewrite E3. cbn [bind].
      eexists; split; [reflexivity|]. rewrite !union_app. reflexivity.
    + injection H3 as <-. cbn [bind]. eexists; split; [reflexivity|].
      rewrite app_nil_r, union_app. reflexivity.
  - intros (p & E & ->).
    apply bind_ok in E as (p1 & E1 & E). apply bind_ok in E as (p2 & E2 & E).
    apply bind_ok in E as (p3 & E3 & E). injection E as <-.
    match goal with |- bind ?m _ = _ => assert (m = Ok (dict_union (io_RESULT io) p1)) as G1 end.
    { apply W1. eauto. }
    rewrite G1. cbn [bind].
    match goal with |- bind ?m _ = _ =>
      assert (m = Ok (dict_union (dict_union (io_RESULT io) p1) p2)) as G2 end.
    { apply W1. eauto. }
    rewrite G2. cbn [bind].
    destruct (rc_full_field cfg).
    + match goal with |- bind ?m _ = _ =>
        assert (m = Ok (dict_union (dict_union (dict_union (io_RESULT io) p1) p2) p3)) as G3 end.
      { apply W2. eauto. }
      rewrite G3. cbn [bind]. rewrite !union_app. reflexivity.
    + injection E3 as <-. cbn [bind]. rewrite app_nil_r, union_app. reflexivity.
Qed.

Lemma write_restart_ok cfg io io' :
  write_restart_to_file cfg io = Ok io' <->
  exists p, restart_pairs cfg (io_arrays io) = Ok p /\
    io' = with_RESTART io (dict_union (io_RESTART io) p).
Proof.
  unfold write_restart_to_file, restart_pairs.
  pose proof (write_fold_ok (var_latlon cfg) "RES_" "" restart_metadata (io_arrays io)) as W1.
  pose proof (write_fold_ok (var_layer cfg) "RES_LAYER_" "LAYER_" restart_metadata (io_arrays io)) as W2.
  unfold add_variable_along_latlon, add_variable_along_latlonlayer.
  unfold var_latlon at 1 in W1. unfold var_layer at 1 in W2.
  split.
  - intros H. apply bind_ok in H as (r1 & H1 & H). apply bind_ok in H as (r2 & H2 & H).
    injection H as <-.
    apply W1 in H1 as (p1 & E1 & ->). apply W2 in H2 as (p2 & E2 & ->).
    rewrite E1, E2. cbn [bind]. eexists; split; [reflexivity|]. rewrite !union_app. reflexivity.
  - intros (p & E & ->).
    apply bind_ok in E as (p1 & E1 & E). apply bind_ok in E as (p2 & E2 & E). injection E as <-.
    match goal with |- bind ?m _ = _ => assert (m = Ok (dict_union (io_RESTART io) p1)) as G1 end.
    { apply W1. eauto. }
    rewrite G1. cbn [bind].
    match goal with |- bind ?m _ = _ =>
      assert (m = Ok (dict_union (dict_union (io_RESTART io) p1) p2)) as G2 end.
    { apply W2. eauto. }
    rewrite G2. cbn [bind]. rewrite union_app. reflexivity.
Qed.

Lemma result_pairs_keys cfg nm arrays arrays' p :
  map fst arrays' = map fst arrays -> result_pairs cfg nm arrays = Ok p ->
  exists p', result_pairs cfg nm arrays' = Ok p' /\ map fst p' = map fst p.
Proof.
  intros K E. unfold result_pairs in *.
  apply bind_ok in E as (p1 & E1 & E). apply bind_ok in E as (p2 & E2 & E).
  apply bind_ok in E as (p3 & E3 & E). injection E as <-.
  destruct (pairs_keys _ _ _ _ _ _ _ _ K E1) as (q1 & -> & G1).
  destruct (pairs_keys _ _ _ _ _ _ _ _ K E2) as (q2 & -> & G2). cbn [bind].
  destruct (rc_full_field cfg).
  - destruct (pairs_keys _ _ _ _ _ _ _ _ K E3) as (q3 & -> & G3). cbn [bind].
    eexists; split; [reflexivity|]. rewrite !map_app, G1, G2, G3. reflexivity.
  - injection E3 as <-. cbn [bind]. eexists; split; [reflexivity|].
    rewrite !map_app, G1, G2. reflexivity.
Qed.

Lemma restart_pairs_keys cfg arrays arrays' p :
  map fst arrays' = map fst arrays -> restart_pairs cfg arrays = Ok p ->
  exists p', restart_pairs cfg arrays' = Ok p' /\ map fst p' = map fst p.
Proof.
  intros K E. unfold restart_pairs in *.
  apply bind_ok in E as (p1 & E1 & E). apply bind_ok in E as (p2 & E2 & E). injection E as <-.
  destruct (pairs_keys _ _ _ _ _ _ _ _ K E1) as (q1 & -> & G1).
  destruct (pairs_keys _ _ _ _ _ _ _ _ K E2) as (q2 & -> & G2). cbn [bind].
  eexists; split; [reflexivity|]. rewrite !map_app, G1, G2. reflexivity.
Qed.

(** ** One worker *)

(** arguments of copy_local_to_global and the restart data, taken from the tuple *)
Definition worker_env (r : list pyval) : environment :=
  combine copy_parameters
    (match map_res (dict_get (combine unpack_names r)) call_arguments with
     | Ok args => args
     | Err _ => []
     end).

Definition worker_restart (r : list pyval) : option dataset :=
  match nth_error r 2 with Some (PRestart d) => Some d | _ => None end.

Lemma decode (r : list pyval) (v0 v1 : pyval) : length r = length unpack_names -> firstn 2 r = [v0; v1] ->
  exists args,
    map_res (dict_get (combine unpack_names r)) call_arguments = Ok args /\
    length args = length copy_parameters /\
    dict_get (combine copy_parameters args) "y"%string = Ok v0 /\
    dict_get (combine copy_parameters args) "x"%string = Ok v1 /\
    dict_get (combine unpack_names r) "indY"%string = Ok v0 /\
    dict_get (combine unpack_names r) "indX"%string = Ok v1 /\
    exists v2, dict_get (combine unpack_names r) "local_restart"%string = Ok v2 /\
      nth_error r 2 = Some v2.
Proof.
  intros L F. unfold unpack_names in L. cbn [length] in L.
  do 45 (destruct r as [|? r]; [discriminate|]).
  destruct r; [|discriminate].
  cbn [firstn] in F. injection F as -> ->.
  eexists. split; [vm_compute; reflexivity|].
  split; [reflexivity|].
  split; [vm_compute; reflexivity|].
  split; [vm_compute; reflexivity|].
  split; [vm_compute; reflexivity|].
  split; [vm_compute; reflexivity|].
  eexists; split; [vm_compute; reflexivity|reflexivity].
Qed.

(** effect of a worker on the arrays *)
Definition worker_ops (cfg : RunConfig) (nm : Names) (r : list pyval) : res (list op) :=
  match worker_restart r with
  | None => Err AttributeError
  | Some d =>
      os <- restart_ops d ;;
      Ok ((ops_of_calls "" (nm_atm nm) (worker_env r) atm_calls ++
           ops_of_calls "" (nm_int nm) (worker_env r) internal_calls ++
           (if rc_full_field cfg
            then ops_of_calls "LAYER_" (nm_full nm) (worker_env r) full_field_calls else [])) ++ os)
  end.

Definition same_frame (io io' : IO) : Prop :=
  names_of io' = names_of io /\ io_ny io' = io_ny io /\ io_nx io' = io_nx io /\
  io_time io' = io_time io.

Definition rebuild (io : IO) (a : dict (cells block)) (R1 R2 : dict variable) : IO :=
  mkIO (io_atm io) (io_internal io) (io_full io) (io_ny io) (io_nx io) (io_time io) a R1 R2.

Lemma store_result_ok cfg r y x acc acc' :
  firstn 2 r = [PIdx y; PIdx x] ->
  store_result cfg r acc = Ok acc' <->
  length r = length unpack_names /\
  exists os a p q stat vals,
    worker_ops cfg (names_of (col_io acc)) r = Ok os /\
    do_ops y x os (io_arrays (col_io acc)) = Ok a /\
    result_pairs cfg (names_of (col_io acc)) a = Ok p /\
    restart_pairs cfg a = Ok q /\
    store_stakes cfg (combine unpack_names r) (col_stat acc) (col_val acc) = Ok (stat, vals) /\
    acc' = mkCollected
             (rebuild (col_io acc) a (dict_union (io_RESULT (col_io acc)) p)
                (dict_union (io_RESTART (col_io acc)) q)) stat vals.
Proof.
  intros F. unfold store_result, worker_ops, worker_env, worker_restart.
  destruct (Nat.eqb_spec (length r) (length unpack_names)) as [L|L]; cbn [negb].
  2:{ split; [discriminate|tauto]. }
  destruct (decode _ _ _ L F) as (args & E1 & E2 & E3 & E4 & E5 & E6 & v2 & E7 & E8).
  cbv zeta. rewrite E1. cbn [bind]. rewrite copy_local_ops by exact E2. cbv zeta.
  rewrite E3. cbn [bind index_of]. rewrite E4. cbn [bind index_of].
  rewrite E5, E6, E7, E8. cbn [bind index_of].
  unfold local_ops. cbn [names_of nm_atm nm_int nm_full].
  set (los := ops_of_calls "" (io_atm (col_io acc)) _ _ ++ _).
  split.
  - intros H. split; [exact L|].
    apply bind_ok in H as (io1 & H1 & H). apply bind_ok in H1 as (a1 & H1 & H1').
    injection H1' as <-.
    apply bind_ok in H as (d & H2 & H).
    destruct v2; try discriminate. injection H2 as ->.
    apply bind_ok in H as (io2 & H2 & H).
    apply copy_restart_ops in H2 as (os & a & H2 & H3 & ->).
    apply bind_ok in H as (io3 & H4 & H). apply write_results_ok in H4 as (p & H4 & ->).
    apply bind_ok in H as (io4 & H5 & H). apply write_restart_ok in H5 as (q & H5 & ->).
    apply bind_ok in H as ([stat vals] & H6 & H). injection H as <-.
    rewrite H2. cbn [bind]. exists (los ++ os), a, p, q, stat, vals.
    split; [reflexivity|]. split; [rewrite do_ops_app, H1; exact H3|].
    split; [exact H4|]. split; [exact H5|]. split; [exact H6|]. reflexivity.
  - intros (_ & os & a & p & q & stat & vals & H1 & H2 & H3 & H4 & H5 & ->).
    destruct v2; try discriminate.
    apply bind_ok in H1 as (os' & H1 & H1'). injection H1' as <-.
    rewrite do_ops_app in H2. apply bind_ok in H2 as (a1 & H2 & H2').
    rewrite H2. cbn [bind].
    assert (G1 : copy_local_restart_to_global y x d (with_arrays (col_io acc) a1) =
                 Ok (with_arrays (col_io acc) a)).
    { apply copy_restart_ops. exists os', a. auto. }
    rewrite G1. cbn [bind].
    assert (G2 : write_results_to_file cfg (with_arrays (col_io acc) a) =
      Ok (with_RESULT (with_arrays (col_io acc) a) (dict_union (io_RESULT (col_io acc)) p))).
    { apply write_results_ok. exists p. auto. }
    rewrite G2. cbn [bind].
    assert (G3 : write_restart_to_file cfg
      (with_RESULT (with_arrays (col_io acc) a) (dict_union (io_RESULT (col_io acc)) p)) =
      Ok (with_RESTART (with_RESULT (with_arrays (col_io acc) a)
            (dict_union (io_RESULT (col_io acc)) p)) (dict_union (io_RESTART (col_io acc)) q))).
    { apply write_restart_ok. exists q. auto. }
    rewrite G3. cbn [bind]. rewrite H5. reflexivity.
Qed.
