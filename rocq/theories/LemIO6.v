(** * The datasets at the end of a run *)
From Verif Require Import ModelPy ModelConstants ModelNode ModelGrid ModelSurface ModelInit
  ModelCore ModelConfig ModelIO ModelMain SpecIO LemPy LemDict LemIO LemIO2 LemIO3 LemIO4 LemIO5.
From Coq Require Import Permutation.

Lemma run_parts cfg c work arrivals data restart stakes measured io col :
  run_cosipy cfg c work arrivals data restart stakes measured io = Ok col <->
  exists ny nx jobs, sizes data = Ok (ny, nx) /\
    submit cfg data restart stakes ny nx = Ok jobs /\
    collect cfg work (arrivals jobs) (mkCollected (first_io cfg c io) [] measured) = Ok col.
Proof.
  unfold run_cosipy. split.
  - intros H. apply bind_ok in H as ([ny nx] & E1 & H). apply bind_ok in H as (jobs & E2 & H).
    exists ny, nx, jobs. auto.
  - intros (ny & nx & jobs & E1 & E2 & H). rewrite E1. cbn [bind]. rewrite E2. cbn [bind]. exact H.
Qed.

Lemma core_answers_cell ff m work : answers_as_core ff m work -> answers_for_its_cell work.
Proof. intros A j r E. destruct (A j r E) as (d & outs & names & stat & df & ->). reflexivity. Qed.

Lemma ds_get_find d n v : ds_get d n = Ok v -> dict_find d n = Some v.
Proof.
  induction d as [|[k w] d IH]; cbn; [discriminate|].
  destruct (String.eqb k n); [intros H; injection H as ->; reflexivity|exact IH].
Qed.

Lemma find_last_in {V} (p : dict V) k v : find_last p k = Some v -> In (k, v) p.
Proof.
  induction p as [|[n w] p IH]; cbn; [discriminate|].
  destruct (find_last p k) as [u|] eqn:E.
  - intros H; injection H as ->. right; apply IH; reflexivity.
  - destruct (eqb_spec_s n k) as [->|]; [|discriminate]. intros H; injection H as ->. left; reflexivity.
Qed.

Section Run.
Variables (cfg : RunConfig) (c : Consts) (work : Job -> res (list pyval))
  (arrivals : list Job -> list Job) (data : Gridded) (restart : option restart_file)
  (stakes : list (Z * Z * string)) (measured : dict (list number)) (io : IO) (col : Collected).
Hypothesis Hrun : run_cosipy cfg c work arrivals data restart stakes measured io = Ok col.
Hypothesis Hs : schedule arrivals.
Hypothesis Hw : answers_as_core (rc_full_field cfg) (c_max_layers c) work.
Hypothesis Hsize : sizes data = Ok (io_ny io, io_nx io).

Let found_here := found cfg (c_max_layers c) work data restart stakes.

Lemma run_jobs :
  exists jobs, Forall (proper_job cfg data restart stakes) jobs /\
    NoDup (map job_cell jobs) /\ Forall in_quadrant jobs /\
    (forall y x, In (y, x) (map job_cell jobs) <->
       (0 <= y < io_ny io)%Z /\ (0 <= x < io_nx io)%Z /\ is_glacier data y x) /\
    collect cfg work jobs (mkCollected (first_io cfg c io) [] measured) = Ok col.
Proof.
  apply run_parts in Hrun as (ny & nx & jobs & E1 & E2 & H).
  rewrite Hsize in E1. injection E1 as <- <-.
  pose proof (jobs_in_quadrant _ _ _ _ _ _ _ E2) as Q.
  apply submit_ok in E2 as (S1 & S2 & S3).
  pose proof (Hs jobs) as P. exists (arrivals jobs).
  split; [|split; [|split; [|split; [|exact H]]]].
  - apply Forall_forall. rewrite Forall_forall in S3. intros j Hj. apply S3.
    apply (Permutation_in j (Permutation_sym P) Hj).
  - eapply Permutation_NoDup; [apply Permutation_map; exact P|exact S1].
  - apply Forall_forall. rewrite Forall_forall in Q. intros j Hj. apply Q.
    apply (Permutation_in j (Permutation_sym P) Hj).
  - intros y x. rewrite <- S2. split; intros G.
    + exact (Permutation_in _ (Permutation_map job_cell (Permutation_sym P)) G).
    + exact (Permutation_in _ (Permutation_map job_cell P) G).
Qed.

Lemma first_frame : names_of (first_io cfg c io) = names_of io /\ io_ny (first_io cfg c io) = io_ny io /\
  io_nx (first_io cfg c io) = io_nx io /\ io_time (first_io cfg c io) = io_time io /\
  io_RESULT (first_io cfg c io) = io_RESULT io /\ io_RESTART (first_io cfg c io) = io_RESTART io.
Proof. repeat split. Qed.

Lemma run_filled k (value : dataset -> list Output -> option block) missing :
  dict_find (io_arrays (first_io cfg c io)) k =
    Some (tabulate (io_ny io) (io_nx io) (fun _ _ => missing)) ->
  (forall r os y x d outs names stat df,
     worker_ops cfg (names_of io) r = Ok os ->
     r = core_return (rc_full_field cfg) (c_max_layers c) y x d outs names stat df ->
     exists b, value d outs = Some b /\ find_last os k = Some (PBlock b)) ->
  exists arr, dict_find (io_arrays (col_io col)) k = Some arr /\
    filled data (io_ny io) (io_nx io) found_here value missing arr.
Proof.
  intros H0 Hv. destruct run_jobs as (jobs & J1 & J2 & J3 & J4 & J5).
  pose (val := fun r => match worker_ops cfg (names_of io) r with
                        | Ok os => match find_last os k with Some (PBlock b) => b | _ => missing end
                        | Err _ => missing end).
  assert (As : assigns cfg work k val (names_of (first_io cfg c io))).
  { intros j r os Er Eo. change (names_of (first_io cfg c io)) with (names_of io) in Eo.
    destruct (Hw _ _ Er) as (d & outs & nms & stat & df & Erq).
    destruct (Hv _ _ _ _ _ _ _ _ _ Eo Erq) as (b & _ & Fb).
    unfold val. rewrite Eo, Fb. reflexivity. }
  pose proof (core_answers_cell _ _ _ Hw) as Wc.
  destruct (collect_assigned cfg work k val jobs (mkCollected (first_io cfg c io) [] measured) col _ Wc As J2 J3 J5 H0) as (arr & A1 & A2).
  exists arr. split; [exact A1|]. intros y x Hy Hx. specialize (A2 y x). split.
  - intros G. assert (I : In (y, x) (map job_cell jobs)) by (apply J4; auto).
    apply in_map_iff in I as (j & Ej & Ij).
    assert (job_at jobs y x = Some j) as Ja.
    { pose proof (job_at_unique _ _ J2 Ij) as U. unfold job_cell in Ej. injection Ej as <- <-. exact U. }
    rewrite Ja in A2. destruct A2 as (r & Er & Ec).
    destruct (collect_ops _ _ _ _ _ Wc J5 _ Ij) as (r' & os & Er' & Eo).
    rewrite Er in Er'. injection Er' as <-.
    change (names_of (col_io (mkCollected (first_io cfg c io) [] measured))) with (names_of io) in Eo.
    destruct (Hw _ _ Er) as (d & outs & nms & stat & df & Erq).
    destruct (Hv _ _ _ _ _ _ _ _ _ Eo Erq) as (b & Vb & Fb).
    exists d, outs, b. split; [|split; [exact Vb|]].
    + exists j, nms, stat, df. rewrite Forall_forall in J1. split; [exact (J1 _ Ij)|].
      split; [exact Ej|]. unfold job_cell in Ej. injection Ej as <- <-. congruence.
    + rewrite Ec. unfold val. rewrite Eo, Fb. reflexivity.
  - intros G. destruct (job_at jobs y x) as [j|] eqn:Ja.
    + exfalso. apply job_at_some in Ja as (Ij & Ey & Ex). apply G.
      assert (I : In (y, x) (map job_cell jobs)).
      { apply in_map_iff. exists j. split; [unfold job_cell; congruence|exact Ij]. }
      apply J4 in I. tauto.
    + rewrite A2. apply cell_at_tabulate; assumption.
Qed.

Lemma run_left k missing :
  dict_find (io_arrays (first_io cfg c io)) k =
    Some (tabulate (io_ny io) (io_nx io) (fun _ _ => missing)) ->
  (forall r os, worker_ops cfg (names_of io) r = Ok os -> find_last os k = None) ->
  dict_find (io_arrays (col_io col)) k =
    Some (tabulate (io_ny io) (io_nx io) (fun _ _ => missing)).
Proof.
  intros H0 Hv. destruct run_jobs as (jobs & J1 & J2 & J3 & J4 & J5).
  refine (collect_left cfg work k jobs (mkCollected (first_io cfg c io) [] measured) col _ (core_answers_cell _ _ _ Hw) _ J3 J5 H0).
  intros j r os _ Eo. exact (Hv _ _ Eo).
Qed.

Lemma run_datasets :
  some_glacier data (io_ny io) (io_nx io) ->
  exists p q R1 R2, result_pairs cfg (names_of io) (io_arrays (col_io col)) = Ok p /\   restart_pairs cfg (io_arrays (col_io col)) = Ok q /\   io_RESULT (col_io col) = dict_union R1 p /\ io_RESTART (col_io col) = dict_union R2 q.
Proof.
  intros (y & x & Hy & Hx & G). destruct run_jobs as (jobs & J1 & J2 & J3 & J4 & J5).
  refine (collect_datasets cfg work jobs (mkCollected (first_io cfg c io) [] measured) col (core_answers_cell _ _ _ Hw) _ J5).
  intros ->. destruct (J4 y x) as [_ J]. apply J. auto.
Qed.

Lemma run_no_glacier :
  ~ some_glacier data (io_ny io) (io_nx io) -> col = mkCollected (first_io cfg c io) [] measured.
Proof.
  intros N. destruct run_jobs as (jobs & J1 & J2 & J3 & J4 & J5).
  destruct jobs as [|j jobs].
  - cbn in J5. congruence.
  - exfalso. apply N. exists (j_y j), (j_x j). apply J4. left. reflexivity.
Qed.

(** a time series in the result *)
Lemma result_of_series k arr :
  some_glacier data (io_ny io) (io_nx io) ->
  In k (io_atm io) \/ In k (io_internal io) -> ~ layer_name k ->
  dict_find (io_arrays (col_io col)) k = Some arr ->
  exists v m, dict_find (io_RESULT (col_io col)) k = Some v /\
    dict_find result_metadata k = Some m /\
    v = mkVariable ["time"%string; rc_northing cfg; rc_easting cfg] arr (fst m) (snd m).
Proof.
  intros G H L A. destruct (run_datasets G) as (p & q & R1 & R2 & P1 & _ & P3 & _).
  apply bind_ok in P1 as (p1 & E1 & P1). apply bind_ok in P1 as (p2 & E2 & P1).
  apply bind_ok in P1 as (p3 & E3 & P1). injection P1 as <-.
  assert (I : In k (map fst (p1 ++ p2 ++ p3))).
  { rewrite !map_app, !in_app_iff. destruct H as [H|H].
    - destruct (pairs_find _ _ _ _ _ _ _ _ E1 H) as (a & m & _ & _ & F).
      left. apply (in_map fst) in F. exact F.
    - destruct (pairs_find _ _ _ _ _ _ _ _ E2 H) as (a & m & _ & _ & F).
      right; left. apply (in_map fst) in F. exact F. }
  apply find_last_key in I as (v & Fv).
  assert (Iv : In (k, v) (p1 ++ p2 ++ p3)) by (apply find_last_in; exact Fv).
  exists v. rewrite P3, find_union, Fv.
  rewrite !in_app_iff in Iv. destruct Iv as [Iv|[Iv|Iv]].
  - destruct (pairs_in _ _ _ _ _ _ _ _ _ E1 Iv) as (n & a & m & N1 & N2 & N3 & N4 & N5).
    cbn in N2. subst n. cbn in N3. rewrite A in N3. injection N3 as <-. exists m. auto.
  - destruct (pairs_in _ _ _ _ _ _ _ _ _ E2 Iv) as (n & a & m & N1 & N2 & N3 & N4 & N5).
    cbn in N2. subst n. cbn in N3. rewrite A in N3. injection N3 as <-. exists m. auto.
  - destruct (rc_full_field cfg).
    + destruct (pairs_in _ _ _ _ _ _ _ _ _ E3 Iv) as (n & a & m & N1 & N2 & _).
      exfalso. apply L. exists n. exact N2.
    + injection E3 as <-. destruct Iv.
Qed.

Lemma result_of_layers n arr :
  some_glacier data (io_ny io) (io_nx io) -> rc_full_field cfg = true ->
  In n (io_full io) -> dict_find (io_arrays (col_io col)) ("LAYER_" ++ n)%string = Some arr ->
  exists v m, dict_find (io_RESULT (col_io col)) ("LAYER_" ++ n)%string = Some v /\
    dict_find result_metadata ("LAYER_" ++ n)%string = Some m /\
    v = mkVariable ["time"%string; rc_northing cfg; rc_easting cfg; "layer"%string] arr
          (fst m) (snd m).
Proof.
  intros G F H A. destruct (run_datasets G) as (p & q & R1 & R2 & P1 & _ & P3 & _).
  apply bind_ok in P1 as (p1 & E1 & P1). apply bind_ok in P1 as (p2 & E2 & P1).
  apply bind_ok in P1 as (p3 & E3 & P1). injection P1 as <-. rewrite F in E3.
  destruct (pairs_find _ _ _ _ _ _ _ _ E3 H) as (a & m & _ & _ & I).
  apply (in_map fst) in I. apply find_last_key in I as (v & Fv). cbn [fst] in Fv.
  exists v. rewrite P3, find_union, !find_last_app, Fv.
  apply find_last_in in Fv.
  destruct (pairs_in _ _ _ _ _ _ _ _ _ E3 Fv) as (n' & a' & m' & N1 & N2 & N3 & N4 & N5).
  apply append_inj in N2. subst n'. rewrite A in N3. injection N3 as <-. exists m'. auto.
Qed.

Lemma restart_of :
  some_glacier data (io_ny io) (io_nx io) ->
  (forall n arr, In n restart_scalars ->
     dict_find (io_arrays (col_io col)) ("RES_" ++ n)%string = Some arr ->
     exists v m, dict_find (io_RESTART (col_io col)) n = Some v /\
       dict_find restart_metadata n = Some m /\
       v = mkVariable [rc_northing cfg; rc_easting cfg] arr (fst m) (snd m)) /\
  (forall n arr, In n restart_layers ->
     dict_find (io_arrays (col_io col)) ("RES_LAYER_" ++ n)%string = Some arr ->
     exists v m, dict_find (io_RESTART (col_io col)) ("LAYER_" ++ n)%string = Some v /\
       dict_find restart_metadata ("LAYER_" ++ n)%string = Some m /\
       v = mkVariable [rc_northing cfg; rc_easting cfg; "layer"%string] arr (fst m) (snd m)).
Proof.
  intros G. destruct (run_datasets G) as (p & q & R1 & R2 & _ & P2 & _ & P4).
  apply bind_ok in P2 as (q1 & E1 & P2). apply bind_ok in P2 as (q2 & E2 & P2). injection P2 as <-.
  split; intros n arr H A.
  - destruct (pairs_find _ _ _ _ _ _ _ _ E1 H) as (a & m & _ & _ & I).
    apply (in_map fst) in I. apply find_last_key in I as (v & Fv). cbn [fst append] in Fv.
    exists v. rewrite P4, find_union, find_last_app, Fv, (find_last_none q2).
    2:{ intros I. apply in_map_iff in I as ([k w] & Ek & I). cbn in Ek. subst k.
        destruct (pairs_in _ _ _ _ _ _ _ _ _ E2 I) as (n' & _ & _ & _ & N2 & _).
        cbn in H. repeat (destruct H as [<-|H]; [discriminate|]). destruct H. }
    apply find_last_in in Fv.
    destruct (pairs_in _ _ _ _ _ _ _ _ _ E1 Fv) as (n' & a' & m' & N1 & N2 & N3 & N4 & N5).
    cbn in N2. subst n'. rewrite A in N3. injection N3 as <-. exists m'. auto.
  - destruct (pairs_find _ _ _ _ _ _ _ _ E2 H) as (a & m & _ & _ & I).
    apply (in_map fst) in I. apply find_last_key in I as (v & Fv). cbn [fst] in Fv.
    exists v. rewrite P4, find_union, find_last_app, Fv.
    apply find_last_in in Fv.
    destruct (pairs_in _ _ _ _ _ _ _ _ _ E2 Fv) as (n' & a' & m' & N1 & N2 & N3 & N4 & N5).
    apply append_inj in N2. subst n'. rewrite A in N3. injection N3 as <-. exists m'. auto.
Qed.
End Run.
