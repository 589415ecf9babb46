(** * Input, output and the driver *)
From Verif Require Import ModelPy ModelConstants ModelNode ModelGrid ModelSurface ModelInit
  ModelCore ModelConfig ModelIO ModelMain SpecIO LemPy LemDict LemIO LemIO2 LemIO3 LemIO4 LemIO5
  LemIO6 LemIO7.
From Coq Require Import Permutation Sorted.

(** ** Order of the workers *)

Lemma run_order cfg c work arrivals arrivals' data restart stakes measured io col :
  answers_for_its_cell work -> schedule arrivals -> schedule arrivals' ->
  NoDup (map fst (io_RESULT io)) -> NoDup (map fst (io_RESTART io)) ->
  run_cosipy cfg c work arrivals data restart stakes measured io = Ok col ->
  exists col', run_cosipy cfg c work arrivals' data restart stakes measured io = Ok col' /\
    col_io col' = col_io col /\ Permutation (col_stat col) (col_stat col').
Proof.
  intros W S1 S2 N1 N2 H. apply run_parts in H as (ny & nx & jobs & E1 & E2 & H).
  pose proof (submit_ok _ _ _ _ _ _ _ E2) as (D & _ & _).
  pose proof (jobs_in_quadrant _ _ _ _ _ _ _ E2) as Q.
  pose proof (S1 jobs) as P1. pose proof (S2 jobs) as P2.
  destruct (collect_perm cfg work (arrivals jobs) (arrivals' jobs) W) with
    (acc := mkCollected (first_io cfg c io) [] measured) (c := col) as (col' & H' & A1 & A2).
  - eapply Permutation_trans; [apply Permutation_sym; exact P1|exact P2].
  - eapply Permutation_NoDup; [apply Permutation_map; exact P1|exact D].
  - apply Forall_forall. rewrite Forall_forall in Q. intros j Hj. apply Q.
    apply (Permutation_in j (Permutation_sym P1) Hj).
  - split; assumption.
  - exact H.
  - exists col'. split; [|auto]. apply run_parts. exists ny, nx, jobs. auto.
Qed.

(*@ C46 The results in the files do not depend on the order in which the workers finish: for every
   pair of orders a run that succeeds with the first one succeeds with the second one and leaves
   the same arrays and datasets; the rows of the stake statistics are the same up to their order.
   If the run fails with one order it fails with every order. *)
Lemma schedule_independent_lem :
  forall cfg c work arrivals arrivals' data restart stakes measured io,
    answers_for_its_cell work -> schedule arrivals -> schedule arrivals' ->
    NoDup (map fst (io_RESULT io)) -> NoDup (map fst (io_RESTART io)) ->
    match run_cosipy cfg c work arrivals data restart stakes measured io,
          run_cosipy cfg c work arrivals' data restart stakes measured io with
    | Ok col, Ok col' =>
        col_io col' = col_io col /\ Permutation (col_stat col) (col_stat col')
    | Err _, Err _ => True
    | _, _ => False
    end.
Proof.
  intros cfg c work arrivals arrivals' data restart stakes measured io W S1 S2 N1 N2.
  destruct (run_cosipy cfg c work arrivals data restart stakes measured io) as [col|e] eqn:E1.
  - destruct (run_order _ _ _ _ arrivals' _ _ _ _ _ _ W S1 S2 N1 N2 E1) as (col' & E & G).
    rewrite E. exact G.
  - destruct (run_cosipy cfg c work arrivals' data restart stakes measured io) as [col'|e'] eqn:E2;
      [|exact I].
    destruct (run_order _ _ _ _ arrivals _ _ _ _ _ _ W S2 S1 N1 N2 E2) as (col & E & _). congruence.
Qed.

Lemma dict_set_nodup {V} (d : dict V) k v : NoDup (map fst d) -> NoDup (map fst (dict_set d k v)).
Proof. intros H. rewrite keys_set. apply add_key_nodup. exact H. Qed.

Lemma fold_set_nodup {V A} (f : dict V -> A -> dict V) l d :
  (forall d a, NoDup (map fst d) -> NoDup (map fst (f d a))) -> NoDup (map fst d) ->
  NoDup (map fst (fold_left f l d)).
Proof. intros Hf. revert d; induction l as [|a l IH]; cbn; intros d H; [exact H|auto]. Qed.

Lemma init_result_nodup cfg data io io1 :
  init_result_dataset cfg data io = Ok io1 ->
  NoDup (map fst (io_RESULT io1)) /\ io_RESTART io1 = io_RESTART io /\
  names_of io1 = names_of io /\ io_ny io1 = io_ny io /\ io_nx io1 = io_nx io /\
  io_time io1 = io_time io /\ io_arrays io1 = io_arrays io.
Proof.
  intros H. unfold init_result_dataset in H.
  match type of H with context [fold_left ?f metadata_spatial ?z] =>
    set (r1 := fold_left f metadata_spatial z) in H end.
  assert (N1 : NoDup (map fst r1)).
  { apply fold_set_nodup; [|constructor]. intros d m Hd.
    destruct (dict_find (g_vars data) (fst m)); [apply dict_set_nodup|]; exact Hd. }
  match type of H with context [fold_left ?f metadata_spatiotemporal r1] =>
    set (r2 := fold_left f metadata_spatiotemporal r1) in H end.
  assert (N2 : NoDup (map fst r2)).
  { apply fold_set_nodup; [|exact N1]. intros d m Hd.
    destruct (dict_find (g_vars data) (fst m)); [apply dict_set_nodup|]; exact Hd. }
  clearbody r1 r2.
  assert (F : forall name ds ds', NoDup (map fst ds) ->
    (if dict_mem (g_vars data) name then Ok ds
     else T2 <- attr_get (g_vars data) "T2"%string ;; m <- dict_get metadata_spatiotemporal name ;;
          Ok (add_variable_along_latlontime cfg ds (map (map nan_block) T2) name (snd m) (fst m)))
    = Ok ds' -> NoDup (map fst ds')).
  { intros name ds ds' Nd E. destruct (dict_mem (g_vars data) name).
    - injection E as <-. exact Nd.
    - apply bind_ok in E as (T2 & _ & E). apply bind_ok in E as (m & _ & E). injection E as <-.
      apply dict_set_nodup. exact Nd. }
  apply bind_ok in H as (r3 & E3 & H). apply bind_ok in H as (r4 & E4 & H). injection H as <-.
  apply F in E3; [|exact N2]. apply F in E4; [|exact E3].
  cbn. auto 10.
Qed.

Lemma create_data_restart parse cfg c file open_restart io io' data gr ms :
  create_data_file parse cfg c file open_restart io = Ok (io', data, gr, ms) ->
  io_RESTART io' = io_RESTART io /\ names_of io' = names_of io /\ io_arrays io' = io_arrays io /\
  sizes data = Ok (io_ny io', io_nx io') /\ io_time io' = Z.of_nat (length (g_times data)).
Proof.
  intros H. unfold create_data_file in H.
  apply bind_ok in H as ([[d g] m] & _ & H). apply bind_ok in H as (_ & _ & H). apply bind_ok in H as ([ny nx] & E & H).
  injection H as <- <- <- <-. cbn. auto.
Qed.

(*@ C46 The two files that a complete run leaves (name, result variables, restart time, restart
   variables) are the same whatever the order in which the workers finish. *)
Lemma files_schedule_independent_lem :
  forall parse cfg c work arrivals arrivals' file open_restart stakes measured w,
    (forall data, answers_for_its_cell (work data)) -> schedule arrivals -> schedule arrivals' ->
    cosipy_main parse cfg c work arrivals file open_restart stakes measured = Ok w ->
    cosipy_main parse cfg c work arrivals' file open_restart stakes measured = Ok w.
Proof.
  intros parse cfg c work arrivals arrivals' file open_restart stakes measured w W S1 S2 H.
  unfold cosipy_main in *.
  apply bind_ok in H as ([[[io data] gr] ms] & E1 & H). rewrite E1. cbn [bind].
  apply bind_ok in H as (io1 & E2 & H). rewrite E2. cbn [bind].
  apply bind_ok in H as (last & E3 & H). rewrite E3. cbn [bind].
  apply bind_ok in H as (col & E4 & H).
  apply init_result_nodup in E2 as (N & R & _).
  apply create_data_restart in E1 as (R' & _).
  assert (N' : NoDup (map fst (io_RESTART io1))) by (rewrite R, R'; constructor).
  destruct (run_order _ _ _ _ arrivals' _ _ _ _ _ _ (W data) S1 S2 N N' E4) as (col' & E & G & _).
  rewrite E. cbn [bind]. rewrite G. exact H.
Qed.

(** ** Content of the files *)

Lemma cell_work_answers fuel cfg c sw sv sd data :
  answers_as_core (sw_full_field sw) (c_max_layers c) (cell_work fuel cfg c sw sv sd data).
Proof.
  intros j r H. unfold cell_work in H.
  apply bind_ok in H as (cell & _ & H). apply bind_ok in H as (dc & _ & H).
  apply bind_ok in H as ([[s outs] d] & _ & H). destruct d as [d|]; [|discriminate].
  apply bind_ok in H as ([[names stat] df] & _ & H). injection H as <-.
  exists d, outs, names, stat, df. reflexivity.
Qed.

(*@ C46,C63 The worker of the model, cosipy_core with its stake evaluation, answers for its own cell
   with the tuple of cosipy_core, so that the theorems about workers apply to it. *)
Lemma worker_answers_lem :
  forall fuel cfg c sw sv sd data,
    answers_as_core (sw_full_field sw) (c_max_layers c)
      (cell_work fuel cfg c sw sv sd data) /\
    answers_for_its_cell (cell_work fuel cfg c sw sv sd data).
Proof.
  intros. pose proof (cell_work_answers fuel cfg c sw sv sd data) as A.
  split; [exact A|]. exact (core_answers_cell _ _ _ A).
Qed.

(*@ C46,C63 Every listed variable of the atmosphere holds, in each glacier cell, the series of this
   quantity that the worker of this cell has returned, and NaN in each other cell; its units and
   long name are those of the table. *)
Lemma result_atm_lem :
  forall cfg c work arrivals data restart stakes measured io col name f,
    run_cosipy cfg c work arrivals data restart stakes measured io = Ok col ->
    schedule arrivals -> answers_as_core (rc_full_field cfg) (c_max_layers c) work ->
    sizes data = Ok (io_ny io, io_nx io) -> some_glacier data (io_ny io) (io_nx io) ->
    In name (io_atm io) -> atm_field name = Some f ->
    exists v m, dict_find (io_RESULT (col_io col)) name = Some v /\
      dict_find result_metadata name = Some m /\ v_units v = fst m /\ v_long_name v = snd m /\
      v_dims v = ["time"%string; rc_northing cfg; rc_easting cfg] /\
      filled data (io_ny io) (io_nx io)
        (found cfg (c_max_layers c) work data restart stakes)
        (fun _ outs => Some (Series (map f outs))) (nan_series (io_time io)) (v_data v).
Proof.
  intros cfg c work arrivals data restart stakes measured io col name f Hrun Hs Hw Hz G I Hf.
  destruct (atm_parameter _ _ Hf) as (par & P1 & P2 & P3 & P4 & P5).
  destruct (run_filled _ _ _ _ _ _ _ _ _ _ Hrun Hs Hw Hz name
    (fun _ outs => Some (Series (map f outs))) (nan_series (io_time io))) as (arr & A1 & A2).
  - apply first_series; auto.
  - intros r os y x d outs names stat df Eo Er. eexists; split; [reflexivity|].
    exact (atm_assigns cfg (names_of io) _ _ _ _ _ _ _ _ _ _ _ _ _ Hf I Eo Er).
  - destruct (result_of_series _ _ _ _ _ _ _ _ _ _ Hrun Hs Hw Hz name arr G (or_introl I) P3 A1)
      as (v & m & V1 & V2 & ->).
    exists (mkVariable ["time"%string; rc_northing cfg; rc_easting cfg] arr (fst m) (snd m)), m. auto 10.
Qed.

(*@ C46,C63 The same for the listed internal variables. *)
Lemma result_internal_lem :
  forall cfg c work arrivals data restart stakes measured io col name f,
    run_cosipy cfg c work arrivals data restart stakes measured io = Ok col ->
    schedule arrivals -> answers_as_core (rc_full_field cfg) (c_max_layers c) work ->
    sizes data = Ok (io_ny io, io_nx io) -> some_glacier data (io_ny io) (io_nx io) ->
    In name (io_internal io) -> internal_field name = Some f ->
    exists v m, dict_find (io_RESULT (col_io col)) name = Some v /\
      dict_find result_metadata name = Some m /\ v_units v = fst m /\ v_long_name v = snd m /\
      v_dims v = ["time"%string; rc_northing cfg; rc_easting cfg] /\
      filled data (io_ny io) (io_nx io)
        (found cfg (c_max_layers c) work data restart stakes)
        (fun _ outs => Some (Series (map f outs))) (nan_series (io_time io)) (v_data v).
Proof.
  intros cfg c work arrivals data restart stakes measured io col name f Hrun Hs Hw Hz G I Hf.
  destruct (internal_parameter _ _ Hf) as (par & P1 & P2 & P3 & P4 & P5).
  destruct (run_filled _ _ _ _ _ _ _ _ _ _ Hrun Hs Hw Hz name
    (fun _ outs => Some (Series (map f outs))) (nan_series (io_time io))) as (arr & A1 & A2).
  - apply first_series; auto.
  - intros r os y x d outs names stat df Eo Er. eexists; split; [reflexivity|].
    exact (internal_assigns cfg (names_of io) _ _ _ _ _ _ _ _ _ _ _ _ _ Hf I Eo Er).
  - destruct (result_of_series _ _ _ _ _ _ _ _ _ _ Hrun Hs Hw Hz name arr G (or_intror I) P3 A1)
      as (v & m & V1 & V2 & ->).
    exists (mkVariable ["time"%string; rc_northing cfg; rc_easting cfg] arr (fst m) (snd m)), m. auto 10.
Qed.

(*@ C46,C63 The same for the listed layer variables of a run with full fields: one row of layers per
   step, filled from the top and NaN below the last layer. *)
Lemma result_layers_lem :
  forall cfg c work arrivals data restart stakes measured io col name f,
    run_cosipy cfg c work arrivals data restart stakes measured io = Ok col ->
    schedule arrivals -> answers_as_core (rc_full_field cfg) (c_max_layers c) work ->
    sizes data = Ok (io_ny io, io_nx io) -> some_glacier data (io_ny io) (io_nx io) ->
    rc_full_field cfg = true -> In name (io_full io) -> layer_field name = Some f ->
    exists v m, dict_find (io_RESULT (col_io col)) ("LAYER_" ++ name)%string = Some v /\
      dict_find result_metadata ("LAYER_" ++ name)%string = Some m /\
      v_units v = fst m /\ v_long_name v = snd m /\
      v_dims v = ["time"%string; rc_northing cfg; rc_easting cfg; "layer"%string] /\
      filled data (io_ny io) (io_nx io)
        (found cfg (c_max_layers c) work data restart stakes)
        (fun _ outs => Some (Layers (map (profile_row (c_max_layers c) f) outs)))
        (nan_layers (io_time io) (c_max_layers c)) (v_data v).
Proof.
  intros cfg c work arrivals data restart stakes measured io col name f Hrun Hs Hw Hz G F I Hf.
  destruct (run_filled _ _ _ _ _ _ _ _ _ _ Hrun Hs Hw Hz ("LAYER_" ++ name)%string
    (fun _ outs => Some (Layers (map (profile_row (c_max_layers c) f) outs)))
    (nan_layers (io_time io) (c_max_layers c))) as (arr & A1 & A2).
  - apply first_layers; auto.
  - intros r os y x d outs names stat df Eo Er. rewrite F in Er. eexists; split; [reflexivity|].
    exact (layer_assigns cfg (names_of io) _ _ _ _ _ _ _ _ _ _ _ _ Hf I F Eo Er).
  - destruct (result_of_layers _ _ _ _ _ _ _ _ _ _ Hrun Hs Hw Hz name arr G F I A1)
      as (v & m & V1 & V2 & ->).
    exists (mkVariable ["time"%string; rc_northing cfg; rc_easting cfg; "layer"%string] arr (fst m) (snd m)), m.
    auto 10.
Qed.

(*@ C63 A listed name that its list does not serve ends as NaN in every cell: a static field such as
   HGT listed under output_atm, an input such as T2 listed under output_internal, or an internal
   quantity listed under output_atm.  The variable of this name that the result dataset held before
   (the copied input) is overwritten. *)
Lemma result_misplaced_lem :
  forall cfg c work arrivals data restart stakes measured io col name,
    run_cosipy cfg c work arrivals data restart stakes measured io = Ok col ->
    schedule arrivals -> answers_as_core (rc_full_field cfg) (c_max_layers c) work ->
    sizes data = Ok (io_ny io, io_nx io) -> some_glacier data (io_ny io) (io_nx io) ->
    (In name (io_atm io) \/ In name (io_internal io)) ->
    (In name (io_atm io) -> atm_field name = None) ->
    (In name (io_internal io) -> internal_field name = None) ->
    prefix "LAYER_" name = false -> prefix "RES_" name = false ->
    exists v, dict_find (io_RESULT (col_io col)) name = Some v /\ all_nan (v_data v) /\
      forall y x, (0 <= y < io_ny io)%Z -> (0 <= x < io_nx io)%Z ->
        cell_at (v_data v) y x = Some (nan_series (io_time io)).
Proof.
  intros cfg c work arrivals data restart stakes measured io col name Hrun Hs Hw Hz G I H1 H2 L R.
  assert (L' : ~ layer_name name).
  { intros [n ->]. cbn in L. destruct n; discriminate. }
  assert (R' : ~ restart_name name).
  { intros [n ->]. cbn in R. destruct n; discriminate. }
  assert (A : dict_find (io_arrays (col_io col)) name =
    Some (tabulate (io_ny io) (io_nx io) (fun _ _ => nan_series (io_time io)))).
  { apply (run_left _ _ _ _ _ _ _ _ _ _ Hrun Hs Hw Hz).
    - apply first_series; auto.
    - intros r os Eo. apply (none_assigned _ _ _ _ _ Eo); auto.
      + intros J. apply H1 in J. apply find_none in J. exact J.
      + intros J. apply H2 in J. apply find_none in J. exact J. }
  destruct (result_of_series _ _ _ _ _ _ _ _ _ _ Hrun Hs Hw Hz name _ G I L' A)
    as (v & m & V1 & V2 & ->).
  eexists. split; [exact V1|]. cbn [v_data]. split.
  - intros row b v Ir Ib Iv. apply in_map_iff in Ir as (y & <- & _).
    apply in_map_iff in Ib as (x & <- & _). cbn in Iv. apply repeat_spec in Iv. discriminate.
  - intros y x Hy Hx. apply cell_at_tabulate; assumption.
Qed.

(*@ C63 Without a glacier cell no result variable is written at all: the result dataset stays as the
   input left it, and the restart dataset stays empty of variables. *)
Lemma result_no_glacier_lem :
  forall cfg c work arrivals data restart stakes measured io col,
    run_cosipy cfg c work arrivals data restart stakes measured io = Ok col ->
    schedule arrivals ->
    sizes data = Ok (io_ny io, io_nx io) -> ~ some_glacier data (io_ny io) (io_nx io) ->
    io_RESULT (col_io col) = io_RESULT io /\ io_RESTART (col_io col) = io_RESTART io /\
    col_stat col = [] /\ col_val col = measured.
Proof.
  intros cfg c work arrivals data restart stakes measured io col Hrun Hs Hz G.
  rewrite (run_no_glacier _ _ _ _ _ _ _ _ _ _ Hrun Hs Hz G). auto.
Qed.

(*@ C68 The restart file holds in each glacier cell the four numbers and the five layer profiles that
   the worker of this cell has returned, and NaN in each other cell. *)
Lemma restart_written_lem :
  forall cfg c work arrivals data restart stakes measured io col,
    run_cosipy cfg c work arrivals data restart stakes measured io = Ok col ->
    schedule arrivals -> answers_as_core (rc_full_field cfg) (c_max_layers c) work ->
    sizes data = Ok (io_ny io, io_nx io) -> some_glacier data (io_ny io) (io_nx io) ->
    (forall name, In name ["NLAYERS"; "NEWSNOWHEIGHT"; "NEWSNOWTIMESTAMP"; "OLDSNOWTIMESTAMP"]%string ->
       exists v, dict_find (io_RESTART (col_io col)) name = Some v /\
         v_dims v = [rc_northing cfg; rc_easting cfg] /\
         filled data (io_ny io) (io_nx io)
           (found cfg (c_max_layers c) work data restart stakes)
           (fun d _ => restart_variable d name) (nan_series 1) (v_data v)) /\
    (forall name, In name ["LAYER_HEIGHT"; "LAYER_RHO"; "LAYER_T"; "LAYER_LWC"; "LAYER_IF"]%string ->
       exists v, dict_find (io_RESTART (col_io col)) name = Some v /\
         v_dims v = [rc_northing cfg; rc_easting cfg; "layer"%string] /\
         filled data (io_ny io) (io_nx io)
           (found cfg (c_max_layers c) work data restart stakes)
           (fun d _ => restart_variable d name) (nan_series (c_max_layers c)) (v_data v)).
Proof.
  intros cfg c work arrivals data restart stakes measured io col Hrun Hs Hw Hz G.
  destruct (restart_of _ _ _ _ _ _ _ _ _ _ Hrun Hs Hw Hz G) as [R1 R2].
  destruct (first_restart cfg c io) as [F1 F2].
  split.
  - intros name I. change (In name restart_scalars) in I.
    destruct (run_filled _ _ _ _ _ _ _ _ _ _ Hrun Hs Hw Hz ("RES_" ++ name)%string
      (fun d _ => restart_variable d name) (nan_series 1)) as (arr & A1 & A2).
    + apply F1; exact I.
    + intros r os y x d outs names stat df Eo Er.
      destruct (restart_assigns _ _ _ _ d Eo) as [G1 _]; [subst r; reflexivity|].
      destruct (G1 _ I) as (v & V1 & V2). exists (Series v). split; [|exact V2].
      unfold restart_variable. rewrite (ds_get_find _ _ _ V1). reflexivity.
    + destruct (R1 _ _ I A1) as (v & m & V1 & V2 & ->).
      eexists. split; [exact V1|]. split; [reflexivity|exact A2].
  - intros name' I'.
    assert (exists name, In name restart_layers /\ name' = ("LAYER_" ++ name)%string) as (name & I & ->).
    { cbn in I'. repeat (destruct I' as [<-|I']; [eexists; split; [|cbn; reflexivity]; cbn; tauto|]).
      destruct I'. }
    destruct (run_filled _ _ _ _ _ _ _ _ _ _ Hrun Hs Hw Hz ("RES_LAYER_" ++ name)%string
      (fun d _ => restart_variable d ("LAYER_" ++ name)%string) (nan_series (c_max_layers c)))
      as (arr & A1 & A2).
    + apply F2; exact I.
    + intros r os y x d outs names stat df Eo Er.
      destruct (restart_assigns _ _ _ _ d Eo) as [_ G1]; [subst r; reflexivity|].
      destruct (G1 _ I) as (v & V1 & V2). exists (Series v). split; [|exact V2].
      unfold restart_variable. rewrite (ds_get_find _ _ _ V1). reflexivity.
    + destruct (R2 _ _ I A1) as (v & m & V1 & V2 & ->).
      eexists. split; [exact V1|]. split; [reflexivity|exact A2].
Qed.

(** ** Submission *)

(*@ C47 The submitted cells are exactly the cells of the grid with mask 1, each once; every one is
   free of NaN, gets the restart data of its own cell, and the stakes of its own cell. *)
Lemma submitted_cells_lem :
  forall cfg data restart stakes ny nx jobs,
    submit cfg data restart stakes ny nx = Ok jobs ->
    NoDup (map job_cell jobs) /\
    (forall y x, In (y, x) (map job_cell jobs) <->
       (0 <= y < ny)%Z /\ (0 <= x < nx)%Z /\ is_glacier data y x) /\
    Forall (proper_job cfg data restart stakes) jobs.
Proof. exact submit_ok. Qed.

(*@ C47 Where the horizontal dimensions carry the names by which the program selects, and without restart, the submission stops the program exactly if some glacier cell of the grid has
   a NaN in one of the input variables, and otherwise submits. *)
Lemma submission_stops_on_nan_lem :
  forall cfg data restart stakes ny nx,
    dimensions_named cfg -> on_grid data ny nx -> rc_restart cfg = false ->
    ((exists y x, (0 <= y < ny)%Z /\ (0 <= x < nx)%Z /\ is_glacier data y x /\ has_nan data y x) ->
       submit cfg data restart stakes ny nx = Err SystemExit) /\
    (~ (exists y x, (0 <= y < ny)%Z /\ (0 <= x < nx)%Z /\ is_glacier data y x /\ has_nan data y x) ->
       exists jobs, submit cfg data restart stakes ny nx = Ok jobs).
Proof. exact submit_grid. Qed.

(*@ C47,C66 A stake goes to the worker of its own cell and to no other one. *)
Lemma stakes_of_cell_lem :
  forall stakes y x name, In name (stakes_of stakes y x) <-> In (y, x, name) stakes.
Proof.
  intros stakes y x name. unfold stakes_of. rewrite in_map_iff. split.
  - intros ([[y' x'] n] & <- & H). apply filter_In in H as [H E]. cbn in E.
    apply andb_true_iff in E as [E1 E2]. apply Z.eqb_eq in E1, E2. cbn. subst. exact H.
  - intros H. exists (y, x, name). split; [reflexivity|]. apply filter_In. split; [exact H|].
    cbn. rewrite !Z.eqb_refl. reflexivity.
Qed.

(** ** Success *)

(*@ C46,C63 A run without restart and stake evaluation succeeds, in whatever order the workers
   finish, if the horizontal dimensions carry the names by which the program selects, the input covers the grid and no glacier cell has a NaN, every listed output variable
   has an entry in the table of units, and every worker returns one output per time step, profiles
   that fit into max_layers, and restart data of the right lengths. *)
Lemma run_succeeds_lem :
  forall cfg c work arrivals data restart stakes measured io,
    schedule arrivals -> rc_restart cfg = false -> rc_stake_evaluation cfg = false ->
    dimensions_named cfg -> sizes data = Ok (io_ny io, io_nx io) -> on_grid data (io_ny io) (io_nx io) ->
    ~ (exists y x, (0 <= y < io_ny io)%Z /\ (0 <= x < io_nx io)%Z /\
         is_glacier data y x /\ has_nan data y x) ->
    names_known (rc_full_field cfg) io ->
    (forall y x, (0 <= y < io_ny io)%Z -> (0 <= x < io_nx io)%Z -> is_glacier data y x ->
       exists d outs names stat df,
         work (mkJob y x None None) =
           Ok (core_return (rc_full_field cfg) (c_max_layers c) y x d outs names stat df) /\
         answer_fits (c_max_layers c) (io_time io) d outs) ->
    exists col, run_cosipy cfg c work arrivals data restart stakes measured io = Ok col.
Proof.
  intros cfg c work arrivals data restart stakes measured io Hs Rs St Dn Hz Hg Hn Nk Hw.
  destruct (proj2 (submit_grid cfg data restart stakes _ _ Dn Hg Rs) Hn) as [jobs Ej].
  pose proof (submit_ok _ _ _ _ _ _ _ Ej) as (J1 & J2 & J3).
  destruct (collect_progress cfg c work io (arrivals jobs) St Nk) with
    (acc := mkCollected (first_io cfg c io) [] measured) as [col Hc].
  - intros j Hj. apply (Permutation_in j (Permutation_sym (Hs jobs))) in Hj.
    assert (I : In (j_y j, j_x j) (map job_cell jobs)) by (apply (in_map job_cell) in Hj; exact Hj).
    apply J2 in I as (Hy & Hx & G). split; [exact Hy|]. split; [exact Hx|].
    destruct (Hw _ _ Hy Hx G) as (d & outs & names & stat & df & Ew & Fit).
    exists d, outs, names, stat, df. split; [|exact Fit].
    rewrite Forall_forall in J3. destruct (J3 _ Hj) as (_ & _ & P1 & P2). rewrite St in P1. rewrite Rs in P2.
    rewrite <- Ew. f_equal. destruct j; cbn in *; congruence.
  - reflexivity.
  - apply first_shaped.
  - exists col. apply run_parts. eauto 8.
Qed.

(*@ex two cells, the second one outside of the mask and with a NaN; a list of one variable for each
   of the three kinds; the workers return one step with one layer *)
Lemma run_case_lem :
  exists cfg work data io o m,
    rc_full_field cfg = true /\ schedule (@rev Job) /\ m = c_max_layers default_constants /\
    answers_as_core true m work /\ sizes data = Ok (io_ny io, io_nx io) /\
    io_ny io = 1%Z /\ io_nx io = 2%Z /\ is_glacier data 0 0 /\ ~ is_glacier data 0 1 /\
    has_nan data 0 1 /\ io_atm io = ["RAIN"%string] /\ io_internal io = ["MB"%string] /\
    io_full io = ["HEIGHT"%string] /\ o_RAIN o = 1 /\ o_MB o = 2 /\
    exists col, run_cosipy cfg default_constants work (@rev Job) data None [] [] io = Ok col /\
      exists v, dict_find (io_RESULT (col_io col)) "RAIN"%string = Some v /\
        cell_at (v_data v) 0 0 = Some (Series [Some 1]) /\ cell_at (v_data v) 0 1 = Some (Series [None]).
Proof.
  pose (p := mkLayerFields [3] [4] [5] [6] [7] [8] [9] [10] [11]).
  pose (o := mkOutput 1 0 0 0 0 0 0 0 2 0 0 0 0 0 0 1 0 0 0 0 0 0 0 0 0 0 None 0 0 0 (Some p)).
  pose (m := c_max_layers default_constants).
  pose (d := [("NLAYERS"%string, [Some 1]); ("NEWSNOWHEIGHT"%string, [Some 0]);
              ("NEWSNOWTIMESTAMP"%string, [Some 0]); ("OLDSNOWTIMESTAMP"%string, [Some 0]);
              ("LAYER_HEIGHT"%string, repeat (Some 1) (Z.to_nat m));
              ("LAYER_RHO"%string, repeat (Some 1) (Z.to_nat m));
              ("LAYER_T"%string, repeat (Some 1) (Z.to_nat m));
              ("LAYER_LWC"%string, repeat (Some 1) (Z.to_nat m));
              ("LAYER_IF"%string, repeat (Some 1) (Z.to_nat m))] : dataset).
  pose (cfg := mkRunConfig "RAIN" "MB" "HEIGHT" true false false "lat" "lon" false 0 0 0 0 false
                 "rmse" "mb" (VStr "") (VStr "") "out").
  pose (work := fun j : Job => Ok (core_return true m (j_y j) (j_x j) d [o] PNone PNone PNone)).
  pose (data := mkGridded [0%Z]
    [("MASK"%string, [[Series [Some 1]; Series [Some 0]]]);
     ("T2"%string, [[Series [Some 270]; Series [None]]])]).
  pose (io := mkIO ["RAIN"%string] ["MB"%string] ["HEIGHT"%string] 1 2 1 [] [] []).
  assert (Sch : schedule (@rev Job)) by (intros l; apply Permutation_rev).
  assert (Ans : answers_as_core true m work).
  { intros j r E. unfold work in E. injection E as <-. exists d, [o], PNone, PNone, PNone. reflexivity. }
  assert (G0 : is_glacier data 0 0) by (eexists; split; reflexivity).
  assert (G1 : ~ is_glacier data 0 1).
  { intros (ms & E1 & E2). cbn in E1. injection E1 as <-. cbn in E2. injection E2 as E2. lra. }
  assert (Gr : on_grid data 1 2).
  { split.
    - intros name arr H. cbn in H. destruct H as [H|[H|[]]]; injection H as <- <-; cbn; auto.
    - eexists; split; [reflexivity|]. intros y x b H. unfold cell_at in H.
      destruct ((0 <=? y)%Z && (0 <=? x)%Z)%bool; [|discriminate].
      destruct (Z.to_nat y) as [|[|]]; cbn in H; try discriminate.
      destruct (Z.to_nat x) as [|[|[|]]]; cbn in H; try discriminate; injection H as <-; eauto. }
  assert (Nn : ~ (exists y x, (0 <= y < io_ny io)%Z /\ (0 <= x < io_nx io)%Z /\
         is_glacier data y x /\ has_nan data y x)).
  { intros (y & x & Hy & Hx & G & N). cbn in Hy, Hx. assert (y = 0%Z) as -> by lia.
    assert (x = 0 \/ x = 1)%Z as [->| ->] by lia; [|contradiction].
    destruct N as (name & arr & b & I & C & Nb). cbn in I.
    destruct I as [I|[I|[]]]; injection I as <- <-; cbn in C; injection C as <-; cbn in Nb;
      destruct Nb as [Nb|[]]; discriminate. }
  exists cfg, work, data, io, o, m.
  destruct (run_succeeds_lem cfg default_constants work (@rev Job) data None [] [] io) as [col Hc];
    try assumption; try reflexivity.
  { split; reflexivity. }
  { split; [intros name [[<-|[]]|[<-|[]]]; discriminate|intros _ name [<-|[]]; discriminate]. }
  { intros y x Hy Hx G. exists d, [o], PNone, PNone, PNone. split; [reflexivity|].
    split; [reflexivity|]. split; [|split].
    - constructor; [|constructor]. intros f If. cbn in If.
      repeat (destruct If as [<-|If]; [cbn; lia|]). destruct If.
    - intros name I. cbn in I. repeat (destruct I as [<-|I]; [eexists; reflexivity|]). destruct I.
    - intros name I. cbn in I.
      repeat (destruct I as [<-|I]; [eexists; split; [reflexivity|apply repeat_length]|]). destruct I. }
  repeat (split; [first [reflexivity|assumption]|]).
  split. { exists "T2"%string. eexists. exists (Series [None]). split; [cbn; auto|]. split; [reflexivity|cbn; auto]. }
  repeat (split; [reflexivity|]).
  exists col. split; [exact Hc|].
  destruct (result_atm_lem cfg default_constants work (@rev Job) data None [] [] io col "RAIN"
              (fun o => Some (o_RAIN o)) Hc Sch Ans eq_refl) as (v & mm & V1 & _ & _ & _ & _ & V2).
  { exists 0%Z, 0%Z. cbn. split; [lia|]. split; [lia|]. exact G0. }
  { left. reflexivity. }
  { reflexivity. }
  exists v. split; [exact V1|].
  destruct (V2 0%Z 0%Z) as [V3 _]; [cbn; lia..|]. destruct (V2 0%Z 1%Z) as [_ V4]; [cbn; lia..|].
  split; [|exact (V4 G1)].
  destruct (V3 G0) as (d' & outs & b & Fd & Vb & Cb). injection Vb as <-.
  destruct Fd as (j & nm & stt & df & _ & Jc & Ew). unfold work in Ew. unfold job_cell in Jc.
  injection Jc as Jy Jx. rewrite Jy, Jx in Ew. rewrite Cb.
  apply (f_equal (fun r => match r with Ok l => nth_error l 3 | Err _ => None end)) in Ew.
  cbn in Ew. injection Ew as Ew. f_equal. f_equal. exact (eq_sym Ew).
Qed.
