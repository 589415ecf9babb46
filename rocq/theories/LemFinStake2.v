(** * What the files of the stakes hold *)
From Verif Require Import ModelPy ModelConstants ModelNode ModelGrid ModelSurface ModelInit
  ModelCore ModelConfig ModelIO ModelMain SpecIO SpecCell SpecCalm SpecStake2.
From Verif Require Import LemPy LemDict LemIO LemIO2 LemIO3 LemIO4 LemIO5 LemIO6 LemIO7 LemFinDriver LemFinIO LemFinCell LemFinCell2.
From Coq Require Import Permutation.

(** what one worker adds: its row of numbers and its column of simulated values *)
Definition contributes (fuel : nat) (cfg : RunConfig) (c : Consts) (sw : Switches) (sv : Solvers)
  (sd : StakeData) (data : Gridded) (j : Job) (names : list string) (row : dict number) (sim : list number) : Prop :=
  exists cell d s outs last,
    rc_eval_method cfg = "rmse"%string /\
    isel data (j_y j) (j_x j) = Ok cell /\ read_cell cell = Ok d /\
    cosipy_core fuel c sw sv d (j_restart j) = Ok (s, outs, Some last) /\
    rmse cfg names sd (stake_frame names (sd_index sd) (g_times data) outs) = Ok row /\
    (rc_obs_type cfg = "mb"%string /\ sim = fst (stake_frame names (sd_index sd) (g_times data) outs) \/
     rc_obs_type cfg = "snowheight"%string /\ sim = snd (stake_frame names (sd_index sd) (g_times data) outs)).

Lemma put_columns cfg (mb sh : list number) l (vals : dict (list number)) sim :
  (rc_obs_type cfg = "mb"%string /\ sim = mb \/ rc_obs_type cfg = "snowheight"%string /\ sim = sh) ->
  let put v i :=
    let v1 := if String.eqb (rc_obs_type cfg) "mb" then dict_set v i mb else v in
    if String.eqb (rc_obs_type cfg) "snowheight" then dict_set v1 i sh else v1 in
  forall name, dict_find (fold_left put l vals) name =
    if in_dec string_dec name l then Some sim else dict_find vals name.
Proof.
  intros T put. assert (P : forall v i name, dict_find (put v i) name = if String.eqb i name then Some sim else dict_find v name).
  { intros v i name. unfold put. destruct T as [[-> ->]|[-> ->]]; cbn [String.eqb Ascii.eqb Bool.eqb]; apply find_set. }
  clearbody put. revert vals. induction l as [|i l IH]; intros vals name; [reflexivity|]. cbn [fold_left]. rewrite IH, P.
  destruct (in_dec string_dec name l) as [I|I], (in_dec string_dec name (i :: l)) as [I'|I']; try reflexivity.
  - exfalso. apply I'. right; exact I.
  - destruct (String.eqb_spec i name) as [E|E]; [reflexivity|]. destruct I' as [I'|I']; contradiction.
  - destruct (String.eqb_spec i name) as [E|E]; [|reflexivity]. exfalso. apply I'. left; exact E.
Qed.

Lemma worker_stakes fuel cfg c sw sv sd data j names r acc acc' :
  rc_stake_evaluation cfg = true -> j_stakes j = Some names ->
  cell_work fuel cfg c sw sv sd data j = Ok r -> store_result cfg r acc = Ok acc' ->
  exists row sim, contributes fuel cfg c sw sv sd data j names row sim /\
    col_stat acc' = col_stat acc ++ [row] /\
    forall name, dict_find (col_val acc') name =
      if in_dec string_dec name names then Some sim else dict_find (col_val acc) name.
Proof.
  intros Se Js W H. unfold cell_work in W.
  apply bind_ok in W as (cell & Ec & W). apply bind_ok in W as (d & Ed & W).
  apply bind_ok in W as ([[s outs] rs] & Ew & W). destruct rs as [last|]; [|discriminate].
  rewrite Js in W. cbv zeta in W.
  apply bind_ok in W as ([[pn ps] pf] & W1 & W). apply Ok_inj in W. subst r.
  apply bind_ok in W1 as (st & Ev & W1). injection W1 as <- <- <-.
  unfold store_result in H. change (negb (length _ =? length unpack_names)%nat) with false in H. cbv iota zeta in H.
  apply bind_ok in H as (args & _ & H). apply bind_ok in H as (io1 & _ & H).
  apply bind_ok in H as (vy & _ & H). apply bind_ok in H as (y' & _ & H).
  apply bind_ok in H as (vx & _ & H). apply bind_ok in H as (x' & _ & H).
  apply bind_ok in H as (rs & _ & H). apply bind_ok in H as (d' & _ & H).
  apply bind_ok in H as (io2 & _ & H). apply bind_ok in H as (io3 & _ & H).
  apply bind_ok in H as (io4 & _ & H). apply bind_ok in H as ([stat vals] & Es & H). injection H as <-.
  cbn [col_stat col_val]. unfold store_stakes in Es. rewrite Se in Es.
  set (df := stake_frame names (sd_index sd) (g_times data) outs) in *.
  change (dict_get (combine unpack_names _) "stat") with (Ok st) in Es.
  change (dict_get (combine unpack_names _) "stake_names") with (Ok (PNames names)) in Es.
  change (dict_get (combine unpack_names _) "df_eval") with (Ok (PFrame (fst df) (snd df))) in Es.
  cbn [bind] in Es. unfold evaluate in Ev.
  destruct (String.eqb_spec (rc_eval_method cfg) "rmse") as [Me|]; [|injection Ev as <-; discriminate].
  apply bind_ok in Ev as (row & Er & Ev). injection Ev as <-. injection Es as <- <-.
  assert (T : rc_obs_type cfg = "mb"%string \/ rc_obs_type cfg = "snowheight"%string).
  { unfold rmse in Er. apply bind_ok in Er as (sim & E & _).
    destruct (String.eqb_spec (rc_obs_type cfg) "mb"); [auto|].
    destruct (String.eqb_spec (rc_obs_type cfg) "snowheight"); [auto|discriminate]. }
  exists row, (if String.eqb (rc_obs_type cfg) "mb" then fst df else snd df).
  assert (T2 : rc_obs_type cfg = "mb"%string /\ (if String.eqb (rc_obs_type cfg) "mb" then fst df else snd df) = fst df \/
    rc_obs_type cfg = "snowheight"%string /\ (if String.eqb (rc_obs_type cfg) "mb" then fst df else snd df) = snd df).
  { destruct T as [->| ->]; cbn; auto. }
  split; [|split; [reflexivity|]].
  - exists cell, d, s, outs, last. auto 8.
  - intros name. apply put_columns. exact T2.
Qed.

Lemma collect_stakes fuel cfg c sw sv sd data (names : Job -> list string) :
  rc_stake_evaluation cfg = true ->
  forall l acc col, Forall (fun j => j_stakes j = Some (names j)) l ->
  collect cfg (cell_work fuel cfg c sw sv sd data) l acc = Ok col ->
  exists added, Forall2 (fun j a => contributes fuel cfg c sw sv sd data j (names j) (fst a) (snd a)) l added /\
    col_stat col = col_stat acc ++ map fst added /\
    (forall name, (forall j, In j l -> ~ In name (names j)) -> dict_find (col_val col) name = dict_find (col_val acc) name) /\
    (forall name, (exists j, In j l /\ In name (names j)) ->
       exists j a, In (j, a) (combine l added) /\ In name (names j) /\ dict_find (col_val col) name = Some (snd a)).
Proof.
  intros Se. induction l as [|j l IH]; intros acc col P H.
  - cbn in H. injection H as <-. exists []. split; [constructor|]. split; [rewrite app_nil_r; reflexivity|].
    split; [reflexivity|]. intros name (j & [] & _).
  - apply Forall_cons_iff in P as [Pj P]. cbn [collect] in H.
    apply bind_ok in H as (r & Ew & H). apply bind_ok in H as (acc' & Es & H).
    destruct (worker_stakes _ _ _ _ _ _ _ _ _ _ _ _ Se Pj Ew Es) as (row & sim & Cj & St & V).
    destruct (IH _ _ P H) as (added & F & S' & N & X). exists ((row, sim) :: added).
    split; [constructor; assumption|]. split; [rewrite S', St, <- app_assoc; reflexivity|]. split.
    + intros name A. rewrite N by (intros i Ii; apply A; right; exact Ii). rewrite V.
      destruct (in_dec string_dec name (names j)) as [I|I]; [|reflexivity]. exfalso. apply (A j (or_introl eq_refl) I).
    + intros name (i & Ii & In1).
      destruct (Exists_dec (fun i => In name (names i)) l (fun i => in_dec string_dec name (names i))) as [E|E].
      * apply Exists_exists in E. destruct (X name E) as (i' & a & I1 & I2 & I3). exists i', a. split; [right; exact I1|auto].
      * assert (A : forall i, In i l -> ~ In name (names i)) by (intros i' I1 I2; apply E, Exists_exists; eauto).
        destruct Ii as [<-|Ii]; [|destruct (A i Ii In1)].
        exists j, (row, sim). split; [left; reflexivity|]. split; [exact In1|]. rewrite N by exact A. rewrite V.
        destruct (in_dec string_dec name (names j)); [reflexivity|contradiction].
Qed.

Lemma contributes_simulated fuel cfg c sw sv sd data restart stakes j names row sim :
  names <> [] -> NoDup (g_times data) -> proper_job cfg data restart stakes j -> (0 <= j_y j)%Z -> (0 <= j_x j)%Z ->
  contributes fuel cfg c sw sv sd data j names row sim ->
  exists outs, column_of fuel cfg c sw sv data restart (j_y j) (j_x j) outs /\
    simulated (rc_obs_type cfg) (sd_index sd) (g_times data) outs sim.
Proof.
  intros Nn Nt Pj Hy Hx (cell & d & s & outs & last & _ & Ec & Ed & Ew & _ & T). exists outs. split.
  - exists d, (j_restart j), s, last. split; [apply (read_cell_ok data _ _ cell d Hy Hx Ec Ed)|]. split; [|exact Ew].
    destruct Pj as (_ & _ & _ & Pr). unfold starts_from. destruct (rc_restart cfg); [|exact Pr].
    destruct Pr as (rf & ds & P1 & P2 & P3). exists rf, ds. split; [exact P1|]. split; [exact P3|].
    intros name. apply cells_find; assumption.
  - assert (L : length (fst (stake_frame names (sd_index sd) (g_times data) outs)) = length (sd_index sd) /\
      length (snd (stake_frame names (sd_index sd) (g_times data) outs)) = length (sd_index sd)).
    { unfold stake_frame. destruct names; cbn [fst snd]; rewrite !map_length; auto. }
    split; [destruct T as [[_ ->]|[_ ->]]; apply L|].
    intros i t Hi. destruct (stake_simulated_lem names (sd_index sd) (g_times data) outs i t Nn Nt Hi) as (A & B). split.
    + intros N. destruct T as [[_ ->]|[_ ->]]; apply A; exact N.
    + intros k out Hk Ho. destruct (B k out Hk Ho) as (B1 & B2).
      destruct T as [[T ->]|[T ->]]; rewrite T; (split; intros E; [|]); try discriminate; assumption.
Qed.

(*@ C116 The file of the simulations at the stakes: the column of a stake whose cell is on the glacier holds, at every time of a measurement, what the column model simulates in this very cell: the sum of the mass balance or the snow height; nothing at a time that is not simulated.  The column of a stake whose cell is not on the glacier holds the measurements, although the file is called that of the simulations. *)
Lemma stake_columns_lem :
  forall fuel cfg c sw sv sd arrivals data restart stakes measured io col ny nx name,
  rc_stake_evaluation cfg = true -> schedule arrivals -> sizes data = Ok (ny, nx) -> NoDup (g_times data) ->
  NoDup (map snd stakes) ->
  run_cosipy cfg c (cell_work fuel cfg c sw sv sd data) arrivals data restart stakes measured io = Ok col ->
  (forall y x, In (y, x, name) stakes -> (0 <= y < ny)%Z -> (0 <= x < nx)%Z -> is_glacier data y x ->
     exists outs sim, column_of fuel cfg c sw sv data restart y x outs /\
       simulated (rc_obs_type cfg) (sd_index sd) (g_times data) outs sim /\
       dict_find (col_val col) name = Some sim) /\
  ((forall y x, In (y, x, name) stakes -> (0 <= y < ny)%Z -> (0 <= x < nx)%Z -> ~ is_glacier data y x) ->
     dict_find (col_val col) name = dict_find measured name).
Proof.
  intros fuel cfg c sw sv sd arrivals data restart stakes measured io col ny nx name Se Sc Sz Nt Ns H.
  apply run_parts in H as (ny' & nx' & jobs & E1 & E2 & H). rewrite Sz in E1. injection E1 as <- <-.
  pose proof (jobs_in_quadrant _ _ _ _ _ _ _ E2) as Q. rewrite Forall_forall in Q.
  destruct (submit_ok _ _ _ _ _ _ _ E2) as (ND & G & F). rewrite Forall_forall in F.
  pose proof (Sc jobs) as P.
  assert (IJ : forall j, In j (arrivals jobs) -> In j jobs) by (intros j; apply (Permutation_in j (Permutation_sym P))).
  destruct (collect_stakes fuel cfg c sw sv sd data (fun j => stakes_of stakes (j_y j) (j_x j)) Se (arrivals jobs)
    (mkCollected (first_io cfg c io) [] measured) col) as (added & FA & _ & N & X); [|exact H|].
  { apply Forall_forall. intros j Ij. destruct (F j (IJ j Ij)) as (_ & _ & Fs & _). rewrite Se in Fs. exact Fs. }
  split.
  - intros y x In1 Hy Hx Gl.
    assert (Ij : In (y, x) (map job_cell jobs)) by (apply G; auto).
    apply in_map_iff in Ij as (j & Cj & Ij).
    assert (Ij' : In j (arrivals jobs)) by (apply (Permutation_in j P); exact Ij).
    destruct (X name) as (j' & a & I1 & I2 & I3).
    { exists j. split; [exact Ij'|]. apply stakes_of_cell_lem.
      replace (j_y j) with y by (exact (f_equal fst (eq_sym Cj))). replace (j_x j) with x by (exact (f_equal snd (eq_sym Cj))). exact In1. }
    assert (I2' := I2). apply stakes_of_cell_lem in I2.
    assert (U : forall (l : list (Z * Z * string)) a b, NoDup (map snd l) -> In a l -> In b l -> snd a = snd b -> a = b).
    { induction l as [|u l IH]; intros a0 b N0 Ha Hb E; [destruct Ha|]. cbn in N0. inversion N0 as [|? ? N1 N2]; subst.
      destruct Ha as [->|Ha], Hb as [->|Hb]; [reflexivity|..].
      - exfalso. apply N1. rewrite E. apply in_map. exact Hb.
      - exfalso. apply N1. rewrite <- E. apply in_map. exact Ha.
      - apply IH; assumption. }
    assert (E := U stakes (y, x, name) (j_y j', j_x j', name) Ns In1 I2 eq_refl).
    assert (Ey : y = j_y j') by congruence. assert (Ex : x = j_x j') by congruence.
    assert (Ij2 : In j' jobs) by (apply IJ; eapply in_combine_l; exact I1).
    assert (CO : contributes fuel cfg c sw sv sd data j' (stakes_of stakes (j_y j') (j_x j')) (fst a) (snd a)).
    { clear -FA I1. induction FA as [|j0 a0 l l' H FA IH]; [destruct I1|]. destruct I1 as [E|I1]; [injection E as -> ->; exact H|apply IH, I1]. }
    assert (Nn : stakes_of stakes (j_y j') (j_x j') <> []) by (intros E0; rewrite E0 in I2'; destruct I2').
    destruct (contributes_simulated fuel cfg c sw sv sd data restart stakes j' _ _ _ Nn Nt (F j' Ij2)
      (proj1 (Q j' Ij2)) (proj2 (Q j' Ij2)) CO) as (outs & C1 & C2).
    exists outs, (snd a). rewrite Ey, Ex. auto.
  - intros A. rewrite N; [reflexivity|]. intros j Ij I. apply stakes_of_cell_lem in I.
    assert (K : In (j_y j, j_x j) (map job_cell jobs)) by (apply (in_map job_cell) with (x := j), IJ, Ij).
    apply G in K as (K1 & K2 & K3). apply (A _ _ I K1 K2 K3).
Qed.

(*@ C116 The file of the statistics is put together from one part for every glacier cell, in the order in which the cells are finished; the part of a cell has a line for each stake of this cell and for no other one, with the root of the mean squared difference of the measurements of the stake and the simulation of this cell. *)
Lemma stake_rows_lem :
  forall fuel cfg c sw sv sd arrivals data restart stakes measured io col ny nx,
  rc_stake_evaluation cfg = true -> schedule arrivals -> sizes data = Ok (ny, nx) -> NoDup (g_times data) ->
  run_cosipy cfg c (cell_work fuel cfg c sw sv sd data) arrivals data restart stakes measured io = Ok col ->
  exists cells, NoDup cells /\
    (forall y x, In (y, x) cells <-> (0 <= y < ny)%Z /\ (0 <= x < nx)%Z /\ is_glacier data y x) /\
    Forall2 (fun yx row =>
      (forall name, In name (map fst row) <-> In (fst yx, snd yx, name) stakes) /\
      (forall name r, In (name, r) row ->
         exists obs outs sim, dict_find (sd_columns sd) name = Some obs /\
           column_of fuel cfg c sw sv data restart (fst yx) (snd yx) outs /\
           simulated (rc_obs_type cfg) (sd_index sd) (g_times data) outs sim /\ deviation obs sim r))
      cells (col_stat col).
Proof.
  intros fuel cfg c sw sv sd arrivals data restart stakes measured io col ny nx Se Sc Sz Nt H.
  apply run_parts in H as (ny' & nx' & jobs & E1 & E2 & H). rewrite Sz in E1. injection E1 as <- <-.
  pose proof (jobs_in_quadrant _ _ _ _ _ _ _ E2) as Q. rewrite Forall_forall in Q.
  destruct (submit_ok _ _ _ _ _ _ _ E2) as (ND & G & F). rewrite Forall_forall in F.
  pose proof (Sc jobs) as P.
  assert (IJ : forall j, In j (arrivals jobs) -> In j jobs) by (intros j; apply (Permutation_in j (Permutation_sym P))).
  destruct (collect_stakes fuel cfg c sw sv sd data (fun j => stakes_of stakes (j_y j) (j_x j)) Se (arrivals jobs)
    (mkCollected (first_io cfg c io) [] measured) col) as (added & FA & SA & _ & _); [|exact H|].
  { apply Forall_forall. intros j Ij. destruct (F j (IJ j Ij)) as (_ & _ & Fs & _). rewrite Se in Fs. exact Fs. }
  exists (map job_cell (arrivals jobs)). split; [|split].
  - eapply Permutation_NoDup; [apply Permutation_map; exact P|exact ND].
  - intros y x. rewrite <- G. split; intros K.
    + exact (Permutation_in _ (Permutation_map job_cell (Permutation_sym P)) K).
    + exact (Permutation_in _ (Permutation_map job_cell P) K).
  - rewrite SA. cbn [col_stat app]. 
    assert (QA : Forall (fun j => In j jobs) (arrivals jobs)) by (apply Forall_forall; exact IJ).
    clear SA H P IJ. induction FA as [|j a l l' CO FA IH]; [constructor|].
    apply Forall_cons_iff in QA as [Ij QA]. constructor; [|apply IH, QA].
    cbn [job_cell fst snd]. assert (CO' := CO). destruct CO as (cell & d & s & outs & last & _ & _ & _ & _ & Er & T).
    set (names := stakes_of stakes (j_y j) (j_x j)) in *.
    destruct (stake_frame names (sd_index sd) (g_times data) outs) as [mb sh] eqn:SF.
    destruct (rmse_root_mean_square_lem _ _ _ _ _ _ Er) as (K1 & sim & K2 & K3). split.
    + intros name. rewrite K1. apply stakes_of_cell_lem.
    + intros name r Ir. destruct (K3 name r Ir) as (obs & O1 & O2).
      assert (Nn : names <> []).
      { intros E0. apply (in_map fst) in Ir. rewrite K1, E0 in Ir. destruct Ir. }
      destruct (contributes_simulated fuel cfg c sw sv sd data restart stakes j names _ _ Nn Nt (F j Ij) (proj1 (Q j Ij)) (proj2 (Q j Ij)) CO')
        as (outs' & C1 & C2).
      exists obs, outs', (snd a). split; [exact O1|]. split; [exact C1|]. split; [exact C2|].
      replace (snd a) with sim.
      2:{ cbn [fst snd] in T. destruct K2 as [[Y ->]|[Y ->]], T as [[Z ->]|[Z ->]]; try reflexivity; rewrite Y in Z; discriminate. }
      unfold deviation. destruct r as [v|]; [|exact O2]. destruct O2 as (O2 & O3 & O4 & _). auto.
Qed.

(** ** When a run with stakes completes *)

Lemma collect_progress_stakes cfg c work io jobs :
  rc_stake_evaluation cfg = true -> names_known (rc_full_field cfg) io ->
  (forall j, In j jobs -> (0 <= j_y j < io_ny io)%Z /\ (0 <= j_x j < io_nx io)%Z /\
     exists d outs names row df,
       work j = Ok (core_return (rc_full_field cfg) (c_max_layers c) (j_y j) (j_x j) d outs (PNames names) (PStat row)
                     (PFrame (fst df) (snd df))) /\
       answer_fits (c_max_layers c) (io_time io) d outs) ->
  forall acc, names_of (col_io acc) = names_of io ->
    shaped (io_ny io) (io_nx io) (io_arrays (first_io cfg c io)) (io_arrays (col_io acc)) ->
    exists col, collect cfg work jobs acc = Ok col.
Proof.
  intros St Nk. induction jobs as [|j jobs IH]; intros H acc Nm Sh; cbn [collect]; [eauto|].
  destruct (H j (or_introl eq_refl)) as (Hy & Hx & d & outs & names & row & df & Ew & Fit).
  rewrite Ew. cbn [bind].
  destruct (worker_fits cfg c io (j_y j) (j_x j) d outs (PNames names) (PStat row) (PFrame (fst df) (snd df)) Fit) as (os & Eo & Fo).
  destruct (do_ops_progress _ _ _ _ _ _ _ Hy Hx Sh Fo) as (a & Ea & Sa).
  destruct (pairs_ok cfg c io a Nk (proj1 Sa)) as [[p Ep] [q Eq]].
  destruct (store_stakes cfg (combine unpack_names (core_return (rc_full_field cfg) (c_max_layers c) (j_y j) (j_x j) d outs
    (PNames names) (PStat row) (PFrame (fst df) (snd df)))) (col_stat acc) (col_val acc)) as [[stat vals]|e] eqn:Es.
  2:{ exfalso. unfold store_stakes in Es. rewrite St in Es.
      change (dict_get (combine unpack_names _) "stat") with (Ok (PStat row)) in Es.
      change (dict_get (combine unpack_names _) "stake_names") with (Ok (PNames names)) in Es.
      change (dict_get (combine unpack_names _) "df_eval") with (Ok (PFrame (fst df) (snd df))) in Es.
      cbn [bind] in Es. discriminate. }
  assert (E : store_result cfg
    (core_return (rc_full_field cfg) (c_max_layers c) (j_y j) (j_x j) d outs (PNames names) (PStat row) (PFrame (fst df) (snd df))) acc =
    Ok (mkCollected (rebuild (col_io acc) a (dict_union (io_RESULT (col_io acc)) p)
                (dict_union (io_RESTART (col_io acc)) q)) stat vals)).
  { apply (store_result_ok cfg _ (j_y j) (j_x j)); [reflexivity|]. split; [reflexivity|].
    exists os, a, p, q, stat, vals. rewrite Nm.
    split; [exact Eo|]. split; [exact Ea|]. split; [exact Ep|]. split; [exact Eq|].
    split; [exact Es|reflexivity]. }
  rewrite E. cbn [bind]. apply IH.
  - intros i Hi. apply H. right; exact Hi.
  - exact Nm.
  - exact Sa.
Qed.

(*@ C116 A run with stake evaluation and without restart, under the conditions on the input and on the names of the output that hold for a run without stakes, completes exactly if the column model completes in every glacier cell, the method of evaluation and the kind of observation are among the known ones, and every stake whose cell is on the glacier has a column of measurements.  So one stake with a misspelt name, or one unknown word in the configuration, stops the whole run. *)
Lemma stake_run_completes_lem :
  forall fuel cfg c sw sv sd arrivals data restart stakes measured io,
  schedule arrivals -> rc_restart cfg = false -> rc_stake_evaluation cfg = true ->
  dimensions_named cfg -> sw_full_field sw = rc_full_field cfg ->
  sizes data = Ok (io_ny io, io_nx io) -> on_grid data (io_ny io) (io_nx io) ->
  ~ (exists y x, (0 <= y < io_ny io)%Z /\ (0 <= x < io_nx io)%Z /\ is_glacier data y x /\ has_nan data y x) ->
  names_known (rc_full_field cfg) io -> (0 <= c_max_layers c)%Z ->
  (forall y x d, reads data y x d -> Z.of_nat (nt d) = io_time io) ->
  ((exists col, run_cosipy cfg c (cell_work fuel cfg c sw sv sd data) arrivals data restart stakes measured io = Ok col) <->
   forall y x, (0 <= y < io_ny io)%Z -> (0 <= x < io_nx io)%Z -> is_glacier data y x ->
     (exists d s outs last, reads data y x d /\ cosipy_core fuel c sw sv d None = Ok (s, outs, Some last)) /\
     rc_eval_method cfg = "rmse"%string /\ In (rc_obs_type cfg) ["mb"; "snowheight"]%string /\
     forall name, In (y, x, name) stakes -> exists obs, dict_find (sd_columns sd) name = Some obs).
Proof.
  intros fuel cfg c sw sv sd arrivals data restart stakes measured io Sc Rs Se Dn Ff Sz Og Nn Nk Hm Nt. split.
  - intros [col H] y x Hy Hx Gl.
    apply run_parts in H as (ny' & nx' & jobs & E1 & E2 & H). rewrite Sz in E1. injection E1 as <- <-.
    pose proof (jobs_in_quadrant _ _ _ _ _ _ _ E2) as Q. rewrite Forall_forall in Q.
    destruct (submit_ok _ _ _ _ _ _ _ E2) as (ND & G & F). rewrite Forall_forall in F.
    pose proof (Sc jobs) as P.
    assert (IJ : forall j, In j (arrivals jobs) -> In j jobs) by (intros j; apply (Permutation_in j (Permutation_sym P))).
    destruct (collect_stakes fuel cfg c sw sv sd data (fun j => stakes_of stakes (j_y j) (j_x j)) Se (arrivals jobs)
      (mkCollected (first_io cfg c io) [] measured) col) as (added & FA & _ & _ & _); [|exact H|].
    { apply Forall_forall. intros j Ij. destruct (F j (IJ j Ij)) as (_ & _ & Fs & _). rewrite Se in Fs. exact Fs. }
    assert (Ij : In (y, x) (map job_cell jobs)) by (apply G; auto).
    apply in_map_iff in Ij as (j & Cj & Ij).
    assert (Ij' : In j (arrivals jobs)) by (apply (Permutation_in j P); exact Ij).
    assert (CO : exists a, contributes fuel cfg c sw sv sd data j (stakes_of stakes (j_y j) (j_x j)) (fst a) (snd a)).
    { clear -FA Ij'. induction FA as [|j0 a0 l l' H FA IH]; [destruct Ij'|].
      destruct Ij' as [->|I]; [exists a0; exact H|apply IH, I]. }
    destruct CO as (a & cell & d & s & outs & last & Me & Ec & Ed & Ew & Er & T).
    destruct (Q j Ij) as [Qy Qx].
    destruct (F j Ij) as (_ & _ & _ & Pr). rewrite Rs in Pr. rewrite Pr in Ew.
    pose proof (read_cell_ok _ _ _ _ _ Qy Qx Ec Ed) as Rd.
    assert (j_y j = y) by (exact (f_equal fst Cj)). assert (j_x j = x) by (exact (f_equal snd Cj)). subst y x.
    split; [eauto 10|]. split; [exact Me|]. split.
    { destruct T as [[-> _]|[-> _]]; cbn; auto. }
    intros name In1. apply stakes_of_cell_lem in In1.
    destruct (stake_frame (stakes_of stakes (j_y j) (j_x j)) (sd_index sd) (g_times data) outs) as [mb sh].
    destruct (rmse_root_mean_square_lem _ _ _ _ _ _ Er) as (K1 & sim & _ & K3).
    rewrite <- K1 in In1. apply in_map_iff in In1 as ([n r] & E & In1). cbn in E. subst n.
    destruct (K3 _ _ In1) as (obs & O & _). eauto.
  - intros Hc.
    destruct (proj2 (submit_grid cfg data restart stakes _ _ Dn Og Rs) Nn) as [jobs Ej].
    pose proof (submit_ok _ _ _ _ _ _ _ Ej) as (J1 & J2 & J3). rewrite Forall_forall in J3.
    destruct (collect_progress_stakes cfg c (cell_work fuel cfg c sw sv sd data) io (arrivals jobs) Se Nk) with
      (acc := mkCollected (first_io cfg c io) [] measured) as [col Hcol].
    + intros j Hj. apply (Permutation_in j (Permutation_sym (Sc jobs))) in Hj.
      assert (I : In (j_y j, j_x j) (map job_cell jobs)) by (apply (in_map job_cell) in Hj; exact Hj).
      apply J2 in I as (Hy & Hx & G). split; [exact Hy|]. split; [exact Hx|].
      destruct (Hc _ _ Hy Hx G) as ((d & s & outs & last & Rd & Ew) & Me & T & O).
      destruct (J3 _ Hj) as (_ & _ & P1 & P2). rewrite Se in P1. rewrite Rs in P2.
      destruct (reads_complete _ _ _ _ _ _ Og Hy Hx Rd) as (cell & E1 & E2).
      set (names := stakes_of stakes (j_y j) (j_x j)) in *.
      set (df := stake_frame names (sd_index sd) (g_times data) outs).
      assert (R : exists row, rmse cfg names sd df = Ok row).
      { unfold rmse. assert (B : exists sim, (if String.eqb (rc_obs_type cfg) "mb" then Ok (fst df)
          else if String.eqb (rc_obs_type cfg) "snowheight" then Ok (snd df) else Err NotImplementedError) = Ok sim).
        { destruct T as [<-|[<-|[]]]; cbn; eauto. }
        destruct B as [sim ->]. cbn [bind]. apply map_res_progress. intros name In1.
        apply stakes_of_cell_lem in In1. destruct (O name In1) as [obs Eo]. unfold dict_get. rewrite Eo. cbn. eauto. }
      destruct R as [row Er].
      exists last, outs, names, row, df. split.
      * unfold cell_work. rewrite E1. cbn [bind]. rewrite E2. cbn [bind]. rewrite P2, Ew. cbn [bind]. rewrite P1.
        cbv zeta. fold df. unfold evaluate. rewrite Me, Er. cbn [String.eqb Ascii.eqb Bool.eqb bind]. rewrite Ff. reflexivity.
      * rewrite <- (Nt _ _ _ Rd). exact (cell_fits _ _ _ _ _ _ _ _ _ Hm Ew).
    + reflexivity.
    + apply first_shaped.
    + exists col. apply run_parts. eauto 8.
Qed.

(*@ex C116 Two stakes, the second one next to the glacier: the run completes; the column of the first stake has the simulated balance, the column of the second one the measurement. *)
Lemma two_stakes_case_lem : exists fuel col outs mb,
  run_cosipy stake_config calm_constants
    (cell_work fuel stake_config calm_constants calm_switches calm_solvers (mkStakeData [0%Z] two_measured) calm_file)
    (@rev Job) calm_file None two_stakes two_measured stake_io = Ok col /\
  column_of fuel stake_config calm_constants calm_switches calm_solvers calm_file None 0 0 outs /\
  map o_MB outs = [mb] /\
  dict_find (col_val col) "A" = Some [Some mb] /\ dict_find (col_val col) "B" = Some [Some 0.7].
Proof.
  destruct calm_cell_lem as (fuel & s & o & last & E & _ & _). exists fuel.
  assert (Sc : schedule (@rev Job)) by (intros l; apply Permutation_rev).
  assert (G1 : ~ is_glacier calm_file 0 1).
  { intros (m & G1 & G2). cbn in G1. injection G1 as <-. cbn in G2. injection G2 as G2. lra. }
  assert (R : exists col, run_cosipy stake_config calm_constants
    (cell_work fuel stake_config calm_constants calm_switches calm_solvers (mkStakeData [0%Z] two_measured) calm_file)
    (@rev Job) calm_file None two_stakes two_measured stake_io = Ok col).
  { apply stake_run_completes_lem; try reflexivity.
    - exact Sc.
    - split; reflexivity.
    - exact calm_grid.
    - intros (y & x & Hy & Hx & G & N). cbn in Hy, Hx. assert (y = 0)%Z as -> by lia.
      assert (x = 0 \/ x = 1)%Z as [->| ->] by lia; [exact (calm_no_nan N)|exact (G1 G)].
    - split.
      + intros name I. cbn in I. destruct I as [[<-|[]]|[<-|[]]]; discriminate.
      + intros _ name I. cbn in I. destruct I as [<-|[]]; discriminate.
    - cbn. lia.
    - intros y x d Rd. rewrite (calm_times false y x d Rd). reflexivity.
    - intros y x Hy Hx G. cbn in Hy, Hx. assert (y = 0)%Z as -> by lia.
      assert (x = 0 \/ x = 1)%Z as [->| ->] by lia; [|destruct (G1 G)].
      split; [exists calm_data, s, [o], last; split; [exact calm_reads|exact E]|].
      split; [reflexivity|]. split; [left; reflexivity|].
      intros name I. cbn in I. destruct I as [I|[I|[]]]; injection I; intros; subst; [eexists; reflexivity|discriminate]. }
  destruct R as [col R].
  assert (NT : NoDup (g_times calm_file)) by (repeat constructor; intros []).
  assert (NS : NoDup (map snd two_stakes)).
  { repeat constructor; cbn; [intros [A|[]]; discriminate|intros []]. }
  destruct (stake_columns_lem fuel stake_config calm_constants calm_switches calm_solvers (mkStakeData [0%Z] two_measured)
    (@rev Job) calm_file None two_stakes two_measured stake_io col 1 2 "A"%string eq_refl Sc eq_refl NT NS R) as (A & _).
  destruct (stake_columns_lem fuel stake_config calm_constants calm_switches calm_solvers (mkStakeData [0%Z] two_measured)
    (@rev Job) calm_file None two_stakes two_measured stake_io col 1 2 "B"%string eq_refl Sc eq_refl NT NS R) as (_ & B).
  destruct (A 0%Z 0%Z) as (outs & sim & C & D & F); [left; reflexivity|lia|lia|eexists; split; reflexivity|].
  assert (C' := C). destruct C' as (d & st & s' & last' & Rd & St & E').
  assert (d = calm_data) as ->.
  { refine (reads_unique _ _ _ _ _ _ _ _ _ Rd calm_reads). split; reflexivity. }
  cbn in St. subst st. rewrite E in E'. injection E' as _ <- _.
  exists col, [o], (o_MB o). split; [exact R|]. split; [exact C|]. split; [reflexivity|]. split.
  - rewrite F. destruct D as (L & D). destruct (D 0%nat 0%Z eq_refl) as (_ & D2).
    destruct (D2 0%nat o eq_refl eq_refl) as (D3 & _). specialize (D3 eq_refl).
    cbn [map firstn sum_list fold_right] in D3. destruct sim as [|v [|]]; try discriminate. cbn in D3. injection D3 as ->.
    do 3 f_equal. unfold sum_list. cbn. ring.
  - rewrite B; [reflexivity|]. intros y x I. cbn in I. destruct I as [I|[I|[]]]; [discriminate|injection I; intros; subst; exact G1].
Qed.

(*@ C107 The worker of a cell refuses the cell: a snow height of several numbers, an air temperature that has layers, a slope of several numbers: ValueError; an air temperature that is missing: AttributeError. *)
Lemma cell_refused_lem :
  forall fuel cfg c sw sv sd data j cell, (0 <= j_y j)%Z -> (0 <= j_x j)%Z ->
  isel data (j_y j) (j_x j) = Ok cell ->
  (forall b, entry_at (g_vars data) "SNOWHEIGHT" (j_y j) (j_x j) = Some b -> (forall v, b <> Series [v]) ->
     cell_work fuel cfg c sw sv sd data j = Err ValueError) /\
  (forall v, entry_at (g_vars data) "SNOWHEIGHT" (j_y j) (j_x j) = option_map (fun v => Series [v]) v ->
     (entry_at (g_vars data) "T2" (j_y j) (j_x j) = None -> cell_work fuel cfg c sw sv sd data j = Err AttributeError) /\
     (forall rows, entry_at (g_vars data) "T2" (j_y j) (j_x j) = Some (Layers rows) ->
        cell_work fuel cfg c sw sv sd data j = Err ValueError)) /\
  (forall d l, reads_without_slope data (j_y j) (j_x j) d -> length l <> 1%nat ->
     entry_at (g_vars data) "SLOPE" (j_y j) (j_x j) = Some (all_numbers l) ->
     cell_work fuel cfg c sw sv sd data j = Err ValueError).
Proof.
  intros fuel cfg c sw sv sd data j cell Hy Hx E.
  pose proof (fun name => cells_find (g_vars data) (j_y j) (j_x j) cell name Hy Hx E) as F.
  unfold cell_work. rewrite E. cbn [bind]. split; [|split].
  - intros b Eb Nb. rewrite <- F in Eb. unfold read_cell, read_snowheight. rewrite Eb.
    destruct b as [[|v [|]]|]; try reflexivity. destruct (Nb v eq_refl).
  - intros v Ev. rewrite <- F in Ev. 
    assert (K : read_snowheight cell = Ok v).
    { unfold read_snowheight. rewrite Ev. destruct v; reflexivity. }
    unfold read_cell. rewrite K. cbn [bind]. split.
    + intros T. rewrite <- F in T.
      assert (V : read_values cell "T2" = Err AttributeError) by (unfold read_values, attr_get; rewrite T; reflexivity).
      rewrite V. reflexivity.
    + intros rows T. rewrite <- F in T.
      assert (V : read_values cell "T2" = Err ValueError) by (unfold read_values, attr_get; rewrite T; reflexivity).
      rewrite V. reflexivity.
  - intros d l R Nl Es. destruct R as (A1 & A2 & A3 & A4 & A5 & A6 & A7 & A8 & A9 & A11).
    rewrite <- F in A1, A2, A3, A4, A5, A6, A7, A8, A9, A11, Es.
    assert (V : forall name l, dict_find cell name = Some (all_numbers l) -> read_values cell name = Ok l).
    { intros name l0 Ev. unfold read_values, attr_get. rewrite Ev. cbn [bind all_numbers]. apply read_numbers. }
    assert (O : forall name l, dict_find cell name = option_map all_numbers l -> read_optional cell name = Ok l).
    { intros name [l0|] Ev; cbn [option_map] in Ev; unfold read_optional, dict_mem.
      - rewrite (V _ _ Ev). rewrite Ev. reflexivity.
      - rewrite Ev. reflexivity. }
    assert (K : read_snowheight cell = Ok (d_SNOWHEIGHT d)).
    { unfold read_snowheight. rewrite A11. destruct (d_SNOWHEIGHT d); reflexivity. }
    unfold read_cell. rewrite K. cbn [bind].
    rewrite (V _ _ A1), (V _ _ A2), (V _ _ A3), (V _ _ A4), (V _ _ A5).
    rewrite (O _ _ A6), (O _ _ A7), (O _ _ A8), (O _ _ A9). cbn [bind].
    unfold read_scalar. rewrite (O "SLOPE"%string (Some l) Es). cbn [bind].
    destruct l as [|a [|]]; [reflexivity|destruct (Nl eq_refl)|reflexivity].
Qed.
