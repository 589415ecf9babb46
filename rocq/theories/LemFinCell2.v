(** * When a gridded run completes, and what its files say *)
From Verif Require Import ModelPy ModelConstants ModelNode ModelGrid ModelSurface ModelInit
  ModelCore ModelConfig ModelIO ModelMain Spec SpecIO SpecCell SpecCalm.
From Verif Require Import LemPy LemDict LemIO LemIO2 LemIO3 LemIO4 LemIO5 LemIO6 LemIO7 LemFinIO
  LemShad2 LemCore LemFinIO2 LemFinInput LemFinCore LemFinInit LemFinRun LemFinCell.
From Coq Require Import Permutation Lra.

(** ** A cell that completes fits into the arrays *)

Lemma profile_length {A} (f : Node -> res A) g l : get_profile f g = Ok l -> length l = Z.to_nat (get_number_layers g).
Proof.
  unfold get_profile. intros H. rewrite (map_res_length _ _ _ H). unfold zrange.
  rewrite Z.sub_0_r. apply zseq_len.
Qed.

Lemma stored_fits c m g p : (0 <= m)%Z -> store_profiles c m g = Ok p -> profile_fits m p.
Proof.
  intros Hm. unfold store_profiles. destruct (Z.ltb_spec m (get_number_layers g)) as [|L]; [discriminate|]. intros H.
  apply bind_ok in H as (h & E1 & H). apply bind_ok in H as (r & E2 & H). apply bind_ok in H as (t & E3 & H).
  apply bind_ok in H as (w & E4 & H). apply bind_ok in H as (cc & E5 & H). apply bind_ok in H as (p0 & E6 & H).
  apply bind_ok in H as (f & E7 & H). apply bind_ok in H as (i & E8 & H). apply bind_ok in H as (z & E9 & H).
  injection H as <-.
  apply profile_length in E1, E2, E3, E4, E5, E6, E7, E8, E9.
  intros fl If. cbn [In] in If.
  repeat (destruct If as [<-|If]; [cbn; lia|]). destruct If.
Qed.

Lemma step_output_fits fuel c sw sv dt m z d inp t s s' o : (0 <= m)%Z ->
  core_step fuel c sw sv (dt, m, z) d inp t s = Ok (s', o) ->
  match o_profiles o with Some p => profile_fits m p | None => True end.
Proof.
  intros Hm H. apply core_step_inv in H. destruct H. cbn [o_profiles].
  match goal with E : (if sw_WRF_X_CSPY sw then _ else _) = Ok _ |- _ => rename E into K end.
  destruct (sw_WRF_X_CSPY sw).
  - apply bind_ok in K as (u & _ & K). injection K as <-. exact I.
  - destruct (sw_full_field sw); [|injection K as <-; exact I].
    apply bind_ok in K as (p & E & K). injection K as <-. exact (stored_fits _ _ _ _ Hm E).
Qed.

Lemma loop_outputs fuel c sw sv st d inp n t s s' os :
  core_loop fuel c sw sv st d inp n t s = Ok (s', os) ->
  Forall (fun o => exists t1 s1 s2, core_step fuel c sw sv st d inp t1 s1 = Ok (s2, o)) os.
Proof.
  revert t s s' os. induction n as [|n IH]; intros t s s' os H; cbn [core_loop] in H.
  - injection H as _ <-. constructor.
  - apply bind_ok in H as ([s1 o] & E1 & H). apply bind_ok in H as ([s2 os'] & E2 & H). injection H as <- <-.
    constructor; [eauto|]. exact (IH _ _ _ _ E2).
Qed.

Lemma core_outputs fuel c sw sv d start s outs last :
  cosipy_core fuel c sw sv d start = Ok (s, outs, Some last) ->
  length outs = nt d /\ write_restart c (s_grid s) = Ok last /\
  Forall (fun o => exists inp t1 s1 s2,
    core_step fuel c sw sv (c_dt c, c_max_layers c, c_z c) d inp t1 s1 = Ok (s2, o)) outs.
Proof.
  intros H. unfold cosipy_core, run_settings in H. destruct (sw_WRF_X_CSPY sw).
  - apply bind_ok in H as (st & _ & H). apply bind_ok in H as (g & _ & H). apply bind_ok in H as (inp & _ & H).
    apply bind_ok in H as ([s1 os] & _ & H). discriminate.
  - cbn [bind] in H. apply bind_ok in H as (g & _ & H). apply bind_ok in H as (inp & _ & H).
    apply bind_ok in H as ([s1 os] & E & H). destruct (nt d =? 0)%nat; [discriminate|].
    apply bind_ok in H as (r & Er & H). injection H as <- <- <-.
    split; [exact (proj1 (run_balance_lem _ _ _ _ _ _ _ _ _ _ _ _ _ _ E))|]. split; [exact Er|].
    apply loop_outputs in E. revert E. apply Forall_impl. intros o (t1 & s2 & s3 & Eo). eauto.
Qed.

Lemma filled_length m l v : fill_nan m l = Ok v -> length v = Z.to_nat m.
Proof.
  unfold fill_nan. destruct (Z.ltb_spec m (Z.of_nat (length l))); [discriminate|].
  intros H0. injection H0 as <-. rewrite app_length, map_length, repeat_length. lia.
Qed.

Lemma restart_data_fits c g d : write_restart c g = Ok d -> restart_fits (c_max_layers c) d.
Proof.
  unfold write_restart. destruct (get_fresh_snow_props g) as [[h t] o]. intros H.
  apply bind_ok in H as (a1 & _ & H). apply bind_ok in H as (v1 & E1 & H).
  apply bind_ok in H as (a2 & _ & H). apply bind_ok in H as (v2 & E2 & H).
  apply bind_ok in H as (a3 & _ & H). apply bind_ok in H as (v3 & E3 & H).
  apply bind_ok in H as (a4 & _ & H). apply bind_ok in H as (v4 & E4 & H).
  apply bind_ok in H as (a5 & _ & H). apply bind_ok in H as (v5 & E5 & H). injection H as <-.
  apply filled_length in E1, E2, E3, E4, E5. split; intros name I; cbn [In] in I.
  - repeat (destruct I as [<-|I]; [eexists; reflexivity|]). destruct I.
  - repeat (destruct I as [<-|I]; [eexists; split; [reflexivity|assumption]|]). destruct I.
Qed.

Lemma cell_fits fuel c sw sv d start s outs last : (0 <= c_max_layers c)%Z ->
  cosipy_core fuel c sw sv d start = Ok (s, outs, Some last) ->
  answer_fits (c_max_layers c) (Z.of_nat (nt d)) last outs.
Proof.
  intros Hm H. apply core_outputs in H as (L & W & F). split; [|split].
  - rewrite Nat2Z.id. exact L.
  - revert F. apply Forall_impl. intros o (inp & t1 & s1 & s2 & E). exact (step_output_fits _ _ _ _ _ _ _ _ _ _ _ _ _ Hm E).
  - exact (restart_data_fits _ _ _ W).
Qed.

(** ** Completion *)

Lemma read_numbers (l : list R) :
  map_res (fun v : number => match v with Some r => Ok r | None => Err NotReal end) (map Some l) = Ok l.
Proof. induction l as [|a l IH]; cbn [map map_res bind]; [reflexivity|]. cbn [map_res] in IH. rewrite IH. reflexivity. Qed.

Lemma reads_complete data ny nx y x d :
  on_grid data ny nx -> (0 <= y < ny)%Z -> (0 <= x < nx)%Z -> reads data y x d ->
  exists cell, isel data y x = Ok cell /\ read_cell cell = Ok d.
Proof.
  intros G Hy Hx R.
  destruct (map_res_progress (fun nv => b <- cell_get (snd nv) y x ;; Ok (fst nv, b)) (g_vars data)) as [cell E].
  { intros [n a] I. cbn [fst snd]. rewrite cell_get_at by lia.
    destruct (on_grid_cell _ _ _ _ _ _ _ G I Hy Hx) as [b ->]. cbn. eauto. }
  exists cell. split; [exact E|].
  pose proof (fun name => cells_find (g_vars data) y x cell name ltac:(lia) ltac:(lia) E) as F.
  destruct R as (A1 & A2 & A3 & A4 & A5 & A6 & A7 & A8 & A9 & A10 & A11 & A12).
  rewrite <- F in A1, A2, A3, A4, A5, A6, A7, A8, A9, A10, A11.
  assert (V : forall name l, dict_find cell name = Some (all_numbers l) -> read_values cell name = Ok l).
  { intros name l Ev. unfold read_values, attr_get. rewrite Ev. cbn [bind all_numbers]. apply read_numbers. }
  assert (O : forall name l, dict_find cell name = option_map all_numbers l -> read_optional cell name = Ok l).
  { intros name [l|] Ev; cbn [option_map] in Ev; unfold read_optional, dict_mem.
    - rewrite (V _ _ Ev). rewrite Ev. reflexivity.
    - rewrite Ev. reflexivity. }
  unfold read_cell, read_snowheight, read_scalar. rewrite A11.
  rewrite (V _ _ A1), (V _ _ A2), (V _ _ A3), (V _ _ A4), (V _ _ A5).
  rewrite (O _ _ A6), (O _ _ A7), (O _ _ A8), (O _ _ A9).
  rewrite (O "SLOPE"%string (option_map (fun v => [v]) (d_SLOPE d))).
  2: { rewrite A10. destruct (d_SLOPE d); reflexivity. }
  destruct d as [T RH P Gl U SF RR LW N SL SH cp]. cbn in *. subst cp.
  destruct SH, SL; reflexivity.
Qed.

(*@ C107 A run without restart and stake evaluation, whose dimensions carry the names by which the program selects, whose variables cover the grid without NaN in a glacier cell, and whose listed output variables are known, completes exactly if the column model completes in every glacier cell with the data of the cell; the order in which the workers finish does not matter. *)
Lemma run_completes_iff_lem :
  forall fuel cfg c sw sv sd arrivals data restart stakes measured io,
  schedule arrivals -> rc_restart cfg = false -> rc_stake_evaluation cfg = false ->
  dimensions_named cfg -> sw_full_field sw = rc_full_field cfg ->
  sizes data = Ok (io_ny io, io_nx io) -> on_grid data (io_ny io) (io_nx io) ->
  ~ (exists y x, (0 <= y < io_ny io)%Z /\ (0 <= x < io_nx io)%Z /\ is_glacier data y x /\ has_nan data y x) ->
  names_known (rc_full_field cfg) io -> (0 <= c_max_layers c)%Z ->
  (forall y x d, reads data y x d -> Z.of_nat (nt d) = io_time io) ->
  ((exists col, run_cosipy cfg c (cell_work fuel cfg c sw sv sd data) arrivals data restart stakes measured io = Ok col) <->
   forall y x, (0 <= y < io_ny io)%Z -> (0 <= x < io_nx io)%Z -> is_glacier data y x ->
     exists d s outs last, reads data y x d /\ cosipy_core fuel c sw sv d None = Ok (s, outs, Some last)).
Proof.
  intros fuel cfg c sw sv sd arrivals data restart stakes measured io Sc Rs Se Dn Ff Sz Og Nn Nk Hm Nt. split.
  - intros [col H] y x Hy Hx G.
    destruct (cell_computed_lem _ _ _ _ _ _ _ _ _ _ _ _ _ y x H Sc Ff Sz Hy Hx G) as (d & st & s & outs & last & R1 & R2 & R3 & _).
    unfold starts_from in R2. rewrite Rs in R2. subst st. exists d, s, outs, last. auto.
  - intros H. apply run_succeeds_lem; try assumption.
    intros y x Hy Hx G. destruct (H y x Hy Hx G) as (d & s & outs & last & R & E).
    destruct (reads_complete _ _ _ _ _ _ Og Hy Hx R) as (cell & E1 & E2).
    exists last, outs, PNone, PNone, PNone. split.
    + unfold cell_work. cbn [j_y j_x j_restart j_stakes]. rewrite E1. cbn [bind]. rewrite E2. cbn [bind].
      rewrite E. cbn [bind]. rewrite Ff. reflexivity.
    + rewrite <- (Nt _ _ _ R). exact (cell_fits _ _ _ _ _ _ _ _ _ Hm E).
Qed.

(*@ C107 The same for the whole program, from the input file to the names of the two files it writes: with periods given as text, times left after the selection of the period, and the tile cut if there is one. *)
Lemma main_completes_iff_lem :
  forall parse fuel cfg c sw sv sd arrivals file open_restart stakes measured whole ms first final ny nx,
  schedule arrivals -> rc_restart cfg = false -> rc_stake_evaluation cfg = false ->
  dimensions_named cfg -> sw_full_field sw = rc_full_field cfg ->
  rc_time_start cfg = VStr first -> rc_time_end cfg = VStr final ->
  init_data_dataset parse cfg file None = Ok (whole, ms) -> g_times whole <> [] ->
  let data := if rc_tile cfg then cut_tile cfg whole else whole in
  sizes data = Ok (ny, nx) -> on_grid data ny nx -> dict_find (g_vars data) "T2" <> None ->
  ~ (exists y x, (0 <= y < ny)%Z /\ (0 <= x < nx)%Z /\ is_glacier data y x /\ has_nan data y x) ->
  names_known (rc_full_field cfg) (io_init cfg) -> (0 <= c_max_layers c)%Z ->
  (forall y x d, reads data y x d -> nt d = length (g_times whole)) ->
  ((exists w, cosipy_main parse cfg c (cell_work fuel cfg c sw sv sd) arrivals file open_restart stakes measured = Ok w) <->
   forall y x, (0 <= y < ny)%Z -> (0 <= x < nx)%Z -> is_glacier data y x ->
     exists d s outs last, reads data y x d /\ cosipy_core fuel c sw sv d None = Ok (s, outs, Some last)).
Proof.
  intros parse fuel cfg c sw sv sd arrivals file open_restart stakes measured whole ms first final ny nx
    Sc Rs Se Dn Ff Ts Te Ed Tn data Sz Og T2 Nn Nk Hm Nt.
  assert (Td : g_times data = g_times whole) by (unfold data; destruct (rc_tile cfg); reflexivity).
  assert (C : create_data_file parse cfg c file open_restart (io_init cfg) =
    Ok (mkIO (io_atm (io_init cfg)) (io_internal (io_init cfg)) (io_full (io_init cfg)) ny nx
          (Z.of_nat (length (g_times data))) [] [] [], data, None, ms)).
  { unfold create_data_file. rewrite Rs, Ed. cbn [bind]. unfold tile_dimensions. rewrite (proj2 (check_dimensions_ok cfg) Dn).
    assert (B : (if rc_tile cfg then Ok tt else Ok tt) = Ok tt) by (destruct (rc_tile cfg); reflexivity).
    rewrite B. cbn [bind]. fold data. rewrite Sz. reflexivity. }
  assert (I : forall io, exists io1, init_result_dataset cfg data io = Ok io1).
  { intros io. unfold init_result_dataset, attr_get. destruct (dict_find (g_vars data) "T2") as [t|]; [|contradiction].
    destruct (dict_mem (g_vars data) "RRR"), (dict_mem (g_vars data) "N"); cbn [bind]; eexists; reflexivity. }
  destruct (I (mkIO (io_atm (io_init cfg)) (io_internal (io_init cfg)) (io_full (io_init cfg)) ny nx
          (Z.of_nat (length (g_times data))) [] [] [])) as [io1 E1].
  assert (E1' := E1). apply init_result_nodup in E1' as (_ & _ & N & Y1 & Y2 & Y3 & _). cbn in Y1, Y2, Y3.
  injection N as N1 N2 N3.
  assert (L : exists last, py_get (g_times data) (-1) = Ok last).
  { rewrite Td. destruct (exists_last Tn) as (l & t & ->). exists t. unfold py_get.
    assert (K : py_index (length (l ++ [t])) (-1) = Some (length l)).
    { unfold py_index. rewrite app_length. cbn [length].
      repeat match goal with |- context [(?a <? ?b)%Z] => destruct (Z.ltb_spec a b); try lia end.
      repeat match goal with |- context [(?a <=? ?b)%Z] => destruct (Z.leb_spec a b); try lia end.
      cbn [andb]. f_equal; lia. }
    rewrite K, nth_error_app2, Nat.sub_diag by lia. reflexivity. }
  destruct L as [last L].
  assert (P : exists name, set_output_netcdf_path cfg = Ok name).
  { unfold set_output_netcdf_path. rewrite Ts, Te. cbn. eauto. }
  destruct P as [name P].
  assert (R : (exists w, cosipy_main parse cfg c (cell_work fuel cfg c sw sv sd) arrivals file open_restart stakes measured = Ok w) <->
    exists col, run_cosipy cfg c (cell_work fuel cfg c sw sv sd data) arrivals data None stakes measured io1 = Ok col).
  { unfold cosipy_main. rewrite C. cbn [bind]. rewrite E1. cbn [bind]. rewrite L. cbn [bind]. rewrite P.
    split.
    - intros [w H]. apply bind_ok in H as (col & H & _). eauto.
    - intros [col ->]. cbn [bind]. eauto. }
  rewrite R. rewrite <- Y1, <- Y2 in *. apply run_completes_iff_lem; try assumption.
  - unfold names_known in *. rewrite N1, N2, N3. exact Nk.
  - intros y x d Rd. rewrite (Nt _ _ _ Rd), Y3, Td. reflexivity.
Qed.

(** ** What the files say *)

(*@ C108 The result file of every completed run keeps the books of each glacier cell at each step: the mass balance is surface plus internal balance, the surface balance is snowfall minus melt plus sublimation, deposition and evaporation, the internal balance is refreezing minus subsurface melt, and melt is melt energy times the time step over the latent heat. *)
Lemma file_balance_lem :
  forall fuel cfg c sw sv sd arrivals data restart stakes measured io col y x k,
  run_cosipy cfg c (cell_work fuel cfg c sw sv sd data) arrivals data restart stakes measured io = Ok col ->
  schedule arrivals -> sw_full_field sw = rc_full_field cfg ->
  sizes data = Ok (io_ny io, io_nx io) -> (0 <= y < io_ny io)%Z -> (0 <= x < io_nx io)%Z -> is_glacier data y x ->
  0 < c_lat_heat_melting c -> 0 <= c_dt c ->
  In "SNOWFALL"%string (io_atm io) ->
  (forall name, In name ["MB"; "surfMB"; "intMB"; "surfM"; "SUBLIMATION"; "DEPOSITION"; "EVAPORATION"; "REFREEZE"; "subM"; "ME"]%string ->
     In name (io_internal io)) ->
  (forall d, reads data y x d -> (k < nt d)%nat) ->
  exists v : string -> R,
    (forall name, In name ["SNOWFALL"; "MB"; "surfMB"; "intMB"; "surfM"; "SUBLIMATION"; "DEPOSITION"; "EVAPORATION"; "REFREEZE"; "subM"; "ME"]%string ->
       file_number (io_RESULT (col_io col)) name y x k (v name)) /\
    v "MB"%string = v "surfMB"%string + v "intMB"%string /\
    v "surfMB"%string = v "SNOWFALL"%string - v "surfM"%string + v "SUBLIMATION"%string + v "DEPOSITION"%string + v "EVAPORATION"%string /\
    v "intMB"%string = v "REFREEZE"%string - v "subM"%string /\
    0 <= v "ME"%string /\ v "surfM"%string * (1000 * c_lat_heat_melting c) = v "ME"%string * c_dt c.
Proof.
  intros fuel cfg c sw sv sd arrivals data restart stakes measured io col y x k H Sc Ff Sz Hy Hx G HL Hdt Ia Ii Hk.
  destruct (cell_computed_lem _ _ _ _ _ _ _ _ _ _ _ _ _ y x H Sc Ff Sz Hy Hx G) as (d & st & s & outs & last & R1 & _ & R3 & (F1 & F2 & _)).
  specialize (Hk d R1). apply core_outputs in R3 as (L & _ & Fo).
  destruct (nth_error outs k) as [o|] eqn:Eo; [|apply nth_error_None in Eo; lia].
  rewrite Forall_forall in Fo. destruct (Fo o (nth_error_In _ _ Eo)) as (inp & t1 & s1 & s2 & Es).
  destruct (step_balance_lem _ _ _ _ _ _ _ _ _ _ _ _ _ HL Hdt Es) as (B1 & B2 & B3 & B4 & _ & B5 & _).
  exists (fun name => match dict_find
    [("SNOWFALL", o_SNOWFALL o); ("MB", o_MB o); ("surfMB", o_surfMB o); ("intMB", o_intMB o); ("surfM", o_surfM o);
     ("SUBLIMATION", o_SUBLIMATION o); ("DEPOSITION", o_DEPOSITION o); ("EVAPORATION", o_EVAPORATION o);
     ("REFREEZE", o_REFREEZE o); ("subM", o_subM o); ("ME", o_ME o)]%string name with Some r => r | None => 0 end).
  split; [|cbn; auto 10].
  assert (Fi : forall name f, In name (io_internal io) -> internal_field name = Some (fun o => Some (f o)) ->
    file_number (io_RESULT (col_io col)) name y x k (f o)).
  { intros name f In1 Fn. destruct (F2 name _ In1 Fn) as (v & V1 & V2). exists v. eexists. split; [exact V1|].
    split; [exact V2|]. rewrite nth_error_map, Eo. reflexivity. }
  intros name In1. cbn [In] in In1.
  destruct In1 as [<-|In1].
  { destruct (F1 _ _ Ia eq_refl) as (v & V1 & V2). exists v. eexists. split; [exact V1|].
    split; [exact V2|]. rewrite nth_error_map, Eo. reflexivity. }
  destruct In1 as [<-|In1]; [apply (Fi _ o_MB); [apply Ii; cbn; tauto|reflexivity]|].
  destruct In1 as [<-|In1]; [apply (Fi _ o_surfMB); [apply Ii; cbn; tauto|reflexivity]|].
  destruct In1 as [<-|In1]; [apply (Fi _ o_intMB); [apply Ii; cbn; tauto|reflexivity]|].
  destruct In1 as [<-|In1]; [apply (Fi _ o_surfM); [apply Ii; cbn; tauto|reflexivity]|].
  destruct In1 as [<-|In1]; [apply (Fi _ o_SUBLIMATION); [apply Ii; cbn; tauto|reflexivity]|].
  destruct In1 as [<-|In1]; [apply (Fi _ o_DEPOSITION); [apply Ii; cbn; tauto|reflexivity]|].
  destruct In1 as [<-|In1]; [apply (Fi _ o_EVAPORATION); [apply Ii; cbn; tauto|reflexivity]|].
  destruct In1 as [<-|In1]; [apply (Fi _ o_REFREEZE); [apply Ii; cbn; tauto|reflexivity]|].
  destruct In1 as [<-|In1]; [apply (Fi _ o_subM); [apply Ii; cbn; tauto|reflexivity]|].
  destruct In1 as [<-|In1]; [apply (Fi _ o_ME); [apply Ii; cbn; tauto|reflexivity]|].
  destruct In1.
Qed.

(** ** Names of the dimensions *)

(*@ C109 Without WRF, a configuration whose horizontal dimensions are not called lat and lon fails at the first cell, although it has a setting for the two names: every run over a grid with at least one cell raises ValueError. *)
Lemma other_dimensions_fail_lem :
  forall cfg c work arrivals data restart stakes measured io ny nx,
  rc_WRF cfg = false -> rc_northing cfg <> "lat"%string \/ rc_easting cfg <> "lon"%string ->
  sizes data = Ok (ny, nx) -> (0 < ny)%Z -> (0 < nx)%Z ->
  run_cosipy cfg c work arrivals data restart stakes measured io = Err ValueError.
Proof.
  intros cfg c work arrivals data restart stakes measured io ny nx Wr Ne Sz Hy Hx.
  unfold run_cosipy. rewrite Sz. cbn [bind]. unfold submit.
  destruct (product_range ny nx) as [|[y x] l] eqn:E.
  { exfalso. assert (I : In (0%Z, 0%Z) (product_range ny nx)) by (apply in_product; lia). rewrite E in I. destruct I. }
  cbn [map_res fst snd]. unfold submit_cell, sizes in *.
  apply bind_ok in Sz as (m & -> & _). cbn [bind].
  assert (D : check_dimensions cfg = Err ValueError).
  { unfold check_dimensions. rewrite Wr.
    destruct (String.eqb_spec (rc_northing cfg) "lat"), (String.eqb_spec (rc_easting cfg) "lon"); cbn [andb]; tauto. }
  rewrite D. reflexivity.
Qed.

(*@ C109 With a tile such a run does not even get its data. *)
Lemma other_dimensions_tile_lem :
  forall parse cfg c file open_restart io r,
  rc_tile cfg = true -> create_data_file parse cfg c file open_restart io = Ok r -> dimensions_named cfg.
Proof.
  intros parse cfg c file open_restart io r Rt H. unfold create_data_file in H.
  apply bind_ok in H as ([[d g] m] & _ & H). rewrite Rt in H. apply bind_ok in H as ([] & E & _).
  apply check_dimensions_ok. unfold tile_dimensions in E. destruct (check_dimensions cfg) as [[]|]; [reflexivity|discriminate].
Qed.

(** ** Restart of a tile *)

(*@ C110 The restart file is not cut to the tile: the worker of cell (y, x) of a restarted tile gets the input of the cell (ystart + y, xstart + x) of the area, but the snow column of the cell (y, x) of the restart file. *)
Lemma tile_restart_uncut_lem :
  forall parse cfg c raw open_restart io0 io data gr ms stakes ny nx jobs,
  rc_restart cfg = true -> rc_tile cfg = true ->
  (0 <= rc_ystart cfg)%Z -> (0 <= rc_yend cfg)%Z -> (0 <= rc_xstart cfg)%Z -> (0 <= rc_xend cfg)%Z ->
  create_data_file parse cfg c (Some raw) open_restart io0 = Ok (io, data, gr, ms) ->
  submit cfg data gr stakes ny nx = Ok jobs ->
  exists whole r, data = cut_tile cfg whole /\ gr = Some r /\
  forall j, In j jobs ->
    (forall name, (0 <= j_y j < rc_yend cfg - rc_ystart cfg)%Z -> (0 <= j_x j < rc_xend cfg - rc_xstart cfg)%Z ->
       entry_at (g_vars data) name (j_y j) (j_x j) =
       entry_at (g_vars whole) name (rc_ystart cfg + j_y j) (rc_xstart cfg + j_x j)) /\
    exists d, j_restart j = Some d /\ forall name, dict_find d name = entry_at (snd r) name (j_y j) (j_x j).
Proof.
  intros parse cfg c raw open_restart io0 io data gr ms stakes ny nx jobs Rs Rt Y1 Y2 X1 X2 H Hj.
  destruct (restart_data_lem _ _ _ _ _ _ _ _ _ _ Rs H) as (st & r & fi & la & _ & _ & Er & _).
  unfold create_data_file in H. apply bind_ok in H as ([[d g] m] & _ & H). rewrite Rt in H.
  apply bind_ok in H as (_ & _ & H). apply bind_ok in H as ([ny' nx'] & _ & H). injection H as <- <- _ _.
  exists d, r. split; [reflexivity|]. split; [exact Er|]. intros j Ij.
  pose proof (submit_ok _ _ _ _ _ _ _ Hj) as (_ & I & F). rewrite Forall_forall in F.
  destruct (F j Ij) as (_ & _ & _ & Fr). rewrite Rs in Fr. destruct Fr as (r' & d' & E1 & E2 & E3).
  split.
  - intros name Hy Hx. apply cut_entry; assumption.
  - exists d'. split; [exact E3|]. intros name. rewrite Er in E1. injection E1 as <-.
    apply (in_map job_cell) in Ij. apply I in Ij. apply cells_find; [lia|lia|exact E2].
Qed.

(** ** Examples *)

Lemma calm_column : init_snowpack calm_constants None 220 = Ok (s_grid calm_state).
Proof.
  unfold init_snowpack. cbn [calm_constants c_initial_snowheight_constant c_zero_temperature c_initial_glacier_height
    c_initial_glacier_layer_heights c_temperature_bottom c_ice_density].
  rewrite Rltb_false by lra. rewrite !fdiv_ok by lra. cbn [bind].
  replace (1.5 / 0.5) with (IZR 3) by lra. rewrite LemShad6.py_int_int by lia.
  change (3 =? 0)%Z with false. cbv iota. rewrite LemFinSecant.adiv_ok by lra. cbn [bind].
  rewrite Rmin_left by lra. unfold np_const. change (3 <? 0)%Z with false. cbn [bind].
  change (Z.to_nat 3) with 3%nat. unfold ramp, zrange. change (Z.to_nat (3 + 1 - 1)) with 3%nat.
  cbn [zseq map repeat rows_of]. unfold new_grid, init_grid, calm_state. cbn [s_grid map app length Z.of_nat Pos.of_succ_nat Pos.succ
    g_nodes with_nodes g_number_nodes g_new_snow_height g_new_snow_timestamp g_old_snow_timestamp node_of_layer].
  unfold node_of_layer, new_node. cbn.
  unfold with_nodes. cbn. repeat f_equal; lra.
Qed.

(*@ex C105,C107,C108 The column model completes on a calm polar night. *)
Lemma calm_cell_lem : exists fuel s o last,
  cosipy_core fuel calm_constants calm_switches calm_solvers calm_data None = Ok (s, [o], Some last) /\
  o_SNOWFALL o = 0.02 * (300 / 1000) /\ o_ME o = 0.
Proof.
  destruct calm_step_lem as (fuel & inp & s' & o & Hr & Hb & HT & Hn & Hs & Hi & H & L & E1 & E2 & E3).
  assert (K : core_loop fuel calm_constants calm_switches calm_solvers calm_settings calm_data inp 1 0 calm_state = Ok (s', [o])).
  { cbn [core_loop]. rewrite H. reflexivity. }
  assert (C : counted (s_grid s')).
  { refine (proj1 (run_keeps_layers_sound_lem _ _ _ _ _ _ _ _ _ _ _ _ _ _ _ Hr _ Hb HT Hn Hs (or_introl eq_refl) K)). lra. }
  assert (N : o_NLAYERS o = get_number_layers (s_grid s')).
  { apply core_step_inv in H. destruct H. reflexivity. }
  destruct (restart_round_trip_lem calm_constants (s_grid s') C) as (last & Er & _).
  { unfold get_number_layers in N. rewrite <- N, L. cbn. lia. }
  exists fuel, s', o, last. split; [|auto].
  unfold cosipy_core, run_settings. cbn [sw_WRF_X_CSPY calm_switches bind].
  change (py_get (d_T2 calm_data) 0) with (Ok 220). cbn [bind d_SNOWHEIGHT calm_data].
  rewrite calm_column. cbn [bind]. fold calm_switches calm_data. rewrite Hi. cbn [bind].
  change (start_state calm_constants calm_switches (s_grid calm_state)) with calm_state.
  change (nt calm_data) with 1%nat.
  change (c_dt calm_constants, c_max_layers calm_constants, c_z calm_constants) with calm_settings. rewrite K.
  cbn [bind Nat.eqb]. rewrite Er. reflexivity.
Qed.

Lemma calm_reads : reads calm_file 0 0 calm_data.
Proof. repeat split. Qed.

Lemma calm_opened b : exists ms, init_data_dataset calm_parse (calm_config b) (Some calm_file) None = Ok (calm_file, ms).
Proof.
  destruct (input_check_lem calm_file) as [_ C]. destruct C as (ms & C & _).
  { intros name arr _ F. apply find_in in F. cbn [calm_file g_vars In] in F.
    repeat (destruct F as [F|F]; [injection F as _ <-; do 3 eexists; split; [left; reflexivity|split; [left; reflexivity|left; reflexivity]]|]). destruct F. }
  exists ms. unfold init_data_dataset. cbn -[check_input_data calm_file].
  change (check_input_data _) with (check_input_data calm_file). rewrite C. reflexivity.
Qed.

Lemma calm_grid : on_grid calm_file 1 2.
Proof.
  split.
  - intros name arr F. cbn [calm_file g_vars In] in F.
    repeat (destruct F as [F|F]; [injection F as _ <-; cbn; auto|]). destruct F.
  - eexists; split; [reflexivity|]. intros y x b H. unfold cell_at in H.
    destruct ((0 <=? y)%Z && (0 <=? x)%Z)%bool; [|discriminate].
    destruct (Z.to_nat y) as [|[|]]; cbn in H; try discriminate.
    destruct (Z.to_nat x) as [|[|[|]]]; cbn in H; try discriminate; injection H as <-; eauto.
Qed.

Lemma calm_tile_grid : on_grid (cut_tile (calm_config true) calm_file) 1 1.
Proof.
  split.
  - intros name arr F. cbn in F.
    repeat (destruct F as [F|F]; [injection F as _ <-; cbn; auto|]). destruct F.
  - eexists; split; [reflexivity|]. intros y x b H. unfold cell_at in H.
    destruct ((0 <=? y)%Z && (0 <=? x)%Z)%bool; [|discriminate].
    destruct (Z.to_nat y) as [|[|]]; cbn in H; try discriminate.
    destruct (Z.to_nat x) as [|[|]]; cbn in H; try discriminate; injection H as <-; eauto.
Qed.

Lemma calm_no_nan : ~ has_nan calm_file 0 0.
Proof.
  intros (name & arr & b & F & C & N). cbn [calm_file g_vars In] in F.
  repeat (destruct F as [F|F]; [injection F as _ <-; cbn in C; injection C as <-; destruct N as [N|[]]; discriminate|]). destruct F.
Qed.

Lemma calm_no_nan_tile : ~ has_nan (cut_tile (calm_config true) calm_file) 0 0.
Proof.
  intros (name & arr & b & F & C & N). cbn in F.
  repeat (destruct F as [F|F]; [injection F as _ <-; cbn in C; injection C as <-; destruct N as [N|[]]; discriminate|]). destruct F.
Qed.

Lemma calm_names b : names_known (rc_full_field (calm_config b)) (io_init (calm_config b)).
Proof.
  split.
  - assert (B : forallb (dict_mem result_metadata) (io_atm (io_init (calm_config b)) ++ io_internal (io_init (calm_config b))) = true)
      by (destruct b; reflexivity).
    rewrite forallb_forall in B. intros name I. apply in_or_app, B in I. unfold dict_mem in I.
    destruct (dict_find result_metadata name); discriminate.
  - intros _ name I. destruct b; cbn in I; destruct I as [<-|[]]; discriminate.
Qed.

(** cells with a variable T2 that has a value per time have data of that length *)
Lemma calm_times b y x d : reads (if rc_tile (calm_config b) then cut_tile (calm_config b) calm_file else calm_file) y x d ->
  nt d = length (g_times calm_file).
Proof.
  intros (R & _). unfold entry_at in R.
  destruct b; cbn [rc_tile calm_config] in R; cbn in R; unfold cell_at in R;
    destruct ((0 <=? y)%Z && (0 <=? x)%Z)%bool; try discriminate;
    destruct (Z.to_nat y) as [|[|]]; cbn in R; try discriminate;
    destruct (Z.to_nat x) as [|[|[|]]]; cbn in R; try discriminate; unfold nt;
    destruct (d_T2 d) as [|? [|]]; try discriminate; reflexivity.
Qed.

(*@ex C105,C106,C107,C108 A whole run over two cells, one of them a glacier, and the same run on the tile of the first cell: both complete, and the books of the first step are those of a night with two centimetres of fresh snow. *)
Lemma calm_run_lem : exists fuel,
  forall sd, exists w w',
  cosipy_main calm_parse (calm_config false) calm_constants
    (cell_work fuel (calm_config false) calm_constants calm_switches calm_solvers sd) (@rev Job)
    (Some calm_file) (fun _ => None) [] [] = Ok w /\
  cosipy_main calm_parse (calm_config true) calm_constants
    (cell_work fuel (calm_config true) calm_constants calm_switches calm_solvers sd) (@rev Job)
    (Some calm_file) (fun _ => None) [] [] = Ok w' /\
  w_name w = "out_20090101-20090101.nc"%string /\
  file_number (w_result w) "SNOWFALL" 0 0 0 (0.02 * (300 / 1000)) /\
  file_number (w_result w') "SNOWFALL" 0 0 0 (0.02 * (300 / 1000)) /\
  file_number (w_result w) "surfM" 0 0 0 0.
Proof.
  destruct calm_cell_lem as (fuel & s & o & last & E & E1 & E2). exists fuel. intros sd.
  assert (Sc : schedule (@rev Job)) by (intros l; apply Permutation_rev).
  assert (Co : forall (b : bool) (y x : Z), (0 <= y < 1)%Z -> (0 <= x < (if b then 1 else 2))%Z ->
    is_glacier (if b then cut_tile (calm_config true) calm_file else calm_file) y x ->
    exists d s outs last, reads (if b then cut_tile (calm_config true) calm_file else calm_file) y x d /\
      cosipy_core fuel calm_constants calm_switches calm_solvers d None = Ok (s, outs, Some last)).
  { intros b y x Hy Hx G. assert (y = 0)%Z as -> by lia.
    assert (x = 0)%Z as ->.
    { destruct b; [lia|]. assert (x = 0 \/ x = 1)%Z as [->| ->] by lia; [reflexivity|].
      destruct G as (m & G1 & G2). cbn in G1. injection G1 as <-. cbn in G2. injection G2 as G2. lra. }
    exists calm_data, s, [o], last. split; [|exact E]. destruct b; repeat split. }
  assert (M : forall b, exists w, cosipy_main calm_parse (calm_config b) calm_constants
    (cell_work fuel (calm_config b) calm_constants calm_switches calm_solvers sd) (@rev Job)
    (Some calm_file) (fun _ => None) [] [] = Ok w).
  { intros b. destruct (calm_opened b) as [ms Ed].
    apply (main_completes_iff_lem calm_parse fuel (calm_config b) calm_constants calm_switches calm_solvers sd (@rev Job)
      (Some calm_file) (fun _ => None) [] [] calm_file ms "2009-01-01" "2009-01-01" 1 (if b then 1 else 2)); try reflexivity.
    - exact Sc.
    - split; reflexivity.
    - exact Ed.
    - discriminate.
    - destruct b; reflexivity.
    - destruct b; [exact calm_tile_grid|exact calm_grid].
    - destruct b; discriminate.
    - intros (y & x & Hy & Hx & G & N). assert (y = 0)%Z as -> by lia.
      destruct b; cbn [rc_tile calm_config] in G, N.
      + assert (x = 0)%Z as -> by lia. exact (calm_no_nan_tile N).
      + assert (x = 0 \/ x = 1)%Z as [->| ->] by lia; [exact (calm_no_nan N)|].
        destruct G as (m & G1 & G2). cbn in G1. injection G1 as <-. cbn in G2. injection G2 as G2. lra.
    - apply calm_names.
    - cbn. lia.
    - apply calm_times.
    - intros y x Hy Hx G. pose proof (Co b y x Hy Hx) as K. destruct b; exact (K G). }
  destruct (M false) as [w W], (M true) as [w' W']. exists w, w'. split; [exact W|]. split; [exact W'|].
  assert (P : forall b w, cosipy_main calm_parse (calm_config b) calm_constants
    (cell_work fuel (calm_config b) calm_constants calm_switches calm_solvers sd) (@rev Job)
    (Some calm_file) (fun _ => None) [] [] = Ok w ->
    w_name w = "out_20090101-20090101.nc"%string /\
    file_number (w_result w) "SNOWFALL" 0 0 0 (o_SNOWFALL o) /\ file_number (w_result w) "surfM" 0 0 0 (o_surfM o)).
  { clear - E Sc. intros b w W. destruct (main_parts _ (calm_config b) _ _ _ _ _ _ _ _ eq_refl W)
      as (d0 & ms & io & col & Ed & R & A1 & A2 & A3 & Sz & W1 & W2 & W3 & _).
    destruct (calm_opened b) as [ms' Ed']. rewrite Ed' in Ed. injection Ed as <- _.
    split. { cbn in W3. injection W3 as W3. symmetry. exact W3. }
    assert (Sy : (0 < io_ny io)%Z /\ (0 < io_nx io)%Z).
    { destruct b; cbn in Sz; injection Sz as <- <-; lia. }
    destruct (cell_computed_lem _ _ _ _ _ _ _ _ _ _ _ _ _ 0%Z 0%Z R Sc eq_refl Sz ltac:(lia) ltac:(lia))
      as (d & st & s' & outs & last' & Rd & St & E' & (F1 & F2 & _)).
    { destruct b; eexists; split; reflexivity. }
    assert (d = calm_data) as ->.
    { refine (reads_unique _ _ _ _ _ _ _ _ _ Rd (_ : reads _ 0 0 calm_data)); [split; reflexivity|].
      destruct b; repeat split. }
    cbn in St. subst st. rewrite E in E'. injection E' as _ <- _. rewrite W1. split.
    - destruct (F1 "SNOWFALL"%string (fun o => Some (o_SNOWFALL o))) as (v & V1 & V2).
      { rewrite A1. destruct b; cbn; tauto. } { reflexivity. }
      exists v. eexists. split; [exact V1|]. split; [exact V2|]. reflexivity.
    - destruct (F2 "surfM"%string (fun o => Some (o_surfM o))) as (v & V1 & V2).
      { rewrite A2. destruct b; cbn; tauto. } { reflexivity. }
      exists v. eexists. split; [exact V1|]. split; [exact V2|]. reflexivity. }
  assert (Z0 : o_surfM o = 0).
  { apply core_outputs in E as (_ & _ & F). apply Forall_inv in F. destruct F as (inp & t1 & s1 & s2 & K).
    destruct (step_balance_lem fuel calm_constants _ _ (c_dt calm_constants) _ _ _ _ _ _ _ _ ltac:(cbn; lra) ltac:(cbn; lra) K) as (_ & _ & _ & _ & _ & B & _).
    rewrite E2 in B. cbn in B. lra. }
  destruct (P _ _ W) as (P1 & P2 & P3), (P _ _ W') as (_ & Q2 & _). rewrite E1 in P2, Q2. rewrite Z0 in P3. auto.
Qed.

(*@ex C109 A configuration for projected data, with the names of the example: lat and lon are not its dimensions. *)
Lemma projected_case_lem :
  let cfg := mkRunConfig "" "" "" false false false "y" "x" false 0 0 0 0 false "rmse" "mb" (VStr "") (VStr "") "out" in
  rc_WRF cfg = false /\ (rc_northing cfg <> "lat"%string \/ rc_easting cfg <> "lon"%string) /\
  sizes calm_file = Ok (1, 2)%Z /\ ~ dimensions_named cfg.
Proof.
  intros cfg. split; [reflexivity|]. split; [left; discriminate|]. split; [reflexivity|].
  intros [N _]. discriminate.
Qed.

(*@ex C110 Two glacier cells in a row, with different snow in the restart file; the tile is the second cell, but its worker starts from the snow of the first. *)
Lemma tile_restart_case_lem :
  let cfg := mkRunConfig "" "" "" false true false "lat" "lon" true 1 2 0 1 false "rmse" "mb" (VDate 0) (VDate 7200) "out" in
  let raw := mkGridded [0; 3600; 7200]%Z
    [("MASK", [[Series [Some 1]; Series [Some 1]]]);
     ("T2", [[Series [Some 250; Some 250; Some 250]; Series [Some 260; Some 260; Some 260]]])]%string in
  let r := (0%Z, [("NLAYERS"%string, [[[Some 5]; [Some 9]]])]) in
  exists io data ms j,
    create_data_file (fun _ => None) cfg default_constants (Some raw) (fun _ => Some r) (io_init cfg) = Ok (io, data, Some r, ms) /\
    submit cfg data (Some r) [] 1 1 = Ok [j] /\ j_y j = 0%Z /\ j_x j = 0%Z /\
    entry_at (g_vars data) "T2" 0 0 = Some (Series [Some 260; Some 260]) /\
    j_restart j = Some [("NLAYERS"%string, [Some 5])].
Proof.
  intros cfg raw r.
  pose (sel := mkGridded [3600; 7200]%Z
    [("MASK", [[Series [Some 1]; Series [Some 1]]]);
     ("T2", [[Series [Some 250; Some 250]; Series [Some 260; Some 260]]])]%string).
  destruct (input_check_lem sel) as [_ C]. destruct C as (ms & C & _).
  { intros name arr _ F. apply find_in in F. cbn [sel g_vars In] in F.
    repeat (destruct F as [F|F]; [injection F as _ <-; do 3 eexists; split; [left; reflexivity|split; [left; reflexivity|left; reflexivity]]|]). destruct F. }
  assert (K : exists io, create_data_file (fun _ => None) cfg default_constants (Some raw) (fun _ => Some r) (io_init cfg) =
    Ok (io, cut_tile cfg sel, Some r, ms)).
  { unfold create_data_file. change (c_dt default_constants) with (IZR 3600). rewrite (LemShad6.py_int_int 3600) by lia.
    eexists. cbn -[check_input_data]. change (check_input_data _) with (check_input_data sel). rewrite C. reflexivity. }
  destruct K as [io K]. exists io, (cut_tile cfg sel), ms, (mkJob 0 0 (Some [("NLAYERS"%string, [Some 5])]) None).
  split; [exact K|]. split; [|repeat split].
  unfold submit. change (product_range 1 1) with [(0, 0)%Z].
  change (cut_tile cfg sel) with (mkGridded [3600; 7200]%Z
    [("MASK", [[Series [Some 1]]]); ("T2", [[Series [Some 260; Some 260]]])]%string).
  unfold submit_cell, Reqb. cbn. destruct (Req_EM_T 1 1) as [_|Ne]; [|contradiction]. reflexivity.
Qed.
