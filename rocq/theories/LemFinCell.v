(** * From the data of a cell to the files *)
From Verif Require Import ModelPy ModelConstants ModelNode ModelGrid ModelSurface ModelInit
  ModelCore ModelConfig ModelIO ModelMain SpecIO SpecCell LemPy LemDict LemIO LemIO2 LemIO3 LemIO4
  LemIO5 LemIO6 LemIO7 LemFinIO LemFinIO2.
From Coq Require Import Permutation.

(** ** Reading a cell *)

Lemma map_res_find {A B} (f : A -> res B) (l : dict A) rs name :
  map_res (fun nv => v <- f (snd nv) ;; Ok (fst nv, v)) l = Ok rs ->
  match dict_find l name with
  | Some a => exists b, f a = Ok b /\ dict_find rs name = Some b
  | None => dict_find rs name = None
  end.
Proof.
  revert rs; induction l as [|[n a] l IH]; intros rs; cbn [map_res fst snd dict_find].
  - intros H; injection H as <-. reflexivity.
  - intros H. apply bind_ok in H as (nb & E & H). apply bind_ok in H as (rs' & Ers & H).
    injection H as <-. apply bind_ok in E as (b & Eb & E). injection E as <-.
    cbn [dict_find]. destruct (String.eqb n name); [eauto|]. exact (IH _ Ers).
Qed.

Lemma cells_find {A} (vars : dict (cells A)) y x rs name : (0 <= y)%Z -> (0 <= x)%Z ->
  map_res (fun nv => v <- cell_get (snd nv) y x ;; Ok (fst nv, v)) vars = Ok rs ->
  dict_find rs name = entry_at vars name y x.
Proof.
  intros Hy Hx H. apply (map_res_find (fun a => cell_get a y x) _ _ name) in H.
  unfold entry_at. destruct (dict_find vars name) as [a|]; [|exact H].
  destruct H as (b & E & ->). rewrite cell_get_at in E by assumption.
  destruct (cell_at a y x); [congruence|discriminate].
Qed.

Lemma numbers_of (l : list number) rs :
  map_res (fun v => match v with Some r => Ok r | None => Err NotReal end) l = Ok rs -> l = map Some rs.
Proof.
  intros H. apply map_res_forall2 in H. induction H as [|v r l rs E F IH]; [reflexivity|].
  destruct v; [|discriminate]. injection E as ->. cbn. congruence.
Qed.

Lemma read_values_ok d name l : read_values d name = Ok l -> dict_find d name = Some (all_numbers l).
Proof.
  intros H. apply bind_ok in H as (b & E & H). unfold attr_get in E.
  destruct (dict_find d name) as [b'|]; [|discriminate]. injection E as ->.
  destruct b; [|discriminate]. apply numbers_of in H. subst. reflexivity.
Qed.

Lemma read_optional_ok d name l :
  read_optional d name = Ok l -> dict_find d name = option_map all_numbers l.
Proof.
  unfold read_optional, dict_mem. intros H. destruct (dict_find d name) as [b|] eqn:E.
  - apply bind_ok in H as (l' & E' & H). injection H as <-. apply read_values_ok in E'. cbn. congruence.
  - injection H as <-. reflexivity.
Qed.

Lemma read_scalar_ok d name v :
  read_scalar d name = Ok v -> dict_find d name = option_map (fun v => all_numbers [v]) v.
Proof.
  intros H. apply bind_ok in H as (l & E & H). apply read_optional_ok in E. rewrite E.
  destruct l as [[|a [|]]|]; try discriminate; injection H as <-; reflexivity.
Qed.

Lemma read_snowheight_ok d v :
  read_snowheight d = Ok v -> dict_find d "SNOWHEIGHT" = option_map (fun v => Series [v]) v.
Proof.
  unfold read_snowheight. destruct (dict_find d "SNOWHEIGHT") as [[[|a [|]]|]|]; try discriminate;
    intros H; injection H as <-; reflexivity.
Qed.

Lemma read_cell_ok data y x cell d : (0 <= y)%Z -> (0 <= x)%Z ->
  isel data y x = Ok cell -> read_cell cell = Ok d -> reads data y x d.
Proof.
  intros Hy Hx Ei H. pose proof (fun name => cells_find (g_vars data) y x cell name Hy Hx Ei) as F.
  unfold read_cell in H.
  apply bind_ok in H as (h & E0 & H). apply bind_ok in H as (T2 & E1 & H).
  apply bind_ok in H as (RH2 & E2 & H). apply bind_ok in H as (PRES & E3 & H).
  apply bind_ok in H as (G & E4 & H). apply bind_ok in H as (U2 & E5 & H).
  apply bind_ok in H as (SF & E6 & H). apply bind_ok in H as (RRR & E7 & H).
  apply bind_ok in H as (LW & E8 & H). apply bind_ok in H as (N & E9 & H).
  apply bind_ok in H as (SL & E10 & H). injection H as <-.
  apply read_snowheight_ok in E0. apply read_values_ok in E1, E2, E3, E4, E5.
  apply read_optional_ok in E6, E7, E8, E9. apply read_scalar_ok in E10.
  unfold reads. rewrite <- !F. cbn. auto 20.
Qed.

Lemma read_cell_ext d d' :
  (forall name, dict_find d name = dict_find d' name) -> read_cell d = read_cell d'.
Proof.
  intros H.
  assert (V : forall name, read_values d name = read_values d' name).
  { intros. unfold read_values, attr_get. rewrite H. reflexivity. }
  assert (O : forall name, read_optional d name = read_optional d' name).
  { intros. unfold read_optional, dict_mem. rewrite H, V. reflexivity. }
  assert (Sc : forall name, read_scalar d name = read_scalar d' name).
  { intros. unfold read_scalar. rewrite O. reflexivity. }
  unfold read_cell, read_snowheight. rewrite H, !V, !O, Sc. reflexivity.
Qed.

Lemma ds_get_find' (d : dataset) name :
  ds_get d name = match dict_find d name with Some v => Ok v | None => Err AttributeError end.
Proof.
  induction d as [|[n v] d IH]; [reflexivity|]. cbn. destruct (String.eqb n name); [reflexivity|exact IH].
Qed.

Lemma load_snowpack_ext c (d d' : dataset) :
  (forall name, dict_find d name = dict_find d' name) -> load_snowpack c d = load_snowpack c d'.
Proof.
  intros H. assert (G : forall name, ds_get d name = ds_get d' name).
  { intros. rewrite !ds_get_find', H. reflexivity. }
  unfold load_snowpack, load_snowpack_with, ds_scalar, ds_slice. rewrite !G. reflexivity.
Qed.

(** ** What the files hold *)

Lemma Ok_inj {A} (a b : A) : Ok a = Ok b -> a = b.
Proof. congruence. Qed.

Lemma one_job cfg data restart stakes j j' :
  proper_job cfg data restart stakes j -> proper_job cfg data restart stakes j' ->
  job_cell j = job_cell j' -> j = j'.
Proof.
  intros (_ & _ & S1 & R1) (_ & _ & S2 & R2) E. destruct j as [y x r s], j' as [y' x' r' s'].
  unfold job_cell in E. cbn in *. injection E as <- <-. rewrite S1, S2. f_equal.
  destruct (rc_restart cfg); [|congruence].
  destruct R1 as (f & d & F1 & F2 & F3), R2 as (f' & d' & G1 & G2 & G3). congruence.
Qed.

Ltac same_series H :=
  unfold core_return in H; injection H; clear H; intros; assumption.

Lemma core_return_atm ff m y x d outs n s df d' outs' n' s' df' name f :
  core_return ff m y x d outs n s df = core_return ff m y x d' outs' n' s' df' ->
  atm_field name = Some f -> map f outs = map f outs'.
Proof.
  intros H F. apply find_in in F. cbn [In] in F.
  repeat (destruct F as [F|F]; [injection F as _ <-; same_series H|]). destruct F.
Qed.

Lemma core_return_internal ff m y x d outs n s df d' outs' n' s' df' name f :
  core_return ff m y x d outs n s df = core_return ff m y x d' outs' n' s' df' ->
  internal_field name = Some f -> map f outs = map f outs'.
Proof.
  intros H F. apply find_in in F. cbn [In] in F.
  repeat (destruct F as [F|F]; [injection F as _ <-; same_series H|]). destruct F.
Qed.

Lemma core_return_layer m y x d outs n s df d' outs' n' s' df' name f :
  core_return true m y x d outs n s df = core_return true m y x d' outs' n' s' df' ->
  layer_field name = Some f -> map (profile_row m f) outs = map (profile_row m f) outs'.
Proof.
  intros H F. apply find_in in F. cbn [In] in F.
  repeat (destruct F as [F|F]; [injection F as _ <-; same_series H|]). destruct F.
Qed.

Lemma core_return_restart ff m y x d outs n s df d' outs' n' s' df' :
  core_return ff m y x d outs n s df = core_return ff m y x d' outs' n' s' df' -> d = d'.
Proof. intros H. unfold core_return in H. injection H. auto. Qed.

(*@ C105 In a run that completes, each glacier cell is computed by the column model from the entries of the input variables in this very cell (and of the restart file in this cell, after a restart), and the files hold in this cell the series, profiles and restart data that this computation has returned. *)
Lemma cell_computed_lem :
  forall fuel cfg c sw sv sd arrivals data restart stakes measured io col y x,
  run_cosipy cfg c (cell_work fuel cfg c sw sv sd data) arrivals data restart stakes measured io = Ok col ->
  schedule arrivals -> sw_full_field sw = rc_full_field cfg ->
  sizes data = Ok (io_ny io, io_nx io) ->
  (0 <= y < io_ny io)%Z -> (0 <= x < io_nx io)%Z -> is_glacier data y x ->
  exists d start s outs last,
    reads data y x d /\ starts_from cfg restart y x start /\
    cosipy_core fuel c sw sv d start = Ok (s, outs, Some last) /\
    files_hold cfg c io (col_io col) y x outs last.
Proof.
  intros fuel cfg c sw sv sd arrivals data restart stakes measured io col y x H Sc Ff Sz Hy Hx G.
  assert (Sg : some_glacier data (io_ny io) (io_nx io)) by (exists y, x; auto).
  pose proof (cell_work_answers fuel cfg c sw sv sd data) as A. rewrite Ff in A.
  destruct (restart_written_lem _ _ _ _ _ _ _ _ _ _ H Sc A Sz Sg) as [R1 R2].
  destruct (R1 "NLAYERS"%string (or_introl eq_refl)) as (v & _ & _ & V).
  destruct (V y x Hy Hx) as [V1 _]. destruct (V1 G) as (d0 & outs0 & b & Fd & _ & _). clear v V V1 b.
  destruct Fd as (j & names0 & stat0 & df0 & Pj & Cj & Wj).
  pose proof Wj as Wj'. unfold cell_work in Wj'.
  apply bind_ok in Wj' as (cell & Ec & W). apply bind_ok in W as (d & Ed & W).
  apply bind_ok in W as ([[s outs] r] & Ew & W). destruct r as [last|]; [|discriminate].
  apply bind_ok in W as ([[names stat] df] & _ & W). apply Ok_inj in W.
  assert (Jy : j_y j = y) by exact (f_equal fst Cj). assert (Jx : j_x j = x) by exact (f_equal snd Cj).
  rewrite Jy, Jx in Ec. rewrite Jy, Jx, Ff in W.
  assert (U : forall d1 outs1, found cfg (c_max_layers c) (cell_work fuel cfg c sw sv sd data) data restart stakes y x d1 outs1 ->
    exists n1 s1 f1 n2 s2 f2, core_return (rc_full_field cfg) (c_max_layers c) y x last outs n1 s1 f1 =
      core_return (rc_full_field cfg) (c_max_layers c) y x d1 outs1 n2 s2 f2).
  { intros d1 outs1 (j1 & n1 & s1 & f1 & P1 & C1 & W1).
    assert (j1 = j) as -> by (apply (one_job cfg data restart stakes); congruence).
    rewrite Wj in W1. apply Ok_inj in W1. exists names, stat, df, n1, s1, f1. congruence. }
  exists d, (j_restart j), s, outs, last.
  split; [apply (read_cell_ok data y x cell d); [lia|lia|exact Ec|exact Ed]|].
  split.
  { destruct Pj as (_ & _ & _ & Pr). unfold starts_from. destruct (rc_restart cfg); [|exact Pr].
    destruct Pr as (rf & ds & P1 & P2 & P3). exists rf, ds. split; [exact P1|]. split; [exact P3|].
    intros name. rewrite Jy, Jx in P2. apply cells_find with (y := y) (x := x); [lia|lia|exact P2]. }
  split; [exact Ew|].
  split; [|split; [|split]].
  - intros name f In1 Fn.
    destruct (result_atm_lem _ _ _ _ _ _ _ _ _ _ _ _ H Sc A Sz Sg In1 Fn) as (v & m & V1 & _ & _ & _ & _ & V).
    exists v. split; [exact V1|]. destruct (V y x Hy Hx) as [V2 _].
    destruct (V2 G) as (d1 & outs1 & b & F1 & F2 & F3). rewrite F3, <- F2.
    destruct (U _ _ F1) as (n1 & s1 & f1 & n2 & s2 & f2 & E).
    rewrite (core_return_atm _ _ _ _ _ _ _ _ _ _ _ _ _ _ _ _ E Fn). reflexivity.
  - intros name f In1 Fn.
    destruct (result_internal_lem _ _ _ _ _ _ _ _ _ _ _ _ H Sc A Sz Sg In1 Fn) as (v & m & V1 & _ & _ & _ & _ & V).
    exists v. split; [exact V1|]. destruct (V y x Hy Hx) as [V2 _].
    destruct (V2 G) as (d1 & outs1 & b & F1 & F2 & F3). rewrite F3, <- F2.
    destruct (U _ _ F1) as (n1 & s1 & f1 & n2 & s2 & f2 & E).
    rewrite (core_return_internal _ _ _ _ _ _ _ _ _ _ _ _ _ _ _ _ E Fn). reflexivity.
  - intros name f Ft In1 Fn.
    destruct (result_layers_lem _ _ _ _ _ _ _ _ _ _ _ _ H Sc A Sz Sg Ft In1 Fn) as (v & m & V1 & _ & _ & _ & _ & V).
    exists v. split; [exact V1|]. destruct (V y x Hy Hx) as [V2 _].
    destruct (V2 G) as (d1 & outs1 & b & F1 & F2 & F3). rewrite F3, <- F2.
    destruct (U _ _ F1) as (n1 & s1 & f1 & n2 & s2 & f2 & E). rewrite Ft in E.
    rewrite (core_return_layer _ _ _ _ _ _ _ _ _ _ _ _ _ _ _ E Fn). reflexivity.
  - intros name In1.
    assert (V : exists v nan, dict_find (io_RESTART (col_io col)) name = Some v /\
      filled data (io_ny io) (io_nx io) (found cfg (c_max_layers c) (cell_work fuel cfg c sw sv sd data) data restart stakes)
        (fun d _ => restart_variable d name) nan (v_data v)).
    { cbn [In] in In1.
      assert (I : In name ["NLAYERS"; "NEWSNOWHEIGHT"; "NEWSNOWTIMESTAMP"; "OLDSNOWTIMESTAMP"]%string \/
        In name ["LAYER_HEIGHT"; "LAYER_RHO"; "LAYER_T"; "LAYER_LWC"; "LAYER_IF"]%string) by (cbn; tauto).
      destruct I as [I|I]; [destruct (R1 _ I) as (v & V1 & _ & V2)|destruct (R2 _ I) as (v & V1 & _ & V2)]; eauto. }
    destruct V as (v & nan & V1 & V). exists v.
    destruct (V y x Hy Hx) as [V2 _]. destruct (V2 G) as (d1 & outs1 & b & F1 & F2 & F3). exists b.
    destruct (U _ _ F1) as (n1 & s1 & f1 & n2 & s2 & f2 & E).
    rewrite (core_return_restart _ _ _ _ _ _ _ _ _ _ _ _ _ _ E). auto.
Qed.

(** ** Locality *)

Lemma map_some_inj {A} (l l' : list A) : map Some l = map Some l' -> l = l'.
Proof.
  revert l'; induction l as [|a l IH]; intros [|b l']; cbn; intros H; try discriminate; [reflexivity|].
  injection H as -> H. f_equal. exact (IH _ H).
Qed.

Lemma all_numbers_inj l l' : all_numbers l = all_numbers l' -> l = l'.
Proof. unfold all_numbers. intros H. injection H as H. exact (map_some_inj _ _ H). Qed.

Lemma option_map_inj {A B} (f : A -> B) o o' :
  (forall a b, f a = f b -> a = b) -> option_map f o = option_map f o' -> o = o'.
Proof. intros F. destruct o, o'; cbn; intros H; try discriminate; [|reflexivity]. f_equal. apply F. congruence. Qed.

Lemma reads_unique data y x d data' y' x' d' :
  same_cell data y x data' y' x' -> reads data y x d -> reads data' y' x' d' -> d = d'.
Proof.
  intros [_ S0] (A1 & A2 & A3 & A4 & A5 & A6 & A7 & A8 & A9 & A10 & A11 & A12)
    (B1 & B2 & B3 & B4 & B5 & B6 & B7 & B8 & B9 & B10 & B11 & B12).
  rewrite S0 in A1, A2, A3, A4, A5, A6, A7, A8, A9, A10, A11.
  rewrite A1 in B1. rewrite A2 in B2. rewrite A3 in B3. rewrite A4 in B4. rewrite A5 in B5.
  rewrite A6 in B6. rewrite A7 in B7. rewrite A8 in B8. rewrite A9 in B9. rewrite A10 in B10. rewrite A11 in B11.
  assert (E1 : forall l l', Some (all_numbers l) = Some (all_numbers l') -> l = l').
  { intros l l' H. apply all_numbers_inj. congruence. }
  apply E1 in B1, B2, B3, B4, B5.
  apply option_map_inj in B6, B7, B8, B9; try exact all_numbers_inj.
  apply option_map_inj in B10. 2: { intros a b H. apply all_numbers_inj in H. congruence. }
  apply option_map_inj in B11. 2: { intros a b H. congruence. }
  destruct d, d'. cbn in *. congruence.
Qed.

Lemma core_start_ext fuel c sw sv d (s s' : option dataset) :
  match s, s' with
  | Some a, Some b => forall name, dict_find a name = dict_find b name
  | None, None => True
  | _, _ => False
  end -> cosipy_core fuel c sw sv d s = cosipy_core fuel c sw sv d s'.
Proof.
  intros H. destruct s as [a|], s' as [b|]; try contradiction; [|reflexivity].
  unfold cosipy_core. rewrite (load_snowpack_ext c a b H). reflexivity.
Qed.

Lemma files_agree cfg cfg' c io io' aft aft' y x y' x' outs last :
  rc_full_field cfg' = rc_full_field cfg ->
  io_atm io' = io_atm io -> io_internal io' = io_internal io -> io_full io' = io_full io ->
  files_hold cfg c io aft y x outs last -> files_hold cfg' c io' aft' y' x' outs last ->
  (forall name, computed (rc_full_field cfg) io name ->
     same_result (io_RESULT aft) y x (io_RESULT aft') y' x' name) /\
  (forall name, In name restart_names -> same_result (io_RESTART aft) y x (io_RESTART aft') y' x' name).
Proof.
  intros Ff L1 L2 L3 (A1 & A2 & A3 & A4) (B1 & B2 & B3 & B4).
  rewrite L1 in B1. rewrite L2 in B2. rewrite L3, Ff in B3. split.
  - intros name [[I F]|[[I F]|(Ft & n & -> & I & F)]].
    + destruct (atm_field name) as [f|] eqn:E; [|contradiction].
      destruct (A1 name f I E) as (v & V1 & V2), (B1 name f I E) as (w & W1 & W2).
      exists v, w. eauto 10.
    + destruct (internal_field name) as [f|] eqn:E; [|contradiction].
      destruct (A2 name f I E) as (v & V1 & V2), (B2 name f I E) as (w & W1 & W2).
      exists v, w. eauto 10.
    + destruct (layer_field n) as [f|] eqn:E; [|contradiction].
      destruct (A3 n f Ft I E) as (v & V1 & V2), (B3 n f Ft I E) as (w & W1 & W2).
      exists v, w. eauto 10.
  - intros name I. destruct (A4 name I) as (v & b & V1 & V2 & V3), (B4 name I) as (w & b' & W1 & W2 & W3).
    exists v, w, b. replace b with b' in * by congruence. auto.
Qed.

(*@ C106 What the files hold in a glacier cell depends on the data of this cell alone: if two runs of the same settings (whatever their grids, their other cells, their stakes and the order of their workers) have the same times and the same input in a cell of each, and the same restart data there if they restart, then every computed result variable and every restart variable has the same entry in the two cells. *)
Lemma cell_local_lem :
  forall fuel cfg cfg' c sw sv sd sd' arrivals arrivals' data data' restart restart' stakes stakes'
    measured measured' io io' col col' y x y' x',
  run_cosipy cfg c (cell_work fuel cfg c sw sv sd data) arrivals data restart stakes measured io = Ok col ->
  run_cosipy cfg' c (cell_work fuel cfg' c sw sv sd' data') arrivals' data' restart' stakes' measured' io' = Ok col' ->
  schedule arrivals -> schedule arrivals' ->
  sw_full_field sw = rc_full_field cfg -> rc_full_field cfg' = rc_full_field cfg -> rc_restart cfg' = rc_restart cfg ->
  io_atm io' = io_atm io -> io_internal io' = io_internal io -> io_full io' = io_full io ->
  sizes data = Ok (io_ny io, io_nx io) -> sizes data' = Ok (io_ny io', io_nx io') ->
  (0 <= y < io_ny io)%Z -> (0 <= x < io_nx io)%Z -> (0 <= y' < io_ny io')%Z -> (0 <= x' < io_nx io')%Z ->
  is_glacier data y x -> same_cell data y x data' y' x' ->
  (rc_restart cfg = true -> same_start restart y x restart' y' x') ->
  (forall name, computed (rc_full_field cfg) io name ->
     same_result (io_RESULT (col_io col)) y x (io_RESULT (col_io col')) y' x' name) /\
  (forall name, In name restart_names ->
     same_result (io_RESTART (col_io col)) y x (io_RESTART (col_io col')) y' x' name).
Proof.
  intros fuel cfg cfg' c sw sv sd sd' arrivals arrivals' data data' restart restart' stakes stakes'
    measured measured' io io' col col' y x y' x' H H' Sc Sc' Fs Ff Rs L1 L2 L3 Sz Sz' Hy Hx Hy' Hx' G Sm St.
  assert (G' : is_glacier data' y' x').
  { destruct G as (ms & G1 & G2). destruct Sm as [_ Sm]. specialize (Sm "MASK"%string).
    unfold entry_at in Sm. rewrite G1, G2 in Sm.
    destruct (dict_find (g_vars data') "MASK") as [ms'|] eqn:E; [|discriminate]. exists ms'. auto. }
  destruct (cell_computed_lem _ _ _ _ _ _ _ _ _ _ _ _ _ y x H Sc Fs Sz Hy Hx G) as (d & st & s & outs & last & R1 & R2 & R3 & R4).
  assert (Fs' : sw_full_field sw = rc_full_field cfg') by congruence.
  destruct (cell_computed_lem _ _ _ _ _ _ _ _ _ _ _ _ _ y' x' H' Sc' Fs' Sz' Hy' Hx' G') as (d' & st' & s' & outs' & last' & S1 & S2 & S3 & S4).
  rewrite <- (reads_unique _ _ _ _ _ _ _ _ Sm R1 S1) in S3.
  rewrite (core_start_ext fuel c sw sv d st st') in R3.
  - rewrite R3 in S3. injection S3 as _ <- <-.
    exact (files_agree cfg cfg' c io io' _ _ y x y' x' outs last Ff L1 L2 L3 R4 S4).
  - unfold starts_from in R2, S2. rewrite Rs in S2. destruct (rc_restart cfg).
    + specialize (St eq_refl). destruct R2 as (r & a & -> & -> & Ra), S2 as (r' & a' & -> & -> & Ra').
      cbn in St. intros name. rewrite Ra, Ra'. apply St.
    + subst. exact I.
Qed.

(** ** Tiles *)

Lemma cut_entry cfg d name y x :
  (0 <= rc_ystart cfg)%Z -> (0 <= rc_yend cfg)%Z -> (0 <= rc_xstart cfg)%Z -> (0 <= rc_xend cfg)%Z ->
  (0 <= y < rc_yend cfg - rc_ystart cfg)%Z -> (0 <= x < rc_xend cfg - rc_xstart cfg)%Z ->
  entry_at (g_vars (cut_tile cfg d)) name y x =
  entry_at (g_vars d) name (rc_ystart cfg + y) (rc_xstart cfg + x).
Proof.
  intros Y1 Y2 X1 X2 Hy Hx.
  destruct (tile_cells_lem cfg d Y1 Y2 X1 X2) as (_ & N & T). unfold entry_at.
  destruct (dict_find (g_vars d) name) as [whole|] eqn:E.
  - destruct (T name whole E) as (part & -> & P). rewrite P by lia.
    destruct (Z.ltb_spec y (rc_yend cfg - rc_ystart cfg)); [|lia].
    destruct (Z.ltb_spec x (rc_xend cfg - rc_xstart cfg)); [|lia]. reflexivity.
  - destruct (dict_find (g_vars (cut_tile cfg d)) name) eqn:E'; [|reflexivity].
    exfalso. apply find_key in E'. rewrite N in E'. apply in_map_iff in E' as ([n v] & <- & I).
    cbn [fst] in E. clear -E I. induction (g_vars d) as [|[m w] t IH]; [destruct I|].
    cbn [dict_find] in E. destruct (eqb_spec_s m n) as [->|Ne]; [discriminate|].
    destruct I as [I|I]; [congruence|]. exact (IH E I).
Qed.

Lemma main_parts parse cfg c work arrivals file open_restart stakes measured w :
  rc_restart cfg = false ->
  cosipy_main parse cfg c work arrivals file open_restart stakes measured = Ok w ->
  exists d ms io col,
    init_data_dataset parse cfg file None = Ok (d, ms) /\
    let data := if rc_tile cfg then cut_tile cfg d else d in
    run_cosipy cfg c (work data) arrivals data None stakes measured io = Ok col /\
    io_atm io = io_atm (io_init cfg) /\ io_internal io = io_internal (io_init cfg) /\
    io_full io = io_full (io_init cfg) /\ sizes data = Ok (io_ny io, io_nx io) /\
    w_result w = io_RESULT (col_io col) /\ w_restart w = io_RESTART (col_io col) /\
    set_output_netcdf_path cfg = Ok (w_name w) /\ py_get (g_times data) (-1) = Ok (w_restart_time w).
Proof.
  intros Rs H. unfold cosipy_main in H.
  apply bind_ok in H as ([[[io data] gr] ms] & E1 & H). apply bind_ok in H as (io1 & E2 & H).
  apply bind_ok in H as (last & E3 & H). apply bind_ok in H as (col & E4 & H).
  apply bind_ok in H as (name & E5 & H). injection H as <-.
  unfold create_data_file in E1. rewrite Rs in E1. apply bind_ok in E1 as ([[d g] m] & E1 & E6).
  apply bind_ok in E1 as ([d' m'] & E1 & E7). injection E7 as <- <- <-.
  apply bind_ok in E6 as ([] & _ & E6). apply bind_ok in E6 as ([ny nx] & Z1 & E6).
  injection E6 as <- <- <- <-.
  apply init_result_nodup in E2 as (_ & _ & N & Y1 & Y2 & _).
  exists d', m', io1, col. split; [exact E1|]. cbv zeta. split; [exact E4|].
  injection N as N1 N2 N3. cbn in Y1, Y2. rewrite N1, N2, N3, Y1, Y2. cbn. auto 10.
Qed.

Lemma glacier_inside data ny nx y x n :
  sizes data = Ok (ny, nx) -> is_glacier data y x ->
  (forall m, dict_find (g_vars data) "MASK" = Some m -> Forall (fun row => length row = n) m) ->
  (0 <= y < ny)%Z /\ (0 <= x < nx)%Z.
Proof.
  intros Z1 (m & E & C) U. specialize (U m E). unfold sizes, attr_get in Z1. rewrite E in Z1. cbn [bind] in Z1.
  injection Z1 as <- <-. unfold cell_at in C.
  destruct (Z.leb_spec 0 y); [|discriminate]. destruct (Z.leb_spec 0 x); [|discriminate]. cbn [andb] in C.
  destruct (nth_error m (Z.to_nat y)) as [row|] eqn:Er; [|discriminate].
  assert (L1 : (Z.to_nat y < length m)%nat) by (apply nth_error_Some; congruence).
  assert (L2 : (Z.to_nat x < length row)%nat) by (apply nth_error_Some; congruence).
  rewrite Forall_forall in U. apply nth_error_In in Er. rewrite (U _ Er) in L2.
  destruct m as [|r0 m]; [destruct Er|]. rewrite (U r0 (or_introl eq_refl)). lia.
Qed.

Lemma in_firstn {A} (n : nat) (l : list A) a : In a (firstn n l) -> In a l.
Proof. intros H. rewrite <- (firstn_skipn n l). apply in_or_app. left. exact H. Qed.

Lemma in_skipn {A} (n : nat) (l : list A) a : In a (skipn n l) -> In a l.
Proof. intros H. rewrite <- (firstn_skipn n l). apply in_or_app. right. exact H. Qed.

(*@ C106 A run on a tile gives in each glacier cell of the tile what the run on the whole area gives there, in every computed result variable and every restart variable; the two runs also give their files the same names. *)
Lemma tile_same_results_lem :
  forall parse fuel cfg c sw sv sd sd' arrivals arrivals' file open_restart open_restart' stakes stakes'
    measured measured' w w' d ms ny nx y x,
  rc_restart cfg = false -> rc_tile cfg = true -> sw_full_field sw = rc_full_field cfg ->
  schedule arrivals -> schedule arrivals' ->
  cosipy_main parse cfg c (cell_work fuel cfg c sw sv sd) arrivals file open_restart stakes measured = Ok w ->
  cosipy_main parse (untiled cfg) c (cell_work fuel (untiled cfg) c sw sv sd') arrivals' file open_restart'
    stakes' measured' = Ok w' ->
  init_data_dataset parse cfg file None = Ok (d, ms) ->
  (0 <= rc_ystart cfg <= y)%Z -> (y < rc_yend cfg)%Z -> (0 <= rc_xstart cfg <= x)%Z -> (x < rc_xend cfg)%Z ->
  on_grid d ny nx -> is_glacier d y x ->
  w_name w = w_name w' /\ w_restart_time w = w_restart_time w' /\
  (forall name, computed (rc_full_field cfg) (io_init cfg) name ->
     same_result (w_result w) (y - rc_ystart cfg) (x - rc_xstart cfg) (w_result w') y x name) /\
  (forall name, In name restart_names ->
     same_result (w_restart w) (y - rc_ystart cfg) (x - rc_xstart cfg) (w_restart w') y x name).
Proof.
  intros parse fuel cfg c sw sv sd sd' arrivals arrivals' file open_restart open_restart' stakes stakes'
    measured measured' w w' d ms ny nx y x Rs Rt Fs Sc Sc' H H' Ed Hy Hy' Hx Hx' Og G.
  apply main_parts in H as (d1 & ms1 & io & col & E1 & H); [|exact Rs].
  apply main_parts in H' as (d2 & ms2 & io' & col' & E2 & H'); [|exact Rs].
  rewrite Ed in E1. injection E1 as <- <-.
  change (init_data_dataset parse (untiled cfg) file None) with (init_data_dataset parse cfg file None) in E2.
  rewrite Ed in E2. injection E2 as <- <-.
  rewrite Rt in H. change (rc_tile (untiled cfg)) with false in H'. cbv zeta iota in H, H'.
  destruct H as (R & A1 & A2 & A3 & Z1 & W1 & W2 & W3 & W4), H' as (R' & B1 & B2 & B3 & Z2 & V1 & V2 & V3 & V4).
  change (set_output_netcdf_path (untiled cfg)) with (set_output_netcdf_path cfg) in V3.
  change (g_times (cut_tile cfg d)) with (g_times d) in W4.
  split; [congruence|]. split; [congruence|].
  set (y0 := (y - rc_ystart cfg)%Z). set (x0 := (x - rc_xstart cfg)%Z).
  assert (Ce : forall name, entry_at (g_vars (cut_tile cfg d)) name y0 x0 = entry_at (g_vars d) name y x).
  { intros name. rewrite cut_entry by (unfold y0, x0; lia).
    replace (rc_ystart cfg + y0)%Z with y by (unfold y0; lia).
    replace (rc_xstart cfg + x0)%Z with x by (unfold x0; lia). reflexivity. }
  assert (G0 : is_glacier (cut_tile cfg d) y0 x0).
  { destruct G as (m & G1 & G2). specialize (Ce "MASK"%string). unfold entry_at in Ce. rewrite G1, G2 in Ce.
    destruct (dict_find (g_vars (cut_tile cfg d)) "MASK") as [m'|] eqn:E; [|discriminate]. exists m'. auto. }
  destruct Og as [Og _].
  assert (In0 : (0 <= y0 < io_ny io)%Z /\ (0 <= x0 < io_nx io)%Z).
  { refine (glacier_inside _ _ _ _ _ (length (py_slice (repeat tt (Z.to_nat nx)) (rc_xstart cfg) (rc_xend cfg))) Z1 G0 _).
    intros m' E'. apply find_in in E'. unfold cut_tile in E'. cbn [g_vars] in E'.
    apply in_map_iff in E' as ([n v] & E' & Iv). injection E' as -> <-. apply Og in Iv as [_ Iv].
    rewrite Forall_forall in *. intros row Hr. apply in_map_iff in Hr as (r & <- & Hr).
    unfold py_slice in Hr. apply in_firstn, in_skipn in Hr. apply Iv in Hr.
    unfold py_slice. rewrite !firstn_length, !skipn_length, repeat_length.
    replace (Z.to_nat nx) with (length r) by lia. reflexivity. }
  assert (In1 : (0 <= y < io_ny io')%Z /\ (0 <= x < io_nx io')%Z).
  { refine (glacier_inside _ _ _ _ _ (Z.to_nat nx) Z2 G _).
    intros m' E'. apply find_in in E'. apply Og in E' as [_ Iv].
    rewrite Forall_forall in *. intros row Hr. apply Iv in Hr. lia. }
  rewrite W1, W2, V1, V2.
  destruct (cell_local_lem fuel cfg (untiled cfg) c sw sv sd sd' arrivals arrivals' (cut_tile cfg d) d None None
    stakes stakes' measured measured' io io' col col' y0 x0 y x) as [C1 C2];
    try assumption; try tauto; try reflexivity; try congruence.
  { rewrite A1. exact B1. } { rewrite A2. exact B2. } { rewrite A3. exact B3. }
  { split; [reflexivity|exact Ce]. }
  split; [|exact C2]. intros name Hn. apply C1.
  unfold computed in *. rewrite A1, A2, A3. exact Hn.
Qed.
