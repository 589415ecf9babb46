(** * Names of the output, refused periods, restarts and tiles *)
From Verif Require Import ModelPy ModelConstants ModelNode ModelGrid ModelSurface ModelInit
  ModelCore ModelConfig ModelIO ModelMain SpecIO.
From Verif Require Import LemPy LemDict LemIO LemIO4 LemIO5 LemFinInput LemShad6.
From Coq Require Import Ascii Permutation.

(** ** Names of the output variables *)
Definition comma_free (s : string) : Prop := ~ In ","%char (list_ascii_of_string s).

Lemma split_comma_ne s : split_comma s <> [].
Proof. destruct s as [|ch r]; cbn; [discriminate|]. destruct (Ascii.eqb ch ","); [discriminate|]. destruct (split_comma r); discriminate. Qed.

Lemma split_comma_word s : comma_free s -> split_comma s = [s].
Proof.
  induction s as [|ch r IH]; intros H; [reflexivity|]. cbn [split_comma].
  destruct (Ascii.eqb_spec ch ","%char) as [->|N]; [destruct H; left; reflexivity|].
  rewrite IH; [reflexivity|]. intros I. apply H. right. exact I.
Qed.

Lemma split_comma_app s t : comma_free s -> split_comma (s ++ "," ++ t)%string = s :: split_comma t.
Proof.
  induction s as [|ch r IH]; intros H; [reflexivity|].
  change (String ch r ++ "," ++ t)%string with (String ch (r ++ "," ++ t))%string. cbn [split_comma].
  destruct (Ascii.eqb_spec ch ","%char) as [->|N]; [destruct H; left; reflexivity|].
  rewrite IH; [reflexivity|]. intros I. apply H. right. exact I.
Qed.

Lemma split_concat s names : Forall comma_free (s :: names) -> split_comma (String.concat "," (s :: names)) = s :: names.
Proof.
  revert s. induction names as [|u t IH]; intros s F; inversion F as [|? ? H1 H2]; subst.
  - apply split_comma_word, H1.
  - change (String.concat "," (s :: u :: t)) with (s ++ "," ++ String.concat "," (u :: t))%string.
    rewrite split_comma_app by exact H1. rewrite IH by exact H2. reflexivity.
Qed.

Lemma concat_empty s names : String.concat "," (s :: names) = ""%string -> s = ""%string /\ names = [].
Proof.
  destruct names as [|u t]; intros H; [split; [exact H|reflexivity]|].
  change (String.concat "," (s :: u :: t)) with (s ++ "," ++ String.concat "," (u :: t))%string in H. destruct s; discriminate.
Qed.

Lemma output_variables names : Forall comma_free names -> names <> [""%string] ->
  get_output_variables (String.concat "," names) = names.
Proof.
  intros F N. unfold get_output_variables. destruct names as [|s t]; [reflexivity|].
  destruct (String.eqb_spec (String.concat "," (s :: t)) EmptyString) as [E|_]; [|apply split_concat, F].
  apply concat_empty in E. destruct E as [-> ->]. congruence.
Qed.

Lemma filter_filter {A} (p q : A -> bool) l : filter p (filter q l) = filter (fun x => q x && p x) l.
Proof.
  induction l as [|a l IH]; cbn [filter]; [reflexivity|]. destruct (q a); cbn [filter andb]; [destruct (p a)|]; rewrite IH; reflexivity.
Qed.

(*@ C63 The names of the output are the parts of the text between its commas, in their order; an empty text is an empty list. Of the surface variables those are left out that the input gives. *)
Lemma output_names_lem :
  forall cfg atm internal full,
  Forall comma_free atm -> Forall comma_free internal -> Forall comma_free full ->
  atm <> [""%string] -> internal <> [""%string] -> full <> [""%string] ->
  rc_output_atm cfg = String.concat "," atm -> rc_output_internal cfg = String.concat "," internal ->
  rc_output_full cfg = String.concat "," full ->
  io_internal (io_init cfg) = internal /\ io_full (io_init cfg) = full /\
  io_atm (io_init cfg) =
    filter (fun name => negb (in_names name ["T2"; "RH2"; "U2"; "RRR"; "N"; "G"; "PRES"]%string)) atm.
Proof.
  intros cfg atm internal full F1 F2 F3 N1 N2 N3 E1 E2 E3. cbn [io_init io_internal io_full io_atm].
  rewrite E1, E2, E3, !output_variables by assumption. split; [reflexivity|]. split; [reflexivity|].
  unfold input_names. cbn [fold_left]. rewrite !filter_filter. apply filter_ext. intros name.
  unfold in_names. cbn [existsb]. rewrite !negb_orb. cbn [negb]. rewrite !andb_assoc, andb_true_r. reflexivity.
Qed.

(*@ex C63 A list with two input variables. *)
Lemma output_names_case_lem :
  Forall comma_free ["T2"; "LE"; "PRES"; "H"]%string /\
  String.concat "," ["T2"; "LE"; "PRES"; "H"]%string = "T2,LE,PRES,H"%string /\
  filter (fun name => negb (in_names name ["T2"; "RH2"; "U2"; "RRR"; "N"; "G"; "PRES"]%string)) ["T2"; "LE"; "PRES"; "H"]%string = ["LE"; "H"]%string.
Proof.
  split; [|split; reflexivity].
  repeat constructor; intros I; cbn in I; repeat (destruct I as [I|I]; [discriminate|]); exact I.
Qed.

(** ** Refused periods *)

(** what a time in the configuration means *)
Definition reads_as (parse : parser) (v : value) (t : Z) : Prop :=
  (exists s w, v = VStr s /\ parse s = Some (t, w)) \/ v = VDate t.

Lemma reads_datetime parse v t : reads_as parse v t -> exists d, get_datetime parse v = Ok d /\ seconds d = t.
Proof. intros [(s & w & -> & P)| ->]; cbn; [rewrite P|]; eauto. Qed.
Lemma reads_bounds parse v t : reads_as parse v t -> exists b, slice_bounds parse v = Ok b /\ fst b = t.
Proof. intros [(s & w & -> & P)| ->]; cbn; [rewrite P|]; eauto. Qed.

Lemma insert_ascending t l : ascending l -> ascending (insert_time t l).
Proof.
  induction l as [|u l IH]; intros A; cbn [insert_time]; [constructor; constructor|].
  inversion A as [|? ? A1 A2]; subst. destruct (Z.leb_spec t u) as [L|L].
  - constructor; [exact A|]. constructor; [exact L|]. eapply Forall_impl; [|exact A2]. intros; lia.
  - constructor; [apply IH, A1|]. eapply Permutation_Forall; [apply insert_perm|]. constructor; [lia|exact A2].
Qed.
Lemma sorted_ascending l : ascending (sort_times l).
Proof. induction l as [|t l IH]; cbn [sort_times]; [constructor|]. apply insert_ascending, IH. Qed.

Lemma ascending_first t l : ascending (t :: l) -> forall u, In u (t :: l) -> (t <= u)%Z.
Proof. intros A u [<-|I]; [lia|]. inversion A as [|? ? _ F]; subst. rewrite Forall_forall in F. apply F, I. Qed.

Lemma py_last {A} (l : list A) a : py_get (l ++ [a]) (-1) = Ok a.
Proof.
  unfold py_get, py_index. rewrite app_length. cbn [length].
  destruct ((0 <=? -1)%Z && (-1 <? Z.of_nat (length l + 1))%Z) eqn:E; [apply andb_prop in E; destruct E as [E _]; discriminate|].
  destruct ((- Z.of_nat (length l + 1) <=? -1)%Z && (-1 <? 0)%Z) eqn:F.
  - replace (Z.to_nat (Z.of_nat (length l + 1) + -1)) with (length l) by lia.
    rewrite nth_error_app2, Nat.sub_diag by lia. reflexivity.
  - apply andb_false_iff in F. destruct F as [F|F]; [apply Z.leb_gt in F; lia|discriminate].
Qed.

Lemma ascending_last l t : ascending (l ++ [t]) -> forall u, In u (l ++ [t]) -> (u <= t)%Z.
Proof.
  induction l as [|a l IH]; intros A u I; cbn [app] in *.
  - destruct I as [<-|[]]; lia.
  - inversion A as [|? ? A1 A2]; subst. destruct I as [<-|I]; [|apply IH; assumption].
    rewrite Forall_forall in A2. apply A2, in_elt.
Qed.

Lemma check_input_error d e : check_input_data d = Err e -> e = ValueError.
Proof.
  rewrite check_input_list. generalize data_bounds as bs. induction bs as [|[k [mx mn]] bs IH]; cbn [check_list]; [discriminate|].
  cbn [fst snd]. intros H. destruct (dict_find (g_vars d) k) as [a|]; [|apply IH, H].
  unfold check_field in H. destruct (array_values a) as [|v l]; [cbn [bind] in H; congruence|].
  destruct (check_list d bs) as [m|e']; [destruct (reals_of (v :: l)); discriminate|].
  destruct (reals_of (v :: l)); cbn [bind] in H; injection H as ->; apply IH; reflexivity.
Qed.

Lemma to_minute_mono a b : (a <= b)%Z -> (to_minute a <= to_minute b)%Z.
Proof. intros H. unfold to_minute. pose proof (Z.div_le_mono a b 60 ltac:(lia) H). lia. Qed.

(*@ C49 A period is refused, with IndexError, exactly if all minutes of the file are before its start or all are after its end (or the file has no times). *)
Lemma period_refused_lem :
  forall parse cfg raw rd start stop,
  reads_as parse (rc_time_start cfg) start -> reads_as parse (rc_time_end cfg) stop ->
  (init_data_dataset parse cfg (Some raw) rd = Err IndexError <->
   (forall t, In t (g_times raw) -> (to_minute t < start)%Z) \/ (forall t, In t (g_times raw) -> (stop < to_minute t)%Z)).
Proof.
  intros parse cfg raw rd start stop RS RE.
  destruct (reads_datetime _ _ _ RS) as (ds & E1 & <-). destruct (reads_datetime _ _ _ RE) as (de & E2 & <-).
  destruct (reads_bounds _ _ _ RS) as (bs & E3 & E3'). destruct (reads_bounds _ _ _ RE) as (be & E4 & E4').
  unfold init_data_dataset. pose proof (sort_perm (g_times raw)) as P. pose proof (sorted_ascending (g_times raw)) as A.
  assert (IFF : forall t, In t (g_times raw) <-> In t (sort_times (g_times raw))).
  { intros t. split; apply Permutation_in; [exact P|apply Permutation_sym, P]. }
  set (times := sort_times (g_times raw)) in *.
  destruct times as [|first rest] eqn:T.
  - cbn. split; [intros _; left|reflexivity]. intros t I. apply IFF in I. destruct I.
  - change (py_get (first :: rest) 0) with (Ok first). cbn [bind].
    destruct (exists_last (l := first :: rest)) as (l' & last & L); [discriminate|].
    rewrite L at 1. rewrite py_last. cbn [bind]. rewrite E1, E2. cbn [bind].
    assert (MIN : forall t, In t (g_times raw) -> (first <= t)%Z). { intros t I. apply (ascending_first _ _ A). apply IFF, I. }
    assert (MAX : forall t, In t (g_times raw) -> (t <= last)%Z). { intros t I. apply (ascending_last l'); [rewrite <- L; exact A|]. rewrite <- L. apply IFF, I. }
    assert (IF : In first (g_times raw)) by (apply IFF; left; reflexivity).
    assert (IL : In last (g_times raw)) by (apply IFF; rewrite L; apply in_elt).
    destruct ((to_minute last <? seconds ds)%Z || (seconds de <? to_minute first)%Z) eqn:B.
    + split; [intros _|reflexivity]. apply orb_prop in B. rewrite !Z.ltb_lt in B.
      destruct B as [B|B]; [left|right]; intros t I.
      * pose proof (to_minute_mono _ _ (MAX t I)). lia.
      * pose proof (to_minute_mono _ _ (MIN t I)). lia.
    + rewrite E4. cbn [bind]. apply orb_false_elim in B. rewrite !Z.ltb_ge in B. split.
      * intros H. exfalso.
        destruct (match rd with None => _ | Some r => _ end) as [lo|e] eqn:LO; cbn [bind] in H.
        { destruct (check_input_data _) as [m|e] eqn:C; cbn [bind] in H; [discriminate|].
          injection H as ->. apply check_input_error in C. discriminate. }
        { injection H as ->. destruct rd as [r|].
          - destruct (r =? seconds de)%Z; discriminate.
          - rewrite E3 in LO. discriminate. }
      * intros [H|H]; [specialize (H last IL)|specialize (H first IF)]; lia.
Qed.

(** ** Restarts *)

Lemma selected_times parse cfg raw rd sel msgs : init_data_dataset parse cfg (Some raw) rd = Ok (sel, msgs) ->
  exists lo hi, period parse cfg rd lo hi /\ ascending (g_times sel) /\
    forall t, In t (g_times sel) <-> In t (g_times raw) /\ (lo <= t <= hi)%Z.
Proof.
  intros H. apply init_data_parts in H as (lo & hi & P & ->). exists lo, hi. split; [exact P|].
  cbn [select_time g_times]. rewrite pick_filter. split.
  - pose proof (sorted_ascending (g_times raw)) as A. induction A as [|t l A IH F]; cbn [filter]; [constructor|].
    destruct (in_period lo hi t); [|exact IH]. constructor; [exact IH|].
    rewrite Forall_forall in F |- *. intros u I. apply F. apply filter_In in I. apply I.
  - intros t. rewrite filter_In. unfold in_period. rewrite andb_true_iff, !Z.leb_le.
    pose proof (sort_perm (g_times raw)) as Q.
    split; intros [I B]; (split; [|exact B]); [apply (Permutation_in _ (Permutation_sym Q)), I|apply (Permutation_in _ Q), I].
Qed.

Lemma catch_ok {A} (m : res A) a : catch_index_error m = Ok a -> m = Ok a.
Proof. destruct m as [|[]]; cbn; congruence. Qed.

(*@ C64 The data of a restarted run are the times of the file from the time of the restart file plus the step length on until the end of the period, in ascending order, and every cell can start from this restart file; it was the one of the minute of the start. *)
Lemma restart_data_lem :
  forall parse cfg c raw open_restart io0 io data gr ms,
  rc_restart cfg = true ->
  create_data_file parse cfg c (Some raw) open_restart io0 = Ok (io, data, gr, ms) ->
  exists start r first last, rc_time_start cfg = VDate start /\
    open_restart (to_minute start) = Some r /\ gr = Some r /\
    slice_bounds parse (rc_time_end cfg) = Ok (first, last) /\
    ascending (g_times data) /\ io_time io = Z.of_nat (length (g_times data)) /\
    forall t, In t (g_times data) <-> In t (g_times raw) /\ (fst r + py_int (c_dt c) <= t <= last)%Z.
Proof.
  intros parse cfg c raw open_restart io0 io data gr ms Rs H. unfold create_data_file in H. rewrite Rs in H.
  apply bind_ok in H as ([[d g] m] & E1 & H). apply bind_ok in H as (_ & _ & H).
  apply bind_ok in H as ([ny nx] & E2 & H). injection H as <- <- <- <-. cbn [io_time].
  assert (T : g_times (if rc_tile cfg then cut_tile cfg d else d) = g_times d) by (destruct (rc_tile cfg); reflexivity).
  rewrite T. clear T E2.
  apply bind_ok in E1 as (ts & E1 & E3). apply bind_ok in E3 as (te & E2 & E3).
  destruct ts as [|t]; [discriminate|].
  assert (VT : rc_time_start cfg = VDate t).
  { destruct (rc_time_start cfg); cbn in E1; try discriminate; [destruct (parse s) as [[? ?]|]; discriminate|congruence]. }
  destruct (open_restart (to_minute t)) as [r|] eqn:O; [|discriminate].
  apply catch_ok in E3. destruct (t =? seconds te)%Z; [discriminate|].
  apply bind_ok in E3 as ([d' m'] & E4 & E3). injection E3 as <- <- <-.
  destruct (selected_times _ _ _ _ _ _ E4) as (lo & hi & [[e P1] P2] & A & I). cbn in P2. subst lo.
  exists t, r, e, hi. auto 10.
Qed.

(*@ C64,C68 A completed run names the restart file after the last of the times it has computed, which is the latest time of the file in the period. *)
Lemma restart_file_named_lem :
  forall parse cfg c work arrivals raw open_restart stakes measured w,
  cosipy_main parse cfg c work arrivals (Some raw) open_restart stakes measured = Ok w ->
  exists lo hi, period parse cfg None lo hi /\
    In (w_restart_time w) (g_times raw) /\ (lo <= w_restart_time w <= hi)%Z /\
    forall t, In t (g_times raw) -> (lo <= t <= hi)%Z -> (t <= w_restart_time w)%Z.
Proof.
  intros parse cfg c work arrivals raw open_restart stakes measured w H.
  destruct (rc_restart cfg) eqn:Rs; [destruct (restart_never_completes_lem parse cfg c work arrivals (Some raw) open_restart stakes measured w Rs H)|].
  unfold cosipy_main in H. apply bind_ok in H as ([[[io data] gr] ms] & E1 & H). apply bind_ok in H as (io1 & _ & H).
  apply bind_ok in H as (last & E2 & H). apply bind_ok in H as (col & _ & H). apply bind_ok in H as (name & _ & H).
  injection H as <-. cbn [w_restart_time].
  unfold create_data_file in E1. rewrite Rs in E1. apply bind_ok in E1 as ([[d g] m] & E1 & E3).
  apply bind_ok in E3 as (_ & _ & E3). apply bind_ok in E3 as ([ny nx] & _ & E3). injection E3 as _ <- _ _.
  apply bind_ok in E1 as ([d' m'] & E4 & E1). injection E1 as <- <- <-.
  assert (T : g_times (if rc_tile cfg then cut_tile cfg d' else d') = g_times d') by (destruct (rc_tile cfg); reflexivity).
  rewrite T in E2. clear T.
  destruct (selected_times _ _ _ _ _ _ E4) as (lo & hi & P & A & I). exists lo, hi. split; [exact P|].
  destruct (g_times d') as [|a l] eqn:G; [discriminate|].
  destruct (exists_last (l := a :: l)) as (l' & z & L); [discriminate|]. rewrite L in E2, A, I. rewrite py_last in E2. injection E2 as <-.
  destruct (proj1 (I z)) as [I1 I2]; [apply in_elt|]. split; [exact I1|]. split; [exact I2|].
  intros t J K. apply (ascending_last l'); [exact A|]. apply I. auto.
Qed.

(** ** Tiles *)

Lemma slice_nth {A} (l : list A) a b k : (0 <= a)%Z -> (0 <= b)%Z ->
  nth_error (py_slice l a b) k = if (Z.of_nat k <? b - a)%Z then nth_error l (Z.to_nat a + k) else None.
Proof.
  intros HA HB. unfold py_slice, slice_index.
  destruct (Z.ltb_spec a 0); [lia|]. destruct (Z.ltb_spec b 0); [lia|].
  set (i := Nat.min (length l) (Z.to_nat a)). set (j := Nat.min (length l) (Z.to_nat b)).
  assert (F : forall (m : list A) n k, nth_error (firstn n m) k = if (k <? n)%nat then nth_error m k else None).
  { clear. induction m as [|x m IH]; intros [|n] [|k]; cbn [firstn nth_error]; try reflexivity.
    - destruct (S k <? S n)%nat; reflexivity.
    - rewrite IH. reflexivity. }
  assert (G : forall (m : list A) n k, nth_error (skipn n m) k = nth_error m (n + k)).
  { clear. induction m as [|x m IH]; intros [|n] k; cbn [skipn Nat.add]; try reflexivity; [destruct k; reflexivity|apply IH]. }
  rewrite F, G. destruct (Nat.ltb_spec k (j - i)); destruct (Z.ltb_spec (Z.of_nat k) (b - a)); try reflexivity.
  - f_equal. lia.
  - lia.
  - symmetry. apply nth_error_None. lia.
Qed.

(*@ C101 A tile has the variables of the data and the same times; its cells are those of the data from the start of the tile on and before its end, and no others. *)
Lemma tile_cells_lem :
  forall cfg d,
  (0 <= rc_ystart cfg)%Z -> (0 <= rc_yend cfg)%Z -> (0 <= rc_xstart cfg)%Z -> (0 <= rc_xend cfg)%Z ->
  g_times (cut_tile cfg d) = g_times d /\
  map fst (g_vars (cut_tile cfg d)) = map fst (g_vars d) /\
  forall name whole, dict_find (g_vars d) name = Some whole ->
  exists part, dict_find (g_vars (cut_tile cfg d)) name = Some part /\
    forall y x, (0 <= y)%Z -> (0 <= x)%Z ->
      cell_at part y x =
        if ((y <? rc_yend cfg - rc_ystart cfg) && (x <? rc_xend cfg - rc_xstart cfg))%Z
        then cell_at whole (rc_ystart cfg + y) (rc_xstart cfg + x) else None.
Proof.
  intros cfg d Y1 Y2 X1 X2. unfold cut_tile. cbn [g_times g_vars]. split; [reflexivity|]. split.
  { rewrite map_map. reflexivity. }
  intros name whole F.
  exists (map (fun row => py_slice row (rc_xstart cfg) (rc_xend cfg)) (py_slice whole (rc_ystart cfg) (rc_yend cfg))). split.
  { induction (g_vars d) as [|[n v] t IH]; [discriminate|]. cbn [map dict_find fst snd] in *.
    destruct (String.eqb n name); [congruence|apply IH, F]. }
  intros y x HY HX. unfold cell_at.
  destruct ((0 <=? y) && (0 <=? x))%Z eqn:P; [|apply andb_false_iff in P; rewrite !Z.leb_gt in P; lia].
  destruct ((0 <=? rc_ystart cfg + y) && (0 <=? rc_xstart cfg + x))%Z eqn:Q; [|apply andb_false_iff in Q; rewrite !Z.leb_gt in Q; lia].
  rewrite nth_error_map, slice_nth by assumption. rewrite Z2Nat.id by assumption.
  destruct (y <? rc_yend cfg - rc_ystart cfg)%Z; [|reflexivity]. cbn [andb].
  replace (Z.to_nat (rc_ystart cfg) + Z.to_nat y)%nat with (Z.to_nat (rc_ystart cfg + y)) by lia.
  destruct (nth_error whole _) as [row|]; cbn [option_map]; [|destruct (x <? _)%Z; reflexivity].
  rewrite slice_nth, Z2Nat.id by assumption.
  replace (Z.to_nat (rc_xstart cfg) + Z.to_nat x)%nat with (Z.to_nat (rc_xstart cfg + x)) by lia. reflexivity.
Qed.

(*@ C101 With a tile the run reads the tile of the data it would read without: the selected period is the same. *)
Lemma tile_read_lem :
  forall parse cfg c file open_restart io0 io data gr ms,
  rc_restart cfg = false -> rc_tile cfg = true ->
  create_data_file parse cfg c file open_restart io0 = Ok (io, data, gr, ms) ->
  exists d, init_data_dataset parse cfg file None = Ok (d, ms) /\ data = cut_tile cfg d /\
    sizes data = Ok (io_ny io, io_nx io).
Proof.
  intros parse cfg c file open_restart io0 io data gr ms Rs Rt H. unfold create_data_file in H. rewrite Rs, Rt in H.
  apply bind_ok in H as ([[d g] m] & E1 & H). apply bind_ok in H as (_ & _ & H). apply bind_ok in H as ([ny nx] & E2 & H). injection H as <- <- <- <-.
  apply bind_ok in E1 as ([d' m'] & E4 & E1). injection E1 as <- <- <-. exists d'. auto.
Qed.

(*@ex C101 The middle and the right cell of the second row of a grid of three by three. *)
Lemma tile_case_lem :
  let cfg := mkRunConfig "" "" "" false false false "lat" "lon" true 1 3 1 2 false "rmse" "mb" (VStr "a") (VStr "b") "out" in
  let s v := Series [Some v] in
  cut_tile cfg (mkGridded [0%Z] [("HGT"%string, [[s 1; s 2; s 3]; [s 4; s 5; s 6]; [s 7; s 8; s 9]])]) =
  mkGridded [0%Z] [("HGT"%string, [[s 5; s 6]])].
Proof. reflexivity. Qed.

(*@ex C49,C64 A file with the times 0, 1800, 3600 and 5400: a period from 9000 on is refused; a run restarted from a file of the time 0 with steps of an hour reads the last two. *)
Lemma restart_data_case_lem :
  let raw := mkGridded [0; 1800; 3600; 5400]%Z [("MASK"%string, [[Series [Some 1]]])] in
  let cfg a b := mkRunConfig "" "" "" false true false "lat" "lon" false 0 0 0 0 false "rmse" "mb" (VDate a) (VDate b) "out" in
  reads_as (fun _ => None) (rc_time_start (cfg 9000 9600)%Z) 9000 /\
  init_data_dataset (fun _ => None) (cfg 9000 9600)%Z (Some raw) None = Err IndexError /\
  exists io data gr ms,
    create_data_file (fun _ => None) (cfg 0 7200)%Z default_constants (Some raw)
      (fun t => if (t =? 0)%Z then Some (0%Z, []) else None)
      (io_init (cfg 0 7200)%Z) = Ok (io, data, gr, ms) /\ g_times data = [3600; 5400]%Z.
Proof.
  intros raw cfg. split; [right; reflexivity|]. split; [reflexivity|].
  unfold create_data_file. change (c_dt default_constants) with (IZR 3600). rewrite (LemShad6.py_int_int 3600) by lia.
  eexists _, _, _, _. split; reflexivity.
Qed.

(*@ C49 A start or an end that is no time stamp stops the program: a text that cannot be read with ValueError, another value than a text or a date with TypeError. *)
Lemma unreadable_period_lem :
  forall parse cfg raw rd, g_times raw <> [] ->
  (forall s, rc_time_start cfg = VStr s -> parse s = None -> init_data_dataset parse cfg (Some raw) rd = Err ValueError) /\
  ((forall s, rc_time_start cfg <> VStr s) -> (forall t, rc_time_start cfg <> VDate t) ->
     init_data_dataset parse cfg (Some raw) rd = Err TypeError) /\
  (forall start s, reads_as parse (rc_time_start cfg) start -> rc_time_end cfg = VStr s -> parse s = None ->
     init_data_dataset parse cfg (Some raw) rd = Err ValueError) /\
  (forall start, reads_as parse (rc_time_start cfg) start ->
     (forall s, rc_time_end cfg <> VStr s) -> (forall t, rc_time_end cfg <> VDate t) ->
     init_data_dataset parse cfg (Some raw) rd = Err TypeError).
Proof.
  intros parse cfg raw rd N.
  assert (T : exists first rest, sort_times (g_times raw) = first :: rest).
  { destruct (sort_times (g_times raw)) as [|f r] eqn:E; [|eauto]. exfalso. apply N.
    pose proof (sort_perm (g_times raw)) as P. rewrite E in P. apply Permutation_sym, Permutation_nil in P. exact P. }
  destruct T as (first & rest & T). unfold init_data_dataset. rewrite T.
  change (py_get (first :: rest) 0) with (Ok first). cbn [bind].
  destruct (exists_last (l := first :: rest)) as (l' & last & L); [discriminate|].
  assert (PL : py_get (first :: rest) (-1) = Ok last) by (rewrite L; apply py_last). rewrite PL. cbn [bind].
  split; [|split; [|split]].
  - intros s -> Hs. cbn [get_datetime]. rewrite Hs. reflexivity.
  - intros H1 H2. destruct (rc_time_start cfg); try reflexivity; [destruct (H1 _ eq_refl)|destruct (H2 _ eq_refl)].
  - intros start s R -> Hs. destruct (reads_datetime _ _ _ R) as (ds & E1 & _). rewrite E1. cbn [bind get_datetime]. rewrite Hs. reflexivity.
  - intros start R H1 H2. destruct (reads_datetime _ _ _ R) as (ds & E1 & _). rewrite E1. cbn [bind].
    destruct (rc_time_end cfg); try reflexivity; [destruct (H1 _ eq_refl)|destruct (H2 _ eq_refl)].
Qed.

(** ** What stops a run before it starts *)

(*@ C49,C64 Without an input file the program ends. A restarted run ends if the start is a text (AttributeError) and, if the start is a date, without a restart file of its minute, with an end equal to the start and with a period outside of the data (SystemExit in all three cases, although the other run raises IndexError for the last). *)
Lemma start_refused_lem :
  forall parse cfg c open_restart io0,
  (rc_restart cfg = false ->
     create_data_file parse cfg c None open_restart io0 = Err SystemExit) /\
  (forall raw start stop, reads_as parse (rc_time_start cfg) start -> reads_as parse (rc_time_end cfg) stop ->
     rc_restart cfg = false ->
     (forall t, In t (g_times raw) -> (to_minute t < start)%Z) \/ (forall t, In t (g_times raw) -> (stop < to_minute t)%Z) ->
     create_data_file parse cfg c (Some raw) open_restart io0 = Err IndexError) /\
  (forall file stop, rc_restart cfg = true -> reads_as parse (rc_time_end cfg) stop ->
     (forall s t, rc_time_start cfg = VStr s -> reads_as parse (rc_time_start cfg) t ->
        create_data_file parse cfg c file open_restart io0 = Err AttributeError) /\
     (forall start, rc_time_start cfg = VDate start ->
        open_restart (to_minute start) = None \/ start = stop \/ file = None \/
        (exists raw, file = Some raw /\
           ((forall t, In t (g_times raw) -> (to_minute t < start)%Z) \/
            (forall t, In t (g_times raw) -> (stop < to_minute t)%Z))) ->
        create_data_file parse cfg c file open_restart io0 = Err SystemExit)).
Proof.
  intros parse cfg c open_restart io0. split; [|split].
  - intros Rs. unfold create_data_file. rewrite Rs. reflexivity.
  - intros raw start stop R1 R2 Rs P. unfold create_data_file. rewrite Rs.
    rewrite (proj2 (period_refused_lem parse cfg raw None start stop R1 R2) P). reflexivity.
  - intros file stop Rs R2. destruct (reads_datetime _ _ _ R2) as (te & E2 & S2). split.
    + intros s t V R1. destruct (reads_datetime _ _ _ R1) as (ts & E1 & S1).
      unfold create_data_file. rewrite Rs, E1. cbn [bind]. rewrite E2. cbn [bind].
      rewrite V in E1. cbn in E1. destruct (parse s) as [[? ?]|]; [|discriminate]. injection E1 as <-. reflexivity.
    + intros start V P. unfold create_data_file. rewrite Rs, V. cbn [get_datetime bind]. rewrite E2. cbn [bind].
      destruct (open_restart (to_minute start)) as [r|] eqn:O; [|reflexivity].
      destruct (Z.eqb_spec start (seconds te)) as [Q|Q]; [reflexivity|].
      destruct P as [P|[P|[P|(raw & -> & P)]]]; [congruence|congruence|subst file; reflexivity|].
      rewrite (proj2 (period_refused_lem parse cfg raw _ start stop (or_intror V) R2) P). reflexivity.
Qed.

(*@ C101 A tile is cut along the dimensions lat and lon, or south_north and west_east with WRF data; data with other dimensions end the program with ValueError. *)
Lemma tile_names_lem :
  forall parse cfg c file open_restart io0 d ms,
  rc_restart cfg = false -> rc_tile cfg = true ->
  init_data_dataset parse cfg file None = Ok (d, ms) ->
  (rc_northing cfg, rc_easting cfg) <> (if rc_WRF cfg then ("south_north", "west_east") else ("lat", "lon"))%string ->
  create_data_file parse cfg c file open_restart io0 = Err ValueError.
Proof.
  intros parse cfg c file open_restart io0 d ms Rs Rt E N. unfold create_data_file. rewrite Rs, Rt, E. cbn [bind].
  unfold tile_dimensions, check_dimensions.
  destruct (rc_WRF cfg); match goal with |- context[(?a && ?b)%bool] => destruct a eqn:A; destruct b eqn:B; cbn [andb]; try reflexivity end;
    apply String.eqb_eq in A, B; rewrite A, B in N; destruct N; reflexivity.
Qed.

(** a bound of a slice of [n] entries: negative ones count from the end *)
Definition from_end (n i : Z) : Z := if (i <? 0)%Z then Z.max 0 (n + i) else i.

Lemma slice_from_end {A} (l : list A) a b :
  py_slice l a b = py_slice l (from_end (Z.of_nat (length l)) a) (from_end (Z.of_nat (length l)) b).
Proof.
  assert (K : forall i, slice_index (length l) i = slice_index (length l) (from_end (Z.of_nat (length l)) i)).
  { intros i. unfold slice_index, from_end. destruct (Z.ltb_spec i 0).
    - destruct (Z.ltb_spec (Z.max 0 (Z.of_nat (length l) + i)) 0); lia.
    - destruct (Z.ltb_spec i 0); lia. }
  unfold py_slice. rewrite (K a), (K b). reflexivity.
Qed.

(*@ C101 Negative bounds of a tile count from the end of the grid, at most to its beginning. *)
Lemma tile_from_the_end_lem :
  forall cfg d name whole ny nx,
  dict_find (g_vars d) name = Some whole ->
  Z.of_nat (length whole) = ny -> Forall (fun row => Z.of_nat (length row) = nx) whole ->
  exists part, dict_find (g_vars (cut_tile cfg d)) name = Some part /\
    forall y x, (0 <= y)%Z -> (0 <= x)%Z ->
      cell_at part y x =
        if ((y <? from_end ny (rc_yend cfg) - from_end ny (rc_ystart cfg)) &&
            (x <? from_end nx (rc_xend cfg) - from_end nx (rc_xstart cfg)))%Z
        then cell_at whole (from_end ny (rc_ystart cfg) + y) (from_end nx (rc_xstart cfg) + x) else None.
Proof.
  intros cfg d name whole ny nx F HY HX.
  assert (P : forall n i, (0 <= from_end n i)%Z) by (intros n i; unfold from_end; destruct (Z.ltb_spec i 0); lia).
  exists (map (fun row => py_slice row (rc_xstart cfg) (rc_xend cfg)) (py_slice whole (rc_ystart cfg) (rc_yend cfg))). split.
  { unfold cut_tile. cbn [g_vars]. induction (g_vars d) as [|[n v] t IH]; [discriminate|]. cbn [map dict_find fst snd] in *.
    destruct (String.eqb n name); [congruence|apply IH, F]. }
  intros y x Y X. unfold cell_at.
  destruct ((0 <=? y) && (0 <=? x))%Z eqn:Q; [|apply andb_false_iff in Q; rewrite !Z.leb_gt in Q; lia].
  pose proof (P ny (rc_ystart cfg)). pose proof (P nx (rc_xstart cfg)).
  destruct ((0 <=? from_end ny (rc_ystart cfg) + y) && (0 <=? from_end nx (rc_xstart cfg) + x))%Z eqn:Q2;
    [|apply andb_false_iff in Q2; rewrite !Z.leb_gt in Q2; lia].
  rewrite (slice_from_end whole), HY, nth_error_map, slice_nth by apply P. rewrite Z2Nat.id by assumption.
  destruct (y <? from_end ny (rc_yend cfg) - from_end ny (rc_ystart cfg))%Z; [|reflexivity]. cbn [andb].
  replace (Z.to_nat (from_end ny (rc_ystart cfg)) + Z.to_nat y)%nat with (Z.to_nat (from_end ny (rc_ystart cfg) + y)) by lia.
  destruct (nth_error whole _) as [row|] eqn:R; cbn [option_map]; [|destruct (x <? _)%Z; reflexivity].
  assert (L : Z.of_nat (length row) = nx) by (rewrite Forall_forall in HX; apply HX; apply nth_error_In in R; exact R).
  rewrite (slice_from_end row), L, slice_nth, Z2Nat.id by (apply P || assumption).
  replace (Z.to_nat (from_end nx (rc_xstart cfg)) + Z.to_nat x)%nat with (Z.to_nat (from_end nx (rc_xstart cfg) + x)) by lia. reflexivity.
Qed.

(*@ex C101 All but the last column of all but the first row. *)
Lemma tile_from_the_end_case_lem :
  let cfg := mkRunConfig "" "" "" false false false "lat" "lon" true 0 (-1) (-2) 3 false "rmse" "mb" (VStr "a") (VStr "b") "out" in
  let s v := Series [Some v] in
  let whole := [[s 1; s 2; s 3]; [s 4; s 5; s 6]; [s 7; s 8; s 9]] in
  Forall (fun row => Z.of_nat (length row) = 3%Z) whole /\
  cut_tile cfg (mkGridded [0%Z] [("HGT"%string, whole)]) =
  mkGridded [0%Z] [("HGT"%string, [[s 4; s 5]; [s 7; s 8]])].
Proof. split; [repeat constructor|reflexivity]. Qed.
