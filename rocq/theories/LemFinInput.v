(** * Reading the input *)
From Verif Require Import ModelPy ModelConstants ModelNode ModelGrid ModelSurface ModelInit
  ModelCore ModelConfig ModelIO ModelMain SpecIO LemPy LemDict LemIO LemIO5.
From Coq Require Import Permutation Sorted.

(** ** Check of the values *)

Lemma max_list_lt mx x l : Rltb mx (max_list x l) = true <-> exists v, In v (x :: l) /\ mx < v.
Proof.
  unfold max_list. revert x; induction l as [|y l IH]; intros x; cbn [fold_left].
  - destruct (Rltb_spec mx x); split; try discriminate; try reflexivity.
    + intros _. exists x. cbn; auto.
    + intros (v & [<-|[]] & Hv). lra.
  - rewrite IH. split.
    + intros (v & [<-|Hv] & Hl).
      * unfold Rmax in Hl. destruct (Rle_dec x y); [exists y|exists x]; cbn; auto.
      * exists v. cbn; auto.
    + intros (v & [<-|[<-|Hv]] & Hl).
      * exists (Rmax x y). split; [left; reflexivity|]. pose proof (Rmax_l x y). lra.
      * exists (Rmax x y). split; [left; reflexivity|]. pose proof (Rmax_r x y). lra.
      * exists v. cbn; auto.
Qed.

Lemma min_list_lt mn x l : Rltb (min_list x l) mn = true <-> exists v, In v (x :: l) /\ v < mn.
Proof.
  unfold min_list. revert x; induction l as [|y l IH]; intros x; cbn [fold_left].
  - destruct (Rltb_spec x mn); split; try discriminate; try reflexivity.
    + intros _. exists x. cbn; auto.
    + intros (v & [<-|[]] & Hv). lra.
  - rewrite IH. split.
    + intros (v & [<-|Hv] & Hl).
      * unfold Rmin in Hl. destruct (Rle_dec x y); [exists x|exists y]; cbn; auto.
      * exists v. cbn; auto.
    + intros (v & [<-|[<-|Hv]] & Hl).
      * exists (Rmin x y). split; [left; reflexivity|]. pose proof (Rmin_l x y). lra.
      * exists (Rmin x y). split; [left; reflexivity|]. pose proof (Rmin_r x y). lra.
      * exists v. cbn; auto.
Qed.

Lemma in_reals_of v l : In v (reals_of l) <-> In (Some v) l.
Proof.
  induction l as [|[w|] l IH]; cbn; [tauto| |].
  - rewrite IH. split; intros [H|H]; auto; left; congruence.
  - rewrite IH. split; [auto|intros [H|H]; [discriminate|exact H]].
Qed.

Lemma in_array_values v (a : cells block) :
  In v (array_values a) <-> exists row b, In row a /\ In b row /\ In v (block_values b).
Proof.
  unfold array_values. rewrite in_flat_map. split.
  - intros (row & H1 & H2). apply in_flat_map in H2 as (b & H2 & H3). eauto.
  - intros (row & b & H1 & H2 & H3). exists row. split; [exact H1|]. apply in_flat_map. eauto.
Qed.

Lemma check_field_spec field mx mn : field <> [] ->
  exists ok, check_field field mx mn = Ok ok /\
    (ok = true <-> forall v, In (Some v) field -> mn <= v <= mx).
Proof.
  intros N. unfold check_field. destruct field as [|f0 field]; [congruence|].
  set (fl := f0 :: field) in *. clearbody fl. clear N.
  pose proof (fun v => in_reals_of v fl) as I.
  destruct (reals_of fl) as [|x l].
  - exists true. split; [reflexivity|]. split; [|reflexivity]. intros _ v Hv. apply I in Hv. destruct Hv.
  - eexists. split; [reflexivity|]. rewrite negb_true_iff, orb_false_iff.
    pose proof (max_list_lt mx x l) as M1. pose proof (min_list_lt mn x l) as M2. split.
    + intros [H1 H2] v Hv. apply I in Hv. split.
      * apply Rnot_lt_le. intros Hl. assert (true = false); [|discriminate].
        rewrite <- H2. symmetry. apply M2. eauto.
      * apply Rnot_lt_le. intros Hl. assert (true = false); [|discriminate].
        rewrite <- H1. symmetry. apply M1. eauto.
    + intros H. split.
      * destruct (Rltb mx (max_list x l)); [|reflexivity]. destruct M1 as [M1 _].
        destruct (M1 eq_refl) as (v & Hv & Hl). apply I, H in Hv. lra.
      * destruct (Rltb (min_list x l) mn); [|reflexivity]. destruct M2 as [M2 _].
        destruct (M2 eq_refl) as (v & Hv & Hl). apply I, H in Hv. lra.
Qed.

Fixpoint check_list (d : Gridded) (bs : dict (R * R)) : res (list (string * bool)) :=
  match bs with
  | [] => Ok []
  | kb :: t =>
      match dict_find (g_vars d) (fst kb) with
      | None => check_list d t
      | Some a => ok <- check_field (array_values a) (fst (snd kb)) (snd (snd kb)) ;;
                  l <- check_list d t ;; Ok ((fst kb, ok) :: l)
      end
  end.

Lemma check_fold d (bs : dict (R * R)) acc :
  fold_left
    (fun acc kb =>
       l <- acc ;;
       match dict_find (g_vars d) (fst kb) with
       | None => Ok l
       | Some a => ok <- check_field (array_values a) (fst (snd kb)) (snd (snd kb)) ;;
                   Ok (l ++ [(fst kb, ok)])
       end) bs (Ok acc) = (l <- check_list d bs ;; Ok (acc ++ l)).
Proof.
  revert acc; induction bs as [|kb bs IH]; intros acc; cbn [fold_left check_list].
  - cbn. rewrite app_nil_r. reflexivity.
  - cbn [bind]. destruct (dict_find (g_vars d) (fst kb)) as [a|]; [|apply IH].
    destruct (check_field (array_values a) (fst (snd kb)) (snd (snd kb))) as [ok|e]; cbn [bind].
    + rewrite IH. destruct (check_list d bs); cbn [bind]; [|reflexivity].
      rewrite <- app_assoc. reflexivity.
    + apply fold_err. reflexivity.
Qed.

Lemma check_input_list d : check_input_data d = check_list d data_bounds.
Proof.
  unfold check_input_data. rewrite check_fold. destruct (check_list d data_bounds); reflexivity.
Qed.

Lemma check_list_ok d bs : 
  (forall k a, In k (map fst bs) -> dict_find (g_vars d) k = Some a -> array_values a <> []) ->
  exists msgs, check_list d bs = Ok msgs /\
    map fst msgs = filter (dict_mem (g_vars d)) (map fst bs) /\
    forall k ok, In (k, ok) msgs -> exists mx mn a, In (k, (mx, mn)) bs /\
      dict_find (g_vars d) k = Some a /\
      (ok = true <-> forall v, In (Some v) (array_values a) -> mn <= v <= mx).
Proof.
  induction bs as [|[k [mx mn]] bs IH]; intros H; cbn [check_list map filter fst snd].
  - exists []. split; [reflexivity|]. split; [reflexivity|]. intros k ok [].
  - destruct IH as (msgs & E & M & G). { intros k' a Hk. apply H. right; exact Hk. }
    destruct (dict_find (g_vars d) k) as [a|] eqn:Ea; unfold dict_mem at 1; rewrite Ea.
    + destruct (check_field_spec (array_values a) mx mn) as (ok & Eo & Ho).
      { apply (H k); [left; reflexivity|exact Ea]. }
      rewrite Eo, E. cbn [bind]. exists ((k, ok) :: msgs). split; [reflexivity|].
      split; [cbn; rewrite M; reflexivity|].
      intros k' ok' [I|I].
      * injection I as <- <-. exists mx, mn, a. cbn; auto.
      * destruct (G _ _ I) as (mx' & mn' & a' & G1 & G2). exists mx', mn', a'. cbn; tauto.
    + exists msgs. split; [exact E|]. split; [exact M|]. intros k' ok' I.
      destruct (G _ _ I) as (mx' & mn' & a' & G1 & G2). exists mx', mn', a'. cbn; tauto.
Qed.

Lemma check_list_fails d bs k a :
  In k (map fst bs) -> dict_find (g_vars d) k = Some a -> array_values a = [] ->
  check_list d bs = Err ValueError.
Proof.
  induction bs as [|[k' [mx mn]] bs IH]; cbn [check_list map fst snd]; intros I Ea Ev; [destruct I|].
  destruct I as [->|I].
  - rewrite Ea, Ev. reflexivity.
  - rewrite (IH I Ea Ev). destruct (dict_find (g_vars d) k') as [a'|]; [|reflexivity].
    unfold check_field. destruct (array_values a') as [|v l]; [reflexivity|].
    destruct (reals_of (v :: l)); reflexivity.
Qed.

Lemma bounds_in k mx mn : In (k, (mx, mn)) data_bounds ->
  (k = "SLOPE"%string /\ mx = 0 /\ mn = 90) \/ (k <> "SLOPE"%string /\ dict_find valid_range k = Some (mn, mx)).
Proof.
  intros H. cbn in H.
  repeat (destruct H as [H|H]; [injection H as <- <- <-; try (right; split; [discriminate|cbn; f_equal; f_equal; lra])|]).
  - left. repeat split; lra.
  - destruct H.
Qed.

Lemma some_entry_iff a : array_values a <> [] <-> some_entry a.
Proof.
  split.
  - intros H. destruct (array_values a) as [|v l] eqn:E; [congruence|].
    assert (I : In v (array_values a)) by (rewrite E; left; reflexivity).
    apply in_array_values in I as (row & b & I). exists row, b, v. exact I.
  - intros (row & b & v & H) E. assert (I : In v (array_values a)) by (apply in_array_values; eauto).
    rewrite E in I. destruct I.
Qed.

(*@ C48 The check of the input never stops the program unless a checked field is empty.  It reports
   on exactly the known variables that the dataset has; a field is reported as valid if and only
   if all its numbers lie in the range of the table, NaNs being ignored.  For the slope the bounds
   are swapped: it is reported as valid only if it holds no number at all. *)
Lemma input_check_lem :
  forall d,
    ((exists name arr, dict_find valid_range name <> None /\
        dict_find (g_vars d) name = Some arr /\ ~ some_entry arr) ->
       check_input_data d = Err ValueError) /\
    ((forall name arr, dict_find valid_range name <> None ->
        dict_find (g_vars d) name = Some arr -> some_entry arr) ->
     exists msgs, check_input_data d = Ok msgs /\
       map fst msgs =
         filter (fun name => match dict_find (g_vars d) name with Some _ => true | None => false end)
           (map fst valid_range) /\
       forall name ok, In (name, ok) msgs ->
         exists arr lo hi, dict_find (g_vars d) name = Some arr /\
           dict_find valid_range name = Some (lo, hi) /\
           (if String.eqb name "SLOPE" then (ok = true <-> all_nan arr)
            else (ok = true <-> values_within lo hi arr))).
Proof.
  intros d. rewrite check_input_list. split.
  - intros (name & arr & H1 & H2 & H3). apply (check_list_fails d data_bounds name arr).
    + destruct (dict_find valid_range name) as [v|] eqn:E; [|congruence].
      apply find_key in E. exact E.
    + exact H2.
    + destruct (array_values arr) eqn:E; [reflexivity|]. exfalso. apply H3, some_entry_iff.
      rewrite E. discriminate.
  - intros H. destruct (check_list_ok d data_bounds) as (msgs & E & M & G).
    { intros k a Hk Ea. apply some_entry_iff. apply (H k); [|exact Ea].
      intros N. apply find_none in N. apply N. exact Hk. }
    exists msgs. split; [exact E|]. split.
    { rewrite M. apply filter_ext. intros k. unfold dict_mem. reflexivity. }
    intros name ok I. destruct (G _ _ I) as (mx & mn & a & G1 & G2 & G3).
    destruct (bounds_in _ _ _ G1) as [(-> & -> & ->)|[N V]].
    + exists a, 0, 90. split; [exact G2|]. split; [cbn; reflexivity|]. cbn [String.eqb].
      change (String.eqb "SLOPE" "SLOPE") with true. cbv iota.
      eapply iff_trans; [exact G3|]. split.
      * intros Hv row b v R1 R2 R3.
        assert (Iv : In (Some v) (array_values a)) by (apply in_array_values; eauto).
        apply Hv in Iv. lra.
      * intros Hn v Iv. apply in_array_values in Iv as (row & b & R1 & R2 & R3).
        exfalso. exact (Hn row b v R1 R2 R3).
    + exists a, mn, mx. split; [exact G2|]. split; [exact V|].
      destruct (eqb_spec_s name "SLOPE"%string) as [|_]; [contradiction|].
      eapply iff_trans; [exact G3|]. split.
      * intros Hv row b v R1 R2 R3. apply Hv. apply in_array_values; eauto.
      * intros Hn v Iv. apply in_array_values in Iv as (row & b & R1 & R2 & R3).
        exact (Hn row b v R1 R2 R3).
Qed.

(*@ex a valid temperature, an excessive wind, and a slope of 20 degrees, which is warned about *)
Lemma input_check_case_lem :
  exists d, check_input_data d = Ok [("T2"%string, true); ("U2"%string, false); ("SLOPE"%string, false)].
Proof.
  exists (mkGridded [0%Z] [("T2"%string, [[Series [Some 270; None]]]); ("U2"%string, [[Series [Some 60]]]);
    ("SLOPE"%string, [[Series [Some 20]]])]).
  rewrite check_input_list. cbn. unfold max_list, min_list. cbn.
  repeat (match goal with |- context [Rltb ?a ?b] => destruct (Rltb_spec a b); try lra end).
  reflexivity.
Qed.

(** ** Time *)

Lemma insert_sorted t l : ascending l -> (forall u, In u l -> (t <= u)%Z) -> insert_time t l = t :: l.
Proof.
  intros _ H. destruct l as [|u l]; [reflexivity|]. cbn.
  destruct (Z.leb_spec t u); [reflexivity|]. specialize (H u (or_introl eq_refl)). lia.
Qed.

Lemma sort_ascending l : ascending l -> sort_times l = l.
Proof.
  induction l as [|t l IH]; intros H; [reflexivity|]. cbn.
  inversion H as [|? ? H1 H2]; subst. rewrite (IH H1). apply insert_sorted; [exact H1|].
  rewrite Forall_forall in H2. exact H2.
Qed.

Lemma insert_perm t l : Permutation (t :: l) (insert_time t l).
Proof.
  induction l as [|u l IH]; cbn; [reflexivity|].
  destruct (t <=? u)%Z; [reflexivity|].
  eapply Permutation_trans; [apply perm_swap|]. constructor. exact IH.
Qed.

Lemma sort_perm l : Permutation l (sort_times l).
Proof.
  induction l as [|t l IH]; [reflexivity|]. cbn.
  eapply Permutation_trans; [constructor; exact IH|apply insert_perm].
Qed.

Lemma pick_filter {A} (f : A -> bool) l : pick (map f l) l = filter f l.
Proof. induction l as [|a l IH]; cbn; [reflexivity|]. destruct (f a); rewrite IH; reflexivity. Qed.

Lemma pick_combine (f : Z -> bool) times (l : list number) :
  length l = length times ->
  combine (pick (map f times) times) (pick (map f times) l) =
  filter (fun tv => f (fst tv)) (combine times l).
Proof.
  revert l; induction times as [|t times IH]; intros [|v l] H; try discriminate; [reflexivity|].
  cbn in H. injection H as H. cbn. destruct (f t) eqn:E; cbn; rewrite IH by exact H; reflexivity.
Qed.

Lemma cell_at_map {A B} (f : A -> B) (a : cells A) y x :
  cell_at (map (map f) a) y x = option_map f (cell_at a y x).
Proof.
  unfold cell_at. destruct ((0 <=? y) && (0 <=? x))%Z%bool; [|reflexivity].
  rewrite nth_error_map. destruct (nth_error a (Z.to_nat y)) as [row|]; cbn; [|reflexivity].
  apply nth_error_map.
Qed.

Lemma init_data_parts parse cfg raw rd sel msgs :
  init_data_dataset parse cfg (Some raw) rd = Ok (sel, msgs) ->
  exists lo hi, period parse cfg rd lo hi /\
    sel = select_time (map (in_period lo hi) (sort_times (g_times raw)))
            (mkGridded (sort_times (g_times raw)) (g_vars raw)).
Proof.
  intros H. unfold init_data_dataset in H.
  apply bind_ok in H as (first & _ & H). apply bind_ok in H as (last & _ & H).
  apply bind_ok in H as (ts & E1 & H). apply bind_ok in H as (te & E2 & H).
  destruct ((_ <? _)%Z || (_ <? _)%Z)%bool; [discriminate|].
  apply bind_ok in H as ([e hi] & E3 & H). apply bind_ok in H as (lo & E4 & H).
  apply bind_ok in H as (ms & E5 & H). injection H as <- <-. cbn [snd].
  exists lo, hi. split; [|reflexivity]. split; [eauto|].
  destruct rd as [r|].
  - destruct (r =? seconds te)%Z; [discriminate|]. injection E4 as <-. reflexivity.
  - apply bind_ok in E4 as ([a b] & E4 & E4'). injection E4' as <-. cbn. eauto.
Qed.

(*@ C49 With an ascending time axis the selected data are the data of the period, each value under
   its own time: the selected series of a cell, with the selected labels, is the part of the labelled
   series of the file that lies in the period.  Static fields are left as they are. *)
Lemma time_labels_kept_lem :
  forall parse cfg raw rd sel msgs,
    ascending (g_times raw) ->
    init_data_dataset parse cfg (Some raw) rd = Ok (sel, msgs) ->
    exists lo hi, period parse cfg rd lo hi /\
      g_times sel = filter (between lo hi) (g_times raw) /\
      map fst (g_vars sel) = map fst (g_vars raw) /\
      (forall name arr, In (name, arr) (g_vars raw) ->
         In name ["HGT"; "MASK"; "SLOPE"; "ASPECT"]%string -> In (name, arr) (g_vars sel)) /\
      (forall name arr, In (name, arr) (g_vars raw) ->
         ~ In name ["HGT"; "MASK"; "SLOPE"; "ASPECT"]%string ->
         exists arr', In (name, arr') (g_vars sel) /\
           forall y x l, cell_at arr y x = Some (Series l) -> length l = length (g_times raw) ->
             exists l', cell_at arr' y x = Some (Series l') /\
               combine (g_times sel) l' =
               filter (fun tv => between lo hi (fst tv)) (combine (g_times raw) l)).
Proof.
  intros parse cfg raw rd sel msgs A H.
  apply init_data_parts in H as (lo & hi & P & ->). rewrite (sort_ascending _ A).
  exists lo, hi. split; [exact P|]. cbn [select_time g_times g_vars].
  split; [apply pick_filter|]. split; [|split].
  - rewrite map_map. apply map_ext. intros [n a]. cbn [fst snd]. destruct (in_names n static_names); reflexivity.
  - intros name arr I S. apply in_map_iff. exists (name, arr). split; [|exact I]. cbn [fst].
    replace (in_names name static_names) with true; [reflexivity|].
    symmetry. apply LemIO4.in_names_true. exact S.
  - intros name arr I S. exists (map (map (pick_block (map (in_period lo hi) (g_times raw)))) arr). split.
    + apply in_map_iff. exists (name, arr). split; [|exact I]. cbn [fst snd].
      destruct (in_names name static_names) eqn:E; [|reflexivity].
      apply LemIO4.in_names_iff in E. contradiction.
    + intros y x l C L. exists (pick (map (in_period lo hi) (g_times raw)) l). split.
      * rewrite cell_at_map, C. reflexivity.
      * apply pick_combine. exact L.
Qed.

(*@ C49 With an unsorted time axis the labels are sorted but the data are not: for a file with the
   times 3600 and 0 and the temperatures 280 and 270 the run sees 280 at time 0. *)
Lemma unsorted_time_mislabels_refuted_lem :
  exists parse cfg raw sel msgs arr l,
    init_data_dataset parse cfg (Some raw) None = Ok (sel, msgs) /\
    In ("T2"%string, [[Series [Some 280; Some 270]]]) (g_vars raw) /\
    g_times raw = [3600; 0]%Z /\
    In ("T2"%string, arr) (g_vars sel) /\ cell_at arr 0 0 = Some (Series l) /\
    In (0%Z, Some 280) (combine (g_times sel) l) /\
    ~ In (0%Z, Some 280) (combine (g_times raw) [Some 280; Some 270]).
Proof.
  exists (fun s => if String.eqb s "a" then Some (0, 1)%Z else Some (3600, 1)%Z).
  exists (mkRunConfig "" "" "" false false false "lat" "lon" false 0 0 0 0 false
            "rmse" "mb" (VStr "a") (VStr "b") "out").
  exists (mkGridded [3600; 0]%Z [("T2"%string, [[Series [Some 280; Some 270]]])]).
  eexists _, _, [[Series [Some 280; Some 270]]], [Some 280; Some 270].
  split.
  - unfold init_data_dataset. cbn -[check_input_data].
    replace (check_input_data _) with (Ok [("T2"%string, true)]).
    + cbn [bind]. reflexivity.
    + symmetry. rewrite check_input_list. cbn. unfold max_list, min_list. cbn.
      unfold Rmax, Rmin.
      repeat (match goal with |- context [Rle_dec ?a ?b] => destruct (Rle_dec a b); try lra end).
      repeat (match goal with |- context [Rltb ?a ?b] => destruct (Rltb_spec a b); try lra end).
      reflexivity.
  - cbn. split; [auto|]. split; [reflexivity|]. split; [auto|]. split; [reflexivity|].
    split; [auto|]. intros [H|[H|[]]]; [discriminate|]. injection H as H. lra.
Qed.

(*@ C49 Whatever the axis, the labels of the selected data are exactly the labels of the file that lie
   in the period, in ascending order if the file is. *)
Lemma time_labels_complete_lem :
  forall parse cfg raw rd sel msgs,
    init_data_dataset parse cfg (Some raw) rd = Ok (sel, msgs) ->
    exists lo hi, period parse cfg rd lo hi /\
      Permutation (g_times sel) (filter (between lo hi) (g_times raw)).
Proof.
  intros parse cfg raw rd sel msgs H. apply init_data_parts in H as (lo & hi & P & ->).
  exists lo, hi. split; [exact P|]. cbn [select_time g_times]. rewrite pick_filter.
  assert (G : forall (f : Z -> bool) l l', Permutation l l' -> Permutation (filter f l') (filter f l)).
  { clear. intros f l l' Q. induction Q as [|a l l' Q IH|a b l|l l' l'' Q1 IH1 Q2 IH2]; cbn.
    - constructor.
    - destruct (f a); [constructor|]; exact IH.
    - destruct (f a), (f b); try reflexivity. apply perm_swap.
    - eapply Permutation_trans; eassumption. }
  apply G, sort_perm.
Qed.

(** ** Restart *)

(*@ C64 A restarted run reads the steps from the time of the restart file plus the step length on: if
   the steps of the file are a multiple of the step length apart from the restart time, the new run
   continues with exactly the later steps. *)
Lemma restart_continues_lem :
  forall parse cfg raw last dt sel msgs,
    ascending (g_times raw) -> (0 < dt)%Z ->
    (forall t, In t (g_times raw) -> exists k, (t = last + k * dt)%Z) ->
    init_data_dataset parse cfg (Some raw) (Some (last + dt)%Z) = Ok (sel, msgs) ->
    exists hi e, slice_bounds parse (rc_time_end cfg) = Ok (e, hi) /\
      g_times sel = filter (fun t => (last <? t) && (t <=? hi))%Z%bool (g_times raw).
Proof.
  intros parse cfg raw last dt sel msgs A Hdt K H.
  apply init_data_parts in H as (lo & hi & [[e P1] P2] & ->). cbn in P2. subst lo.
  exists hi, e. split; [exact P1|]. cbn [select_time g_times]. rewrite pick_filter, (sort_ascending _ A).
  apply filter_ext_in. intros t It. unfold in_period. f_equal.
  destruct (K _ It) as [k ->].
  destruct (Z.leb_spec (last + dt) (last + k * dt)); destruct (Z.ltb_spec last (last + k * dt));
    try reflexivity; exfalso; destruct (Z_le_gt_dec k 0); nia.
Qed.

(*@ C64 Otherwise the steps between the restart time and the restart time plus the step length are
   lost: with a step length of 3600 s and a file with the times 0, 1800, 3600 and 5400, a run
   restarted at 0 never sees 1800. *)
Lemma restart_skips_steps_refuted_lem :
  exists parse cfg raw sel msgs,
    ascending (g_times raw) /\
    init_data_dataset parse cfg (Some raw) (Some (0 + 3600)%Z) = Ok (sel, msgs) /\
    In 1800%Z (g_times raw) /\ g_times sel = [3600; 5400]%Z.
Proof.
  exists (fun s => if String.eqb s "a" then Some (0, 1)%Z else Some (7200, 1)%Z).
  exists (mkRunConfig "" "" "" false true false "lat" "lon" false 0 0 0 0 false
            "rmse" "mb" (VStr "a") (VStr "b") "out").
  exists (mkGridded [0; 1800; 3600; 5400]%Z []).
  eexists _, _. split; [repeat constructor; lia|]. split; [reflexivity|].
  cbn. split; [auto|reflexivity].
Qed.

(*@ C64 A restarted run never completes through the main program: a start time in text has no strftime
   once it is a numpy time (AttributeError), and a start date of the TOML file cannot be cut into the
   name of the output file (TypeError at the very end, after the computation). *)
Lemma restart_never_completes_lem :
  forall parse cfg c work arrivals file open_restart stakes measured w,
    rc_restart cfg = true ->
    cosipy_main parse cfg c work arrivals file open_restart stakes measured <> Ok w.
Proof.
  intros parse cfg c work arrivals file open_restart stakes measured w Rs H.
  unfold cosipy_main in H.
  apply bind_ok in H as ([[[io data] gr] ms] & E1 & H). apply bind_ok in H as (io1 & _ & H).
  apply bind_ok in H as (last & _ & H). apply bind_ok in H as (col & _ & H).
  apply bind_ok in H as (name & E2 & _).
  unfold create_data_file in E1. rewrite Rs in E1.
  apply bind_ok in E1 as (x & E1 & _). apply bind_ok in E1 as (ts & E1 & E3).
  apply bind_ok in E2 as (a & E2 & _).
  destruct (rc_time_start cfg) as [b|z|r|s|l|t|]; cbn in E1, E2; try discriminate.
  destruct (parse s) as [[t u]|]; [|discriminate]. injection E1 as <-.
  apply bind_ok in E3 as (te & _ & E3). discriminate.
Qed.

(*@ C64 With a start time in text a restarted run stops at once, before any cell is computed. *)
Lemma restart_text_fails_early_lem :
  forall parse cfg c work arrivals file open_restart stakes measured s t u te,
    rc_restart cfg = true -> rc_time_start cfg = VStr s -> parse s = Some (t, u) ->
    get_datetime parse (rc_time_end cfg) = Ok te ->
    cosipy_main parse cfg c work arrivals file open_restart stakes measured = Err AttributeError.
Proof.
  intros parse cfg c work arrivals file open_restart stakes measured s t u te Rs Ts Ps Te.
  unfold cosipy_main, create_data_file. rewrite Rs, Ts. cbn [get_datetime]. rewrite Ps. cbn [bind].
  rewrite Te. reflexivity.
Qed.
