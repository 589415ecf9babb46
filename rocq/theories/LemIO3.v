(** * The order of the workers does not matter; what the arrays hold in the end *)
From Verif Require Import ModelPy ModelConstants ModelNode ModelGrid ModelSurface ModelInit
  ModelCore ModelConfig ModelIO ModelMain SpecIO LemPy LemDict LemIO LemIO2.
From Coq Require Import Permutation.

Definition proper (acc : Collected) : Prop :=
  NoDup (map fst (io_RESULT (col_io acc))) /\ NoDup (map fst (io_RESTART (col_io acc))).

Definition alike (acc acc' : Collected) : Prop :=
  col_io acc' = col_io acc /\ Permutation (col_stat acc) (col_stat acc').

Lemma alike_refl acc : alike acc acc.
Proof. split; reflexivity. Qed.

Lemma alike_trans a b c : alike a b -> alike b c -> alike a c.
Proof. intros [E1 P1] [E2 P2]. split; [congruence|eapply Permutation_trans; eassumption]. Qed.

Lemma union_nodup {V} (d p : dict V) : NoDup (map fst d) -> NoDup (map fst (dict_union d p)).
Proof. rewrite keys_union. apply add_keys_nodup. Qed.

Lemma store_stakes_shift cfg env stat vals stat' vals' :
  store_stakes cfg env stat vals = Ok (stat', vals') ->
  exists extra, stat' = stat ++ extra /\
    forall st vs, exists ws, store_stakes cfg env st vs = Ok (st ++ extra, ws).
Proof.
  unfold store_stakes. destruct (rc_stake_evaluation cfg).
  - intros H. apply bind_ok in H as (s & -> & H). apply bind_ok in H as (n & -> & H).
    apply bind_ok in H as (df & -> & H). cbn [bind].
    destruct s; try discriminate; destruct n; try discriminate; destruct df; try discriminate.
    injection H as <- _. exists [s]. split; [reflexivity|]. intros st vs. eexists; reflexivity.
  - intros H; injection H as <- _. exists []. split; [rewrite app_nil_r; reflexivity|].
    intros st vs. exists vs. rewrite app_nil_r; reflexivity.
Qed.

Lemma store_alike cfg r y x acc acc' b :
  firstn 2 r = [PIdx y; PIdx x] -> alike acc acc' -> store_result cfg r acc = Ok b ->
  exists b', store_result cfg r acc' = Ok b' /\ alike b b'.
Proof.
  intros F [E P] H.
  apply (store_result_ok cfg r y x _ _ F) in H as (L & os & a & p & q & st & vs & H1 & H2 & H3 & H4 & H5 & ->).
  destruct (store_stakes_shift _ _ _ _ _ _ H5) as (extra & -> & G).
  destruct (G (col_stat acc') (col_val acc')) as (ws & G').
  eexists. split.
  - apply (store_result_ok cfg r y x _ _ F). split; [exact L|].
    exists os, a, p, q, (col_stat acc' ++ extra), ws. rewrite E.
    repeat (split; [eassumption|]). reflexivity.
  - split; cbn; [reflexivity|]. apply Permutation_app_tail. exact P.
Qed.

Lemma store_proper cfg r y x acc b :
  firstn 2 r = [PIdx y; PIdx x] -> proper acc -> store_result cfg r acc = Ok b -> proper b.
Proof.
  intros F [P1 P2] H.
  apply (store_result_ok cfg r y x _ _ F) in H as (L & os & a & p & q & st & vs & H1 & H2 & H3 & H4 & H5 & ->).
  split; cbn; apply union_nodup; assumption.
Qed.

Lemma names_rebuild io a R1 R2 : names_of (rebuild io a R1 R2) = names_of io.
Proof. reflexivity. Qed.

Lemma store_swap cfg r r' y x y' x' acc b c :
  (0 <= y)%Z -> (0 <= x)%Z -> (0 <= y')%Z -> (0 <= x')%Z -> (y, x) <> (y', x') ->
  firstn 2 r = [PIdx y; PIdx x] -> firstn 2 r' = [PIdx y'; PIdx x'] ->
  proper acc -> store_result cfg r acc = Ok b -> store_result cfg r' b = Ok c ->
  exists b' c', store_result cfg r' acc = Ok b' /\ store_result cfg r b' = Ok c' /\ alike c c'.
Proof.
  intros Hy Hx Hy' Hx' N F F' [P1 P2] H H'.
  apply (store_result_ok cfg r y x _ _ F) in H as (L & os & a & p & q & st & vs & H1 & H2 & H3 & H4 & H5 & ->).
  apply (store_result_ok cfg r' y' x' _ _ F') in H' as (L' & os' & a' & p' & q' & st' & vs' & H1' & H2' & H3' & H4' & H5' & ->).
  cbn [col_io col_stat col_val] in *. rewrite names_rebuild in *.
  cbn [io_arrays io_RESULT io_RESTART rebuild] in *.
  destruct (do_ops_swap _ _ _ _ _ _ _ _ _ Hy Hx Hy' Hx' N H2 H2') as (d & D1 & D2).
  pose proof (do_ops_keys _ _ _ _ _ Hy' Hx' D1) as K1.
  pose proof (do_ops_keys _ _ _ _ _ Hy Hx H2) as K2.
  destruct (result_pairs_keys cfg (names_of (col_io acc)) a d p) as (p1 & Q1 & Q1'); [congruence|exact H3|].
  destruct (restart_pairs_keys cfg a d q) as (q1 & Q2 & Q2'); [congruence|exact H4|].
  destruct (store_stakes_shift _ _ _ _ _ _ H5) as (e & -> & G).
  destruct (store_stakes_shift _ _ _ _ _ _ H5') as (e' & -> & G').
  destruct (G' (col_stat acc) (col_val acc)) as (ws' & S1).
  destruct (G (col_stat acc ++ e') ws') as (ws & S2).
  eexists. eexists. split; [|split].
  - apply (store_result_ok cfg r' y' x' _ _ F'). split; [exact L'|].
    exists os', d, p1, q1, (col_stat acc ++ e'), ws'.
    repeat (split; [eassumption|]). reflexivity.
  - apply (store_result_ok cfg r y x _ _ F). split; [exact L|].
    exists os, a', p', q', ((col_stat acc ++ e') ++ e), ws.
    cbn [col_io col_stat col_val]. rewrite names_rebuild.
    cbn [io_arrays io_RESULT io_RESTART rebuild].
    repeat (split; [eassumption|]). reflexivity.
  - assert (K3 : map fst p = map fst p').
    { destruct (result_pairs_keys cfg (names_of (col_io acc)) a a' p) as (p2 & Q3 & Q4); [|exact H3|congruence].
      exact (do_ops_keys _ _ _ _ _ Hy' Hx' H2'). }
    assert (K4 : map fst q = map fst q').
    { destruct (restart_pairs_keys cfg a a' q) as (q2 & Q3 & Q4); [|exact H4|congruence].
      exact (do_ops_keys _ _ _ _ _ Hy' Hx' H2'). }
    split; cbn [col_io col_stat].
    + unfold rebuild; cbn. f_equal.
      * rewrite !union_overwrite; congruence.
      * rewrite !union_overwrite; congruence.
    + rewrite <- !app_assoc. apply Permutation_app_head. apply Permutation_app_comm.
Qed.

Definition in_quadrant (j : Job) : Prop := (0 <= j_y j)%Z /\ (0 <= j_x j)%Z.

Lemma collect_alike cfg work l acc acc' c :
  answers_for_its_cell work -> alike acc acc' -> collect cfg work l acc = Ok c ->
  exists c', collect cfg work l acc' = Ok c' /\ alike c c'.
Proof.
  intros W. revert acc acc' c; induction l as [|j l IH]; cbn [collect]; intros acc acc' c A H.
  - injection H as <-. exists acc'. auto.
  - apply bind_ok in H as (r & Er & H). apply bind_ok in H as (b & Eb & H).
    destruct (store_alike _ _ _ _ _ _ _ (W _ _ Er) A Eb) as (b' & Eb' & A').
    rewrite Er. cbn [bind]. rewrite Eb'. cbn [bind]. exact (IH _ _ _ A' H).
Qed.

Lemma collect_perm cfg work l l' :
  answers_for_its_cell work -> Permutation l l' ->
  NoDup (map job_cell l) -> Forall in_quadrant l ->
  forall acc c, proper acc -> collect cfg work l acc = Ok c ->
  exists c', collect cfg work l' acc = Ok c' /\ alike c c'.
Proof.
  intros W P. induction P as [|j l l' P IH|j k l|l l' l'' P1 IH1 P2 IH2]; intros ND Q acc c PR H.
  - exists c. split; [exact H|apply alike_refl].
  - cbn [collect map] in *. inversion ND as [|? ? N1 N2]; inversion Q as [|? ? Q1 Q2]; subst.
    apply bind_ok in H as (r & Er & H). apply bind_ok in H as (b & Eb & H).
    rewrite Er. cbn [bind]. rewrite Eb. cbn [bind].
    apply IH; try assumption. exact (store_proper _ _ _ _ _ _ (W _ _ Er) PR Eb).
  - cbn [collect map] in *. inversion ND as [|? ? N1 N2]; subst.
    inversion Q as [|? ? Q1 Q2]; subst. inversion Q2 as [|? ? Q3 Q4]; subst.
    apply bind_ok in H as (r & Er & H). apply bind_ok in H as (b & Eb & H).
    apply bind_ok in H as (r' & Er' & H). apply bind_ok in H as (b2 & Eb' & H).
    assert (job_cell k <> job_cell j) as N by (intros E; apply N1; left; congruence).
    unfold job_cell in N. destruct Q1, Q3.
    destruct (store_swap cfg r r' (j_y k) (j_x k) (j_y j) (j_x j) acc b b2) as (d & e & D1 & D2 & A);
      auto.
    rewrite Er'. cbn [bind]. rewrite D1. cbn [bind]. rewrite Er. cbn [bind]. rewrite D2. cbn [bind].
    exact (collect_alike _ _ _ _ _ _ W A H).
  - destruct (IH1 ND Q acc c PR H) as (c1 & H1 & A1).
    destruct (IH2) with (acc := acc) (c := c1) as (c2 & H2 & A2); try assumption.
    + eapply Permutation_NoDup; [apply Permutation_map; exact P1|exact ND].
    + apply Forall_forall. intros j Hj. rewrite Forall_forall in Q. apply Q.
      apply (Permutation_in j (Permutation_sym P1) Hj).
    + exists c2. split; [exact H2|eapply alike_trans; eassumption].
Qed.

(** ** What the arrays hold *)

Lemma assign_block old b new : assign old (PBlock b) = Ok new -> new = b.
Proof.
  unfold assign. destruct b as [n|n], old as [o|o]; try discriminate.
  - destruct (length n =? length o)%nat; [intros H; injection H as <-; reflexivity|discriminate].
  - destruct (same_shape n o); [intros H; injection H as <-; reflexivity|discriminate].
Qed.

Lemma do_ops_content y x os a b k arr :
  (0 <= y)%Z -> (0 <= x)%Z -> do_ops y x os a = Ok b -> dict_find a k = Some arr ->
  exists arr', dict_find b k = Some arr' /\
    (forall y' x', (y', x') <> (y, x) -> cell_at arr' y' x' = cell_at arr y' x') /\
    (find_last os k = None -> arr' = arr) /\
    (forall v, find_last os k = Some (PBlock v) -> cell_at arr' y x = Some v).
Proof.
  intros Hy Hx. revert a arr; induction os as [|o os IH]; cbn [do_ops]; intros a arr E Fa.
  - injection E as <-. exists arr. repeat split; auto. discriminate.
  - apply bind_ok in E as (a1 & E1 & E).
    apply do_op_inv in E1 as (arr0 & old & new & F1 & C1 & A1 & ->); [|assumption..].
    destruct o as [n v]; cbn [fst snd] in *.
    destruct (eqb_spec_s n k) as [->|N].
    + assert (arr0 = arr) by congruence. subst arr0.
      destruct (IH _ (put y x new arr) E (find_set_same _ _ _)) as (arr' & G1 & G2 & G3 & G4).
      exists arr'. split; [exact G1|]. split; [|split].
      * intros y' x' D. rewrite G2 by exact D. rewrite cell_at_put by assumption.
        destruct (Z.eqb_spec y' y); destruct (Z.eqb_spec x' x); cbn; congruence.
      * cbn [find_last]. destruct (find_last os k); [discriminate|].
        rewrite String.eqb_refl. discriminate.
      * cbn [find_last]. destruct (find_last os k) eqn:El; [exact G4|].
        rewrite String.eqb_refl. intros w H; injection H as ->.
        rewrite G3 by reflexivity. rewrite cell_at_put by assumption.
        rewrite !Z.eqb_refl. cbn [andb]. rewrite C1. cbn.
        apply assign_block in A1. congruence.
    + destruct (IH _ arr E) as (arr' & G1 & G2 & G3 & G4).
      { rewrite find_set_other by congruence. exact Fa. }
      exists arr'. split; [exact G1|]. split; [exact G2|]. split.
      * cbn [find_last]. destruct (find_last os k); [discriminate|].
        intros _; apply G3; reflexivity.
      * cbn [find_last]. destruct (find_last os k); [exact G4|].
        destruct (eqb_spec_s n k); [contradiction|]. discriminate.
Qed.

Lemma find_last_app {V} (p q : dict V) k :
  find_last (p ++ q) k = match find_last q k with Some v => Some v | None => find_last p k end.
Proof.
  induction p as [|[n v] p IH]; cbn.
  - destruct (find_last q k); reflexivity.
  - rewrite IH. destruct (find_last q k); reflexivity.
Qed.

Lemma find_last_none {V} (p : dict V) k : ~ In k (map fst p) -> find_last p k = None.
Proof.
  intros H. destruct (find_last p k) eqn:E; [|reflexivity].
  exfalso; apply H, find_last_key; eauto.
Qed.

(** one job of a cell *)
Fixpoint job_at (l : list Job) (y x : Z) : option Job :=
  match l with
  | [] => None
  | j :: t => if ((j_y j =? y) && (j_x j =? x))%Z%bool then Some j else job_at t y x
  end.

Lemma job_at_some l y x j : job_at l y x = Some j -> In j l /\ j_y j = y /\ j_x j = x.
Proof.
  induction l as [|k t IH]; cbn; [discriminate|].
  destruct (Z.eqb_spec (j_y k) y); destruct (Z.eqb_spec (j_x k) x); cbn; intros H;
    try (apply IH in H; tauto).
  injection H as ->. auto.
Qed.

Lemma job_at_none l y x : job_at l y x = None -> forall j, In j l -> job_cell j <> (y, x).
Proof.
  induction l as [|k t IH]; cbn; intros H j Hj; [destruct Hj|].
  destruct (Z.eqb_spec (j_y k) y); destruct (Z.eqb_spec (j_x k) x); cbn in H; try discriminate;
    (destruct Hj as [->|Hj]; [unfold job_cell; congruence|exact (IH H _ Hj)]).
Qed.

Lemma job_at_unique l j : NoDup (map job_cell l) -> In j l -> job_at l (j_y j) (j_x j) = Some j.
Proof.
  induction l as [|k t IH]; cbn; intros ND H; [destruct H|].
  inversion ND as [|? ? N1 N2]; subst.
  destruct H as [->|H].
  - rewrite !Z.eqb_refl. reflexivity.
  - destruct (Z.eqb_spec (j_y k) (j_y j)) as [E1|]; destruct (Z.eqb_spec (j_x k) (j_x j)) as [E2|];
      cbn; try (apply IH; assumption).
    exfalso. apply N1. replace (job_cell k) with (job_cell j) by (unfold job_cell; congruence).
    apply in_map; exact H.
Qed.

Section Content.
Variable cfg : RunConfig.
Variable work : Job -> res (list pyval).
Variable k : string.
Variable val : list pyval -> block.

(** the workers assign [val] of their tuple to attribute [k] *)
Definition assigns (nm : Names) : Prop :=
  forall j r os, work j = Ok r -> worker_ops cfg nm r = Ok os ->
    find_last os k = Some (PBlock (val r)).

(** no worker assigns attribute [k] *)
Definition leaves (nm : Names) : Prop :=
  forall j r os, work j = Ok r -> worker_ops cfg nm r = Ok os -> find_last os k = None.

Lemma collect_names l acc c :
  answers_for_its_cell work -> collect cfg work l acc = Ok c ->
  names_of (col_io c) = names_of (col_io acc) /\ io_ny (col_io c) = io_ny (col_io acc) /\
  io_nx (col_io c) = io_nx (col_io acc) /\ io_time (col_io c) = io_time (col_io acc).
Proof.
  intros W. revert acc; induction l as [|j l IH]; cbn [collect]; intros acc H.
  - injection H as <-. auto.
  - apply bind_ok in H as (r & Er & H). apply bind_ok in H as (b & Eb & H).
    apply IH in H.
    apply (store_result_ok cfg r _ _ _ _ (W _ _ Er)) in Eb
      as (L & os & a & p & q & st & vs & H1 & H2 & H3 & H4 & H5 & ->).
    exact H.
Qed.

Lemma collect_assigned l acc c arr :
  answers_for_its_cell work -> assigns (names_of (col_io acc)) ->
  NoDup (map job_cell l) -> Forall in_quadrant l ->
  collect cfg work l acc = Ok c -> dict_find (io_arrays (col_io acc)) k = Some arr ->
  exists arr', dict_find (io_arrays (col_io c)) k = Some arr' /\
    forall y x,
      match job_at l y x with
      | Some j => exists r, work j = Ok r /\ cell_at arr' y x = Some (val r)
      | None => cell_at arr' y x = cell_at arr y x
      end.
Proof.
  intros W. revert acc arr; induction l as [|j l IH]; cbn [collect map]; intros acc arr A ND Q H Fa.
  - injection H as <-. exists arr. split; [exact Fa|]. intros y x. reflexivity.
  - inversion ND as [|? ? N1 N2]; inversion Q as [|? ? [Q1 Q2] Q3]; subst.
    apply bind_ok in H as (r & Er & H). apply bind_ok in H as (b & Eb & H).
    apply (store_result_ok cfg r _ _ _ _ (W _ _ Er)) in Eb
      as (L & os & a & p & q & st & vs & H1 & H2 & H3 & H4 & H5 & ->).
    destruct (do_ops_content _ _ _ _ _ k arr Q1 Q2 H2 Fa) as (arr1 & G1 & G2 & _ & G4).
    destruct (IH (mkCollected (rebuild (col_io acc) a (dict_union (io_RESULT (col_io acc)) p)
                   (dict_union (io_RESTART (col_io acc)) q)) st vs) arr1 A N2 Q3 H G1) as (arr' & F1 & F2).
    exists arr'. split; [exact F1|]. intros y x. specialize (F2 y x). cbn [job_at].
    destruct (Z.eqb_spec (j_y j) y) as [<-|Ny]; destruct (Z.eqb_spec (j_x j) x) as [<-|Nx]; cbn [andb].
    + exists r. split; [exact Er|].
      destruct (job_at l (j_y j) (j_x j)) as [j'|] eqn:Ej.
      * exfalso. apply job_at_some in Ej as (I1 & I2 & I3). apply N1.
        replace (job_cell j) with (job_cell j') by (unfold job_cell; congruence).
        apply in_map; exact I1.
      * rewrite F2. apply G4. exact (A _ _ _ Er H1).
    + destruct (job_at l (j_y j) x); [exact F2|]. rewrite F2. apply G2. congruence.
    + destruct (job_at l y (j_x j)); [exact F2|]. rewrite F2. apply G2. congruence.
    + destruct (job_at l y x); [exact F2|]. rewrite F2. apply G2. congruence.
Qed.

Lemma collect_left l acc c arr :
  answers_for_its_cell work -> leaves (names_of (col_io acc)) -> Forall in_quadrant l ->
  collect cfg work l acc = Ok c -> dict_find (io_arrays (col_io acc)) k = Some arr ->
  dict_find (io_arrays (col_io c)) k = Some arr.
Proof.
  intros W. revert acc; induction l as [|j l IH]; cbn [collect]; intros acc A Q H Fa.
  - injection H as <-. exact Fa.
  - inversion Q as [|? ? [Q1 Q2] Q3]; subst.
    apply bind_ok in H as (r & Er & H). apply bind_ok in H as (b & Eb & H).
    apply (store_result_ok cfg r _ _ _ _ (W _ _ Er)) in Eb
      as (L & os & a & p & q & st & vs & H1 & H2 & H3 & H4 & H5 & ->).
    destruct (do_ops_content _ _ _ _ _ k arr Q1 Q2 H2 Fa) as (arr1 & G1 & _ & G3 & _).
    rewrite (G3 (A _ _ _ Er H1)) in G1.
    exact (IH (mkCollected (rebuild (col_io acc) a (dict_union (io_RESULT (col_io acc)) p)
                   (dict_union (io_RESTART (col_io acc)) q)) st vs) A Q3 H G1).
Qed.
End Content.

(** after at least one worker, the datasets hold the arrays *)
Lemma collect_datasets cfg work l acc c :
  answers_for_its_cell work -> l <> [] -> collect cfg work l acc = Ok c ->
  exists p q R1 R2, result_pairs cfg (names_of (col_io acc)) (io_arrays (col_io c)) = Ok p /\
    restart_pairs cfg (io_arrays (col_io c)) = Ok q /\
    io_RESULT (col_io c) = dict_union R1 p /\ io_RESTART (col_io c) = dict_union R2 q.
Proof.
  intros W. revert acc; induction l as [|j l IH]; cbn [collect]; intros acc N H; [congruence|].
  apply bind_ok in H as (r & Er & H). apply bind_ok in H as (b & Eb & H).
  apply (store_result_ok cfg r _ _ _ _ (W _ _ Er)) in Eb
    as (L & os & a & p & q & st & vs & H1 & H2 & H3 & H4 & H5 & ->).
  destruct l as [|j' l].
  - cbn in H. injection H as <-. cbn [col_io io_arrays rebuild io_RESULT io_RESTART].
    exists p, q. eexists. eexists. repeat split; eassumption.
  - apply IH in H; [|discriminate]. exact H.
Qed.

(** if one worker fails, so does the collecting *)
Lemma collect_work cfg work l acc c :
  collect cfg work l acc = Ok c -> forall j, In j l -> exists r, work j = Ok r.
Proof.
  revert acc; induction l as [|j l IH]; cbn [collect]; intros acc H i Hi; [destruct Hi|].
  apply bind_ok in H as (r & Er & H). apply bind_ok in H as (b & Eb & H).
  destruct Hi as [->|Hi]; [eauto|exact (IH _ H _ Hi)].
Qed.

Lemma collect_ops cfg work l acc c :
  answers_for_its_cell work -> collect cfg work l acc = Ok c -> forall j, In j l ->
  exists r os, work j = Ok r /\ worker_ops cfg (names_of (col_io acc)) r = Ok os.
Proof.
  intros W. revert acc; induction l as [|j l IH]; cbn [collect]; intros acc H i Hi; [destruct Hi|].
  apply bind_ok in H as (r & Er & H). apply bind_ok in H as (b & Eb & H).
  apply (store_result_ok cfg r _ _ _ _ (W _ _ Er)) in Eb
    as (L & os & a & p & q & st & vs & H1 & H2 & H3 & H4 & H5 & ->).
  destruct Hi as [->|Hi]; [eauto|]. exact (IH _ H _ Hi).
Qed.
