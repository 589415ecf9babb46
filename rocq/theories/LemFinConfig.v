(** * Configuration *)
From Verif Require Import ModelPy ModelConstants ModelNode ModelGrid ModelSurface ModelInit
  ModelCore ModelConfig ModelIO ModelMain ModelFiles SpecConfig SpecIO LemPy LemDict LemIO2 LemIO4
  LemIO6 LemFinIO.

(** ** Entries *)

Lemma get2_entry t h k v : get2 t h k = Ok v <-> entry t h k = Some v.
Proof.
  unfold get2, entry, dict_get. destruct (dict_find t h) as [d|]; cbn [bind]; [|split; discriminate].
  destruct (dict_find d k); split; congruence.
Qed.

Lemma get2_err t h k : entry t h k = None -> get2 t h k = Err KeyError.
Proof.
  unfold get2, entry, dict_get. destruct (dict_find t h) as [d|]; cbn [bind]; [|reflexivity].
  intros ->. reflexivity.
Qed.

Lemma set2_entry t h k v t' : set2 t h k v = Ok t' ->
  map fst t' = map fst t /\
  forall h' k', entry t' h' k' = if is_entry h k h' k' then Some v else entry t h' k'.
Proof.
  unfold set2, dict_get. destruct (dict_find t h) as [d|] eqn:E; cbn [bind]; [|discriminate].
  intros H; injection H as <-. split. { apply keys_set_present. eapply find_key; exact E. }
  intros h' k'. unfold entry, is_entry.
  rewrite find_set. destruct (eqb_spec_s h h') as [<-|N].
  - rewrite String.eqb_refl. cbn [andb]. rewrite find_set, E.
    destruct (eqb_spec_s k k') as [<-|Nk]; [rewrite String.eqb_refl; reflexivity|].
    destruct (eqb_spec_s k' k); [congruence|reflexivity].
  - destruct (eqb_spec_s h' h); [congruence|]. reflexivity.
Qed.

Lemma set2_ok t h k v : dict_find t h <> None -> exists t', set2 t h k v = Ok t'.
Proof. unfold set2, dict_get. destruct (dict_find t h); [eexists; reflexivity|congruence]. Qed.

Lemma set2_err t h k v : dict_find t h = None -> set2 t h k v = Err KeyError.
Proof. unfold set2, dict_get. intros ->. reflexivity. Qed.

Lemma set2_same t h k v : entry t h k = Some v -> set2 t h k v = Ok t.
Proof.
  unfold set2, entry, dict_get. destruct (dict_find t h) as [d|] eqn:E; [|discriminate].
  cbn [bind]. intros H. rewrite (set_same _ _ _ H), (set_same _ _ _ E). reflexivity.
Qed.

Lemma entry_table t h k v : entry t h k = Some v -> dict_find t h <> None.
Proof. unfold entry. destruct (dict_find t h); congruence. Qed.

Lemma set2_found t h k v t' h' : set2 t h k v = Ok t' ->
  (dict_find t' h' = None <-> dict_find t h' = None).
Proof. intros H. apply set2_entry in H as [H _]. rewrite !find_none, H. tauto. Qed.

(** ** Normalisation *)

(*@ C50 Loading the configuration changes exactly these entries: with WRF the names of the dimensions, with the
   coupled mode the flag of the full fields, and zero workers to None.  Every other entry and the list of
   tables stay. *)
Lemma config_normalised_lem :
  forall t t', config_correct t = Ok t' ->
    map fst t' = map fst t /\
    forall h k, entry t' h k =
      if (switched_on t "DIMENSIONS" "WRF" && is_entry "DIMENSIONS" "northing" h k)%bool
      then Some (VStr "south_north")
      else if (switched_on t "DIMENSIONS" "WRF" && is_entry "DIMENSIONS" "easting" h k)%bool
      then Some (VStr "west_east")
      else if (switched_on t "DIMENSIONS" "WRF_X_CSPY" && is_entry "FULL_FIELDS" "full_field" h k)%bool
      then Some (VBool true)
      else match entry t h k with
           | Some v => if (is_entry "PARALLELIZATION" "workers" h k && equals_zero v)%bool
                       then Some VNone else Some v
           | None => None
           end.
Proof.
  intros t t' H. unfold config_correct in H.
  apply bind_ok in H as (wrf & E1 & H). apply get2_entry in E1.
  apply bind_ok in H as (t1 & E2 & H). apply bind_ok in H as (coupled & E3 & H). apply get2_entry in E3.
  apply bind_ok in H as (t2 & E4 & H). apply bind_ok in H as (workers & E5 & H). apply get2_entry in E5.
  unfold switched_on at 1 2. rewrite E1.
  assert (A1 : map fst t1 = map fst t /\ forall h k, entry t1 h k =
     if (truthy wrf && is_entry "DIMENSIONS" "northing" h k)%bool then Some (VStr "south_north")
     else if (truthy wrf && is_entry "DIMENSIONS" "easting" h k)%bool then Some (VStr "west_east")
     else entry t h k).
  { destruct (truthy wrf).
    - apply bind_ok in E2 as (u & Eu & E2). apply set2_entry in Eu as [U1 U2].
      apply set2_entry in E2 as [V1 V2]. split; [congruence|]. intros h k. rewrite V2, U2. cbn [andb].
      unfold is_entry. destruct (eqb_spec_s h "DIMENSIONS"%string) as [->|]; cbn [andb]; [|reflexivity].
      destruct (eqb_spec_s k "easting"%string) as [->|]; reflexivity.
    - injection E2 as <-. split; [reflexivity|]. intros; reflexivity. }
  destruct A1 as [A1 A2].
  assert (E3' : entry t "DIMENSIONS" "WRF_X_CSPY" = Some coupled).
  { rewrite A2 in E3. destruct (truthy wrf); exact E3. }
  unfold switched_on. rewrite E3'.
  assert (A3 : map fst t2 = map fst t /\ forall h k, entry t2 h k =
     if (truthy coupled && is_entry "FULL_FIELDS" "full_field" h k)%bool then Some (VBool true)
     else entry t1 h k).
  { destruct (truthy coupled).
    - apply set2_entry in E4 as [U1 U2]. split; [congruence|]. intros h k. rewrite U2. reflexivity.
    - injection E4 as <-. auto. }
  destruct A3 as [A3 A4].
  assert (A5 : map fst t' = map fst t /\ forall h k, entry t' h k =
     if (is_entry "PARALLELIZATION" "workers" h k && equals_zero workers)%bool then Some VNone
     else entry t2 h k).
  { destruct (equals_zero workers).
    - apply set2_entry in H as [U1 U2]. split; [congruence|]. intros h k. rewrite U2, andb_true_r. reflexivity.
    - injection H as <-. split; [exact A3|]. intros h k. rewrite andb_false_r. reflexivity. }
  destruct A5 as [A5 A6].
  split; [exact A5|]. intros h k. rewrite A6.
  destruct (is_entry "PARALLELIZATION" "workers" h k) eqn:P.
  - unfold is_entry in P. apply andb_true_iff in P as [P1 P2].
    apply String.eqb_eq in P1, P2. subst h k.
    assert (N : forall h k, (String.eqb "PARALLELIZATION" h) = false -> is_entry h k "PARALLELIZATION" "workers" = false).
    { intros h k e. unfold is_entry. rewrite e. reflexivity. }
    rewrite A4, A2 in E5. rewrite A4, A2, !N, !andb_false_r in * by reflexivity. rewrite E5. cbn [andb].
    destruct (equals_zero workers); reflexivity.
  - cbn [andb]. rewrite A4, A2.
    unfold is_entry. destruct (truthy wrf), (truthy coupled), (eqb_spec_s h "DIMENSIONS"%string) as [->|];
      cbn [andb]; destruct (entry t _ k); try reflexivity.
Qed.

(*@ C50 What counts as switched off are false, a zero, an empty text, an empty list and nothing; the number of workers
   counts as zero if it is a zero or false, and only then, so that a negative number is kept. *)
Lemma values_that_count_lem :
  forall v,
    (truthy v = false <-> v = VBool false \/ v = VInt 0 \/ v = VFloat 0 \/ v = VStr "" \/ v = VList [] \/ v = VNone) /\
    (equals_zero v = true <-> v = VBool false \/ v = VInt 0 \/ v = VFloat 0).
Proof.
  intros v. split; (split; [|intros H; repeat destruct H as [H|H]; subst v; cbn; try reflexivity; destruct (Req_EM_T 0 0); (reflexivity || congruence)]).
  - destruct v as [[|]|z|r|[|a s]|[|a l]|t|]; cbn; try discriminate; try tauto.
    + destruct (Z.eqb_spec z 0) as [->|]; cbn; [tauto|discriminate].
    + destruct (Req_EM_T r 0) as [->|]; [tauto|discriminate].
  - destruct v as [[|]|z|r|s|l|t|]; cbn; try discriminate; try tauto.
    + destruct (Z.eqb_spec z 0) as [->|]; [tauto|discriminate].
    + destruct (Req_EM_T r 0) as [->|]; [tauto|discriminate].
Qed.

(*@ C50 Normalising twice is the same as normalising once. *)
Lemma config_normalised_twice_lem :
  forall t t', config_correct t = Ok t' -> config_correct t' = Ok t'.
Proof.
  intros t t' H0. pose proof (config_normalised_lem t t' H0) as [_ F].
  unfold config_correct in H0.
  apply bind_ok in H0 as (wrf & E1 & H). apply get2_entry in E1.
  apply bind_ok in H as (t1 & E2 & H). apply bind_ok in H as (coupled & E3 & H). apply get2_entry in E3.
  apply bind_ok in H as (t2 & E4 & H). apply bind_ok in H as (workers & E5 & H). apply get2_entry in E5.
  assert (C0 : entry t "DIMENSIONS" "WRF_X_CSPY" = Some coupled).
  { destruct (truthy wrf).
    - apply bind_ok in E2 as (u & Eu & E2). apply set2_entry in Eu as [_ U]. apply set2_entry in E2 as [_ V].
      rewrite V, U in E3. exact E3.
    - injection E2 as <-. exact E3. }
  assert (W0 : entry t "PARALLELIZATION" "workers" = Some workers).
  { assert (entry t1 "PARALLELIZATION" "workers" = Some workers) as G.
    { destruct (truthy coupled); [apply set2_entry in E4 as [_ U]; rewrite U in E5; exact E5|
                                  injection E4 as <-; exact E5]. }
    destruct (truthy wrf).
    - apply bind_ok in E2 as (u & Eu & E2). apply set2_entry in Eu as [_ U]. apply set2_entry in E2 as [_ V].
      rewrite V, U in G. exact G.
    - injection E2 as <-. exact G. }
  unfold switched_on in F. rewrite E1, C0 in F.
  unfold config_correct.
  assert (G1 : entry t' "DIMENSIONS" "WRF" = Some wrf).
  { rewrite F, E1. destruct (truthy wrf), (truthy coupled); reflexivity. }
  assert (G2 : entry t' "DIMENSIONS" "WRF_X_CSPY" = Some coupled).
  { rewrite F, C0. destruct (truthy wrf), (truthy coupled); reflexivity. }
  rewrite (proj2 (get2_entry _ _ _ _) G1). cbn [bind].
  replace (if truthy wrf then _ else Ok t') with (Ok t').
  2:{ destruct (truthy wrf) eqn:T; [|reflexivity].
      rewrite (set2_same t' "DIMENSIONS" "northing") by (rewrite F; reflexivity). cbn [bind].
      rewrite (set2_same t' "DIMENSIONS" "easting") by (rewrite F; reflexivity). reflexivity. }
  cbn [bind]. rewrite (proj2 (get2_entry _ _ _ _) G2). cbn [bind].
  replace (if truthy coupled then _ else Ok t') with (Ok t').
  2:{ destruct (truthy coupled) eqn:T; [|reflexivity].
      rewrite (set2_same t' "FULL_FIELDS" "full_field"); [reflexivity|].
      rewrite F. destruct (truthy wrf); reflexivity. }
  cbn [bind].
  assert (G3 : entry t' "PARALLELIZATION" "workers" = Some (if equals_zero workers then VNone else workers)).
  { rewrite F, W0. destruct (truthy wrf), (truthy coupled), (equals_zero workers); reflexivity. }
  rewrite (proj2 (get2_entry _ _ _ _) G3). cbn [bind].
  destruct (equals_zero workers) eqn:Z0; [reflexivity|]. rewrite Z0. reflexivity.
Qed.

(*@ C50 The configuration loads if and only if the three entries that are looked at exist, and the table of the
   full fields if the coupled mode is on; otherwise it fails with a KeyError. *)
Lemma config_loads_iff_lem :
  forall t,
    (entry t "DIMENSIONS" "WRF" <> None /\ entry t "DIMENSIONS" "WRF_X_CSPY" <> None /\
     entry t "PARALLELIZATION" "workers" <> None /\
     (switched_on t "DIMENSIONS" "WRF_X_CSPY" = true -> dict_find t "FULL_FIELDS"%string <> None) ->
     exists t', config_correct t = Ok t') /\
    (~ (entry t "DIMENSIONS" "WRF" <> None /\ entry t "DIMENSIONS" "WRF_X_CSPY" <> None /\
        entry t "PARALLELIZATION" "workers" <> None /\
        (switched_on t "DIMENSIONS" "WRF_X_CSPY" = true -> dict_find t "FULL_FIELDS"%string <> None)) ->
     config_correct t = Err KeyError).
Proof.
  intros t. unfold config_correct.
  destruct (entry t "DIMENSIONS" "WRF") as [wrf|] eqn:E1.
  2:{ rewrite (get2_err _ _ _ E1). split; [intros (N & _); congruence|reflexivity]. }
  rewrite (proj2 (get2_entry _ _ _ _) E1). cbn [bind].
  assert (T1 : exists t1, (if truthy wrf
     then t' <- set2 t "DIMENSIONS" "northing" (VStr "south_north") ;;
          set2 t' "DIMENSIONS" "easting" (VStr "west_east") else Ok t) = Ok t1 /\
     (forall h, dict_find t1 h = None <-> dict_find t h = None) /\
     (forall h k, k <> "northing"%string -> k <> "easting"%string -> entry t1 h k = entry t h k)).
  { destruct (truthy wrf); [|exists t; repeat split; auto].
    pose proof (entry_table _ _ _ _ E1) as D.
    destruct (set2_ok t "DIMENSIONS" "northing" (VStr "south_north") D) as [u Eu]. rewrite Eu. cbn [bind].
    pose proof (set2_found _ _ _ _ _ "DIMENSIONS" Eu) as Fu.
    destruct (set2_ok u "DIMENSIONS" "easting" (VStr "west_east")) as [w Ew]; [tauto|].
    exists w. split; [exact Ew|]. split.
    - intros h. rewrite (set2_found _ _ _ _ _ h Ew), (set2_found _ _ _ _ _ h Eu). tauto.
    - intros h k N1 N2. apply set2_entry in Eu as [_ U], Ew as [_ V]. rewrite V, U. unfold is_entry.
      destruct (eqb_spec_s k "northing"%string); [contradiction|].
      destruct (eqb_spec_s k "easting"%string); [contradiction|]. rewrite !andb_false_r. reflexivity. }
  destruct T1 as (t1 & -> & F1 & G1). cbn [bind].
  assert (Gc : entry t1 "DIMENSIONS" "WRF_X_CSPY" = entry t "DIMENSIONS" "WRF_X_CSPY") by (apply G1; discriminate).
  assert (Gw : entry t1 "PARALLELIZATION" "workers" = entry t "PARALLELIZATION" "workers") by (apply G1; discriminate).
  unfold switched_on.
  destruct (entry t "DIMENSIONS" "WRF_X_CSPY") as [coupled|] eqn:E2.
  2:{ rewrite (get2_err _ _ _ Gc). split; [intros (_ & N & _); congruence|reflexivity]. }
  rewrite (proj2 (get2_entry _ _ _ _) Gc). cbn [bind].
  destruct (truthy coupled) eqn:Tc.
  - destruct (dict_find t "FULL_FIELDS"%string) as [ff|] eqn:Ef.
    2:{ rewrite set2_err by (apply F1; exact Ef). split; [intros (_ & _ & _ & N); exfalso; apply N; reflexivity|reflexivity]. }
    destruct (set2_ok t1 "FULL_FIELDS" "full_field" (VBool true)) as [t2 E3].
    { intros N. apply F1 in N. congruence. }
    rewrite E3. cbn [bind].
    assert (Gw2 : entry t2 "PARALLELIZATION" "workers" = entry t "PARALLELIZATION" "workers").
    { apply set2_entry in E3 as [_ U]. rewrite U. exact Gw. }
    destruct (entry t "PARALLELIZATION" "workers") as [w|] eqn:E4.
    2:{ rewrite (get2_err _ _ _ Gw2). split; [intros (_ & _ & N & _); congruence|reflexivity]. }
    rewrite (proj2 (get2_entry _ _ _ _) Gw2). cbn [bind]. split.
    + intros _. destruct (equals_zero w); [|eauto]. apply set2_ok. eapply entry_table; exact Gw2.
    + intros N. exfalso. apply N. repeat split; congruence.
  - cbn [bind]. destruct (entry t "PARALLELIZATION" "workers") as [w|] eqn:E4.
    2:{ rewrite (get2_err _ _ _ Gw). split; [intros (_ & _ & N & _); congruence|reflexivity]. }
    rewrite (proj2 (get2_entry _ _ _ _) Gw). cbn [bind]. split.
    + intros _. destruct (equals_zero w); [|eauto]. apply set2_ok. eapply entry_table; exact Gw.
    + intros N. exfalso. apply N. repeat split; congruence.
Qed.

(** ** Attributes *)

Lemma find_last_rev {V} (p : dict V) k : find_last p k = dict_find (rev p) k.
Proof.
  assert (A : forall p q k, dict_find (p ++ q) k = match dict_find p k with Some v => Some v | None => @dict_find V q k end).
  { clear. induction p as [|[n w] p IH]; intros q k; cbn; [reflexivity|].
    destruct (String.eqb n k); [reflexivity|apply IH]. }
  induction p as [|[n w] p IH]; cbn; [reflexivity|]. rewrite A, IH. cbn.
  destruct (dict_find (rev p) k); [reflexivity|]. destruct (String.eqb n k); reflexivity.
Qed.

Lemma set_values_union t attrs : set_config_values t attrs = dict_union attrs (entries t).
Proof.
  unfold set_config_values, entries. revert attrs; induction t as [|[h d] t IH]; intros attrs; [reflexivity|].
  cbn [fold_left flat_map snd]. rewrite IH, union_app. reflexivity.
Qed.

(*@ C50 The attributes after loading: the last line of the file that sets a key wins, whatever table it is in, and
   attributes that the file does not mention keep their old value. *)
Lemma last_setting_wins_lem :
  forall t attrs k,
    dict_find (set_config_values t attrs) k =
      match last_setting t k with Some v => Some v | None => dict_find attrs k end.
Proof.
  intros t attrs k. rewrite set_values_union, find_union, find_last_rev. reflexivity.
Qed.

(*@ C50 If no key occurs in two tables, every entry of the normalised file becomes the attribute of its name. *)
Lemma attributes_are_entries_lem :
  forall t t' attrs attrs' h k v,
    config_correct t = Ok t' -> config_load t attrs = Ok attrs' -> keys_distinct t' ->
    entry t' h k = Some v -> dict_find attrs' k = Some v.
Proof.
  intros t t' attrs attrs' h k v E L D I. unfold config_load in L. rewrite E in L. cbn [bind] in L.
  injection L as <-. rewrite last_setting_wins_lem. unfold last_setting.
  assert (G : dict_find (rev (entries t')) k = Some v); [|rewrite G; reflexivity].
  apply in_find. { rewrite map_rev. apply NoDup_rev. exact D. }
  apply in_rev. rewrite rev_involutive. unfold entry in I.
  destruct (dict_find t' h) as [d|] eqn:Ed; [|discriminate]. apply find_in in Ed, I.
  unfold entries. apply in_flat_map. exists (h, d). split; [exact Ed|exact I].
Qed.

(*@ C50 Otherwise a later table silently overrides the normalisation: with WRF switched on and a second northing
   further down, the attribute is the second one. *)
Lemma later_table_overrides_refuted_lem :
  exists t attrs,
    config_load t [] = Ok attrs /\ switched_on t "DIMENSIONS" "WRF" = true /\
    dict_find attrs "northing"%string = Some (VStr "lat").
Proof.
  exists [("DIMENSIONS", [("WRF", VBool true); ("WRF_X_CSPY", VBool false)]);
          ("PARALLELIZATION", [("workers", VInt 4)]); ("SUBSET", [("northing", VStr "lat")])]%string.
  eexists. split; [reflexivity|]. split; reflexivity.
Qed.

(*@ C50 Loading the same file again changes nothing. *)
Lemma load_twice_lem :
  forall t attrs attrs', config_load t attrs = Ok attrs' ->
    exists attrs'', config_load t attrs' = Ok attrs'' /\ map fst attrs'' = map fst attrs' /\
      forall k, dict_find attrs'' k = dict_find attrs' k.
Proof.
  intros t attrs attrs' H. unfold config_load in *. apply bind_ok in H as (t' & E & H). rewrite E. cbn [bind].
  injection H as <-. eexists. split; [reflexivity|]. split.
  - rewrite !set_values_union, !keys_union. apply add_keys_present. intros k I. apply add_keys_in. auto.
  - intros k. rewrite !last_setting_wins_lem. destruct (last_setting t' k); reflexivity.
Qed.

(** ** Constants and slurm *)

(*@ C50 Loading the constants changes exactly the albedo and the stability scheme, and only in the coupled mode; it needs
   the configuration to be loaded before. *)
Lemma constants_normalised_lem :
  forall config t,
    (dict_find config "WRF_X_CSPY"%string = None -> constants_correct config t = Err AttributeError) /\
    (forall t', constants_correct config t = Ok t' ->
       map fst t' = map fst t /\
       exists coupled, dict_find config "WRF_X_CSPY"%string = Some coupled /\
       forall h k, entry t' h k =
         if (truthy coupled && is_entry "PARAMETERIZATIONS" "albedo_method" h k)%bool
         then Some (VStr "Oerlemans98")
         else if (truthy coupled && is_entry "PARAMETERIZATIONS" "stability_correction" h k)%bool
         then Some (VStr "MO")
         else entry t h k).
Proof.
  intros config t. unfold constants_correct, attr_get. split.
  - intros ->. reflexivity.
  - intros t' H. destruct (dict_find config "WRF_X_CSPY"%string) as [c|]; [|discriminate]. cbn [bind] in H.
    destruct (truthy c) eqn:T.
    + apply bind_ok in H as (u & E1 & E2). apply set2_entry in E1 as [U1 U2], E2 as [V1 V2].
      split; [congruence|]. exists c. split; [reflexivity|]. intros h k. rewrite V2, U2, T. cbn [andb].
      unfold is_entry. destruct (eqb_spec_s h "PARAMETERIZATIONS"%string) as [->|]; cbn [andb]; [|reflexivity].
      destruct (eqb_spec_s k "stability_correction"%string) as [->|]; reflexivity.
    + injection H as <-. split; [reflexivity|]. exists c. split; [reflexivity|]. intros h k. rewrite T. reflexivity.
Qed.

(*@ C50 The slurm file: with a memory per process other than zero the memory of a job is that number times the cores;
   nothing else changes. *)
Lemma slurm_normalised_lem :
  forall t t', slurm_correct t = Ok t' ->
    map fst t' = map fst t /\
    (switched_on t "OVERRIDES" "memory_per_process" = false -> t' = t) /\
    (switched_on t "OVERRIDES" "memory_per_process" = true ->
     exists per cores vper vcores, whole vper = Ok per /\ whole vcores = Ok cores /\
       entry t "OVERRIDES" "memory_per_process" = Some vper /\ entry t "MEMORY" "cores" = Some vcores /\
       forall h k, entry t' h k =
         if is_entry "MEMORY" "memory" h k then Some (VStr (decimal (per * cores) ++ "GB"))
         else entry t h k).
Proof.
  intros t t' H. unfold slurm_correct in H. apply bind_ok in H as (m & E1 & H). apply get2_entry in E1.
  unfold switched_on. rewrite E1. destruct (truthy m).
  - apply bind_ok in H as (per & E2 & H). apply bind_ok in H as (cs & E3 & H). apply get2_entry in E3.
    apply bind_ok in H as (cores & E4 & H). apply set2_entry in H as [U1 U2].
    split; [exact U1|]. split; [discriminate|]. intros _. exists per, cores, m, cs. auto.
  - injection H as <-. split; [reflexivity|]. split; [reflexivity|discriminate].
Qed.

(** ** The shipped files *)

(*@ C50,C69 The shipped configuration loads, no key of it is in two tables, and the run it describes is without WRF,
   restart, stakes, tile and full fields. *)
Lemma shipped_config_loads_lem :
  exists attrs cfg,
    config_load shipped_config [] = Ok attrs /\ keys_distinct shipped_config /\
    run_config_of attrs = Ok cfg /\
    dict_find attrs "workers"%string = Some VNone /\
    rc_WRF cfg = false /\ rc_restart cfg = false /\ rc_stake_evaluation cfg = false /\
    rc_tile cfg = false /\ rc_full_field cfg = false /\
    rc_northing cfg = "lat"%string /\ rc_easting cfg = "lon"%string /\
    rc_time_start cfg = VStr "2009-01-01T06:00" /\ rc_time_end cfg = VStr "2009-01-10T00:00".
Proof.
  eexists _, _. split; [reflexivity|]. split.
  { apply nodupb_spec. reflexivity. }
  split; [reflexivity|]. repeat split.
Qed.

(*@ C69 The shipped constants, read by the loader, are the constants of the model; no key is in two tables. *)
Lemma shipped_constants_loaded_lem :
  exists config attrs,
    config_load shipped_config [] = Ok config /\
    constants_load config shipped_constants [] = Ok attrs /\ keys_distinct shipped_constants /\
    consts_of attrs = Ok default_constants.
Proof.
  eexists _, _. split; [reflexivity|]. split; [reflexivity|]. split.
  { apply nodupb_spec. reflexivity. }
  reflexivity.
Qed.

(*@ C69 Every name in the shipped lists of surface and column variables has an entry in the table of units; in the list of the
   layer variables LW has none. *)
Lemma shipped_names_lem :
  forall attrs cfg,
    config_load shipped_config [] = Ok attrs -> run_config_of attrs = Ok cfg ->
    names_known false (io_init cfg) /\ ~ names_known true (io_init cfg) /\
    forall name, In name (io_full (io_init cfg)) ->
      (dict_find result_metadata ("LAYER_" ++ name)%string = None <-> name = "LW"%string).
Proof.
  intros attrs cfg H1 H2. injection H1 as <-. injection H2 as <-.
  assert (L : In "LW"%string (io_full (io_init (mkRunConfig
    "T2,RH2,U2,RAIN,SNOWFALL,RRR,PRES,N,G,LWin,LWout,H,LE,B,QRR,Z0,ALBEDO,TS"
    "ME,MB,surfMB,intMB,EVAPORATION,SUBLIMATION,CONDENSATION,DEPOSITION,surfM,subM,Q,REFREEZE,SNOWHEIGHT,TOTALHEIGHT,LAYERS"
    "HEIGHT,RHO,T,LWC,CC,POROSITY,LW,ICE_FRACTION,IRREDUCIBLE_WATER,REFREEZE" false false false "lat" "lon"
    false 20 40 20 40 false "rmse" "snowheight" (VStr "2009-01-01T06:00") (VStr "2009-01-10T00:00") "Zhadang_ERA5"))))
    by (cbn; intuition reflexivity).
  split; [|split].
  - split; [|discriminate]. intros name I. cbn in I.
    repeat match goal with
           | H : _ \/ _ |- _ => destruct H as [H|H]
           | H : _ = name |- _ => subst name; discriminate
           | H : False |- _ => destruct H
           end.
  - intros [_ N]. specialize (N eq_refl _ L). apply N. reflexivity.
  - intros name I. cbn in I.
    repeat match goal with
           | H : _ \/ _ |- _ => destruct H as [H|H]
           | H : _ = name |- _ => subst name; split; intros; first [reflexivity|discriminate]
           | H : False |- _ => destruct H
           end.
Qed.

(*@ C63,C69 A run that completes and has a glacier cell has an entry in the table of units for every listed name: a single unknown
   name loses the whole run. *)
Lemma unknown_name_loses_run_lem :
  forall cfg c work arrivals data restart stakes measured io col,
    run_cosipy cfg c work arrivals data restart stakes measured io = Ok col ->
    schedule arrivals -> answers_as_core (rc_full_field cfg) (c_max_layers c) work ->
    sizes data = Ok (io_ny io, io_nx io) -> some_glacier data (io_ny io) (io_nx io) ->
    names_known (rc_full_field cfg) io.
Proof.
  intros cfg c work arrivals data restart stakes measured io col H Hs Hw Hz G.
  destruct (run_datasets cfg c work arrivals data restart stakes measured io col H Hs Hw Hz G)
    as (p & q & R1 & R2 & P1 & _).
  apply bind_ok in P1 as (p1 & E1 & P1). apply bind_ok in P1 as (p2 & E2 & P1).
  apply bind_ok in P1 as (p3 & E3 & P1). split.
  - intros name [I|I].
    + destruct (pairs_find _ _ _ _ _ _ _ _ E1 I) as (arr & m & _ & E & _). change ("" ++ name)%string with name in E. congruence.
    + destruct (pairs_find _ _ _ _ _ _ _ _ E2 I) as (arr & m & _ & E & _). change ("" ++ name)%string with name in E. congruence.
  - intros F name I. rewrite F in E3.
    destruct (pairs_find _ _ _ _ _ _ _ _ E3 I) as (arr & m & _ & E & _). congruence.
Qed.

(*@ C69 With the shipped list of layer variables and the full fields switched on no run with a glacier cell completes. *)
Lemma shipped_full_field_fails_lem :
  forall parse cfg c work arrivals file open_restart stakes measured io data gr ms w,
    rc_full_field cfg = true ->
    entry shipped_config "OUTPUT_VARIABLES" "output_full" = Some (VStr (rc_output_full cfg)) ->
    schedule arrivals -> (forall d, answers_as_core true (c_max_layers c) (work d)) ->
    create_data_file parse cfg c file open_restart (io_init cfg) = Ok (io, data, gr, ms) ->
    some_glacier data (io_ny io) (io_nx io) ->
    cosipy_main parse cfg c work arrivals file open_restart stakes measured <> Ok w.
Proof.
  intros parse cfg c work arrivals file open_restart stakes measured io data gr ms w Ff L Hs Hw C G H.
  unfold cosipy_main in H. rewrite C in H. cbn [bind] in H.
  apply bind_ok in H as (io1 & E1 & H). apply bind_ok in H as (last & _ & H).
  apply bind_ok in H as (col & E2 & _).
  apply create_data_restart in C as (_ & N & _ & Z & _).
  apply init_result_nodup in E1 as (_ & _ & N' & Y1 & Y2 & _).
  rewrite <- Y1, <- Y2 in Z, G.
  assert (K : names_known true io1).
  { rewrite <- Ff. refine (unknown_name_loses_run_lem _ _ _ _ _ _ _ _ _ _ E2 Hs _ Z G).
    rewrite Ff. apply Hw. }
  destruct K as [_ K]. apply (K eq_refl "LW"%string); [|reflexivity].
  rewrite N in N'. apply (f_equal nm_full) in N'. cbn [nm_full names_of] in N'. rewrite N'.
  injection L as L. cbn [io_init io_full]. rewrite <- L. cbn. intuition reflexivity.
Qed.
