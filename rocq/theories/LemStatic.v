(** * Lemmas about the static file *)
From Verif Require Import ModelPy ModelConstants ModelNode ModelGrid ModelHeat ModelSurface ModelInit
  ModelCore ModelConfig ModelIO ModelMain ModelRadCor ModelStatic SpecStatic.
From Verif Require Import LemPy LemDict.

(** ** Arrays *)
Lemma entry_map {A B} (f : A -> B) (a : raster A) y x :
  entry_of (map (map f) a) y x = option_map f (entry_of a y x).
Proof.
  unfold entry_of. rewrite nth_error_map. destruct (nth_error a y); cbn; [|reflexivity].
  apply nth_error_map.
Qed.

Lemma mask_entry band y x :
  entry_of (glacier_mask band) y x = option_map (fun v => positive_to_one (nan_to_fill v)) (entry_of band y x).
Proof.
  unfold glacier_mask. rewrite entry_map, entry_map. destruct (entry_of band y x); reflexivity.
Qed.

Lemma entry_at_cell (a : raster number) y x v : entry_of a y x = Some v -> at_cell a y x = v.
Proof.
  unfold entry_of, at_cell. intro H. destruct (nth_error a y) as [row|] eqn:E; [|discriminate].
  rewrite (nth_error_nth _ _ _ E). apply nth_error_nth. exact H.
Qed.

Lemma entry_sized {A} ny nx (a : raster A) y x : has_size ny nx a -> (y < ny)%nat -> (x < nx)%nat ->
  exists v, entry_of a y x = Some v.
Proof.
  intros [L F] Hy Hx. unfold entry_of. destruct (nth_error a y) as [row|] eqn:E.
  - destruct (nth_error row x) eqn:E2; [eauto|]. apply nth_error_None in E2.
    rewrite Forall_forall in F. apply nth_error_In in E. rewrite (F _ E) in E2. lia.
  - apply nth_error_None in E. lia.
Qed.

Lemma entry_bounds {A} ny nx (a : raster A) y x v : has_size ny nx a -> entry_of a y x = Some v ->
  (y < ny)%nat /\ (x < nx)%nat.
Proof.
  intros [L F] H. unfold entry_of in H. destruct (nth_error a y) as [row|] eqn:E; [|discriminate].
  split.
  - assert (y < length a)%nat by (apply nth_error_Some; congruence). lia.
  - rewrite Forall_forall in F. rewrite <- (F row (nth_error_In _ _ E)). apply nth_error_Some. congruence.
Qed.

Lemma fits_size ds a : fits ds a = true <-> has_size (length (sd_lat ds)) (length (sd_lon ds)) a.
Proof.
  unfold fits, has_size. rewrite Bool.andb_true_iff, Nat.eqb_eq, forallb_forall, Forall_forall.
  split; intros [A B]; (split; [exact A|]); intros r I; apply Nat.eqb_eq, B, I.
Qed.

Lemma mask_size ny nx band : has_size ny nx band -> has_size ny nx (glacier_mask band).
Proof.
  intros [L F]. unfold glacier_mask, has_size. rewrite !map_length. split; [exact L|].
  rewrite !Forall_map. eapply Forall_impl; [|exact F]. cbn. intros r E. rewrite !map_length. exact E.
Qed.

Lemma mask_size_inv ny nx band : has_size ny nx (glacier_mask band) -> has_size ny nx band.
Proof.
  unfold glacier_mask, has_size. rewrite !map_length. intros [L F]. split; [exact L|].
  rewrite !Forall_map in F. eapply Forall_impl; [|exact F]. cbn. intros r E. rewrite !map_length in E. exact E.
Qed.

Lemma entry_rev {A} (a : raster A) y x : (y < length a)%nat ->
  entry_of (rev a) y x = entry_of a (length a - S y) x.
Proof.
  intro H. unfold entry_of.
  destruct (nth_error a (length a - S y)) as [row|] eqn:E.
  - assert (N : nth_error (rev a) y = Some row).
    { rewrite (nth_error_nth' _ row) by (rewrite rev_length; lia).
      rewrite rev_nth by lia. f_equal. apply nth_error_nth. exact E. }
    rewrite N. reflexivity.
  - apply nth_error_None in E. lia.
Qed.

(** ** The dataset *)
Definition four (dem aspect slope mask : raster number) : dict (string * string * raster number) :=
  [("HGT", ("meters", "meter above sea level", dem)); ("ASPECT", ("degrees", "Aspect of slope", aspect));
   ("SLOPE", ("degrees", "Terrain slope", slope)); ("MASK", ("boolean", "Glacier mask", mask))]%string.

Lemma static_data_ok lat lon dem aspect slope mask ds :
  static_data lat lon dem aspect slope mask = inl ds ->
  ds = mkStaticDataset lat lon (four dem aspect slope mask) /\
  has_size (length lat) (length lon) dem /\ has_size (length lat) (length lon) aspect /\
  has_size (length lat) (length lon) slope /\ has_size (length lat) (length lon) mask.
Proof.
  unfold static_data, insert_var.
  destruct (fits _ dem) eqn:F1; [|discriminate]. cbn [sd_lat sd_lon sd_vars].
  destruct (fits _ aspect) eqn:F2; [|discriminate]. cbn [sd_lat sd_lon sd_vars].
  destruct (fits _ slope) eqn:F3; [|discriminate]. cbn [sd_lat sd_lon sd_vars].
  destruct (fits _ mask) eqn:F4; [|discriminate]. cbn [sd_lat sd_lon sd_vars].
  intro H. injection H as <-. apply fits_size in F1, F2, F3, F4. cbn [sd_lat sd_lon] in *. auto 6.
Qed.

Lemma static_data_sized lat lon dem aspect slope mask :
  has_size (length lat) (length lon) dem -> has_size (length lat) (length lon) aspect ->
  has_size (length lat) (length lon) slope -> has_size (length lat) (length lon) mask ->
  static_data lat lon dem aspect slope mask = inl (mkStaticDataset lat lon (four dem aspect slope mask)).
Proof.
  intros S1 S2 S3 S4. unfold static_data, insert_var.
  rewrite (proj2 (fits_size (mkStaticDataset lat lon []) dem) S1). cbn [sd_lat sd_lon sd_vars].
  rewrite (proj2 (fits_size (mkStaticDataset lat lon _) aspect) S2). cbn [sd_lat sd_lon sd_vars].
  rewrite (proj2 (fits_size (mkStaticDataset lat lon _) slope) S3). cbn [sd_lat sd_lon sd_vars].
  rewrite (proj2 (fits_size (mkStaticDataset lat lon _) mask) S4). reflexivity.
Qed.

Lemma is_one_spec v : is_one v = true <-> v = Some 1.
Proof.
  destruct v as [x|]; cbn; [|split; discriminate]. unfold Reqb. destruct (Req_EM_T x 1) as [->|N].
  - split; reflexivity.
  - split; [discriminate|]. intro H. injection H as ->. lra.
Qed.

Lemma check_spec lat lon dem aspect slope mask :
  let ds := mkStaticDataset lat lon (four dem aspect slope mask) in
  has_size (length lat) (length lon) dem -> has_size (length lat) (length lon) aspect ->
  has_size (length lat) (length lon) slope -> has_size (length lat) (length lon) mask ->
  check_for_nan ds = true <-> complete_on_glacier ds.
Proof.
  intros ds S1 S2 S3 S4. unfold check_for_nan.
  rewrite forallb_forall. change (sd_lat ds) with lat. change (sd_lon ds) with lon.
  assert (K : forall y x, (y < length lat)%nat -> (x < length lon)%nat ->
    (cell_passes ds y x = true <->
     (on_glacier ds y x ->
      forall name, In name ["HGT"; "ASPECT"; "SLOPE"]%string -> exists v, value_at ds name y x = Some (Some v)))).
  { intros y x Hy Hx.
    destruct (entry_sized _ _ _ _ _ S1 Hy Hx) as [v1 E1]. destruct (entry_sized _ _ _ _ _ S2 Hy Hx) as [v2 E2].
    destruct (entry_sized _ _ _ _ _ S3 Hy Hx) as [v3 E3]. destruct (entry_sized _ _ _ _ _ S4 Hy Hx) as [v4 E4].
    assert (V1 : value_at ds "HGT" y x = Some v1) by exact E1.
    assert (V2 : value_at ds "ASPECT" y x = Some v2) by exact E2.
    assert (V3 : value_at ds "SLOPE" y x = Some v3) by exact E3.
    assert (V4 : value_at ds "MASK" y x = Some v4) by exact E4.
    unfold cell_passes, on_glacier. rewrite V4.
    change (values_of ds "MASK") with mask. change (sd_vars ds) with (four dem aspect slope mask).
    unfold four. cbn [existsb snd].
    rewrite (entry_at_cell _ _ _ _ E1), (entry_at_cell _ _ _ _ E2), (entry_at_cell _ _ _ _ E3), (entry_at_cell _ _ _ _ E4).
    clear E1 E2 E3 E4. clearbody ds.
    destruct (is_one v4) eqn:O.
    - apply is_one_spec in O. subst v4. split.
      + intros H _ name [<-|[<-|[<-|[]]]]; rewrite ?V1, ?V2, ?V3;
          destruct v1, v2, v3; cbn in H; try discriminate; eauto.
      + intro H. specialize (H eq_refl).
        destruct (H "HGT"%string (or_introl eq_refl)) as [w1 W1]; rewrite V1 in W1; injection W1 as ->.
        destruct (H "ASPECT"%string (or_intror (or_introl eq_refl))) as [w2 W2]; rewrite V2 in W2; injection W2 as ->.
        destruct (H "SLOPE"%string (or_intror (or_intror (or_introl eq_refl)))) as [w3 W3]; rewrite V3 in W3; injection W3 as ->.
        reflexivity.
    - split; [|reflexivity]. intros _ H. injection H as ->.
      assert (is_one (Some 1) = true) by (apply is_one_spec; reflexivity). congruence. }
  split.
  - intros H y x G. 
    assert (B : (y < length lat)%nat /\ (x < length lon)%nat).
    { exact (entry_bounds _ _ _ _ _ _ S4 G). }
    destruct B as [By Bx]. apply (proj1 (K y x By Bx)); [|exact G].
    assert (I := H y ltac:(apply in_seq; lia)). rewrite forallb_forall in I. apply I, in_seq. lia.
  - intros H y Iy. apply in_seq in Iy. apply forallb_forall. intros x Ix. apply in_seq in Ix.
    apply (proj2 (K y x ltac:(lia) ltac:(lia))). apply H.
Qed.

(** ** The number of points *)
Lemma glacier_points_count mask : glacier_points mask = INR (length (filter is_one (concat mask))).
Proof.
  unfold glacier_points. induction (concat mask) as [|v t IH]; [reflexivity|].
  cbn [filter]. destruct (is_one v) eqn:O; [|exact IH].
  apply is_one_spec in O. subst v. cbn [reals_of length]. rewrite sum_list_cons, IH, S_INR. lra.
Qed.

Lemma filter_seq_row (p : nat -> number -> bool) (q : number -> bool) (row : list number) :
  length (filter (fun x => match nth_error row x with Some v => q v | None => false end) (seq 0 (length row)))
  = length (filter q row).
Proof.
  induction row as [|v row IH] using rev_ind; [reflexivity|].
  rewrite app_length, Nat.add_1_r, seq_S, !filter_app, !app_length. f_equal.
  - rewrite <- IH. f_equal. apply filter_ext_in. intros x I. apply in_seq in I.
    rewrite nth_error_app1 by lia. reflexivity.
  - cbn [filter plus]. rewrite nth_error_app2 by lia. rewrite Nat.sub_diag. cbn.
    destruct (q v); reflexivity.
Qed.

Lemma filter_map_length {A B} (f : A -> B) p l : length (filter p (map f l)) = length (filter (fun x => p (f x)) l).
Proof. induction l as [|a t IH]; [reflexivity|]. cbn. destruct (p (f a)); cbn; congruence. Qed.

Lemma places_count (a : raster number) : length (places_of_one a) = length (filter is_one (concat a)).
Proof.
  unfold places_of_one. induction a as [|row a IH] using rev_ind; [reflexivity|].
  rewrite app_length, Nat.add_1_r, seq_S, flat_map_app, filter_app, app_length, concat_app, filter_app, app_length.
  f_equal.
  - rewrite <- IH. f_equal.
    assert (E : flat_map (fun y => map (pair y) (seq 0 (length (nth y (a ++ [row]) [])))) (seq 0 (length a))
              = flat_map (fun y => map (pair y) (seq 0 (length (nth y a [])))) (seq 0 (length a))).
    { rewrite !flat_map_concat_map. f_equal. apply map_ext_in. intros y I. apply in_seq in I.
      rewrite app_nth1 by lia. reflexivity. }
    rewrite E. apply filter_ext_in. intros [y x] I. apply in_flat_map in I. destruct I as (y' & Iy & I).
    apply in_map_iff in I. destruct I as (x' & E' & _). injection E' as -> ->. apply in_seq in Iy.
    cbn [fst snd]. unfold entry_of. rewrite nth_error_app1 by lia. reflexivity.
  - cbn [flat_map plus]. rewrite !app_nil_r, app_nth2 by lia. rewrite Nat.sub_diag. cbn [nth concat].
    rewrite app_nil_r, filter_map_length. cbn [fst snd]. rewrite <- (filter_seq_row (fun _ => is_one) is_one row). f_equal.
    apply filter_ext. intro x. unfold entry_of. rewrite nth_error_app2 by lia. rewrite Nat.sub_diag. reflexivity.
Qed.

(** ** Files *)
Lemma remove_find fs q p : dict_find (remove fs q) p = if String.eqb p q then None else dict_find fs p.
Proof.
  unfold remove. induction fs as [|[n v] t IH]; cbn [filter dict_find].
  - destruct (String.eqb p q); reflexivity.
  - cbn [fst]. destruct (String.eqb_spec n q) as [->|N]; cbn [negb].
    + rewrite IH. destruct (String.eqb_spec q p) as [->|N]; [rewrite String.eqb_refl; reflexivity|].
      destruct (String.eqb_spec p q); congruence.
    + cbn [dict_find]. rewrite IH. destruct (String.eqb_spec n p) as [->|N2]; [|reflexivity].
      destruct (String.eqb_spec p q); congruence.
Qed.

Lemma clean_find cfg fs p :
  (temporary (sc_folder cfg) p -> dict_find (clean_up cfg fs) p = None) /\
  (~ temporary (sc_folder cfg) p -> dict_find (clean_up cfg fs) p = dict_find fs p).
Proof.
  unfold clean_up, temporary, dem_nc, mask_nc, slope_nc, temp_tif, temp2_tif.
  cbn [fold_left map In]. rewrite !remove_find.
  repeat match goal with |- context [String.eqb p ?q] => destruct (String.eqb_spec p q) as [->|?] end;
    split; intro H; try reflexivity; exfalso; try (apply H; tauto); intuition congruence.
Qed.

Section Tools.
Variable gdal : disk -> command -> string -> string -> option content.

Lemma system_other fs cmd s t p : p <> t -> dict_find (system gdal fs cmd s t) p = dict_find fs p.
Proof.
  intro N. unfold system. destruct (gdal fs cmd s t); [|reflexivity]. apply find_set_other. congruence.
Qed.

Lemma tile_other cfg fs tif p : p <> temp_tif (sc_folder cfg) -> dict_find (fst (do_tile gdal cfg fs tif)) p = dict_find fs p.
Proof. intro N. unfold do_tile. destruct (sc_tile cfg); cbn; [|reflexivity]. apply system_other, N. Qed.

Lemma aggregate_other cfg fs tif p : p <> temp2_tif (sc_folder cfg) ->
  dict_find (fst (do_aggregate gdal cfg fs tif)) p = dict_find fs p.
Proof. intro N. unfold do_aggregate. destruct (sc_aggregate cfg); cbn; [|reflexivity]. apply system_other, N. Qed.
End Tools.
