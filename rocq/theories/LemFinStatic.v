(** * The static file *)
From Verif Require Import ModelPy ModelConstants ModelNode ModelGrid ModelHeat ModelSurface ModelInit
  ModelCore ModelConfig ModelIO ModelMain ModelRadCor ModelStatic SpecStatic.
From Verif Require Import LemPy LemDict LemStatic.

(*@ C96 The mask: it has the size of the elevations inside of the outline; it is 1 exactly where such an elevation is a number above zero, -9999 where there is none, and where the glacier is at or below sea level it is the elevation itself. *)
Lemma mask_values_lem :
  forall band y x,
    (forall ny nx, has_size ny nx band <-> has_size ny nx (glacier_mask band)) /\
    (entry_of (glacier_mask band) y x = None <-> entry_of band y x = None) /\
    (entry_of (glacier_mask band) y x = Some (Some 1) <-> exists z, entry_of band y x = Some (Some z) /\ 0 < z) /\
    (entry_of band y x = Some None -> entry_of (glacier_mask band) y x = Some (Some (-9999))) /\
    (forall z, entry_of band y x = Some (Some z) -> z <= 0 -> entry_of (glacier_mask band) y x = Some (Some z)).
Proof.
  intros band y x. split; [intros; split; [apply mask_size|apply mask_size_inv]|].
  rewrite mask_entry. destruct (entry_of band y x) as [[z|]|]; cbn.
  - unfold Rltb. destruct (Rlt_dec 0 z) as [L|L].
    + split; [split; discriminate|]. split; [split; [eauto|reflexivity]|]. split; [discriminate|].
      intros z0 H. injection H as <-. lra.
    + split; [split; discriminate|]. split.
      * split; [intro H; injection H as ->; lra|]. intros (w & E & P). injection E as ->. lra.
      * split; [discriminate|]. intros z0 H _. rewrite H. reflexivity.
  - unfold Rltb. destruct (Rlt_dec 0 (-9999)) as [L|L]; [lra|].
    split; [split; discriminate|]. split; [|split; [reflexivity|discriminate]].
    split; [intro H; injection H; lra|]. intros (w & E & P). discriminate.
  - split; [split; reflexivity|]. split; [split; [discriminate|intros (w & E & P); discriminate]|].
    split; discriminate.
Qed.

(** *** Decomposition of a run *)
Lemma main_cases gdal aspect_of cfg fs fs' r :
  static_main gdal aspect_of cfg fs = (fs', r) ->
  exists fs1,
    (forall p, ~ temporary (sc_folder cfg) p -> dict_find fs1 p = dict_find fs p) /\
    ((fs' = fs1 /\ exists e, r = inr e /\ e <> NaNsInStaticFields) \/
     exists lat lon dem aspect slope cut,
       has_size (length lat) (length lon) dem /\ has_size (length lat) (length lon) aspect /\
       has_size (length lat) (length lon) slope /\ has_size (length lat) (length lon) cut /\
       dict_find fs1 (sc_folder cfg ++ "dem.nc")%string = Some (Band lat lon dem) /\
       (exists la lo, dict_find fs1 (sc_folder cfg ++ "mask.nc")%string = Some (Band la lo cut)) /\
       (exists la lo, dict_find fs1 (sc_folder cfg ++ "slope.nc")%string = Some (Band la lo slope)) /\
       let ds := mkStaticDataset lat lon (four dem aspect slope (glacier_mask cut)) in
       (complete_on_glacier ds /\ fs' = dict_set (clean_up cfg fs1) (sc_folder cfg ++ sc_output cfg)%string (Written ds) /\
        r = inl (glacier_points (glacier_mask cut))) \/
       (~ complete_on_glacier ds /\ fs' = clean_up cfg fs1 /\ r = inr NaNsInStaticFields)).
Proof.
  unfold static_main.
  destruct (do_tile gdal cfg fs _) as [fsa ta] eqn:Ta. destruct (do_aggregate gdal cfg fsa ta) as [fsb tb] eqn:Tb.
  set (fsc := system gdal fsb ToNetcdf tb _). set (fsd := system gdal fsc Slope _ _).
  assert (N : forall p, ~ temporary (sc_folder cfg) p -> dict_find fsd p = dict_find fs p).
  { intros p H. unfold temporary in H. cbn [map In] in H.
    unfold fsd, fsc. rewrite !system_other; try (intro E; apply H; unfold slope_nc, dem_nc in E; subst; tauto).
    replace fsb with (fst (do_aggregate gdal cfg fsa ta)) by (rewrite Tb; reflexivity).
    rewrite aggregate_other by (intro E; apply H; unfold temp2_tif in E; subst; tauto).
    replace fsa with (fst (do_tile gdal cfg fs (sc_folder cfg ++ sc_dem cfg)%string)) by (rewrite Ta; reflexivity).
    apply tile_other. intro E; apply H; unfold temp_tif in E; subst; tauto. }
  destruct (match dict_find fsd tb with Some t => aspect_of t | None => None end) as [aspect|].
  2:{ intro H. injection H as <- <-. exists fsd. split; [exact N|]. left. split; [reflexivity|].
      eexists; split; [reflexivity|discriminate]. }
  set (fse := system gdal fsd (Cutline _) tb _).
  assert (N2 : forall p, ~ temporary (sc_folder cfg) p -> dict_find fse p = dict_find fs p).
  { intros p H. rewrite <- (N p H). apply system_other. intro E; apply H. unfold mask_nc in E.
    unfold temporary. cbn [map In]. subst. tauto. }
  destruct (negb _).
  { intro H. injection H as <- <-. exists fse. split; [exact N2|]. left. split; [reflexivity|].
    eexists; split; [reflexivity|discriminate]. }
  intro H. exists fse. split; [exact N2|].
  assert (NB : (fs', r) = (fse, inr NoBand1) ->
    fs' = fse /\ (exists e : trouble, r = inr e /\ e <> NaNsInStaticFields)).
  { intro E. injection E as -> ->. split; [reflexivity|]. eexists; split; [reflexivity|discriminate]. }
  destruct (open_band fse (dem_nc _)) as [[[lat lon] dem]|] eqn:O1; [|left; apply NB; congruence].
  destruct (open_band fse (mask_nc _)) as [[[la lo] cut]|] eqn:O2; [|left; apply NB; congruence].
  destruct (open_band fse (slope_nc _)) as [[[la2 lo2] slope]|] eqn:O3; [|left; apply NB; congruence].
  destruct (static_data lat lon dem (rev aspect) slope (glacier_mask cut)) as [ds|e] eqn:D.
  2:{ left. injection H as <- <-. split; [reflexivity|]. exists e. split; [reflexivity|].
      intro E. subst e. unfold static_data, insert_var in D.
      destruct (fits _ dem); [|discriminate]. destruct (fits _ (rev aspect)); [|discriminate].
      destruct (fits _ slope); [|discriminate]. destruct (fits _ (glacier_mask cut)); discriminate. }
  right. destruct (static_data_ok _ _ _ _ _ _ _ D) as (E & S1 & S2 & S3 & S4).
  assert (Q : forall p a b c, open_band fse p = inl (a, b, c) -> dict_find fse p = Some (Band a b c)).
  { clear. intros p a b c. unfold open_band. destruct (dict_find fse p) as [[]|]; try discriminate. congruence. }
  apply Q in O1, O2, O3.
  exists lat, lon, dem, (rev aspect), slope, cut.
  split; [exact S1|]. split; [exact S2|]. split; [exact S3|]. split; [apply mask_size_inv, S4|].
  split; [exact O1|]. split; [eauto|]. split; [eauto|]. cbv zeta.
  assert (C := check_spec lat lon dem (rev aspect) slope (glacier_mask cut) S1 S2 S3 S4). cbv zeta in C.
  subst ds. destruct (check_for_nan _).
  - left. injection H as <- <-. split; [apply C; reflexivity|]. split; reflexivity.
  - right. injection H as <- <-. split; [|split; reflexivity]. intro X. apply C in X. discriminate.
Qed.

(*@ C96 Which files a run touches, whatever the tools do and however it ends: only the intermediate files and the output; the output only if the run succeeds.  After a success, and after a failed check, the intermediate files are gone. *)
Lemma static_files_touched_lem :
  forall gdal aspect_of cfg fs fs' r p,
    static_main gdal aspect_of cfg fs = (fs', r) ->
    let output := (sc_folder cfg ++ sc_output cfg)%string in
    (~ temporary (sc_folder cfg) p -> p <> output -> dict_find fs' p = dict_find fs p) /\
    (~ temporary (sc_folder cfg) p -> (forall n, r <> inl n) -> dict_find fs' p = dict_find fs p) /\
    (temporary (sc_folder cfg) p -> p <> output -> (exists n, r = inl n) \/ r = inr NaNsInStaticFields ->
     dict_find fs' p = None).
Proof.
  intros gdal aspect_of cfg fs fs' r p H output.
  destruct (main_cases _ _ _ _ _ _ H) as (fs1 & N & K). destruct (clean_find cfg fs1 p) as [C1 C2].
  destruct K as [(-> & e & -> & Ne)|(lat & lon & dem & aspect & slope & cut & _ & _ & _ & _ & _ & _ & _ & K)].
  - split; [auto|]. split; [auto|]. intros _ _ [[n E]|E]; congruence.
  - cbv zeta in K. destruct K as [(_ & -> & ->)|(_ & -> & ->)].
    + split; [|split].
      * intros T D. rewrite find_set_other by (subst output; congruence). rewrite C2 by exact T. apply N, T.
      * intros T F. exfalso. exact (F _ eq_refl).
      * intros T D _. rewrite find_set_other by (subst output; congruence). apply C1, T.
    + split; [|split].
      * intros T D. rewrite C2 by exact T. apply N, T.
      * intros T F. rewrite C2 by exact T. apply N, T.
      * intros T D _. apply C1, T.
Qed.

(*@ C96 A run that succeeds has written a file with the four variables on the coordinates of the elevations; wherever its mask is 1 the elevation, aspect and slope are numbers; and the printed number is the number of these places. *)
Lemma static_written_lem :
  forall gdal aspect_of cfg fs fs' n,
    static_main gdal aspect_of cfg fs = (fs', inl n) ->
    exists ds mask,
      dict_find fs' (sc_folder cfg ++ sc_output cfg)%string = Some (Written ds) /\
      map (fun nv => (fst nv, fst (snd nv))) (sd_vars ds) =
        [("HGT", ("meters", "meter above sea level")); ("ASPECT", ("degrees", "Aspect of slope"));
         ("SLOPE", ("degrees", "Terrain slope")); ("MASK", ("boolean", "Glacier mask"))]%string /\
      Forall (fun nv => has_size (length (sd_lat ds)) (length (sd_lon ds)) (snd (snd nv))) (sd_vars ds) /\
      complete_on_glacier ds /\
      dict_find (sd_vars ds) "MASK"%string = Some ("boolean", "Glacier mask", mask)%string /\
      n = INR (length (places_of_one mask)).
Proof.
  intros gdal aspect_of cfg fs fs' n H.
  destruct (main_cases _ _ _ _ _ _ H) as (fs1 & N & [(_ & e & E & _)|(lat & lon & dem & aspect & slope & cut & S1 & S2 & S3 & S4 & _ & _ & _ & K)]);
    [discriminate|]. cbv zeta in K. destruct K as [(C & -> & E)|(_ & _ & E)]; [|discriminate].
  injection E as ->. eexists. exists (glacier_mask cut). split; [apply find_set_same|]. split; [reflexivity|].
  split; [|split; [exact C|split; [reflexivity|]]].
  - cbn [sd_vars sd_lat sd_lon]. unfold four.
    repeat match goal with |- Forall _ (_ :: _) => apply Forall_cons; [cbn [snd]|] | |- Forall _ [] => apply Forall_nil end;
      try assumption. apply mask_size, S4.
  - rewrite places_count. apply glacier_points_count.
Qed.

(*@ C96 With tools that work, the result of a run: the elevations are those of the DEM after tiling and averaging, each only if it is switched on; slope and aspect are those of the same elevations, the mask is cut from the same elevations; the run succeeds exactly if every place on the glacier has all its values, and otherwise reports it and leaves the output as it was. *)
Lemma static_pipeline_lem :
  forall tool gdal aspect_of cfg fs dem0 outline dem1 dem2 lat lon dem aspect slope cut la lo la' lo',
    reliable tool gdal ->
    let folder := sc_folder cfg in
    let output := (folder ++ sc_output cfg)%string in
    ~ temporary folder (folder ++ sc_dem cfg) -> ~ temporary folder (folder ++ sc_shape cfg) ->
    dict_find fs (folder ++ sc_dem cfg)%string = Some dem0 ->
    dict_find fs (folder ++ sc_shape cfg)%string = Some outline ->
    (if sc_tile cfg
     then tool None (Projwin (sc_lon_ul cfg) (sc_lat_ul cfg) (sc_lon_lr cfg) (sc_lat_lr cfg)) dem0 = Some dem1
     else dem1 = dem0) ->
    (if sc_aggregate cfg then tool None (Average (sc_degree cfg)) dem1 = Some dem2 else dem2 = dem1) ->
    tool None ToNetcdf dem2 = Some (Band lat lon dem) ->
    tool None Slope (Band lat lon dem) = Some (Band la lo slope) ->
    tool (Some outline) (Cutline (folder ++ sc_shape cfg)) dem2 = Some (Band la' lo' cut) ->
    aspect_of dem2 = Some aspect ->
    Forall (has_size (length lat) (length lon)) [dem; aspect; slope; cut] ->
    exists fs' r ds,
      static_main gdal aspect_of cfg fs = (fs', r) /\
      sd_lat ds = lat /\ sd_lon ds = lon /\
      (forall y x, value_at ds "HGT" y x = entry_of dem y x) /\
      (forall y x, value_at ds "SLOPE" y x = entry_of slope y x) /\
      (forall y x, (y < length lat)%nat -> value_at ds "ASPECT" y x = entry_of aspect (length lat - S y) x) /\
      (forall y x, on_glacier ds y x <-> exists z, entry_of cut y x = Some (Some z) /\ 0 < z) /\
      (complete_on_glacier ds -> (exists n, r = inl n) /\ dict_find fs' output = Some (Written ds)) /\
      (~ complete_on_glacier ds -> r = inr NaNsInStaticFields /\
         (~ temporary folder output -> dict_find fs' output = dict_find fs output)).
Proof.
  intros tool gdal aspect_of cfg fs dem0 outline dem1 dem2 lat lon dem aspect slope cut la lo la' lo'
    Rel folder output Td Ts Fd Fs Tile Agg Net Slp Cut Asp Sz.
  assert (S1 := Forall_inv Sz). apply Forall_inv_tail in Sz. assert (S2 := Forall_inv Sz). apply Forall_inv_tail in Sz.
  assert (S3 := Forall_inv Sz). apply Forall_inv_tail in Sz. assert (S4 := Forall_inv Sz). clear Sz.
  assert (S2' : has_size (length lat) (length lon) (rev aspect)).
  { destruct S2 as [L F]. split; [rewrite rev_length; exact L|apply Forall_rev, F]. }
  set (ds := mkStaticDataset lat lon (four dem (rev aspect) slope (glacier_mask cut))).
  assert (V : (forall y x, value_at ds "HGT" y x = entry_of dem y x) /\
      (forall y x, value_at ds "SLOPE" y x = entry_of slope y x) /\
      (forall y x, (y < length lat)%nat -> value_at ds "ASPECT" y x = entry_of aspect (length lat - S y) x) /\
      (forall y x, on_glacier ds y x <-> exists z, entry_of cut y x = Some (Some z) /\ 0 < z)).
  { split; [reflexivity|]. split; [reflexivity|]. split.
    - intros y x L. change (entry_of (rev aspect) y x = entry_of aspect (length lat - S y) x).
      destruct S2 as [La _]. rewrite entry_rev by lia. rewrite La. reflexivity.
    - intros y x. exact (proj1 (proj2 (proj2 (mask_values_lem cut y x)))). }
  assert (ne : forall a b, a <> b -> (folder ++ a)%string <> (folder ++ b)%string).
  { clear. intros a b N E. apply N. clear N. induction folder as [|c s IH]; cbn in E; [exact E|]. injection E. exact IH. }
  assert (tmp : forall n, In n ["dem.nc"; "mask.nc"; "slope.nc"; "DEM_temp.tif"; "DEM_temp2.tif"]%string -> temporary folder (folder ++ n)).
  { intros n I. unfold temporary. apply in_map. exact I. }
  assert (Rs : forall fs0 cmd s t c c', dict_find fs0 s = Some c ->
     tool (match cmd with Cutline shape => dict_find fs0 shape | _ => None end) cmd c = Some c' ->
     system gdal fs0 cmd s t = dict_set fs0 t c').
  { intros fs0 cmd s t c c' F E. unfold system. rewrite Rel, F, E. reflexivity. }
  unfold static_main. fold folder.
  assert (Step1 : exists fsa ta, do_tile gdal cfg fs (folder ++ sc_dem cfg)%string = (fsa, ta) /\
    dict_find fsa ta = Some dem1 /\ (ta = (folder ++ sc_dem cfg)%string \/ ta = temp_tif folder) /\
    (forall p, ~ temporary folder p -> dict_find fsa p = dict_find fs p)).
  { unfold do_tile. fold folder. destruct (sc_tile cfg).
    - erewrite Rs; [|exact Fd|exact Tile]. do 2 eexists. split; [reflexivity|].
      split; [apply find_set_same|]. split; [auto|]. intros p T. apply find_set_other.
      intro E. apply T. rewrite <- E. apply tmp. cbn. tauto.
    - subst dem1. do 2 eexists. split; [reflexivity|]. split; [exact Fd|]. split; [auto|reflexivity]. }
  destruct Step1 as (fsa & ta & -> & Fa & Ta & Na).
  assert (Step2 : exists fsb tb, do_aggregate gdal cfg fsa ta = (fsb, tb) /\
    dict_find fsb tb = Some dem2 /\ (tb = (folder ++ sc_dem cfg)%string \/ tb = temp_tif folder \/ tb = temp2_tif folder) /\
    (forall p, ~ temporary folder p -> dict_find fsb p = dict_find fs p)).
  { unfold do_aggregate. fold folder. destruct (sc_aggregate cfg).
    - erewrite Rs; [|exact Fa|exact Agg]. do 2 eexists. split; [reflexivity|].
      split; [apply find_set_same|]. split; [auto|]. intros p T. rewrite <- (Na p T). apply find_set_other.
      intro E. apply T. rewrite <- E. apply tmp. cbn. tauto.
    - subst dem2. do 2 eexists. split; [reflexivity|]. split; [exact Fa|]. split; [tauto|exact Na]. }
  destruct Step2 as (fsb & tb & -> & Fb & Tb & Nb).
  assert (Ne : forall n, In n ["dem.nc"; "mask.nc"; "slope.nc"]%string -> tb <> (folder ++ n)%string).
  { intros n I. destruct Tb as [->|[->| ->]].
    - intro E. apply Td. rewrite E. apply tmp. cbn in I |- *. tauto.
    - apply ne. destruct I as [<-|[<-|[<-|[]]]]; discriminate.
    - apply ne. destruct I as [<-|[<-|[<-|[]]]]; discriminate. }
  erewrite (Rs fsb); [|exact Fb|exact Net].
  set (fsc := dict_set fsb (dem_nc folder) (Band lat lon dem)).
  assert (Fc : dict_find fsc (dem_nc folder) = Some (Band lat lon dem)) by apply find_set_same.
  erewrite (Rs fsc); [|exact Fc|exact Slp].
  set (fsd := dict_set fsc (slope_nc folder) (Band la lo slope)).
  assert (Fdt : dict_find fsd tb = Some dem2).
  { unfold fsd, fsc. rewrite !find_set_other; [exact Fb| |];
      intro E; symmetry in E; revert E; apply Ne; cbn; tauto. }
  rewrite Fdt, Asp.
  assert (Fsh : dict_find fsd (folder ++ sc_shape cfg)%string = Some outline).
  { unfold fsd, fsc. rewrite !find_set_other; [rewrite Nb by exact Ts; exact Fs| |];
      intro E; apply Ts; rewrite <- E; apply tmp; cbn; tauto. }
  erewrite (Rs fsd); [|exact Fdt|cbv iota; rewrite Fsh; exact Cut].
  set (fse := dict_set fsd (mask_nc folder) (Band la' lo' cut)).
  assert (F1 : dict_find fse (dem_nc folder) = Some (Band lat lon dem)).
  { unfold fse, fsd. rewrite !find_set_other; [exact Fc| |]; apply ne; discriminate. }
  assert (F2 : dict_find fse (mask_nc folder) = Some (Band la' lo' cut)) by apply find_set_same.
  assert (F3 : dict_find fse (slope_nc folder) = Some (Band la lo slope)).
  { unfold fse. rewrite find_set_other by (apply ne; discriminate). apply find_set_same. }
  unfold exists_file, dict_mem, open_band. rewrite F1, F2, F3. cbn [andb negb].
  rewrite (static_data_sized lat lon dem (rev aspect) slope (glacier_mask cut) S1 S2' S3 (mask_size _ _ _ S4)).
  fold ds. assert (C := check_spec lat lon dem (rev aspect) slope (glacier_mask cut) S1 S2' S3 (mask_size _ _ _ S4)).
  cbv zeta in C. fold ds in C. fold output. destruct (check_for_nan ds).
  - do 2 eexists. exists ds. split; [reflexivity|]. split; [reflexivity|]. split; [reflexivity|].
    destruct V as (V1 & V2 & V3 & V4). split; [exact V1|]. split; [exact V2|]. split; [exact V3|]. split; [exact V4|].
    split.
    + intros _. split; [eauto|]. apply find_set_same.
    + intro X. exfalso. apply X, C. reflexivity.
  - do 2 eexists. exists ds. split; [reflexivity|]. split; [reflexivity|]. split; [reflexivity|].
    destruct V as (V1 & V2 & V3 & V4). split; [exact V1|]. split; [exact V2|]. split; [exact V3|]. split; [exact V4|].
    split.
    + intro X. apply C in X. discriminate.
    + intros _. split; [reflexivity|]. intro T. rewrite (proj2 (clean_find cfg fse output) T).
      unfold fse, fsd, fsc. rewrite !find_set_other; [apply Nb, T| | |];
        intro E; apply T; rewrite <- E; apply tmp; cbn; tauto.
Qed.

(*@ C96 The rows fit together: if the conversion to NetCDF turns the rows of the DEM upside down, as GDAL does, the elevation and the aspect of a place come from the same pixel of the DEM. *)
Lemma aspect_rows_aligned_lem :
  forall tool gdal aspect_of cfg fs dem0 outline dem1 rows lat lon aspect slope cut la lo la' lo' ds n fs',
    reliable tool gdal ->
    let folder := sc_folder cfg in
    ~ temporary folder (folder ++ sc_dem cfg) -> ~ temporary folder (folder ++ sc_shape cfg) ->
    dict_find fs (folder ++ sc_dem cfg)%string = Some dem0 ->
    dict_find fs (folder ++ sc_shape cfg)%string = Some outline ->
    (if sc_tile cfg
     then tool None (Projwin (sc_lon_ul cfg) (sc_lat_ul cfg) (sc_lon_lr cfg) (sc_lat_lr cfg)) dem0 = Some dem1
     else dem1 = dem0) ->
    (if sc_aggregate cfg then tool None (Average (sc_degree cfg)) dem1 = Some (Tif rows) else Tif rows = dem1) ->
    tool None ToNetcdf (Tif rows) = Some (Band lat lon (rev rows)) ->
    tool None Slope (Band lat lon (rev rows)) = Some (Band la lo slope) ->
    tool (Some outline) (Cutline (folder ++ sc_shape cfg)) (Tif rows) = Some (Band la' lo' cut) ->
    aspect_of (Tif rows) = Some aspect ->
    Forall (has_size (length lat) (length lon)) [rows; aspect; slope; cut] ->
    static_main gdal aspect_of cfg fs = (fs', inl n) ->
    dict_find fs' (folder ++ sc_output cfg)%string = Some (Written ds) ->
    forall y x, (y < length lat)%nat ->
      exists y', (y' < length rows)%nat /\
        value_at ds "HGT" y x = entry_of rows y' x /\ value_at ds "ASPECT" y x = entry_of aspect y' x.
Proof.
  intros tool gdal aspect_of cfg fs dem0 outline dem1 rows lat lon aspect slope cut la lo la' lo' ds n fs'
    Rel folder Td Ts Fd Fs Tile Agg Net Slp Cut Asp Sz Run Fo y x Hy.
  assert (S1 := Forall_inv Sz). assert (Sz' := Forall_inv_tail Sz). destruct S1 as [L F].
  destruct (static_pipeline_lem tool gdal aspect_of cfg fs dem0 outline dem1 (Tif rows) lat lon (rev rows) aspect slope cut la lo la' lo'
    Rel Td Ts Fd Fs Tile Agg Net Slp Cut Asp) as (fs2 & r & ds2 & Run2 & _ & _ & V1 & _ & V3 & _ & W & B).
  { constructor; [|exact Sz']. split; [rewrite rev_length; exact L|apply Forall_rev, F]. }
  rewrite Run in Run2. injection Run2 as <- <-.
  assert (ds2 = ds).
  { destruct (Classical_Prop.classic (complete_on_glacier ds2)) as [C|C].
    - destruct (W C) as [_ E]. fold folder in E. congruence.
    - destruct (B C) as [E _]. discriminate. }
  subst ds2. exists (length lat - S y)%nat. split; [lia|]. rewrite V1, V3 by exact Hy. split; [|reflexivity].
  rewrite entry_rev by lia. rewrite L. reflexivity.
Qed.

(*@ C96 Reading the file back: a place is on the glacier exactly as it was written, and if no value on the glacier is -9999, every place on the glacier has its elevation, aspect and slope. *)
Lemma static_read_back_lem :
  forall ds y x,
    (on_glacier ds y x <-> option_map read_back (value_at ds "MASK" y x) = Some (Some 1)) /\
    (complete_on_glacier ds -> on_glacier ds y x ->
     forall name, In name ["HGT"; "ASPECT"; "SLOPE"]%string ->
       value_at ds name y x <> Some (Some (-9999)) ->
       exists v, option_map read_back (value_at ds name y x) = Some (Some v) /\ value_at ds name y x = Some (Some v)).
Proof.
  intros ds y x. split.
  - unfold on_glacier. destruct (value_at ds "MASK" y x) as [[v|]|]; cbn.
    + unfold Reqb. destruct (Req_EM_T v (-9999)) as [->|N]; [|reflexivity].
      split; intro H; [injection H; lra|discriminate].
    + split; discriminate.
    + split; discriminate.
  - intros C G name I Nf. destruct (C y x G name I) as [v E]. rewrite E in Nf |- *. exists v. cbn.
    unfold Reqb. destruct (Req_EM_T v (-9999)) as [->|N]; [congruence|]. split; reflexivity.
Qed.

(** *** Tools for the examples: one pixel *)
Definition pixel (z : R) : raster number := [[Some z]].
Definition one_band (z : R) : content := Band [30] [90] (pixel z).
Definition example_tool (_ : option content) (cmd : command) (t : content) : option content :=
  match cmd, t with
  | Projwin _ _ _ _, Tif [[Some z]] => Some (Tif (pixel (z + 1)))
  | Average _, Tif [[Some z]] => Some (Tif (pixel (z + 1)))
  | ToNetcdf, Tif [[Some z]] => Some (one_band z)
  | Slope, Band _ _ _ => Some (one_band 10)
  | Cutline _, Tif [[Some z]] => Some (one_band z)
  | _, _ => None
  end.
Definition example_gdal (fs : disk) (cmd : command) (source target : string) : option content :=
  match dict_find fs source with
  | Some t => example_tool (match cmd with Cutline shape => dict_find fs shape | _ => None end) cmd t
  | None => None
  end.
(** the same, but tiling always fails *)
Definition failing_gdal (fs : disk) (cmd : command) (source target : string) : option content :=
  match cmd with Projwin _ _ _ _ => None | _ => example_gdal fs cmd source target end.
Definition flat_aspect (v : R) (t : content) : option (raster number) :=
  match t with Tif _ => Some (pixel v) | _ => None end.
Definition example_config (dem : string) (tile aggregate : bool) : StaticConfig :=
  mkStaticConfig "d/" dem "s.shp" "out.nc" tile aggregate "0.003" "0" "1" "1" "0".
Definition example_dataset (z aspect : R) : static_dataset :=
  mkStaticDataset [30] [90] (four (pixel z) (pixel aspect) (pixel 10) (pixel 1)).

Lemma one_pixel_run gdal dem tile aggregate a fs fs1 fs2 t1 t2 z :
  let cfg := example_config dem tile aggregate in
  do_tile gdal cfg fs ("d/" ++ dem)%string = (fs1, t1) -> do_aggregate gdal cfg fs1 t1 = (fs2, t2) ->
  (forall f c s t, gdal f c s t = example_gdal f c s t \/ exists x y v w, c = Projwin x y v w) ->
  dict_find fs2 t2 = Some (Tif (pixel z)) -> 0 < z ->
  ~ In t2 ["d/dem.nc"; "d/slope.nc"; "d/mask.nc"]%string ->
  static_main gdal (flat_aspect a) cfg fs =
    (dict_set
       (clean_up cfg (dict_set (dict_set (dict_set fs2 "d/dem.nc" (one_band z)) "d/slope.nc" (one_band 10)) "d/mask.nc" (one_band z)))
       "d/out.nc" (Written (example_dataset z a)), inl 1).
Proof.
  intros cfg T A G F P N. unfold static_main. cbn [cfg sc_folder example_config sc_dem].
  change (sc_folder cfg) with "d/"%string. change (sc_dem cfg) with dem. change (sc_shape cfg) with "s.shp"%string.
  change (sc_output cfg) with "out.nc"%string. rewrite T, A.
  change (dem_nc "d/") with "d/dem.nc"%string. change (slope_nc "d/") with "d/slope.nc"%string.
  change (mask_nc "d/") with "d/mask.nc"%string. change ("d/" ++ "out.nc")%string with "d/out.nc"%string.
  cbn [In] in N.
  assert (E1 : system gdal fs2 ToNetcdf t2 "d/dem.nc" = dict_set fs2 "d/dem.nc" (one_band z)).
  { unfold system. destruct (G fs2 ToNetcdf t2 "d/dem.nc"%string) as [->|(?&?&?&?&?)]; [|discriminate].
    unfold example_gdal. rewrite F. reflexivity. }
  rewrite E1. set (fs3 := dict_set fs2 "d/dem.nc" (one_band z)).
  assert (E2 : system gdal fs3 Slope "d/dem.nc" "d/slope.nc" = dict_set fs3 "d/slope.nc" (one_band 10)).
  { unfold system. destruct (G fs3 Slope "d/dem.nc"%string "d/slope.nc"%string) as [->|(?&?&?&?&?)]; [|discriminate].
    unfold example_gdal, fs3. rewrite find_set_same. reflexivity. }
  rewrite E2. set (fs4 := dict_set fs3 "d/slope.nc" (one_band 10)).
  assert (F4 : dict_find fs4 t2 = Some (Tif (pixel z))).
  { unfold fs4, fs3. rewrite !find_set_other; [exact F| |]; intro; apply N; auto. }
  rewrite F4. cbn [flat_aspect].
  match goal with |- context [system gdal fs4 (Cutline ?s) t2 ?m] =>
    assert (E3 : system gdal fs4 (Cutline s) t2 m = dict_set fs4 m (one_band z)) end.
  { unfold system. match goal with |- context [gdal fs4 ?c ?s ?t] => destruct (G fs4 c s t) as [->|(?&?&?&?&?)]; [|discriminate] end.
    unfold example_gdal. rewrite F4. reflexivity. }
  rewrite E3. set (fs5 := dict_set fs4 "d/mask.nc" (one_band z)).
  assert (G1 : dict_find fs5 "d/dem.nc"%string = Some (one_band z)).
  { unfold fs5, fs4. rewrite !find_set_other by discriminate. apply find_set_same. }
  assert (G2 : dict_find fs5 "d/mask.nc"%string = Some (one_band z)) by apply find_set_same.
  assert (G3 : dict_find fs5 "d/slope.nc"%string = Some (one_band 10)).
  { unfold fs5. rewrite find_set_other by discriminate. apply find_set_same. }
  unfold exists_file, dict_mem, open_band. rewrite G1, G2, G3. cbn [andb negb one_band].
  assert (M : glacier_mask (pixel z) = pixel 1).
  { unfold glacier_mask, pixel. cbn. unfold Rltb. destruct (Rlt_dec 0 z); [reflexivity|lra]. }
  rewrite M. rewrite static_data_sized by (split; [reflexivity|repeat constructor]).
  change (rev (pixel a)) with (pixel a). fold (example_dataset z a).
  assert (C : check_for_nan (example_dataset z a) = true).
  { unfold check_for_nan. cbn -[Reqb]. unfold cell_passes. cbn -[Reqb].
    destruct (Reqb 1 1); reflexivity. }
  rewrite C. f_equal. f_equal. rewrite glacier_points_count. cbn. unfold Reqb. destruct (Req_EM_T 1 1); [reflexivity|lra].
Qed.

(*@ C96 A command that fails goes unnoticed: with the temporary file of an earlier, interrupted run still in the folder, a run whose tiling fails succeeds and writes the elevation of the old file. *)
Lemma stale_tile_refuted_lem :
  exists gdal aspect_of cfg fs fs' n dem0 ds,
    sc_tile cfg = true /\ sc_aggregate cfg = false /\
    dict_find fs (sc_folder cfg ++ sc_dem cfg)%string = Some dem0 /\ dem0 = Tif [[Some 100]] /\
    (forall fs s t x y v w, gdal fs (Projwin x y v w) s t = None) /\
    static_main gdal aspect_of cfg fs = (fs', inl n) /\
    dict_find fs' (sc_folder cfg ++ sc_output cfg)%string = Some (Written ds) /\
    value_at ds "HGT" 0 0 = Some (Some 4711).
Proof.
  set (fs := [("d/dem.tif", Tif (pixel 100)); ("d/s.shp", Other ""); ("d/DEM_temp.tif", Tif (pixel 4711))]%string).
  exists failing_gdal, (flat_aspect 0), (example_config "dem.tif" true false), fs.
  do 4 eexists. split; [reflexivity|]. split; [reflexivity|]. split; [reflexivity|]. split; [reflexivity|].
  split; [reflexivity|]. split.
  { eapply (one_pixel_run failing_gdal "dem.tif" true false 0 fs fs fs "d/DEM_temp.tif" "d/DEM_temp.tif" 4711).
    - reflexivity.
    - reflexivity.
    - intros f c s t. destruct c; try (left; reflexivity). right. eauto.
    - reflexivity.
    - lra.
    - cbn. intuition discriminate. }
  split; [apply find_set_same|]. reflexivity.
Qed.

(*@ C96 A DEM that has the name of an intermediate file is deleted by a run that succeeds. *)
Lemma dem_deleted_refuted_lem :
  exists gdal aspect_of cfg fs fs' n,
    reliable example_tool gdal /\
    dict_find fs (sc_folder cfg ++ sc_dem cfg)%string <> None /\
    static_main gdal aspect_of cfg fs = (fs', inl n) /\
    dict_find fs' (sc_folder cfg ++ sc_dem cfg)%string = None.
Proof.
  set (fs := [("d/DEM_temp.tif", Tif (pixel 100)); ("d/s.shp", Other "")]%string).
  exists example_gdal, (flat_aspect 0), (example_config "DEM_temp.tif" false false), fs.
  do 2 eexists. split; [intros f c s t; reflexivity|]. split; [discriminate|]. split.
  { eapply (one_pixel_run example_gdal "DEM_temp.tif" false false 0 fs fs fs "d/DEM_temp.tif" "d/DEM_temp.tif" 100).
    - reflexivity.
    - reflexivity.
    - intros. left. reflexivity.
    - reflexivity.
    - lra.
    - cbn. intuition discriminate. }
  reflexivity.
Qed.

(*@ C96 The check does not know the fill value: with an aspect of -9999 on the glacier, which richdem writes where it has no value, the run succeeds, and whoever opens the file finds NaN on the glacier. *)
Lemma fill_value_passes_refuted_lem :
  exists gdal aspect_of cfg fs fs' n ds,
    static_main gdal aspect_of cfg fs = (fs', inl n) /\
    dict_find fs' (sc_folder cfg ++ sc_output cfg)%string = Some (Written ds) /\
    option_map read_back (value_at ds "MASK" 0 0) = Some (Some 1) /\
    option_map read_back (value_at ds "ASPECT" 0 0) = Some None.
Proof.
  set (fs := [("d/dem.tif", Tif (pixel 100)); ("d/s.shp", Other "")]%string).
  exists example_gdal, (flat_aspect (-9999)), (example_config "dem.tif" false false), fs.
  do 3 eexists. split.
  { eapply (one_pixel_run example_gdal "dem.tif" false false (-9999) fs fs fs "d/dem.tif" "d/dem.tif" 100).
    - reflexivity.
    - reflexivity.
    - intros. left. reflexivity.
    - reflexivity.
    - lra.
    - cbn. intuition discriminate. }
  split; [apply find_set_same|]. split.
  - cbn. unfold Reqb. destruct (Req_EM_T 1 (-9999)); [lra|reflexivity].
  - cbn. unfold Reqb. destruct (Req_EM_T (-9999) (-9999)); [reflexivity|lra].
Qed.

(*@ex C96 A run with tiling and averaging that meets the hypotheses: the elevation 100 becomes 102, and the file is written. *)
Lemma static_run_example_lem :
  let fs := [("d/dem.tif", Tif [[Some 100]]); ("d/s.shp", Other "")]%string in
  let cfg := mkStaticConfig "d/" "dem.tif" "s.shp" "out.nc" true true "0.003" "0" "1" "1" "0" in
  exists fs' ds,
    static_main example_gdal (flat_aspect 45) cfg fs = (fs', inl 1) /\
    dict_find fs' "d/out.nc"%string = Some (Written ds) /\ on_glacier ds 0 0 /\
    value_at ds "HGT" 0 0 = Some (Some (100 + 1 + 1)) /\ value_at ds "ASPECT" 0 0 = Some (Some 45) /\
    dict_find fs' "d/DEM_temp.tif"%string = None /\ dict_find fs' "d/dem.tif"%string = Some (Tif [[Some 100]]).
Proof.
  intros fs cfg. do 2 eexists. split.
  { eapply (one_pixel_run example_gdal "dem.tif" true true 45 fs _ _ "d/DEM_temp.tif" "d/DEM_temp2.tif" (100 + 1 + 1)).
    - reflexivity.
    - reflexivity.
    - intros. left. reflexivity.
    - reflexivity.
    - lra.
    - cbn. intuition discriminate. }
  split; [apply find_set_same|]. repeat (split; [reflexivity|]). reflexivity.
Qed.
