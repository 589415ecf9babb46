(** * The static file

    Theorems only; the proofs are in LemFinStatic.v and the files it uses. *)

From Verif Require Import ModelPy ModelConstants ModelNode ModelGrid ModelHeat ModelSurface ModelInit ModelCore ModelConfig ModelIO ModelMain ModelRadCor ModelStatic SpecStatic.
From Verif Require Import LemFinStatic.

(** C96.  The mask: it has the size of the elevations inside of the outline; it is 1 exactly where such an elevation is a number above zero, -9999 where there is none, and where the glacier is at or below sea level it is the elevation itself. *)
Theorem mask_values :
  forall band y x,
    (forall ny nx, has_size ny nx band <-> has_size ny nx (glacier_mask band)) /\
    (entry_of (glacier_mask band) y x = None <-> entry_of band y x = None) /\
    (entry_of (glacier_mask band) y x = Some (Some 1) <-> exists z, entry_of band y x = Some (Some z) /\ 0 < z) /\
    (entry_of band y x = Some None -> entry_of (glacier_mask band) y x = Some (Some (-9999))) /\
    (forall z, entry_of band y x = Some (Some z) -> z <= 0 -> entry_of (glacier_mask band) y x = Some (Some z)).
Proof. exact mask_values_lem. Qed.
Print Assumptions mask_values.

(** C96.  Which files a run touches, whatever the tools do and however it ends: only the intermediate files and the output; the output only if the run succeeds.  After a success, and after a failed check, the intermediate files are gone. *)
Theorem static_files_touched :
  forall gdal aspect_of cfg fs fs' r p,
    static_main gdal aspect_of cfg fs = (fs', r) ->
    let output := (sc_folder cfg ++ sc_output cfg)%string in
    (~ temporary (sc_folder cfg) p -> p <> output -> dict_find fs' p = dict_find fs p) /\
    (~ temporary (sc_folder cfg) p -> (forall n, r <> inl n) -> dict_find fs' p = dict_find fs p) /\
    (temporary (sc_folder cfg) p -> p <> output -> (exists n, r = inl n) \/ r = inr NaNsInStaticFields ->
     dict_find fs' p = None).
Proof. exact static_files_touched_lem. Qed.
Print Assumptions static_files_touched.

(** C96.  A run that succeeds has written a file with the four variables on the coordinates of the elevations; wherever its mask is 1 the elevation, aspect and slope are numbers; and the printed number is the number of these places. *)
Theorem static_written :
  forall gdal aspect_of cfg fs fs' n,
    static_main gdal aspect_of cfg fs = (fs', inl n) ->
    exists ds mask,
      dict_find fs' (sc_folder cfg ++ sc_output cfg)%string = Some (Written ds) /\
      map (fun nv => (fst nv, fst (snd nv))) (sd_vars ds) =
        [("HGT", ("meters", "meter above sea level")); ("ASPECT", ("degrees", "Aspect of slope"));
         ("SLOPE", ("degrees", "Terrain slope")); ("MASK", ("boolean", "Glacier mask"))]%string /\
      Forall (fun nv => has_size (length (sd_lat ds)) (length (sd_lon ds)) (snd (snd nv))) (sd_vars ds) /\
      complete_on_glacier ds /\
      dict_find (sd_vars ds) "MASK"%string = Some ("boolean", "Glacier mask", mask)%string /\
      n = INR (length (places_of_one mask)).
Proof. exact static_written_lem. Qed.
Print Assumptions static_written.

(** C96.  With tools that work, the result of a run: the elevations are those of the DEM after tiling and averaging, each only if it is switched on; slope and aspect are those of the same elevations, the mask is cut from the same elevations; the run succeeds exactly if every place on the glacier has all its values, and otherwise reports it and leaves the output as it was. *)
Theorem static_pipeline :
  forall tool gdal aspect_of cfg fs dem0 outline dem1 dem2 lat lon dem aspect slope cut la lo la' lo',
    reliable tool gdal ->
    let folder := sc_folder cfg in
    let output := (folder ++ sc_output cfg)%string in
    ~ temporary folder (folder ++ sc_dem cfg) -> ~ temporary folder (folder ++ sc_shape cfg) ->
    dict_find fs (folder ++ sc_dem cfg)%string = Some dem0 ->
    dict_find fs (folder ++ sc_shape cfg)%string = Some outline ->
    (if sc_tile cfg
     then tool None (Projwin (sc_lon_ul cfg) (sc_lat_ul cfg) (sc_lon_lr cfg) (sc_lat_lr cfg)) dem0 = Some dem1
     else dem1 = dem0) ->
    (if sc_aggregate cfg then tool None (Average (sc_degree cfg)) dem1 = Some dem2 else dem2 = dem1) ->
    tool None ToNetcdf dem2 = Some (Band lat lon dem) ->
    tool None Slope (Band lat lon dem) = Some (Band la lo slope) ->
    tool (Some outline) (Cutline (folder ++ sc_shape cfg)) dem2 = Some (Band la' lo' cut) ->
    aspect_of dem2 = Some aspect ->
    Forall (has_size (length lat) (length lon)) [dem; aspect; slope; cut] ->
    exists fs' r ds,
      static_main gdal aspect_of cfg fs = (fs', r) /\
      sd_lat ds = lat /\ sd_lon ds = lon /\
      (forall y x, value_at ds "HGT" y x = entry_of dem y x) /\
      (forall y x, value_at ds "SLOPE" y x = entry_of slope y x) /\
      (forall y x, (y < length lat)%nat -> value_at ds "ASPECT" y x = entry_of aspect (length lat - S y) x) /\
      (forall y x, on_glacier ds y x <-> exists z, entry_of cut y x = Some (Some z) /\ 0 < z) /\
      (complete_on_glacier ds -> (exists n, r = inl n) /\ dict_find fs' output = Some (Written ds)) /\
      (~ complete_on_glacier ds -> r = inr NaNsInStaticFields /\
         (~ temporary folder output -> dict_find fs' output = dict_find fs output)).
Proof. exact static_pipeline_lem. Qed.
Print Assumptions static_pipeline.

(** C96.  The rows fit together: if the conversion to NetCDF turns the rows of the DEM upside down, as GDAL does, the elevation and the aspect of a place come from the same pixel of the DEM. *)
Theorem aspect_rows_aligned :
  forall tool gdal aspect_of cfg fs dem0 outline dem1 rows lat lon aspect slope cut la lo la' lo' ds n fs',
    reliable tool gdal ->
    let folder := sc_folder cfg in
    ~ temporary folder (folder ++ sc_dem cfg) -> ~ temporary folder (folder ++ sc_shape cfg) ->
    dict_find fs (folder ++ sc_dem cfg)%string = Some dem0 ->
    dict_find fs (folder ++ sc_shape cfg)%string = Some outline ->
    (if sc_tile cfg
     then tool None (Projwin (sc_lon_ul cfg) (sc_lat_ul cfg) (sc_lon_lr cfg) (sc_lat_lr cfg)) dem0 = Some dem1
     else dem1 = dem0) ->
    (if sc_aggregate cfg then tool None (Average (sc_degree cfg)) dem1 = Some (Tif rows) else Tif rows = dem1) ->
    tool None ToNetcdf (Tif rows) = Some (Band lat lon (rev rows)) ->
    tool None Slope (Band lat lon (rev rows)) = Some (Band la lo slope) ->
    tool (Some outline) (Cutline (folder ++ sc_shape cfg)) (Tif rows) = Some (Band la' lo' cut) ->
    aspect_of (Tif rows) = Some aspect ->
    Forall (has_size (length lat) (length lon)) [rows; aspect; slope; cut] ->
    static_main gdal aspect_of cfg fs = (fs', inl n) ->
    dict_find fs' (folder ++ sc_output cfg)%string = Some (Written ds) ->
    forall y x, (y < length lat)%nat ->
      exists y', (y' < length rows)%nat /\
        value_at ds "HGT" y x = entry_of rows y' x /\ value_at ds "ASPECT" y x = entry_of aspect y' x.
Proof. exact aspect_rows_aligned_lem. Qed.
Print Assumptions aspect_rows_aligned.

(** C96.  Reading the file back: a place is on the glacier exactly as it was written, and if no value on the glacier is -9999, every place on the glacier has its elevation, aspect and slope. *)
Theorem static_read_back :
  forall ds y x,
    (on_glacier ds y x <-> option_map read_back (value_at ds "MASK" y x) = Some (Some 1)) /\
    (complete_on_glacier ds -> on_glacier ds y x ->
     forall name, In name ["HGT"; "ASPECT"; "SLOPE"]%string ->
       value_at ds name y x <> Some (Some (-9999)) ->
       exists v, option_map read_back (value_at ds name y x) = Some (Some v) /\ value_at ds name y x = Some (Some v)).
Proof. exact static_read_back_lem. Qed.
Print Assumptions static_read_back.

(** C96.  A command that fails goes unnoticed: with the temporary file of an earlier, interrupted run still in the folder, a run whose tiling fails succeeds and writes the elevation of the old file. *)
Theorem stale_tile_refuted :
  exists gdal aspect_of cfg fs fs' n dem0 ds,
    sc_tile cfg = true /\ sc_aggregate cfg = false /\
    dict_find fs (sc_folder cfg ++ sc_dem cfg)%string = Some dem0 /\ dem0 = Tif [[Some 100]] /\
    (forall fs s t x y v w, gdal fs (Projwin x y v w) s t = None) /\
    static_main gdal aspect_of cfg fs = (fs', inl n) /\
    dict_find fs' (sc_folder cfg ++ sc_output cfg)%string = Some (Written ds) /\
    value_at ds "HGT" 0 0 = Some (Some 4711).
Proof. exact stale_tile_refuted_lem. Qed.
Print Assumptions stale_tile_refuted.

(** C96.  A DEM that has the name of an intermediate file is deleted by a run that succeeds. *)
Theorem dem_deleted_refuted :
  exists gdal aspect_of cfg fs fs' n,
    reliable example_tool gdal /\
    dict_find fs (sc_folder cfg ++ sc_dem cfg)%string <> None /\
    static_main gdal aspect_of cfg fs = (fs', inl n) /\
    dict_find fs' (sc_folder cfg ++ sc_dem cfg)%string = None.
Proof. exact dem_deleted_refuted_lem. Qed.
Print Assumptions dem_deleted_refuted.

(** C96.  The check does not know the fill value: with an aspect of -9999 on the glacier, which richdem writes where it has no value, the run succeeds, and whoever opens the file finds NaN on the glacier. *)
Theorem fill_value_passes_refuted :
  exists gdal aspect_of cfg fs fs' n ds,
    static_main gdal aspect_of cfg fs = (fs', inl n) /\
    dict_find fs' (sc_folder cfg ++ sc_output cfg)%string = Some (Written ds) /\
    option_map read_back (value_at ds "MASK" 0 0) = Some (Some 1) /\
    option_map read_back (value_at ds "ASPECT" 0 0) = Some None.
Proof. exact fill_value_passes_refuted_lem. Qed.
Print Assumptions fill_value_passes_refuted.

(** C96 A run with tiling and averaging that meets the hypotheses: the elevation 100 becomes 102, and the file is written. *)
Example static_run_example :
  let fs := [("d/dem.tif", Tif [[Some 100]]); ("d/s.shp", Other "")]%string in
  let cfg := mkStaticConfig "d/" "dem.tif" "s.shp" "out.nc" true true "0.003" "0" "1" "1" "0" in
  exists fs' ds,
    static_main example_gdal (flat_aspect 45) cfg fs = (fs', inl 1) /\
    dict_find fs' "d/out.nc"%string = Some (Written ds) /\ on_glacier ds 0 0 /\
    value_at ds "HGT" 0 0 = Some (Some (100 + 1 + 1)) /\ value_at ds "ASPECT" 0 0 = Some (Some 45) /\
    dict_find fs' "d/DEM_temp.tif"%string = None /\ dict_find fs' "d/dem.tif"%string = Some (Tif [[Some 100]]).
Proof. exact static_run_example_lem. Qed.
