(** * The static file (cosipy/utilities/createStatic/create_static_file.py)

    GDAL and richdem are parameters.  The files are a dictionary from paths to contents; paths are
    compared as texts and hold no characters that the shell interprets.  A command that fails
    writes nothing, and its exit status is ignored, as the code does with [os.system].  A run that
    stops with an exception leaves the files as they are then.  Coordinate attributes and messages
    are left out, and so is check_folder_path, which is never called. *)
From Verif Require Import ModelPy ModelConstants ModelNode ModelGrid ModelHeat ModelSurface ModelInit
  ModelCore ModelConfig ModelIO ModelMain ModelRadCor.

(** ** Files *)

(** the dataset that is written: for each variable its units, its long name and its values *)
Record static_dataset : Type := mkStaticDataset {
  sd_lat : list R; sd_lon : list R; sd_vars : dict (string * string * raster number)
}.

Inductive content : Type :=
| Tif (rows : raster number)                              (* rows from north to south *)
| Band (lat lon : list R) (values : raster number)        (* NetCDF with the variable Band1 *)
| Written (ds : static_dataset)
| Other (text : string).

Definition disk : Type := dict content.

(** [rm path]: nothing happens if there is no such file *)
Definition remove (fs : disk) (path : string) : disk :=
  filter (fun nv => negb (String.eqb (fst nv) path)) fs.

(** ** Configuration: the section create_static of utilities_config.toml *)
Record StaticConfig : Type := mkStaticConfig {
  sc_folder : string; sc_dem : string; sc_shape : string; sc_output : string;
  sc_tile : bool; sc_aggregate : bool; sc_degree : string;
  sc_lon_ul : string; sc_lat_ul : string; sc_lon_lr : string; sc_lat_lr : string
}.

(** ** The commands of create_static_file.py:124-152 *)
Inductive command : Type :=
| Projwin (lon_ul lat_ul lon_lr lat_lr : string)          (* gdal_translate -projwin *)
| Average (degree : string)                               (* gdalwarp -tr -r average *)
| ToNetcdf                                                (* gdal_translate -of NETCDF *)
| Slope                                                   (* gdaldem slope *)
| Cutline (shape : string).                               (* gdalwarp -cutline *)

(** exceptions: from richdem, from xarray.open_dataset, a file without Band1 or coordinates,
    arrays whose sizes do not fit, and the check *)
Inductive trouble : Type := LoadGDALError | FileMissing | NoBand1 | ShapeError | NaNsInStaticFields.

(** *** create_static_file.py:50-55 [insert_var] *)
Definition fits (ds : static_dataset) (var : raster number) : bool :=
  (Nat.eqb (length var) (length (sd_lat ds)) &&
   forallb (fun row => Nat.eqb (length row) (length (sd_lon ds))) var)%bool.

Definition insert_var (ds : static_dataset) (var : raster number) (name units long_name : string)
  : static_dataset + trouble :=
  if fits ds var
  then inl (mkStaticDataset (sd_lat ds) (sd_lon ds) (dict_set (sd_vars ds) name (units, long_name, var)))
  else inr ShapeError.

(** *** create_static_file.py:158-161 *)
Definition nan_to_fill (v : number) : number := match v with None => Some (-9999) | Some x => Some x end.
Definition positive_to_one (v : number) : number :=
  match v with Some x => if Rltb 0 x then Some 1 else Some x | None => None end.
Definition glacier_mask (band : raster number) : raster number :=
  map (map positive_to_one) (map (map nan_to_fill) band).

(** *** create_static_file.py:38-48 [check_for_nan] with [var=None]: whether it passes *)
Definition is_one (v : number) : bool := match v with Some x => Reqb x 1 | None => false end.
Definition is_nan (v : number) : bool := match v with None => true | Some _ => false end.

(** [a[y, x]]; the indices are inside of the arrays *)
Definition at_cell (a : raster number) (y x : nat) : number := nth x (nth y a []) None.

Definition values_of (ds : static_dataset) (name : string) : raster number :=
  match dict_find (sd_vars ds) name with Some (_, v) => v | None => [] end.

Definition cell_passes (ds : static_dataset) (y x : nat) : bool :=
  if is_one (at_cell (values_of ds "MASK") y x)
  then negb (existsb (fun nv => is_nan (at_cell (snd (snd nv)) y x)) (sd_vars ds))
  else true.

Definition check_for_nan (ds : static_dataset) : bool :=
  forallb (fun y => forallb (fun x => cell_passes ds y x) (seq 0 (length (sd_lon ds))))
          (seq 0 (length (sd_lat ds))).

(** *** create_static_file.py:191: [np.nansum(mask[mask==1])] *)
Definition glacier_points (mask : raster number) : R :=
  sum_list (reals_of (filter is_one (concat mask))).

(** *** create_static_file.py:164-180: the dataset *)
Definition static_data (lat lon : list R) (dem aspect slope mask : raster number)
  : static_dataset + trouble :=
  match insert_var (mkStaticDataset lat lon []) dem "HGT" "meters" "meter above sea level" with
  | inr e => inr e
  | inl ds =>
  match insert_var ds aspect "ASPECT" "degrees" "Aspect of slope" with
  | inr e => inr e
  | inl ds =>
  match insert_var ds slope "SLOPE" "degrees" "Terrain slope" with
  | inr e => inr e
  | inl ds => insert_var ds mask "MASK" "boolean" "Glacier mask"
  end end end.

Section Static.
(** what a command writes, given all the files, its source and its target; [None] if it fails *)
Variable gdal : disk -> command -> string -> string -> option content.
(** [rd.TerrainAttribute(rd.LoadGDAL(path), attrib="aspect")] from the content of the file *)
Variable aspect_of : content -> option (raster number).

(** [os.system] *)
Definition system (fs : disk) (cmd : command) (source target : string) : disk :=
  match gdal fs cmd source target with
  | Some text => dict_set fs target text
  | None => fs
  end.

(** [xr.open_dataset(path)], then its Band1 *)
Definition exists_file (fs : disk) (path : string) : bool := dict_mem fs path.
Definition open_band (fs : disk) (path : string) : (list R * list R * raster number) + trouble :=
  match dict_find fs path with
  | Some (Band lat lon values) => inl (lat, lon, values)
  | _ => inr NoBand1
  end.

(** create_static_file.py:112-118 *)
Definition temp_tif (folder : string) : string := (folder ++ "DEM_temp.tif")%string.
Definition temp2_tif (folder : string) : string := (folder ++ "DEM_temp2.tif")%string.
Definition dem_nc (folder : string) : string := (folder ++ "dem.nc")%string.
Definition mask_nc (folder : string) : string := (folder ++ "mask.nc")%string.
Definition slope_nc (folder : string) : string := (folder ++ "slope.nc")%string.

(** create_static_file.py:123-129 *)
Definition do_tile (cfg : StaticConfig) (fs : disk) (tif : string) : disk * string :=
  let temp := temp_tif (sc_folder cfg) in
  if sc_tile cfg
  then (system fs (Projwin (sc_lon_ul cfg) (sc_lat_ul cfg) (sc_lon_lr cfg) (sc_lat_lr cfg)) tif temp, temp)
  else (fs, tif).

(** create_static_file.py:131-136 *)
Definition do_aggregate (cfg : StaticConfig) (fs : disk) (tif : string) : disk * string :=
  let temp2 := temp2_tif (sc_folder cfg) in
  if sc_aggregate cfg
  then (system fs (Average (sc_degree cfg)) tif temp2, temp2)
  else (fs, tif).

(** create_static_file.py:182-185 *)
Definition clean_up (cfg : StaticConfig) (fs : disk) : disk :=
  let folder := sc_folder cfg in
  fold_left remove
    [dem_nc folder; mask_nc folder; slope_nc folder; temp_tif folder; temp2_tif folder] fs.

(** create_static_file.py:92-192 [main]: the files afterwards, and the printed number of points or
    the exception *)
Definition static_main (cfg : StaticConfig) (fs : disk) : disk * (R + trouble) :=
  let folder := sc_folder cfg in
  let tif := (folder ++ sc_dem cfg)%string in
  let shape := (folder ++ sc_shape cfg)%string in
  let output := (folder ++ sc_output cfg)%string in
  let '(fs, tif) := do_tile cfg fs tif in
  let '(fs, tif) := do_aggregate cfg fs tif in
  let fs := system fs ToNetcdf tif (dem_nc folder) in
  let fs := system fs Slope (dem_nc folder) (slope_nc folder) in
  match match dict_find fs tif with Some t => aspect_of t | None => None end with
  | None => (fs, inr LoadGDALError)
  | Some aspect =>
  let aspect := rev aspect in
  let fs := system fs (Cutline shape) tif (mask_nc folder) in
  if negb (exists_file fs (dem_nc folder) && exists_file fs (mask_nc folder) && exists_file fs (slope_nc folder))
  then (fs, inr FileMissing) else
  match open_band fs (dem_nc folder), open_band fs (mask_nc folder), open_band fs (slope_nc folder) with
  | inl (lat, lon, dem), inl (_, _, cut), inl (_, _, slope) =>
      let mask := glacier_mask cut in
      match static_data lat lon dem aspect slope mask with
      | inr e => (fs, inr e)
      | inl ds =>
          let fs := clean_up cfg fs in
          if check_for_nan ds
          then (dict_set fs output (Written ds), inl (glacier_points mask))
          else (fs, inr NaNsInStaticFields)
      end
  | _, _, _ => (fs, inr NoBand1)
  end
  end.
End Static.

(** [xr.open_dataset] of the written file: the fill value -9999 is read as NaN *)
Definition read_back (v : number) : number :=
  match v with Some x => if Reqb x (-9999) then None else Some x | None => None end.
