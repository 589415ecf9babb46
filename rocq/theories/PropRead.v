(** * Answers, tables and values that are read, and commands that fail

    Theorems only; the proofs are in LemFinRead.v and the files it uses. *)

From Verif Require Import ModelPy ModelConstants ModelNode ModelGrid ModelHeat ModelSurface ModelInit ModelCore ModelConfig ModelIO ModelMain ModelFiles ModelRadCor ModelSetup ModelStatic ModelConvert SpecConfig SpecSetup SpecStatic SpecConvert.
From Verif Require Import LemFinRead.

From Coq Require Import Ascii.

(** C55.  What counts as an answer: yes is one of the words y and yes in any capitals, no is one of the words n and no in any capitals or nothing at all, each with any blanks, tabulators or ends of line around it and with nothing else. *)
Theorem answers_read :
  forall a,
  (says_yes a <-> the_word ["y"; "Y"; "yes"; "yeS"; "yEs"; "yES"; "Yes"; "YeS"; "YEs"; "YES"]%string a) /\
  (says_no a <-> the_word [""; "n"; "N"; "no"; "nO"; "No"; "NO"]%string a).
Proof. exact answers_read_lem. Qed.
Print Assumptions answers_read.

(** C96.  If one of the three conversions (elevations, slope, mask) writes nothing and its file was not there before, the run ends with an error and without an output: FileMissing, or already LoadGDALError if the elevations cannot be read for the aspect, which for a DEM that is there and can be read without tiling and averaging does not happen. *)
Theorem missing_conversion :
  forall gdal aspect_of cfg fs fs' r failing name,
    static_main gdal aspect_of cfg fs = (fs', r) ->
    let folder := sc_folder cfg in
    In (failing, name) [(ToNetcdf, "dem.nc"); (Slope, "slope.nc"); (Cutline (folder ++ sc_shape cfg), "mask.nc")]%string ->
    (forall fs source target, gdal fs failing source target = None) ->
    dict_find fs (folder ++ name)%string = None ->
    (r = inr FileMissing \/ r = inr LoadGDALError) /\
    (sc_tile cfg = false -> sc_aggregate cfg = false ->
     ~ temporary folder (folder ++ sc_dem cfg) ->
     forall dem aspect, dict_find fs (folder ++ sc_dem cfg)%string = Some dem -> aspect_of dem = Some aspect ->
     r = inr FileMissing).
Proof. exact missing_conversion_lem. Qed.
Print Assumptions missing_conversion.

(** C97.  The converted files have exactly the tables and the keys of the shipped ones: the file of the constants for any old module, the file of the configuration whenever it is written. *)
Theorem converted_tables :
  forall module variables h k,
  (entry (get_constants_params module) h k = None <-> entry shipped_constants h k = None) /\
  (forall t, get_config_params module variables = Ok t ->
     (entry t h k = None <-> entry shipped_config h k = None)).
Proof. exact converted_tables_lem. Qed.
Print Assumptions converted_tables.

(** C97.  The tables of the output: the prefix of the output is in the table FILENAMES, the lists of variables in the table OUTPUT_VARIABLES; a name of the output that is not a text is refused. *)
Theorem converted_output :
  forall module variables,
  (forall t, get_config_params module variables = Ok t ->
     exists name, dict_find module "output_netcdf"%string = Some (VStr name) /\
       entry t "FILENAMES" "output_prefix" = Some (VStr (output_prefix name)) /\
       entry t "OUTPUT_VARIABLES" "output_atm" = dict_find variables "atm"%string /\
       entry t "OUTPUT_VARIABLES" "output_internal" = dict_find variables "internal"%string /\
       entry t "OUTPUT_VARIABLES" "output_full" = dict_find variables "full"%string) /\
  (forall v, dict_find module "output_netcdf"%string = Some v -> (forall s, v <> VStr s) ->
     get_config_params module variables = Err TypeError).
Proof. exact converted_output_lem. Qed.
Print Assumptions converted_output.

(** C50.  What counts as switched off: false, the numbers 0 and 0.0, an empty text, an empty list and None; everything else counts as switched on. *)
Theorem switched_off :
  forall v, truthy v = false <->
    v = VBool false \/ v = VInt 0 \/ v = VFloat 0 \/ v = VStr "" \/ v = VList [] \/ v = VNone.
Proof. exact switched_off_lem. Qed.
Print Assumptions switched_off.

(** C50.  The shipped slurm file: as it is, a job gets the memory it names; with any other whole number of gigabytes per process it gets that many, since it has one core; nothing else changes. *)
Theorem slurm_file :
  forall m attrs,
  exists a,
    (t <- set2 shipped_slurm "OVERRIDES" "memory_per_process" (VInt m) ;; slurm_load t attrs) = Ok a /\
    dict_find a "memory"%string = Some (VStr (if (m =? 0)%Z then "4G" else decimal m ++ "GB")%string) /\
    (forall k v, In (k, v) [("account", VStr ""); ("name", VStr "test_cosipy_slurm"); ("queue", VStr "work");
       ("slurm_parameters", VList [VStr "--nodes=1"; VStr "--error=slurm.err"; VStr "--output=slurm.out";
                                   VStr "--time=00:10:00"; VStr "--mem='4G'"]);
       ("shebang", VStr "#!/bin/bash -l"); ("local_directory", VStr "./logs/dask-worker-space");
       ("port", VInt 8786); ("cores", VInt 1); ("nodes", VInt 1); ("processes", VInt 20);
       ("memory_per_process", VInt m)]%string -> dict_find a k = Some v) /\
    (forall k, (forall h, entry shipped_slurm h k = None) -> dict_find a k = dict_find attrs k).
Proof. exact slurm_file_lem. Qed.
Print Assumptions slurm_file.

(** C50,C55,C96,C97 An answer with a tabulator and capitals; a run whose mask cannot be cut; the file of a module without settings. *)
Example reading_example :
  says_yes (String "009" "YeS ") /\
  static_main (fun _ cmd _ _ => match cmd with Cutline _ => None | _ => Some (Band [1] [1] [[Some 100]]) end)
    (fun _ => Some [[Some 45]]) (mkStaticConfig "d/" "dem.tif" "s.shp" "out.nc" false false "" "" "" "" "")
    [("d/dem.tif", Tif [[Some 100]])]%string =
  ([("d/dem.tif", Tif [[Some 100]]); ("d/dem.nc", Band [1] [1] [[Some 100]]); ("d/slope.nc", Band [1] [1] [[Some 100]])]%string,
   inr FileMissing) /\
  entry (get_constants_params []) "REMESHING" "merge_max" = Some (VInt 0).
Proof. exact reading_example_lem. Qed.
