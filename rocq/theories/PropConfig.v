(** * Configuration

    Theorems only; the proofs are in LemFinConfig.v and the files it uses. *)

From Verif Require Import ModelPy ModelConstants ModelNode ModelGrid ModelSurface ModelInit ModelCore ModelConfig ModelIO ModelMain ModelFiles SpecConfig SpecIO.
From Verif Require Import LemFinConfig.

(** C50.  Loading the configuration changes exactly these entries: with WRF the names of the dimensions, with the
   coupled mode the flag of the full fields, and zero workers to None.  Every other entry and the list of
   tables stay. *)
Theorem config_normalised :
  forall t t', config_correct t = Ok t' ->
    map fst t' = map fst t /\
    forall h k, entry t' h k =
      if (switched_on t "DIMENSIONS" "WRF" && is_entry "DIMENSIONS" "northing" h k)%bool
      then Some (VStr "south_north")
      else if (switched_on t "DIMENSIONS" "WRF" && is_entry "DIMENSIONS" "easting" h k)%bool
      then Some (VStr "west_east")
      else if (switched_on t "DIMENSIONS" "WRF_X_CSPY" && is_entry "FULL_FIELDS" "full_field" h k)%bool
      then Some (VBool true)
      else match entry t h k with
           | Some v => if (is_entry "PARALLELIZATION" "workers" h k && equals_zero v)%bool
                       then Some VNone else Some v
           | None => None
           end.
Proof. exact config_normalised_lem. Qed.
Print Assumptions config_normalised.

(** C50.  What counts as switched off are false, a zero, an empty text, an empty list and nothing; the number of workers
   counts as zero if it is a zero or false, and only then, so that a negative number is kept. *)
Theorem values_that_count :
  forall v,
    (truthy v = false <-> v = VBool false \/ v = VInt 0 \/ v = VFloat 0 \/ v = VStr "" \/ v = VList [] \/ v = VNone) /\
    (equals_zero v = true <-> v = VBool false \/ v = VInt 0 \/ v = VFloat 0).
Proof. exact values_that_count_lem. Qed.
Print Assumptions values_that_count.

(** C50.  Normalising twice is the same as normalising once. *)
Theorem config_normalised_twice :
  forall t t', config_correct t = Ok t' -> config_correct t' = Ok t'.
Proof. exact config_normalised_twice_lem. Qed.
Print Assumptions config_normalised_twice.

(** C50.  The configuration loads if and only if the three entries that are looked at exist, and the table of the
   full fields if the coupled mode is on; otherwise it fails with a KeyError. *)
Theorem config_loads_iff :
  forall t,
    (entry t "DIMENSIONS" "WRF" <> None /\ entry t "DIMENSIONS" "WRF_X_CSPY" <> None /\
     entry t "PARALLELIZATION" "workers" <> None /\
     (switched_on t "DIMENSIONS" "WRF_X_CSPY" = true -> dict_find t "FULL_FIELDS"%string <> None) ->
     exists t', config_correct t = Ok t') /\
    (~ (entry t "DIMENSIONS" "WRF" <> None /\ entry t "DIMENSIONS" "WRF_X_CSPY" <> None /\
        entry t "PARALLELIZATION" "workers" <> None /\
        (switched_on t "DIMENSIONS" "WRF_X_CSPY" = true -> dict_find t "FULL_FIELDS"%string <> None)) ->
     config_correct t = Err KeyError).
Proof. exact config_loads_iff_lem. Qed.
Print Assumptions config_loads_iff.

(** C50.  The attributes after loading: the last line of the file that sets a key wins, whatever table it is in, and
   attributes that the file does not mention keep their old value. *)
Theorem last_setting_wins :
  forall t attrs k,
    dict_find (set_config_values t attrs) k =
      match last_setting t k with Some v => Some v | None => dict_find attrs k end.
Proof. exact last_setting_wins_lem. Qed.
Print Assumptions last_setting_wins.

(** C50.  If no key occurs in two tables, every entry of the normalised file becomes the attribute of its name. *)
Theorem attributes_are_entries :
  forall t t' attrs attrs' h k v,
    config_correct t = Ok t' -> config_load t attrs = Ok attrs' -> keys_distinct t' ->
    entry t' h k = Some v -> dict_find attrs' k = Some v.
Proof. exact attributes_are_entries_lem. Qed.
Print Assumptions attributes_are_entries.

(** C50.  Otherwise a later table silently overrides the normalisation: with WRF switched on and a second northing
   further down, the attribute is the second one. *)
Theorem later_table_overrides_refuted :
  exists t attrs,
    config_load t [] = Ok attrs /\ switched_on t "DIMENSIONS" "WRF" = true /\
    dict_find attrs "northing"%string = Some (VStr "lat").
Proof. exact later_table_overrides_refuted_lem. Qed.
Print Assumptions later_table_overrides_refuted.

(** C50.  Loading the same file again changes nothing. *)
Theorem load_twice :
  forall t attrs attrs', config_load t attrs = Ok attrs' ->
    exists attrs'', config_load t attrs' = Ok attrs'' /\ map fst attrs'' = map fst attrs' /\
      forall k, dict_find attrs'' k = dict_find attrs' k.
Proof. exact load_twice_lem. Qed.
Print Assumptions load_twice.

(** C50.  Loading the constants changes exactly the albedo and the stability scheme, and only in the coupled mode; it needs
   the configuration to be loaded before. *)
Theorem constants_normalised :
  forall config t,
    (dict_find config "WRF_X_CSPY"%string = None -> constants_correct config t = Err AttributeError) /\
    (forall t', constants_correct config t = Ok t' ->
       map fst t' = map fst t /\
       exists coupled, dict_find config "WRF_X_CSPY"%string = Some coupled /\
       forall h k, entry t' h k =
         if (truthy coupled && is_entry "PARAMETERIZATIONS" "albedo_method" h k)%bool
         then Some (VStr "Oerlemans98")
         else if (truthy coupled && is_entry "PARAMETERIZATIONS" "stability_correction" h k)%bool
         then Some (VStr "MO")
         else entry t h k).
Proof. exact constants_normalised_lem. Qed.
Print Assumptions constants_normalised.

(** C50.  The slurm file: with a memory per process other than zero the memory of a job is that number times the cores;
   nothing else changes. *)
Theorem slurm_normalised :
  forall t t', slurm_correct t = Ok t' ->
    map fst t' = map fst t /\
    (switched_on t "OVERRIDES" "memory_per_process" = false -> t' = t) /\
    (switched_on t "OVERRIDES" "memory_per_process" = true ->
     exists per cores vper vcores, whole vper = Ok per /\ whole vcores = Ok cores /\
       entry t "OVERRIDES" "memory_per_process" = Some vper /\ entry t "MEMORY" "cores" = Some vcores /\
       forall h k, entry t' h k =
         if is_entry "MEMORY" "memory" h k then Some (VStr (decimal (per * cores) ++ "GB"))
         else entry t h k).
Proof. exact slurm_normalised_lem. Qed.
Print Assumptions slurm_normalised.

(** C50,C69.  The shipped configuration loads, no key of it is in two tables, and the run it describes is without WRF,
   restart, stakes, tile and full fields. *)
Theorem shipped_config_loads :
  exists attrs cfg,
    config_load shipped_config [] = Ok attrs /\ keys_distinct shipped_config /\
    run_config_of attrs = Ok cfg /\
    dict_find attrs "workers"%string = Some VNone /\
    rc_WRF cfg = false /\ rc_restart cfg = false /\ rc_stake_evaluation cfg = false /\
    rc_tile cfg = false /\ rc_full_field cfg = false /\
    rc_northing cfg = "lat"%string /\ rc_easting cfg = "lon"%string /\
    rc_time_start cfg = VStr "2009-01-01T06:00" /\ rc_time_end cfg = VStr "2009-01-10T00:00".
Proof. exact shipped_config_loads_lem. Qed.
Print Assumptions shipped_config_loads.

(** C69.  The shipped constants, read by the loader, are the constants of the model; no key is in two tables. *)
Theorem shipped_constants_loaded :
  exists config attrs,
    config_load shipped_config [] = Ok config /\
    constants_load config shipped_constants [] = Ok attrs /\ keys_distinct shipped_constants /\
    consts_of attrs = Ok default_constants.
Proof. exact shipped_constants_loaded_lem. Qed.
Print Assumptions shipped_constants_loaded.

(** C69.  Every name in the shipped lists of surface and column variables has an entry in the table of units; in the list of the
   layer variables LW has none. *)
Theorem shipped_names :
  forall attrs cfg,
    config_load shipped_config [] = Ok attrs -> run_config_of attrs = Ok cfg ->
    names_known false (io_init cfg) /\ ~ names_known true (io_init cfg) /\
    forall name, In name (io_full (io_init cfg)) ->
      (dict_find result_metadata ("LAYER_" ++ name)%string = None <-> name = "LW"%string).
Proof. exact shipped_names_lem. Qed.
Print Assumptions shipped_names.

(** C63,C69.  A run that completes and has a glacier cell has an entry in the table of units for every listed name: a single unknown
   name loses the whole run. *)
Theorem unknown_name_loses_run :
  forall cfg c work arrivals data restart stakes measured io col,
    run_cosipy cfg c work arrivals data restart stakes measured io = Ok col ->
    schedule arrivals -> answers_as_core (rc_full_field cfg) (c_max_layers c) work ->
    sizes data = Ok (io_ny io, io_nx io) -> some_glacier data (io_ny io) (io_nx io) ->
    names_known (rc_full_field cfg) io.
Proof. exact unknown_name_loses_run_lem. Qed.
Print Assumptions unknown_name_loses_run.

(** C69.  With the shipped list of layer variables and the full fields switched on no run with a glacier cell completes. *)
Theorem shipped_full_field_fails :
  forall parse cfg c work arrivals file open_restart stakes measured io data gr ms w,
    rc_full_field cfg = true ->
    entry shipped_config "OUTPUT_VARIABLES" "output_full" = Some (VStr (rc_output_full cfg)) ->
    schedule arrivals -> (forall d, answers_as_core true (c_max_layers c) (work d)) ->
    create_data_file parse cfg c file open_restart (io_init cfg) = Ok (io, data, gr, ms) ->
    some_glacier data (io_ny io) (io_nx io) ->
    cosipy_main parse cfg c work arrivals file open_restart stakes measured <> Ok w.
Proof. exact shipped_full_field_fails_lem. Qed.
Print Assumptions shipped_full_field_fails.
