(** * Command lines of the utilities

    Theorems only; the proofs are in LemFinUtilArgs.v and the files it uses. *)

From Verif Require Import ModelPy ModelConfig ModelArgs ModelUtilArgs SpecConfig SpecArgs.
From Verif Require Import LemFinUtilArgs.

From Coq Require Import Ascii.

(** C125.  Words that name values give the last value of every option, in full, abbreviated, attached or with
    an equals sign; the conversions exit if the input or the output is missing, and the one for stations
    if a corner of the region is no number.  The static file is not required. *)
Theorem utility_values :
  forall is_float : string -> bool,
    reads_values aws_usage ["csv_file"; "cosipy_file"]%string (wrong_value is_float) (aws_arguments is_float) /\
    reads_values wrf_usage ["wrf_file"; "cosipy_file"]%string (fun _ => False) wrf_arguments /\
    reads_values static_usage [] (fun _ => False) static_arguments.
Proof. exact utility_values_lem. Qed.
Print Assumptions utility_values.

(** C125.  Nothing else is accepted: a word without an option, an unknown or ambiguous option, a lone pair of
    hyphens or the wish for help ends the program, as does an option without its argument. *)
Theorem utility_refusals :
  forall (is_float : string -> bool) (table : dict uopt) (arguments : list string -> option (dict string)),
    In (table, arguments) [(aws_usage, aws_arguments is_float); (wrf_usage, wrf_arguments); (static_usage, static_arguments)] ->
    forall pre settings, names_values table pre settings ->
      (forall w post, refused UHelp table w -> arguments (pre ++ w :: post) = None) /\
      (forall s d, spelling table s (Store d) ->
         arguments (pre ++ [s]) = None /\
         forall w post, (w = "--"%string \/ exists o, spelling table w o) -> arguments (pre ++ s :: w :: post) = None).
Proof. exact utility_refusals_lem. Qed.
Print Assumptions utility_refusals.

(** C125.  The conversion of WRF data cannot be told which configuration and constants of COSIPY to use: its own
    parser refuses the words for them, so that a conversion that starts works with the default files of the
    directory.  Words with blanks are left out; see the example. *)
Theorem wrf_default_files :
  forall (T : Type) (p : process) (files : string -> option (dict T)) (l : loaded) (vals : dict string) (x : T),
    Forall no_blank (argv p) -> is_dir p (home p) = true ->
    start_wrf p files = Started (l, (vals, x)) ->
    exists t u,
      toml_at p (join_path (home p) "config.toml") = Some t /\
      toml_at p (join_path (home p) "constants.toml") = Some u /\
      config_load t [] = Ok (l_config l) /\ constants_load (l_config l) u [] = Ok (l_constants l).
Proof. exact wrf_default_files_lem. Qed.
Print Assumptions wrf_default_files.

(** C125.  The two parsers clash on one abbreviation: the conversion takes --s for its start date and COSIPY for
    the Slurm file, so that with a configuration for Slurm the program ends because there is no file of
    the name of the date.  With the full name it goes on. *)
Theorem start_date_clash :
  forall (T : Type) (p : process) (files : string -> option (dict T)) (i o date : string) (t : toml) config use,
    undashed i -> undashed o -> undashed date ->
    is_dir p (home p) = true -> toml_at p (join_path (home p) "config.toml") = Some t ->
    config_load t [] = Ok config -> dict_find config "slurm_use" = Some use -> truthy use = true ->
    (exists a, wrf_arguments ["-i"; i; "-o"; o; "--s"; date]%string = Some a /\ dict_find a "start_date" = Some date) /\
    (argv p = ["-i"; i; "-o"; o; "--s"; date]%string -> toml_at p date = None -> start_wrf p files = NoFile date) /\
    (argv p = ["-i"; i; "-o"; o; "--start_date"; date]%string ->
     parse_known_args (argv p) = Some (mkGiven None None None)).
Proof. exact start_date_clash_lem. Qed.
Print Assumptions start_date_clash.

(** C125.  The file of the utilities is the one named, or utilities_config.toml of the working directory: without
    it the program ends with its name, without a table of the utility with an AttributeError; a refused command
    line ends it before any file is opened. *)
Theorem utilities_file :
  forall (T : Type) (is_float : string -> bool) (argv : list string) (files : string -> option (dict T)) (name : string)
         (arguments : list string -> option (dict string)) (start : started (dict string * T)),
    In (name, arguments, start)
      [("aws2cosipy"%string, aws_arguments is_float, start_aws is_float argv files);
       ("create_static"%string, static_arguments, start_static argv files)] ->
    (arguments argv = None -> start = Exits) /\
    (forall a, arguments argv = Some a ->
       let path := match dict_find a "utilities_path" with Some f => f | None => "utilities_config.toml"%string end in
       (files path = None -> start = NoFile path) /\
       (forall t, files path = Some t -> NoDup (map fst t) ->
          (~ In name (map fst t) -> start = Raises AttributeError) /\
          (forall x, In (name, x) t -> start = Started (a, x)))).
Proof. exact utilities_file_lem. Qed.
Print Assumptions utilities_file.

(** C125 A conversion of station data with a date and an abbreviated option, and the same with a misspelt
    option; and a file name with a hyphen and a blank, which the conversion of WRF data takes for its input and
    COSIPY for a configuration. *)
Example utility_case :
  names_values aws_usage ["-i"; "a.csv"; "--outp=b.nc"; "-e2020"; "-i"; "c.csv"]%string
    [("csv_file", "a.csv"); ("cosipy_file", "b.nc"); ("end_date", "2020"); ("csv_file", "c.csv")]%string /\
  aws_arguments (fun _ => false) ["-i"; "a.csv"; "--outp=b.nc"; "-e2020"; "-i"; "c.csv"]%string
  = Some [("csv_file", "c.csv"); ("cosipy_file", "b.nc"); ("end_date", "2020")]%string /\
  refused UHelp aws_usage "--outptu=b.nc" /\
  aws_arguments (fun _ => false) ["-i"; "a.csv"; "--outptu=b.nc"]%string = None /\
  wrf_arguments ["-i"; "-cmy data.nc"; "-o"; "b.nc"]%string = Some [("wrf_file", "-cmy data.nc"); ("cosipy_file", "b.nc")]%string /\
  parse_known_args ["-i"; "-cmy data.nc"; "-o"; "b.nc"]%string = Some (mkGiven (Some "my data.nc"%string) None None).
Proof. exact utility_case_lem. Qed.
