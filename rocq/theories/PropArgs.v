(** * Command line and start of the programs

    Theorems only; the proofs are in LemFinArgs.v and the files it uses. *)

From Verif Require Import ModelPy ModelConfig ModelFiles ModelArgs SpecConfig SpecArgs.
From Verif Require Import LemFinArgs.

From Coq Require Import Ascii.

(** C124.  Every way of naming a file works, and the last one wins: after any words that were
    understood, an option in full, abbreviated or short, with the file behind it, attached or after
    an equals sign, sets this file and nothing else. *)
Theorem last_file_wins :
  forall (pre words : list string) (o : opt) (v : string) (a : given),
    ~ In "--"%string pre -> parse_known_args pre = Some a -> names_file o words v ->
    exists a', parse_known_args (pre ++ words) = Some a' /\ file_given o a' = Some v /\
      forall o', o' <> o -> file_given o' a' = file_given o' a.
Proof. exact last_file_wins_lem. Qed.
Print Assumptions last_file_wins.

(** C124.  After a word of two hyphens nothing is an option any more; directly behind an option it makes
    the program exit, even if a file follows. *)
Theorem after_two_hyphens :
  forall (pre post : list string) (o : opt) (s : string) (a : given),
    ~ In "--"%string pre -> parse_known_args pre = Some a ->
    In (s, o) (short_spellings ++ long_spellings) ->
    parse_known_args (pre ++ "--"%string :: post) = Some a /\
    parse_known_args (pre ++ s :: "--"%string :: post) = None.
Proof. exact after_two_hyphens_lem. Qed.
Print Assumptions after_two_hyphens.

(** C124.  Shorter abbreviations, of which --config and --constants both are the continuation, stop
    the program wherever they stand. *)
Theorem abbreviation_refused :
  forall (pre post : list string) (s v : string), ~ In "--"%string pre ->
    In s ["--c"; "--co"; "--con"]%string ->
    parse_known_args (pre ++ s :: post) = None /\
    parse_known_args (pre ++ (s ++ "=" ++ v)%string :: post) = None.
Proof. exact abbreviation_refused_lem. Qed.
Print Assumptions abbreviation_refused.

(** C124.  The program stops for help, for an option without a file at the end of the line, and for an
    option directly in front of another one. *)
Theorem option_refused :
  forall (pre post : list string) (a : given) (s t : string) (o o' : opt),
    ~ In "--"%string pre -> parse_known_args pre = Some a ->
    In (s, o) (short_spellings ++ long_spellings) -> In (t, o') option_strings ->
    parse_known_args (pre ++ [s]) = None /\
    parse_known_args (pre ++ s :: t :: post) = None /\
    parse_known_args (pre ++ "-h"%string :: post) = None /\
    parse_known_args (pre ++ "--help"%string :: post) = None.
Proof. exact option_refused_lem. Qed.
Print Assumptions option_refused.

(** C124.  Anything else is ignored without a word: a misspelt option and its value, or a file name without an
    option, leave the result as it would be without them. *)
Theorem unknown_words_ignored :
  forall (pre post : list string) (u w : string) (a : given),
    ~ In "--"%string pre -> parse_known_args pre = Some a -> foreign u -> undashed w ->
    parse_known_args (pre ++ u :: post) = parse_known_args (pre ++ post) /\
    parse_known_args (pre ++ w :: post) = parse_known_args (pre ++ post) /\
    parse_known_args (pre ++ u :: w :: post) = parse_known_args (pre ++ post).
Proof. exact unknown_words_ignored_lem. Qed.
Print Assumptions unknown_words_ignored.

(** C124.  A variable COSIPY_DIR that names no directory stops every start, even if all files are named
    on the command line; without it the working directory takes its place. *)
Theorem directory_needed :
  forall (p : process), is_dir p (home p) = false ->
    start_main p = NoDirectory (home p) /\ start_worker p = NoDirectory (home p).
Proof. exact directory_needed_lem. Qed.
Print Assumptions directory_needed.

(** C124.  What a started program works with: the configuration of the file that was chosen for it,
    the constants of the chosen file, both as if they had been loaded once, although they are loaded
    on import and again by main. *)
Theorem start_files :
  forall (p : process) (a : given) (l : loaded),
    is_dir p (home p) = true -> parse_known_args (argv p) = Some a -> start_main p = Started l ->
    exists t u config constants,
      toml_at p (file_of p (a_config a) "config.toml") = Some t /\
      toml_at p (file_of p (a_constants a) "constants.toml") = Some u /\
      config_load t [] = Ok config /\ constants_load config u [] = Ok constants /\
      (forall k, dict_find (l_config l) k = dict_find config k) /\
      (forall k, dict_find (l_constants l) k = dict_find constants k).
Proof. exact start_files_lem. Qed.
Print Assumptions start_files.

(** C124.  No other file matters: processes with the same words, directory and chosen files start alike. *)
Theorem only_chosen_files :
  forall (p p' : process), argv p' = argv p -> env_dir p' = env_dir p -> cwd p' = cwd p ->
    is_dir p' (home p) = is_dir p (home p) ->
    (forall a, parse_known_args (argv p) = Some a ->
       toml_at p' (file_of p (a_config a) "config.toml") = toml_at p (file_of p (a_config a) "config.toml") /\
       toml_at p' (file_of p (a_constants a) "constants.toml") = toml_at p (file_of p (a_constants a) "constants.toml") /\
       toml_at p' (file_of p (a_slurm a) "slurm_config.toml") = toml_at p (file_of p (a_slurm a) "slurm_config.toml")) ->
    start_main p' = start_main p /\ start_worker p' = start_worker p.
Proof. exact only_chosen_files_lem. Qed.
Print Assumptions only_chosen_files.

(** C124.  A chosen file that does not exist stops the program with its name: the configuration first, then
    the Slurm file if the configuration asks for Slurm, then the constants. *)
Theorem missing_file :
  forall (p : process) (a : given),
    is_dir p (home p) = true -> parse_known_args (argv p) = Some a ->
    let f := file_of p (a_config a) "config.toml" in
    let x := file_of p (a_constants a) "constants.toml" in
    let s := file_of p (a_slurm a) "slurm_config.toml" in
    (toml_at p f = None -> start_main p = NoFile f) /\
    (forall t config use, toml_at p f = Some t -> config_load t [] = Ok config ->
       dict_find config "slurm_use" = Some use ->
       (truthy use = true -> toml_at p s = None -> start_main p = NoFile s) /\
       (truthy use = false -> toml_at p x = None -> start_main p = NoFile x)).
Proof. exact missing_file_lem. Qed.
Print Assumptions missing_file.

(** C124.  A process whose own command line has none of these options uses the default files, whatever
    the program that started it was told: it agrees with a process without any words. *)
Theorem worker_default_files :
  forall (p : process) (l : loaded), Forall (fun s => undashed s \/ foreign s) (argv p) ->
    is_dir p (home p) = true -> start_worker p = Started l ->
    exists t u, toml_at p (join_path (home p) "config.toml") = Some t /\
      toml_at p (join_path (home p) "constants.toml") = Some u /\
      config_load t [] = Ok (l_config l) /\ constants_load (l_config l) u [] = Ok (l_constants l).
Proof. exact worker_default_files_lem. Qed.
Print Assumptions worker_default_files.

(** C124.  That all processes of a run work with the same constants is refuted: the main program is told to use
    other constants, with a time step of ten minutes; a worker that a batch system starts with a command line
    of its own computes with the default file and steps of an hour. *)
Theorem workers_agree_refuted :
  exists (main worker : process) (l l' : loaded),
    env_dir worker = env_dir main /\ cwd worker = cwd main /\ is_dir worker = is_dir main /\
    toml_at worker = toml_at main /\ Forall (fun s => undashed s \/ foreign s) (argv worker) /\
    start_main main = Started l /\ start_worker worker = Started l' /\
    l_config l' = l_config l /\
    dict_find (l_constants l) "dt" = Some (VInt 600) /\ dict_find (l_constants l') "dt" = Some (VInt 3600).
Proof. exact workers_agree_refuted_lem. Qed.
Print Assumptions workers_agree_refuted.

(** C124.  The conversion of WRF data starts like COSIPY itself before it reads its own command line: asking it
    for help ends in COSIPY's parser, and it does not run without a configuration of COSIPY. *)
Theorem wrf2cosipy_start :
  forall (A : Type) (p : process) (own : loaded -> started A), is_dir p (home p) = true ->
    (forall pre post a, ~ In "--"%string pre -> parse_known_args pre = Some a ->
       argv p = pre ++ "-h"%string :: post \/ argv p = pre ++ "--help"%string :: post ->
       start_wrf2cosipy p own = Exits) /\
    (forall a, parse_known_args (argv p) = Some a ->
       toml_at p (file_of p (a_config a) "config.toml") = None ->
       start_wrf2cosipy p own = NoFile (file_of p (a_config a) "config.toml")).
Proof. exact wrf2cosipy_start_lem. Qed.
Print Assumptions wrf2cosipy_start.

(** C124.  Of the installed scripts all are listed by cosipy-shortcuts and all but one name a function that exists:
    cosipy-plot-profile cannot start. *)
Theorem installed_scripts :
  get_entry_points (map fst console_scripts) = map fst console_scripts /\
  forall n, In n (map fst console_scripts) ->
    (script_function n = None <-> n = "cosipy-plot-profile"%string).
Proof. exact installed_scripts_lem. Qed.
Print Assumptions installed_scripts.

(** C124 A command line with a misspelt option: the file behind it is not used, the others are. *)
Example misspelt_case :
  foreign "--konfig" /\
  parse_known_args ["-xb.toml"; "--konfig"; "mine.toml"; "--slu=q.toml"; "-x"; "c.toml"]%string
  = Some (mkGiven None (Some "c.toml") (Some "q.toml"))%string /\
  parse_known_args ["--con"; "mine.toml"]%string = None /\
  exists l, start_main user_process = Started l /\ dict_find (l_constants l) "dt" = Some (VInt 600).
Proof. exact misspelt_case_lem. Qed.
