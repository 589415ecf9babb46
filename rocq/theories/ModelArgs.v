(** * Command line and start of the programs (cosipy/config.py, cosipy/constants.py) *)
From Verif Require Import ModelPy ModelConfig.
From Coq Require Import Ascii.

(** ** What can come out of the start *)

(** the exceptions of files carry the path *)
Inductive started (A : Type) : Type :=
| Started (a : A) | Exits | NoDirectory (p : string) | NoFile (p : string) | Raises (e : exn).
Arguments Started {A} a.
Arguments Exits {A}.
Arguments NoDirectory {A} p.
Arguments NoFile {A} p.
Arguments Raises {A} e.

Definition andthen {A B : Type} (m : started A) (k : A -> started B) : started B :=
  match m with
  | Started a => k a | Exits => Exits | NoDirectory p => NoDirectory p
  | NoFile p => NoFile p | Raises e => Raises e
  end.

Definition lift {A : Type} (m : res A) : started A :=
  match m with Ok a => Started a | Err e => Raises e end.

(** ** The argument parser (config.py:42-82)

    Python's argparse (as of Python 3.11) for options that take one argument, and for -h.  Where argparse
    exits, with whatever status, the result is [Exits]. *)

Inductive opt : Type := Help | ConfigPath | ConstantsPath | SlurmPath.

(** the option strings, which make the [table] of the functions below; argparse adds -h itself *)
Definition option_strings : list (string * opt) :=
  [("-h", Help); ("--help", Help); ("-c", ConfigPath); ("--config", ConfigPath);
   ("-x", ConstantsPath); ("--constants", ConstantsPath);
   ("-s", SlurmPath); ("--slurm", SlurmPath)]%string.

Definition dash : ascii := "-"%char.
Definition is_dash (a : ascii) : bool := Ascii.eqb a dash.

(** [s.split('=', 1)] if there is an equals sign *)
Fixpoint split_equals (s : string) : option (string * string) :=
  match s with
  | EmptyString => None
  | String a t =>
      if Ascii.eqb a "="%char then Some (EmptyString, t)
      else match split_equals t with Some (l, r) => Some (String a l, r) | None => None end
  end.

(** a word of the command line: an argument, or an option with the argument attached to
    it, if there is one; [None]: an option the parser does not know; or a lone [--] *)
Inductive word (O : Type) : Type :=
| Plain (s : string)
| Separator
| Option_ (o : option O) (attached : option string).
Arguments Plain {O} s.
Arguments Separator {O}.
Arguments Option_ {O} o attached.

(** argparse's [_get_option_tuples]: the options meant by an abbreviation or by a short
    option with its argument attached *)
Definition option_tuples {O : Type} (table : dict O) (s : string) : list (O * option string) :=
  match s with
  | String a (String b t) =>
      if is_dash b then
        let '(p, attached) := match split_equals s with
                              | Some (l, r) => (l, Some r) | None => (s, None) end in
        map (fun no => (snd no, attached)) (filter (fun no => String.prefix p (fst no)) table)
      else
        flat_map (fun no =>
          if String.eqb (fst no) (String a (String b EmptyString)) then [(snd no, Some t)]
          else if String.prefix s (fst no) then [(snd no, None)] else []) table
  | _ => []
  end.

Definition is_digit (a : ascii) : bool :=
  let n := nat_of_ascii a in ((48 <=? n) && (n <=? 57))%nat.
Fixpoint all_digits (s : string) : bool :=
  match s with EmptyString => true | String a t => is_digit a && all_digits t end.
Fixpoint digits_dot_digits (s : string) : bool :=
  match s with
  | EmptyString => false
  | String a t =>
      if Ascii.eqb a "."%char then (match t with EmptyString => false | _ => all_digits t end)
      else is_digit a && digits_dot_digits t
  end.

(** [-\d+|-\d*\.\d+]; the leading hyphen is already off *)
Definition negative_number (t : string) : bool :=
  (match t with EmptyString => false | _ => all_digits t end) || digits_dot_digits t.

Fixpoint has_space (s : string) : bool :=
  match s with EmptyString => false | String a t => Ascii.eqb a " "%char || has_space t end.

(** argparse's [_parse_optional]; [None]: the parser exits because an abbreviation is
    ambiguous *)
Definition classify {O : Type} (table : dict O) (s : string) : option (word O) :=
  match s with
  | EmptyString => Some (Plain s)
  | String a t =>
      if negb (is_dash a) then Some (Plain s) else
      match dict_find table s with
      | Some o => Some (Option_ (Some o) None)
      | None =>
          match t with
          | EmptyString => Some (Plain s)
          | _ =>
              match (match split_equals s with
                     | Some (l, r) => match dict_find table l with
                                      | Some o => Some (Option_ (Some o) (Some r)) | None => None end
                     | None => None
                     end) with
              | Some w => Some w
              | None =>
                  match option_tuples table s with
                  | [(o, attached)] => Some (Option_ (Some o) attached)
                  | _ :: _ => None
                  | [] => if negative_number t || has_space s then Some (Plain s)
                          else Some (Option_ None None)
                  end
              end
          end
      end
  end.

(** all words; after a lone [--] there are no options *)
Fixpoint classify_all {O : Type} (table : dict O) (argv : list string) : option (list (word O)) :=
  match argv with
  | [] => Some []
  | s :: t =>
      if String.eqb s "--"%string then Some (Separator :: map Plain t)
      else match classify table s, classify_all table t with
           | Some w, Some ws => Some (w :: ws) | _, _ => None end
  end.

(** the paths given so far *)
Record given : Type := mkGiven {
  a_config : option string; a_constants : option string; a_slurm : option string
}.
Definition nothing_given : given := mkGiven None None None.
Definition give (o : opt) (v : string) (a : given) : given :=
  match o with
  | Help => a
  | ConfigPath => mkGiven (Some v) (a_constants a) (a_slurm a)
  | ConstantsPath => mkGiven (a_config a) (Some v) (a_slurm a)
  | SlurmPath => mkGiven (a_config a) (a_constants a) (Some v)
  end.

(** argparse's loop over the words; [None]: it exits, after the help text or because an
    argument is missing.  Unknown options and arguments without option are the second
    result of [parse_known_args], which config.py:104 drops. *)
Fixpoint consume (ws : list (word opt)) (a : given) : option given :=
  match ws with
  | [] => Some a
  | Plain _ :: t => consume t a
  | Separator :: t => consume t a
  | Option_ None _ :: t => consume t a
  | Option_ (Some Help) _ :: t => None
  | Option_ (Some o) (Some v) :: t => consume t (give o v a)
  | Option_ (Some o) None :: Plain v :: t => consume t (give o v a)
  | Option_ (Some _) None :: _ => None
  end.

Definition parse_known_args (argv : list string) : option given :=
  match classify_all option_strings argv with
  | Some ws => consume ws nothing_given
  | None => None
  end.

(** ** Paths *)

(** what the process finds: its command line without the name of the program, the variable
    COSIPY_DIR, the working directory, which paths are directories and the TOML files *)
Record process : Type := mkProcess {
  argv : list string; env_dir : option string; cwd : string;
  is_dir : string -> bool; toml_at : string -> option toml
}.

(** config.py:18-39 *)
Definition get_cosipy_path_from_env (p : process) : started string :=
  let d := match env_dir p with Some d => d | None => cwd p end in
  if is_dir p d then Started d else NoDirectory d.

(** [path / name] of pathlib; directories are written without a slash at the end *)
Definition join_path (d n : string) : string := (d ++ "/" ++ n)%string.

(** config.py:42-112: the three paths; [set_parser] looks up the directory first *)
Definition get_user_arguments (p : process) : started (string * string * string) :=
  andthen (get_cosipy_path_from_env p) (fun d =>
  match parse_known_args (argv p) with
  | None => Exits
  | Some a =>
      let or_default v n := match v with Some f => f | None => join_path d n end in
      Started (or_default (a_config a) "config.toml", or_default (a_constants a) "constants.toml",
               or_default (a_slurm a) "slurm_config.toml")%string
  end).

(** config.py:155-168: [open] raises FileNotFoundError; the text is valid TOML *)
Definition get_raw_toml (p : process) (path : string) : started toml :=
  match toml_at p path with Some t => Started t | None => NoFile path end.

(** ** Loading *)

(** attributes of the classes Config, SlurmConfig and Constants *)
Record loaded : Type := mkLoaded {
  l_config : dict value; l_slurm : dict value; l_constants : dict value
}.

(** config.py:189-197 [Config()] *)
Definition load_config (p : process) (l : loaded) : started loaded :=
  andthen (get_user_arguments p) (fun '(f, _, _) =>
  andthen (get_raw_toml p f) (fun t =>
  andthen (lift (config_load t (l_config l))) (fun a =>
  Started (mkLoaded a (l_slurm l) (l_constants l))))).

(** config.py:243-251 [SlurmConfig()] *)
Definition load_slurm (p : process) (l : loaded) : started loaded :=
  andthen (get_user_arguments p) (fun '(_, _, f) =>
  andthen (get_raw_toml p f) (fun t =>
  andthen (lift (slurm_load t (l_slurm l))) (fun a =>
  Started (mkLoaded (l_config l) a (l_constants l))))).

(** constants.py:18-26 [Constants()] *)
Definition load_constants (p : process) (l : loaded) : started loaded :=
  andthen (get_user_arguments p) (fun '(_, f, _) =>
  andthen (get_raw_toml p f) (fun t =>
  andthen (lift (constants_load (l_config l) t (l_constants l))) (fun a =>
  Started (mkLoaded (l_config l) (l_slurm l) a)))).

(** config.py:273-282, executed when the module is imported *)
Definition import_config (p : process) (l : loaded) : started loaded :=
  andthen (load_config p l) (fun l1 =>
  andthen (lift (attr_get (l_config l1) "slurm_use")) (fun s =>
  if truthy s then load_slurm p l1 else Started l1)).

(** constants.py:1-3 and 49-56: importing the constants imports the configuration *)
Definition import_constants (p : process) (l : loaded) : started loaded :=
  andthen (import_config p l) (load_constants p).

Definition nothing_loaded : loaded := mkLoaded [] [] [].

(** COSIPY.py:43-44 and 50-51: imported by every process that computes cells, then loaded
    again by [main] *)
Definition start_worker (p : process) : started loaded := import_constants p nothing_loaded.
Definition start_main (p : process) : started loaded :=
  andthen (start_worker p) (fun l => andthen (load_config p l) (load_constants p)).

(** wrf2cosipy.py:36: the conversion of WRF data imports the constants before it reads its
    own command line; [own] is the rest of the program *)
Definition start_wrf2cosipy {A : Type} (p : process) (own : loaded -> started A) : started A :=
  andthen (import_constants p nothing_loaded) own.

(** ** Console scripts *)

(** pyproject.toml:88-102: name, module and function *)
Definition console_scripts : list (string * (string * string)) :=
  [("run-cosipy", ("COSIPY", "main")); ("cosipy-run", ("COSIPY", "main"));
   ("cosipy-help", ("cosipy.config", "get_help"));
   ("cosipy-shortcuts", ("cosipy.config", "print_entry_points"));
   ("setup-cosipy", ("cosipy.utilities.setup_cosipy.setup_cosipy", "main"));
   ("cosipy-setup", ("cosipy.utilities.setup_cosipy.setup_cosipy", "main"));
   ("cosipy-aws2cosipy", ("cosipy.utilities.aws2cosipy.aws2cosipy", "main"));
   ("cosipy-create-static", ("cosipy.utilities.createStatic.create_static_file", "main"));
   ("cosipy-wrf2cosipy", ("cosipy.utilities.wrf2cosipy.wrf2cosipy", "main"));
   ("cosipy-plot-field", ("cosipy.postprocessing.field_plots.plot_cosipy_fields", "main"));
   ("cosipy-plot-profile", ("cosipy.postprocessing.profile_plots.plot_profiles", "main"));
   ("cosipy-plot-vtk", ("cosipy.postprocessing.vtk_plots.plot_cosipy_fields_vtk", "main"))]%string.

(** functions at the top level of these modules: all of plot_profiles.py (lines 16-232), of
    the others the ones that can be called without arguments *)
Definition module_functions : list (string * list string) :=
  [("COSIPY", ["main"; "set_output_netcdf_path"; "start_logging"]);
   ("cosipy.config", ["get_cosipy_path_from_env"; "set_parser"; "get_user_arguments"; "get_help";
                      "get_entry_points"; "print_entry_points"; "main"]);
   ("cosipy.utilities.setup_cosipy.setup_cosipy",
     ["get_user_arguments"; "get_sample_directory"; "main"]);
   ("cosipy.utilities.aws2cosipy.aws2cosipy", ["main"]);
   ("cosipy.utilities.createStatic.create_static_file", ["main"]);
   ("cosipy.utilities.wrf2cosipy.wrf2cosipy", ["main"]);
   ("cosipy.postprocessing.field_plots.plot_cosipy_fields", ["parse_arguments"; "main"]);
   ("cosipy.postprocessing.profile_plots.plot_profiles",
     ["plot_profile"; "plot_profile_1D_timeseries"; "plot_profile_1D"; "find_nearest"; "naive_fast"]);
   ("cosipy.postprocessing.vtk_plots.plot_cosipy_fields_vtk", ["main"; "parse_arguments"])]%string.

(** the generated script [from module import function]: a missing name raises ImportError,
    here as [None] *)
Definition script_function (name : string) : option (string * string) :=
  match dict_find console_scripts name with
  | Some (m, f) =>
      match dict_find module_functions m with
      | Some fs => if existsb (String.eqb f) fs then Some (m, f) else None
      | None => None
      end
  | None => None
  end.

Fixpoint contains (p s : string) : bool :=
  String.prefix p s || match s with EmptyString => false | String _ t => contains p t end.

(** config.py:122-138: which of the installed scripts are listed, for the package "cosipy" *)
Definition get_entry_points (names : list string) : list string :=
  filter (fun n => String.prefix "COSIPY" n || String.prefix "cosipy" n || contains "cosipy" n) names.
