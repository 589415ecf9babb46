(** * Installing the configuration files (cosipy/utilities/setup_cosipy/setup_cosipy.py)

    The files are a dictionary from resolved paths to contents; [resolve] follows links and relative
    paths.  Directories, permissions and the limit of the depth of recursion are left out.  Answers
    are ASCII texts.  A run that stops with an exception leaves the files as they are then. *)
From Verif Require Import ModelPy ModelConfig.
From Coq Require Import Ascii.

(** exceptions *)
Inductive stop : Type := FileNotFoundError | SameFileError | IdenticalPaths | FileExistsError | EOFError.

Definition files : Type := dict string.

(** ** Answers *)
(** [str.lower], [str.strip] *)
Definition lower_char (c : ascii) : ascii :=
  let n := N_of_ascii c in
  if ((65 <=? n) && (n <=? 90))%N%bool then ascii_of_N (n + 32) else c.
Definition is_space (c : ascii) : bool :=
  let n := N_of_ascii c in (((9 <=? n) && (n <=? 13)) || ((28 <=? n) && (n <=? 32)))%N%bool.
Fixpoint drop_spaces (l : list ascii) : list ascii :=
  match l with c :: t => if is_space c then drop_spaces t else l | [] => [] end.
Definition lower (s : string) : string := string_of_list_ascii (map lower_char (list_ascii_of_string s)).
Definition strip (s : string) : string :=
  string_of_list_ascii (rev (drop_spaces (rev (drop_spaces (list_ascii_of_string s))))).

Definition one_of (s : string) (l : list string) : bool := existsb (String.eqb s) l.

(** setup_cosipy.py:120-134: the answer and the answers not yet read; [None] at the end of the input *)
Fixpoint get_user_confirmation (answers : list string) : option bool * list string :=
  match answers with
  | [] => (None, [])
  | a :: rest =>
      let user_input := strip (lower a) in
      if negb (one_of user_input ["y"; "yes"; "n"; "no"; ""]%string)
      then get_user_confirmation rest
      else (Some (one_of user_input ["y"; "yes"]%string), rest)
  end.

(** ** Files *)
Section Setup.
Variable resolve : string -> string.

(** [os.path.isfile] *)
Definition isfile (fs : files) (path : string) : bool := dict_mem fs (resolve path).

(** [shutil.copyfile] *)
Definition copyfile (fs : files) (source target : string) : files * option stop :=
  if String.eqb (resolve source) (resolve target) then (fs, Some SameFileError) else
  match dict_find fs (resolve source) with
  | None => (fs, Some FileNotFoundError)
  | Some text => (dict_set fs (resolve target) text, None)
  end.

Definition path_in (dir basename : string) : string := (dir ++ "/" ++ basename)%string.

(** setup_cosipy.py:91-118: files, answers left, exception *)
Definition copy_file_to_target (basename source_dir target_dir : string) (silent_overwrite : bool)
  (fs : files) (answers : list string) : files * list string * option stop :=
  let target_path := path_in target_dir basename in
  let source_path := path_in source_dir basename in
  let '(overwrite, answers) :=
    if negb silent_overwrite && isfile fs target_path then get_user_confirmation answers
    else (Some true, answers) in
  match overwrite with
  | None => (fs, answers, Some EOFError)
  | Some true => let '(fs, e) := copyfile fs source_path target_path in (fs, answers, e)
  | Some false => (fs, answers, None)
  end.

Definition config_files : list string :=
  ["config.toml"; "constants.toml"; "slurm_config.toml"; "utilities_config.toml"]%string.

(** setup_cosipy.py:155-162 with lines 75-77 *)
Fixpoint copy_all (names : list string) (sample_path target_path : string) (silent_overwrite : bool)
  (fs : files) (answers : list string) : files * list string * option stop :=
  match names with
  | [] => (fs, answers, None)
  | n :: t =>
      if isfile fs (path_in sample_path n) then
        match copy_file_to_target n sample_path target_path silent_overwrite fs answers with
        | (fs, answers, None) => copy_all t sample_path target_path silent_overwrite fs answers
        | stopped => stopped
        end
      else (fs, answers, Some FileNotFoundError)
  end.

(** setup_cosipy.py:136-162; [cwd] and [sample_path] are what the system reports *)
Definition setup_main (cwd sample_path : string) (overwrite : bool) (output_path : option string)
  (fs : files) (answers : list string) : files * list string * option stop :=
  let target_path := match output_path with
                     | Some p => if String.eqb p "" then cwd else p
                     | None => cwd
                     end in
  let made := match output_path with
              | Some p => if String.eqb p "" then true else negb (isfile fs p)
              | None => true
              end in
  if negb made then (fs, answers, Some FileExistsError) else
  if String.eqb target_path sample_path then (fs, answers, Some IdenticalPaths) else
  copy_all config_files sample_path target_path overwrite fs answers.
End Setup.
