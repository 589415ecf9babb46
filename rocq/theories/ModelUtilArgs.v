(** * Command lines of the utilities (config_utils.py, aws2cosipy.py, wrf2cosipy.py,
    create_static_file.py) *)
From Verif Require Import ModelPy ModelConfig ModelArgs.

(** an option of a utility: the help text, or one argument, stored under a name *)
Inductive uopt : Type := UHelp | Store (dest : string).

(** config_utils.py:70-85 *)
Definition utilities_options : dict uopt :=
  [("-h", UHelp); ("--help", UHelp);
   ("-u", Store "utilities_path"); ("--utilities", Store "utilities_path")]%string.

(** aws2cosipy.py:926-1002 *)
Definition aws_options : dict uopt :=
  utilities_options ++
  [("-i", Store "csv_file"); ("--input", Store "csv_file");
   ("-o", Store "cosipy_file"); ("--output", Store "cosipy_file");
   ("-s", Store "static_file"); ("--static_file", Store "static_file");
   ("-b", Store "start_date"); ("--start_date", Store "start_date");
   ("-e", Store "end_date"); ("--end_date", Store "end_date");
   ("--xl", Store "xl"); ("--xr", Store "xr"); ("--yl", Store "yl"); ("--yu", Store "yu")]%string.

(** wrf2cosipy.py:188-214 *)
Definition wrf_options : dict uopt :=
  utilities_options ++
  [("-i", Store "wrf_file"); ("--input", Store "wrf_file");
   ("-o", Store "cosipy_file"); ("--output", Store "cosipy_file");
   ("-b", Store "start_date"); ("--start_date", Store "start_date");
   ("-e", Store "end_date"); ("--end_date", Store "end_date")]%string.

(** argparse's loop over the words, where every word must belong to an option; [None]: it
    exits.  [convertible] says whether the type of an option accepts a text. *)
Fixpoint collect (convertible : string -> string -> bool) (ws : list (word uopt)) (a : dict string)
  : option (dict string) :=
  match ws with
  | [] => Some a
  | Option_ (Some (Store d)) (Some v) :: t =>
      if convertible d v then collect convertible t (dict_set a d v) else None
  | Option_ (Some (Store d)) None :: Plain v :: t =>
      if convertible d v then collect convertible t (dict_set a d v) else None
  | _ => None
  end.

(** [parse_args]: the values by name; a name that is not in it has its default value *)
Definition parse_args (table : dict uopt) (required : list string)
  (convertible : string -> string -> bool) (argv : list string) : option (dict string) :=
  match classify_all table argv with
  | Some ws =>
      match collect convertible ws [] with
      | Some a => if forallb (dict_mem a) required then Some a else None
      | None => None
      end
  | None => None
  end.

(** texts stay as they are; [is_float] is what [float] of Python accepts *)
Definition texts (d v : string) : bool := true.
Definition aws_types (is_float : string -> bool) (d v : string) : bool :=
  if existsb (String.eqb d) ["xl"; "xr"; "yl"; "yu"]%string then is_float v else true.

(** aws2cosipy.py:913-1004, wrf2cosipy.py:177-217, create_static_file.py:58-72 *)
Definition aws_arguments (is_float : string -> bool) : list string -> option (dict string) :=
  parse_args aws_options ["csv_file"; "cosipy_file"]%string (aws_types is_float).
Definition wrf_arguments : list string -> option (dict string) :=
  parse_args wrf_options ["wrf_file"; "cosipy_file"]%string texts.
Definition static_arguments : list string -> option (dict string) :=
  parse_args utilities_options [] texts.

(** the [load_config] of the utilities (aws2cosipy.py:1007-1021, wrf2cosipy.py:220-234,
    create_static_file.py:75-89): the arguments and the tables of the utility; [files] are the
    TOML files by path, a relative path is one of the working directory *)
Definition load_utility {T : Type} (arguments : option (dict string)) (files : string -> option (dict T))
  (name : string) : started (dict string * T) :=
  match arguments with
  | None => Exits
  | Some a =>
      let path := match dict_find a "utilities_path" with
                  | Some f => f | None => "utilities_config.toml"%string end in
      match files path with
      | None => NoFile path
      | Some t => andthen (lift (utility_config t [] name)) (fun x => Started (a, x))
      end
  end.

Definition start_aws {T : Type} (is_float : string -> bool) (argv : list string)
  (files : string -> option (dict T)) : started (dict string * T) :=
  load_utility (aws_arguments is_float argv) files "aws2cosipy".
Definition start_static {T : Type} (argv : list string) (files : string -> option (dict T))
  : started (dict string * T) :=
  load_utility (static_arguments argv) files "create_static".
(** wrf2cosipy.py:36 imports the constants first *)
Definition start_wrf {T : Type} (p : process) (files : string -> option (dict T))
  : started (loaded * (dict string * T)) :=
  start_wrf2cosipy p (fun l =>
    andthen (load_utility (wrf_arguments (argv p)) files "wrf2cosipy") (fun x => Started (l, x))).
