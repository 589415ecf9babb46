(** * Command lines with switches (setup_cosipy.py, plot_cosipy_fields.py, plot_cosipy_fields_vtk.py,
    plot_profiles.py)

    argparse as in [ModelArgs], as of Python 3.11.10, with switches, which take no argument and can share a
    hyphen, and with one option that takes several arguments. *)
From Verif Require Import ModelPy ModelConstants ModelNode ModelGrid ModelHeat ModelSurface ModelInit
  ModelCore ModelConfig ModelIO ModelMain ModelRadCor ModelAws ModelSetup ModelPost ModelPlots ModelArgs.
From Coq Require Import Ascii.

(** the help text; a switch; an option with one argument; an option with one or more *)
Inductive action : Type := AHelp | ASwitch (dest : string) | AOne (dest : string) | AMany (dest : string).

(** ** Options *)

(** setup_cosipy.py:46-70 *)
Definition setup_options : dict action :=
  [("-h", AHelp); ("--help", AHelp); ("-y", ASwitch "overwrite"); ("--yes", ASwitch "overwrite");
   ("-o", AOne "output_path"); ("--output", AOne "output_path")]%string.

(** plot_cosipy_fields.py:404-460 *)
Definition fields_options : dict action :=
  [("-h", AHelp); ("--help", AHelp); ("-i", AOne "file"); ("--input", AOne "file");
   ("-d", AOne "pdate"); ("--date", AOne "pdate"); ("-m", ASwitch "mean"); ("--mean", ASwitch "mean");
   ("-s", ASwitch "save"); ("--save", ASwitch "save"); ("-v", AOne "variable"); ("--var", AOne "variable");
   ("-t", AOne "plot_type"); ("--type", AOne "plot_type")]%string.

(** plot_cosipy_fields_vtk.py:497-545 *)
Definition vtk_options : dict action :=
  [("-h", AHelp); ("--help", AHelp); ("-i", AOne "input_file"); ("--input", AOne "input_file");
   ("-n", AOne "name"); ("--name", AOne "name"); ("-t", AOne "timestamp"); ("--time", AOne "timestamp");
   ("-m", ASwitch "mean"); ("--mean", ASwitch "mean"); ("-g", ASwitch "gltf"); ("--gltf", ASwitch "gltf")]%string.

(** plot_profiles.py:244-254 *)
Definition profile_options : dict action :=
  [("-h", AHelp); ("--help", AHelp); ("-f", AOne "file"); ("--file", AOne "file");
   ("-d", AOne "pdate"); ("--date", AOne "pdate"); ("-v", AOne "var"); ("--var", AOne "var");
   ("-n", AOne "lat"); ("--lat", AOne "lat"); ("-m", AOne "lon"); ("--lon", AOne "lon");
   ("-s", AOne "start"); ("--start", AOne "start"); ("-e", AOne "end"); ("--end", AOne "end");
   ("--stake-file", AOne "stake_file"); ("--pit", AOne "pit_name"); ("--depth", AMany "d")]%string.

(** ** argparse's loop over the words *)

(** the arguments by name, none for a switch *)
Definition parsed : Type := dict (list string).

(** what follows the first switch behind the same hyphen: switches, then perhaps an option with an argument,
    which is attached or comes in the next word; [None]: the parser exits *)
Inductive ending : Type := Done | Attached (o : action) (v : string) | Next (o : action).
Fixpoint bundle (table : dict action) (s : string) : option (list string * ending) :=
  match s with
  | EmptyString => Some ([], Done)
  | String c r =>
      match dict_find table (String dash (String c EmptyString)) with
      | Some (ASwitch d) => match bundle table r with Some (ds, e) => Some (d :: ds, e) | None => None end
      | Some AHelp => None
      | Some o =>
          match r with
          | EmptyString => Some ([], Next o)
          | String e v => Some ([], Attached o (if Ascii.eqb e "="%char then v else r))
          end
      | None => None
      end
  end.

(** whether the argument attached to a switch is not a bundle: after a long name or an equals sign *)
Definition no_bundle (s : string) : bool :=
  match s with
  | String _ (String b (String c _)) => is_dash b || Ascii.eqb c "="%char
  | _ => true
  end.

(** the option that waits for arguments, if any *)
Inductive pending : Type := Idle | WaitsOne (d : string) | WaitsMany (d : string) (got : list string).

Section Loop.
Variable table : dict action.
(** whether the type and the choices of an option accept a text *)
Variable convertible : string -> string -> bool.

Definition store (d : string) (vs : list string) (a : parsed) : option parsed :=
  if forallb (convertible d) vs then Some (dict_set a d vs) else None.

Definition settle (p : pending) (a : parsed) : option parsed :=
  match p with
  | Idle => Some a
  | WaitsOne _ => None
  | WaitsMany d got => match got with [] => None | _ => store d got a end
  end.

(** an option with what is attached to it *)
Definition act (o : action) (attached : option string) (a : parsed) : option (pending * parsed) :=
  match o, attached with
  | AHelp, _ => None
  | ASwitch d, None => Some (Idle, dict_set a d [])
  | ASwitch _, Some _ => None
  | AOne d, Some v | AMany d, Some v => option_map (pair Idle) (store d [v] a)
  | AOne d, None => Some (WaitsOne d, a)
  | AMany d, None => Some (WaitsMany d [], a)
  end.

Definition switch_on (a : parsed) (d : string) : parsed := dict_set a d [].

(** one option word [s] *)
Definition option_word (s : string) (o : action) (attached : option string) (a : parsed)
  : option (pending * parsed) :=
  match o, attached with
  | ASwitch d, Some v =>
      if no_bundle s then None else
      match bundle table v with
      | None => None
      | Some (ds, e) =>
          let a := fold_left switch_on (d :: ds) a in
          match e with
          | Done => Some (Idle, a)
          | Attached o v => act o (Some v) a
          | Next o => act o None a
          end
      end
  | _, _ => act o attached a
  end.

Fixpoint loop (ws : list (string * word action)) (p : pending) (a : parsed) : option parsed :=
  match ws with
  | [] => settle p a
  | (_, Plain v) :: t =>
      match p with
      | Idle => None
      | WaitsOne d => match store d [v] a with Some a => loop t Idle a | None => None end
      | WaitsMany d got => loop t (WaitsMany d (got ++ [v])) a
      end
  | (s, Option_ (Some o) attached) :: t =>
      match settle p a with
      | None => None
      | Some a => match option_word s o attached a with Some (p, a) => loop t p a | None => None end
      end
  | _ => None
  end.

(** [parse_args]; a name that is not in the result has its default value *)
Definition parse_actions (required : list string) (argv : list string) : option parsed :=
  match classify_all table argv with
  | Some ws =>
      match loop (combine argv ws) Idle [] with
      | Some a => if forallb (dict_mem a) required then Some a else None
      | None => None
      end
  | None => None
  end.
End Loop.

(** ** The programs *)

Definition given_text (a : parsed) (d : string) : option string :=
  match dict_find a d with Some [v] => Some v | _ => None end.

(** setup_cosipy.py:29-72 and 136-162; [None]: the parser exits *)
Definition setup_arguments : list string -> option parsed := parse_actions setup_options (fun _ _ => true) [].
Definition setup_program (resolve : string -> string) (cwd sample_path : string) (argv : list string)
  (fs : files) (answers : list string) : option (files * list string * option stop) :=
  match setup_arguments argv with
  | None => None
  | Some a => Some (setup_main resolve cwd sample_path (dict_mem a "overwrite") (given_text a "output_path") fs answers)
  end.

(** what [int] and [float] of Python make of a text *)
Section Numbers.
Variable int_of : string -> option Z.
Variable float_of : string -> option R.

(** plot_cosipy_fields.py:451-459: the type int and the choices *)
Definition fields_types (d v : string) : bool :=
  if String.eqb d "plot_type" then
    match int_of v with Some n => ((n =? 1) || (n =? 2))%Z | None => false end
  else true.
Definition fields_arguments : list string -> option parsed :=
  parse_actions fields_options fields_types ["file"; "pdate"]%string.

(** plot_cosipy_fields_vtk.py:480-547 *)
Definition vtk_arguments : list string -> option parsed :=
  parse_actions vtk_options (fun _ _ => true) ["input_file"; "timestamp"]%string.

(** plot_profiles.py:244-256 *)
Definition profile_types (d v : string) : bool :=
  if existsb (String.eqb d) ["lat"; "lon"; "d"]%string then
    match float_of v with Some _ => true | None => false end
  else true.
Definition profile_arguments : list string -> option parsed := parse_actions profile_options profile_types [].

(** plot_cosipy_fields.py:466-497; [files] are the result files by path *)
Definition fields_program (names : string -> period) (files : string -> option field_file) (argv : list string)
  : started figure :=
  match fields_arguments argv with
  | None => Exits
  | Some a =>
      match given_text a "file", given_text a "pdate" with
      | Some path, Some pdate =>
          match files path with
          | None => NoFile path
          | Some data =>
              let plot_type := match given_text a "plot_type" with
                               | Some v => match int_of v with Some n => n | None => 1%Z end
                               | None => 1%Z
                               end in
              lift (fields_main names data pdate (given_text a "variable") (dict_mem a "mean")
                      (dict_mem a "save") plot_type)
          end
      | _, _ => Exits
      end
  end.

Definition given_number (a : parsed) (d : string) : option R :=
  match given_text a d with Some v => float_of v | None => None end.
Definition given_numbers (a : parsed) (d : string) : option (list R) :=
  match dict_find a d with
  | Some vs => Some (flat_map (fun v => match float_of v with Some x => [x] | None => [] end) vs)
  | None => None
  end.

(** plot_profiles.py:242-261, without --stake-file and --pit.  Without a file xarray raises an exception,
    whose kind is not modelled. *)
Definition profile_program (names : string -> period) (np_int : bool) (files : string -> option profile_file)
  (argv : list string) : started profile_plot :=
  match profile_arguments argv with
  | None => Exits
  | Some a =>
      match given_text a "file" with
      | None => Raises ValueError
      | Some path =>
          match files path with
          | None => NoFile path
          | Some f =>
              lift (profile_main names np_int f (given_text a "pdate")
                      (match given_text a "var" with Some v => v | None => "RHO"%string end)
                      (given_number a "lat") (given_number a "lon") (given_text a "start") (given_text a "end")
                      (given_numbers a "d"))
          end
      end
  end.
End Numbers.
