(** * Words of the command lines with switches *)
From Verif Require Import ModelPy ModelConfig ModelArgs ModelSetup ModelPost ModelPlots ModelPlotArgs SpecArgs.
From Coq Require Import Ascii.

(** a word that can be the argument of an option: one without a hyphen in front, a lone hyphen or a
    negative number *)
Definition digit (a : ascii) : Prop := In a ["0"; "1"; "2"; "3"; "4"; "5"; "6"; "7"; "8"; "9"]%char.
Definition digits (s : string) : Prop := Forall digit (list_ascii_of_string s).
Inductive argument : string -> Prop :=
| a_undashed v : undashed v -> argument v
| a_hyphen : argument "-"
| a_integer s : s <> EmptyString -> digits s -> argument ("-" ++ s)
| a_decimal s t : digits s -> t <> EmptyString -> digits t -> argument ("-" ++ s ++ "." ++ t).

(** letters of switches behind one hyphen, with the names of the switches *)
Definition switches (table : dict action) (letters : string) (names : list string) : Prop :=
  letters <> EmptyString /\
  Forall2 (fun c d => In (String "-" (String c EmptyString), ASwitch d) table) (list_ascii_of_string letters) names.
Definition on (d : string) : string * list string := (d, []).

(** words that belong together and what they set *)
Inductive group (table : dict action) : list string -> list (string * list string) -> Prop :=
| g_switch s d : spelling table s (ASwitch d) -> group table [s] [on d]
| g_switches letters names : switches table letters names -> group table [String "-" letters] (map on names)
| g_two_words s d v : spelling table s (AOne d) -> argument v -> group table [s; v] [(d, [v])]
| g_equals s d v : spelling table s (AOne d) \/ spelling table s (AMany d) -> group table [(s ++ "=" ++ v)%string] [(d, [v])]
| g_attached s d v : short_name s -> In (s, AOne d) table -> attachable v -> group table [(s ++ v)%string] [(d, [v])]
| g_switches_value letters names c d v : switches table letters names ->
    In (String "-" (String c EmptyString), AOne d) table -> argument v ->
    group table [String "-" (letters ++ String c EmptyString); v] (map on names ++ [(d, [v])])
| g_switches_equals letters names c d v : switches table letters names ->
    In (String "-" (String c EmptyString), AOne d) table ->
    group table [String "-" (letters ++ String c (String "=" v))] (map on names ++ [(d, [v])])
| g_switches_attached letters names c d v : switches table letters names ->
    In (String "-" (String c EmptyString), AOne d) table -> attachable v ->
    group table [String "-" (letters ++ String c v)] (map on names ++ [(d, [v])])
| g_several s d vs : spelling table s (AMany d) -> vs <> [] -> Forall argument vs -> group table (s :: vs) [(d, vs)].

(** words that set values, in this order *)
Inductive groups (table : dict action) : list string -> list (string * list string) -> Prop :=
| no_group : groups table [] []
| more_groups ws words s settings : group table ws s -> groups table words settings ->
    groups table (ws ++ words) (s ++ settings).

(** ** What the programs accept, as their usage texts list it *)
Definition setup_usage : dict action :=
  [("-h", AHelp); ("--help", AHelp); ("-y", ASwitch "overwrite"); ("--yes", ASwitch "overwrite");
   ("-o", AOne "output_path"); ("--output", AOne "output_path")]%string.
Definition fields_usage : dict action :=
  [("-h", AHelp); ("--help", AHelp); ("-i", AOne "file"); ("--input", AOne "file");
   ("-d", AOne "pdate"); ("--date", AOne "pdate"); ("-m", ASwitch "mean"); ("--mean", ASwitch "mean");
   ("-s", ASwitch "save"); ("--save", ASwitch "save"); ("-v", AOne "variable"); ("--var", AOne "variable");
   ("-t", AOne "plot_type"); ("--type", AOne "plot_type")]%string.
Definition vtk_usage : dict action :=
  [("-h", AHelp); ("--help", AHelp); ("-i", AOne "input_file"); ("--input", AOne "input_file");
   ("-n", AOne "name"); ("--name", AOne "name"); ("-t", AOne "timestamp"); ("--time", AOne "timestamp");
   ("-m", ASwitch "mean"); ("--mean", ASwitch "mean"); ("-g", ASwitch "gltf"); ("--gltf", ASwitch "gltf")]%string.
Definition profile_usage : dict action :=
  [("-h", AHelp); ("--help", AHelp); ("-f", AOne "file"); ("--file", AOne "file");
   ("-d", AOne "pdate"); ("--date", AOne "pdate"); ("-v", AOne "var"); ("--var", AOne "var");
   ("-n", AOne "lat"); ("--lat", AOne "lat"); ("-m", AOne "lon"); ("--lon", AOne "lon");
   ("-s", AOne "start"); ("--start", AOne "start"); ("-e", AOne "end"); ("--end", AOne "end");
   ("--stake-file", AOne "stake_file"); ("--pit", AOne "pit_name"); ("--depth", AMany "d")]%string.

(** values that a program cannot take: kinds of plot other than 1 and 2, positions and depths that are no
    numbers *)
Definition wrong_type (int_of : string -> option Z) (dv : string * list string) : Prop :=
  fst dv = "plot_type"%string /\ exists v, In v (snd dv) /\ int_of v <> Some 1%Z /\ int_of v <> Some 2%Z.
Definition wrong_number (float_of : string -> option R) (dv : string * list string) : Prop :=
  In (fst dv) ["lat"; "lon"; "d"]%string /\ exists v, In v (snd dv) /\ float_of v = None.

(** a program with these options, of which some are required: the last setting of each name counts *)
Definition reads_settings (table : dict action) (required : list string) (wrong : string * list string -> Prop)
  (arguments : list string -> option parsed) : Prop :=
  forall words settings, groups table words settings ->
    (Forall (fun dv => ~ wrong dv) settings -> Forall (fun d => In d (map fst settings)) required ->
     exists a, arguments words = Some a /\ forall d, dict_find a d = dict_find (rev settings) d) /\
    (Exists wrong settings -> arguments words = None) /\
    (forall d, In d required -> ~ In d (map fst settings) -> arguments words = None).

(** the value that was set last *)
Definition last_text (settings : list (string * list string)) (d : string) : option string :=
  match dict_find (rev settings) d with Some [v] => Some v | _ => None end.
Definition is_on (settings : list (string * list string)) (d : string) : bool := dict_mem settings d.
