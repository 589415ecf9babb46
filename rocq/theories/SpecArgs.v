(** * Words of the command lines and the files they name *)
From Verif Require Import ModelPy ModelConfig ModelArgs ModelUtilArgs.
From Coq Require Import Ascii.

(** ** Spellings *)

Definition short_spellings : list (string * opt) :=
  [("-c", ConfigPath); ("-x", ConstantsPath); ("-s", SlurmPath)]%string.
Definition long_spellings : list (string * opt) :=
  [("--config", ConfigPath); ("--confi", ConfigPath); ("--conf", ConfigPath);
   ("--constants", ConstantsPath); ("--constant", ConstantsPath); ("--constan", ConstantsPath);
   ("--consta", ConstantsPath); ("--const", ConstantsPath); ("--cons", ConstantsPath);
   ("--slurm", SlurmPath); ("--slur", SlurmPath); ("--slu", SlurmPath); ("--sl", SlurmPath);
   ("--s", SlurmPath)]%string.

(** a word that does not start with a hyphen *)
Definition undashed (v : string) : Prop :=
  match v with EmptyString => True | String a _ => a <> "-"%char end.
(** a text that can follow a short option directly *)
Definition attachable (v : string) : Prop :=
  match v with EmptyString => False | String a _ => a <> "="%char end.

(** the words that name the file [v] *)
Inductive names_file : opt -> list string -> string -> Prop :=
| by_two_words o s v : In (s, o) (short_spellings ++ long_spellings) -> undashed v ->
    names_file o [s; v] v
| by_attaching o s v : In (s, o) short_spellings -> attachable v ->
    names_file o [(s ++ v)%string] v
| by_equals o s v : In (s, o) (short_spellings ++ long_spellings) ->
    names_file o [(s ++ "=" ++ v)%string] v.

(** a long option whose name neither is nor abbreviates one of the four names *)
Definition foreign_name (n : string) : Prop :=
  (exists t, n = String "-" (String "-" t) /\ t <> EmptyString) /\
  ~ In "="%char (list_ascii_of_string n) /\
  forall k, In k ["--help"; "--config"; "--constants"; "--slurm"]%string -> String.prefix n k = false.
Definition foreign (u : string) : Prop :=
  exists n, foreign_name n /\ (u = n \/ exists v, u = (n ++ "=" ++ v)%string).

(** the file that was given with an option *)
Definition file_given (o : opt) (a : given) : option string :=
  match o with
  | Help => None | ConfigPath => a_config a | ConstantsPath => a_constants a | SlurmPath => a_slurm a
  end.

(** the directory of the default files *)
Definition home (p : process) : string := match env_dir p with Some d => d | None => cwd p end.

(** file of an option: the one given, otherwise the default in the directory of COSIPY *)
Definition file_of (p : process) (v : option string) (n : string) : string :=
  match v with Some f => f | None => join_path (home p) n end.

(** ** Spellings of the options of any program *)

Definition free_of_equals (s : string) : Prop := ~ In "="%char (list_ascii_of_string s).

(** a hyphen and a letter, or two hyphens and a name *)
Definition short_name (n : string) : Prop :=
  exists b, n = String "-" (String b EmptyString) /\ b <> "-"%char /\ b <> "="%char.
Definition long_name (n : string) : Prop :=
  exists t, n = String "-" (String "-" t) /\ t <> EmptyString /\ free_of_equals t.
Definition well_formed {O : Type} (table : dict O) : Prop :=
  NoDup (map fst table) /\ Forall (fun n => short_name n \/ long_name n) (map fst table).

(** the option [o] in full, or a beginning of its long name that no other name shares *)
Inductive spelling {O : Type} (table : dict O) (s : string) (o : O) : Prop :=
| in_full : In (s, o) table -> spelling table s o
| abbreviated : forall n, In (n, o) table -> (exists t, s = String "-" (String "-" t) /\ t <> EmptyString) ->
    String.prefix s n = true -> (forall m, In m (map fst table) -> String.prefix s m = true -> m = n) ->
    spelling table s o.

(** the words that name the value [v] for the option [o] *)
Inductive names_value {O : Type} (table : dict O) (o : O) : list string -> string -> Prop :=
| two_words s v : spelling table s o -> undashed v -> names_value table o [s; v] v
| one_word s v : short_name s -> In (s, o) table -> attachable v -> names_value table o [(s ++ v)%string] v
| with_equals s v : spelling table s o -> names_value table o [(s ++ "=" ++ v)%string] v.

(** words that name values, in this order *)
Inductive names_values (table : dict uopt) : list string -> list (string * string) -> Prop :=
| no_words : names_values table [] []
| more_words d v ws words settings : names_value table (Store d) ws v -> names_values table words settings ->
    names_values table (ws ++ words) ((d, v) :: settings).

(** ** What the programs accept, as their usage texts list it *)

Definition static_usage : dict uopt :=
  [("-h", UHelp); ("--help", UHelp); ("-u", Store "utilities_path"); ("--utilities", Store "utilities_path")]%string.
Definition wrf_usage : dict uopt :=
  static_usage ++
  [("-i", Store "wrf_file"); ("--input", Store "wrf_file");
   ("-o", Store "cosipy_file"); ("--output", Store "cosipy_file");
   ("-b", Store "start_date"); ("--start_date", Store "start_date");
   ("-e", Store "end_date"); ("--end_date", Store "end_date")]%string.
Definition aws_usage : dict uopt :=
  static_usage ++
  [("-i", Store "csv_file"); ("--input", Store "csv_file");
   ("-o", Store "cosipy_file"); ("--output", Store "cosipy_file");
   ("-s", Store "static_file"); ("--static_file", Store "static_file");
   ("-b", Store "start_date"); ("--start_date", Store "start_date");
   ("-e", Store "end_date"); ("--end_date", Store "end_date");
   ("--xl", Store "xl"); ("--xr", Store "xr"); ("--yl", Store "yl"); ("--yu", Store "yu")]%string.

(** values that a program cannot take: corners of the region that are no numbers *)
Definition wrong_value (is_float : string -> bool) (dv : string * string) : Prop :=
  In (fst dv) ["xl"; "xr"; "yl"; "yu"]%string /\ is_float (snd dv) = false.

(** a program with these options, of which some are required *)
Definition reads_values (table : dict uopt) (required : list string) (wrong : string * string -> Prop)
  (arguments : list string -> option (dict string)) : Prop :=
  forall words settings, names_values table words settings ->
    (Forall (fun dv => ~ wrong dv) settings -> Forall (fun d => In d (map fst settings)) required ->
     exists a, arguments words = Some a /\ forall d, dict_find a d = dict_find (rev settings) d) /\
    (Exists wrong settings -> arguments words = None) /\
    (forall d, In d required -> ~ In d (map fst settings) -> arguments words = None).

(** words that are no option of a program, and the ones that ask for help, of which [help] is the option *)
Inductive refused {O : Type} (help : O) (table : dict O) : string -> Prop :=
| r_bare w : undashed w -> refused help table w
| r_hyphens : refused help table "--"
| r_help s : spelling table s help -> refused help table s
| r_short b t : b <> "-"%char -> b <> "="%char ->
    ~ In (String "-" (String b EmptyString)) (map fst table) -> refused help table (String "-" (String b t))
| r_long n : long_name n -> (forall m, In m (map fst table) -> String.prefix n m = false) -> refused help table n
| r_long_equals n v : long_name n -> (forall m, In m (map fst table) -> String.prefix n m = false) ->
    refused help table (n ++ "=" ++ v)
| r_ambiguous n m m' : long_name n -> ~ In n (map fst table) -> In m (map fst table) -> In m' (map fst table) ->
    m <> m' -> String.prefix n m = true -> String.prefix n m' = true -> refused help table n.


(** a word without a blank *)
Definition no_blank (s : string) : Prop := ~ In " "%char (list_ascii_of_string s).
