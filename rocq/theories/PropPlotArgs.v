(** * Command lines with switches

    Theorems only; the proofs are in LemFinPlotArgs.v and the files it uses. *)

From Verif Require Import ModelPy ModelConstants ModelNode ModelGrid ModelHeat ModelSurface ModelInit ModelCore ModelConfig ModelIO ModelMain ModelRadCor ModelAws ModelSetup ModelPost ModelPlots ModelArgs ModelPlotArgs SpecConfig SpecSetup SpecArgs SpecPlotArgs.
From Verif Require Import LemFinPlotArgs.

From Coq Require Import Ascii.

(** C128.  The four programs read their command lines as their usage texts say: every way of writing the options
    in full, abbreviated, with the argument in the next word, after an equals sign or attached, and switches
    together behind one hyphen.  The last setting of each name counts, in any order.  A missing required
    option, a kind of plot other than 1 and 2, and a position or depth that is no number end the program. *)
Theorem switch_settings :
  forall (int_of : string -> option Z) (float_of : string -> option R),
    reads_settings setup_usage [] (fun _ => False) setup_arguments /\
    reads_settings fields_usage ["file"; "pdate"]%string (wrong_type int_of) (fields_arguments int_of) /\
    reads_settings vtk_usage ["input_file"; "timestamp"]%string (fun _ => False) vtk_arguments /\
    reads_settings profile_usage [] (wrong_number float_of) (profile_arguments float_of).
Proof. exact switch_settings_lem. Qed.
Print Assumptions switch_settings.

(** C128.  Nothing else is accepted: a word that can be an argument or has a blank, unless depths were given,
    an unknown or ambiguous option, a lone pair of hyphens, the wish for help, an option without its argument and a switch
    with an argument end the program. *)
Theorem switch_refusals :
  forall (int_of : string -> option Z) (float_of : string -> option R) (table : dict action)
         (arguments : list string -> option parsed),
    In (table, arguments) [(setup_usage, setup_arguments); (fields_usage, fields_arguments int_of);
                           (vtk_usage, vtk_arguments); (profile_usage, profile_arguments float_of)] ->
    forall pre settings, groups table pre settings ->
      (forall w post, refused AHelp table w ->
         ~ In "d"%string (map fst settings) \/ (~ argument w /\ ~ In " "%char (list_ascii_of_string w)) ->
         arguments (pre ++ w :: post) = None) /\
      (forall s o, spelling table s o -> (exists d, o = AOne d \/ o = AMany d) ->
         arguments (pre ++ [s]) = None /\
         forall w post, (w = "--"%string \/ exists o', spelling table w o') -> arguments (pre ++ s :: w :: post) = None) /\
      (forall s d v post, spelling table s (ASwitch d) -> arguments (pre ++ (s ++ "=" ++ v)%string :: post) = None).
Proof. exact switch_refusals_lem. Qed.
Print Assumptions switch_refusals.

(** C128.  The installation of the configuration files overwrites without asking exactly if the switch is
    given, and installs into the directory given last. *)
Theorem setup_from_words :
  forall resolve cwd sample words settings fs answers, groups setup_usage words settings ->
    setup_program resolve cwd sample words fs answers =
    Some (setup_main resolve cwd sample (is_on settings "overwrite") (last_text settings "output_path") fs answers).
Proof. exact setup_from_words_lem. Qed.
Print Assumptions setup_from_words.

(** C128.  Whatever the command line and the files: if no word starts with -y or --y and none of the answers is
    a clear yes, the installation leaves the text of every existing file as it is. *)
Theorem nothing_overwritten :
  forall resolve cwd sample argv fs answers fs' left e,
    (forall w, In w argv -> String.prefix "-y" w = false /\ String.prefix "--y" w = false) ->
    (forall a, In a answers -> ~ says_yes a) ->
    setup_program resolve cwd sample argv fs answers = Some (fs', left, e) ->
    forall p text, dict_find fs p = Some text -> dict_find fs' p = Some text.
Proof. exact nothing_overwritten_lem. Qed.
Print Assumptions nothing_overwritten.

(** C128.  The program for fields draws what the settings of its command line say: the file and the date given
    last, all variables unless one is named, the kind 1 unless another is given.  It exits without a file or
    a date, and a file that does not exist is an error. *)
Theorem fields_from_words :
  forall int_of names files words settings, groups fields_usage words settings ->
    Forall (fun dv => ~ wrong_type int_of dv) settings ->
    (forall path date, last_text settings "file" = Some path -> last_text settings "pdate" = Some date ->
       (files path = None -> fields_program int_of names files words = NoFile path) /\
       (forall data kind, files path = Some data ->
          (match last_text settings "plot_type" with Some v => int_of v = Some kind | None => kind = 1%Z end) ->
          fields_program int_of names files words =
          lift (fields_main names data date (last_text settings "variable") (is_on settings "mean") (is_on settings "save") kind))) /\
    (forall d, In d ["file"; "pdate"]%string -> ~ In d (map fst settings) -> fields_program int_of names files words = Exits).
Proof. exact fields_from_words_lem. Qed.
Print Assumptions fields_from_words.

(** C128.  The program for profiles draws what the settings of its command line say: a date, a position, a
    first and a last time and depths only if given, with the numbers that were written, also negative ones,
    and the density unless another variable is named. *)
Theorem profiles_from_words :
  forall float_of names np_int files words settings, groups profile_usage words settings ->
    Forall (fun dv => ~ wrong_number float_of dv) settings ->
    forall path, last_text settings "file" = Some path ->
      (files path = None -> profile_program float_of names np_int files words = NoFile path) /\
      (forall f lat lon depths, files path = Some f ->
         option_map float_of (last_text settings "lat") = option_map Some lat ->
         option_map float_of (last_text settings "lon") = option_map Some lon ->
         option_map (map float_of) (dict_find (rev settings) "d") = option_map (map Some) depths ->
         profile_program float_of names np_int files words =
         lift (profile_main names np_int f (last_text settings "pdate")
                 (match last_text settings "var" with Some v => v | None => "RHO"%string end)
                 lat lon (last_text settings "start") (last_text settings "end") depths)).
Proof. exact profiles_from_words_lem. Qed.
Print Assumptions profiles_from_words.

(** C128.  The program for three-dimensional plots is content with a file and a time: the name of the variable,
    which its documentation lists as required (plot_cosipy_fields_vtk.py:483-486), can be left out. *)
Theorem vtk_name_optional :
  forall words settings, groups vtk_usage words settings ->
    In "input_file"%string (map fst settings) -> In "timestamp"%string (map fst settings) ->
    exists a, vtk_arguments words = Some a /\
      forall d, dict_find a d = dict_find (rev settings) d.
Proof. exact vtk_name_optional_lem. Qed.
Print Assumptions vtk_name_optional.

(** C128 The program for fields with the switches for the mean and for saving, the variable and the kind of
    plot behind shared hyphens. *)
Example switch_settings_ex :
  exists words settings, words = ["-i"; "out.nc"; "-msvT"; "--date=2009-01-01"; "-t"; "2"]%string /\
    groups fields_usage words settings /\
    last_text settings "file" = Some "out.nc"%string /\ last_text settings "pdate" = Some "2009-01-01"%string /\
    is_on settings "mean" = true /\ is_on settings "save" = true /\
    last_text settings "variable" = Some "T"%string /\ last_text settings "plot_type" = Some "2"%string.
Proof. exact switch_settings_ex_lem. Qed.

(** C128 Depths and a position in the southern hemisphere; the letters -oy name the directory y and are no
    consent, while -yo names the directory and consents; --d is refused because it could be the date or the
    depths. *)
Example switch_words_ex :
  (exists settings, groups profile_usage ["--depth"; "0.1"; "-1"; "-n"; "-33.4"; "--pit"; "a"]%string settings /\
     dict_find (rev settings) "d" = Some ["0.1"; "-1"]%string /\ last_text settings "lat" = Some "-33.4"%string) /\
  setup_arguments ["-oy"]%string = Some [("output_path", ["y"])]%string /\
  setup_arguments ["-yo"; "x"]%string = Some [("overwrite", []); ("output_path", ["x"])]%string /\
  refused AHelp profile_usage "--d" /\ refused AHelp setup_usage "-x".
Proof. exact switch_words_ex_lem. Qed.
