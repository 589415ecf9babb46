(** * Installation of configuration files

    Theorems only; the proofs are in LemFinSetup.v and the files it uses. *)

From Verif Require Import ModelPy ModelConfig ModelSetup SpecSetup.
From Verif Require Import LemFinSetup.

(** C55.  The question about a file: unclear answers are skipped; the first clear answer decides, whatever comes later. *)
Theorem confirmation_answers :
  forall answers,
    (Forall unclear answers /\ get_user_confirmation answers = (None, [])) \/
    exists skipped a rest, answers = skipped ++ a :: rest /\ Forall unclear skipped /\
      ((says_yes a /\ get_user_confirmation answers = (Some true, rest)) \/
       (says_no a /\ ~ says_yes a /\ get_user_confirmation answers = (Some false, rest))).
Proof. exact confirmation_answers_lem. Qed.
Print Assumptions confirmation_answers.

(** C55.  One file that exists, without -y: it is replaced only after a clear yes to its question; after a clear no, or if the input ends, everything stays as it is. *)
Theorem existing_file_needs_yes :
  forall resolve basename source_dir target_dir fs answers,
    let target := resolve (target_dir ++ "/" ++ basename)%string in
    dict_find fs target <> None ->
    let r := copy_file_to_target resolve basename source_dir target_dir false fs answers in
    (Forall unclear answers /\ r = (fs, [], Some EOFError)) \/
    exists skipped a rest, answers = skipped ++ a :: rest /\ Forall unclear skipped /\
      ((says_no a /\ ~ says_yes a /\ r = (fs, rest, None)) \/
       (says_yes a /\ snd (fst r) = rest /\
        (fst (fst r) = fs \/
         exists text, dict_find fs (resolve (source_dir ++ "/" ++ basename)%string) = Some text /\ fst (fst r) = dict_set fs target text))).
Proof. exact existing_file_needs_yes_lem. Qed.
Print Assumptions existing_file_needs_yes.

(** C55.  A run of the installer, whatever the files, paths, links, options and answers, and also if it stops half-way: files are never deleted; only the four configuration files in the target directory can change; an existing one changes only with -y or after a clear yes; with -y nothing is asked. *)
Theorem setup_consent :
  forall resolve cwd sample overwrite out fs answers fs' left e,
    setup_main resolve cwd sample overwrite out fs answers = (fs', left, e) ->
    exists used, answers = used ++ left /\ (overwrite = true -> used = []) /\
      forall p,
        (dict_find fs p <> None -> dict_find fs' p <> None) /\
        (dict_find fs' p <> dict_find fs p -> is_target resolve cwd out p) /\
        (dict_find fs p <> None -> dict_find fs' p <> dict_find fs p ->
         overwrite = true \/ exists a, In a used /\ says_yes a).
Proof. exact setup_consent_lem. Qed.
Print Assumptions setup_consent.

(** C55.  Without -y and without any clear yes among the answers, every existing file keeps its content. *)
Theorem setup_declined :
  forall resolve cwd sample out fs answers fs' left e p text,
    setup_main resolve cwd sample false out fs answers = (fs', left, e) ->
    (forall a, In a answers -> ~ says_yes a) ->
    dict_find fs p = Some text -> dict_find fs' p = Some text.
Proof. exact setup_declined_lem. Qed.
Print Assumptions setup_declined.

(** C55.  After a run without exception every configuration file is in the target directory, either the sample or, without -y, the file that was there. *)
Theorem setup_complete :
  forall resolve cwd sample overwrite out fs answers fs' left,
    setup_main resolve cwd sample overwrite out fs answers = (fs', left, None) ->
    separate resolve sample (goes_to cwd out) config_files ->
    forall n, In n ["config.toml"; "constants.toml"; "slurm_config.toml"; "utilities_config.toml"]%string ->
      let target := resolve (goes_to cwd out ++ "/" ++ n)%string in
      dict_find fs' target <> None /\
      (dict_find fs' target = dict_find fs (resolve (sample ++ "/" ++ n)%string) \/
       (overwrite = false /\ dict_find fs' target = dict_find fs target)).
Proof. exact setup_complete_lem. Qed.
Print Assumptions setup_complete.

(** C55.  With -y the installation succeeds if the samples are there and the target is another directory. *)
Theorem setup_succeeds :
  forall resolve cwd sample out fs answers,
    separate resolve sample (goes_to cwd out) config_files -> goes_to cwd out <> sample ->
    (forall p, out = Some p -> p <> ""%string -> dict_find fs (resolve p) = None) ->
    (forall n, In n config_files -> dict_find fs (resolve (sample ++ "/" ++ n)%string) <> None) ->
    exists fs', setup_main resolve cwd sample true out fs answers = (fs', answers, None).
Proof. exact setup_succeeds_lem. Qed.
Print Assumptions setup_succeeds.

(** C55.  The sample directory under another name is not recognised beforehand, but nothing is overwritten: the run stops at the first file. *)
Theorem setup_same_directory :
  forall resolve cwd sample out fs answers,
    goes_to cwd out <> sample ->
    (forall p, out = Some p -> p <> ""%string -> dict_find fs (resolve p) = None) ->
    resolve (goes_to cwd out ++ "/config.toml")%string = resolve (sample ++ "/config.toml")%string ->
    dict_find fs (resolve (sample ++ "/config.toml")%string) <> None ->
    setup_main resolve cwd sample true out fs answers = (fs, answers, Some SameFileError).
Proof. exact setup_same_directory_lem. Qed.
Print Assumptions setup_same_directory.

(** The four samples installed over one existing file: a clear no keeps it, an unclear answer is asked again. *)
Example setup_example :
  let fs := [("s/config.toml", "c"); ("s/constants.toml", "k"); ("s/slurm_config.toml", "l"); ("s/utilities_config.toml", "u");
             ("t/config.toml", "mine"); ("t/constants.toml", "old")]%string in
  setup_main (fun p => p) "t" "s" false None fs ["perhaps"; " NO "; "Yes"]%string =
  (dict_set (dict_set (dict_set fs "t/constants.toml" "k") "t/slurm_config.toml" "l") "t/utilities_config.toml" "u", [], None)%string.
Proof. exact setup_example_lem. Qed.
