(** * Vocabulary for the properties of the installation of configuration files *)
From Verif Require Import ModelPy ModelConfig ModelSetup.

(** the texts that count as yes and as no, apart from capitals and surrounding spaces *)
Definition says_yes (a : string) : Prop := In (strip (lower a)) ["y"; "yes"]%string.
Definition says_no (a : string) : Prop := In (strip (lower a)) ["n"; "no"; ""]%string.
Definition unclear (a : string) : Prop := ~ says_yes a /\ ~ says_no a.

(** where the configuration files go *)
Definition goes_to (cwd : string) (output_path : option string) : string :=
  match output_path with Some p => if String.eqb p "" then cwd else p | None => cwd end.
Definition is_target (resolve : string -> string) (cwd : string) (output_path : option string) (p : string) : Prop :=
  exists n, In n ["config.toml"; "constants.toml"; "slurm_config.toml"; "utilities_config.toml"]%string /\
    p = resolve (goes_to cwd output_path ++ "/" ++ n)%string.

(** the target and sample files are different files *)
Definition separate (resolve : string -> string) (sd td : string) (names : list string) : Prop :=
  forall n m, In n names -> In m names ->
    resolve (path_in td n) <> resolve (path_in sd m) /\ (resolve (path_in td n) = resolve (path_in td m) -> n = m).
