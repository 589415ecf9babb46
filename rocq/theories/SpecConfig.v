(** * Vocabulary for the properties of the configuration *)
From Verif Require Import ModelPy ModelConfig.

(** the entry of a key in a table of a file *)
Definition entry (t : toml) (table key : string) : option value :=
  match dict_find t table with Some d => dict_find d key | None => None end.

(** all entries of a file, in the order of the file *)
Definition entries (t : toml) : list (string * value) := flat_map snd t.

(** no key in two places *)
Definition keys_distinct (t : toml) : Prop := NoDup (map fst (entries t)).

(** what the last line of a file that sets the key says *)
Definition last_setting (t : toml) (key : string) : option value := dict_find (rev (entries t)) key.

(** the entry is there and counts as true *)
Definition switched_on (t : toml) (table key : string) : bool :=
  match entry t table key with Some v => truthy v | None => false end.

Definition is_entry (table key h k : string) : bool := (String.eqb h table && String.eqb k key)%bool.
