(** * Vocabulary for the properties of the conversion of old configuration modules *)
From Verif Require Import ModelPy ModelConfig ModelConvert.
From Coq Require Import Ascii.

(** what becomes of a setting: missing ones and None become 0 *)
Definition new_value (module : dict value) (k : string) : value :=
  match dict_find module k with
  | Some VNone => VInt 0
  | Some v => v
  | None => VInt 0
  end.

(** the settings of an old configuration, under their new names *)
Definition under_new_names (module variables : dict value) (prefix : string) : dict value :=
  [("output_prefix", VStr prefix)]%string ++
  flat_map (fun nk => match dict_find variables (snd nk) with Some v => [(fst nk, v)] | None => [] end)
    [("output_atm", "atm"); ("output_internal", "internal"); ("output_full", "full")]%string ++
  module.

(** a text without a character *)
Definition without (c : ascii) (s : string) : Prop := ~ In c (list_ascii_of_string s).

(** every [c] of a text replaced *)
Definition replace_char (c d : ascii) (s : string) : string :=
  string_of_list_ascii (map (fun x => if Ascii.eqb x c then d else x) (list_ascii_of_string s)).

(** a switch of an old module, on or off *)
Definition old_switch (module : dict value) (k : string) : bool := truthy (new_value module k).
