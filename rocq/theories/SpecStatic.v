(** * Vocabulary for the properties of the static file *)
From Verif Require Import ModelPy ModelConstants ModelNode ModelGrid ModelHeat ModelSurface ModelInit
  ModelCore ModelConfig ModelIO ModelMain ModelRadCor ModelStatic.

(** the entry in row [y] and column [x], if the array has one *)
Definition entry_of {A : Type} (a : raster A) (y x : nat) : option A :=
  match nth_error a y with Some row => nth_error row x | None => None end.

(** the intermediate files *)
Definition temporary (folder p : string) : Prop :=
  In p (map (append folder) ["dem.nc"; "mask.nc"; "slope.nc"; "DEM_temp.tif"; "DEM_temp2.tif"])%string.

(** an array with a value for each pair of coordinates *)
Definition has_size {A : Type} (ny nx : nat) (a : raster A) : Prop :=
  length a = ny /\ Forall (fun row => length row = nx) a.

(** the value of a variable at a place *)
Definition value_at (ds : static_dataset) (name : string) (y x : nat) : option number :=
  match dict_find (sd_vars ds) name with Some (_, a) => entry_of a y x | None => None end.

(** a place on the glacier, and a dataset whose glacier has all its values *)
Definition on_glacier (ds : static_dataset) (y x : nat) : Prop := value_at ds "MASK" y x = Some (Some 1).
Definition complete_on_glacier (ds : static_dataset) : Prop :=
  forall y x, on_glacier ds y x ->
    forall name, In name ["HGT"; "ASPECT"; "SLOPE"]%string -> exists v, value_at ds name y x = Some (Some v).

(** the places where an array is 1 *)
Definition places_of_one (a : raster number) : list (nat * nat) :=
  filter (fun yx => match entry_of a (fst yx) (snd yx) with Some v => is_one v | None => false end)
    (flat_map (fun y => map (pair y) (seq 0 (length (nth y a [])))) (seq 0 (length a))).

(** tools whose result depends on the content of the source, and for the mask on the outline *)
Definition reliable (tool : option content -> command -> content -> option content)
  (gdal : disk -> command -> string -> string -> option content) : Prop :=
  forall fs cmd source target,
    gdal fs cmd source target =
      match dict_find fs source with
      | Some t => tool (match cmd with Cutline shape => dict_find fs shape | _ => None end) cmd t
      | None => None
      end.
