(** * Configuration files (cosipy/config.py, cosipy/constants.py,
    cosipy/utilities/config_utils.py) *)
From Verif Require Import ModelPy.
From Coq Require Import DecimalString.

(** ** Python dictionaries with string keys, in insertion order *)
Definition dict (V : Type) : Type := list (string * V).

Fixpoint dict_find {V : Type} (d : dict V) (k : string) : option V :=
  match d with
  | [] => None
  | (n, v) :: t => if String.eqb n k then Some v else dict_find t k
  end.

(** [k in d] *)
Definition dict_mem {V : Type} (d : dict V) (k : string) : bool :=
  match dict_find d k with Some _ => true | None => false end.

(** [d[k]] *)
Definition dict_get {V : Type} (d : dict V) (k : string) : res V :=
  match dict_find d k with Some v => Ok v | None => Err KeyError end.

(** [getattr(obj, k)], where the attributes of the object are kept in a dictionary *)
Definition attr_get {V : Type} (d : dict V) (k : string) : res V :=
  match dict_find d k with Some v => Ok v | None => Err AttributeError end.

(** [d[k] = v] and [setattr(obj, k, v)]: an existing key keeps its position *)
Fixpoint dict_set {V : Type} (d : dict V) (k : string) (v : V) : dict V :=
  match d with
  | [] => [(k, v)]
  | (n, w) :: t => if String.eqb n k then (n, v) :: t else (n, w) :: dict_set t k v
  end.

(** [d1 | d2] *)
Definition dict_union {V : Type} (d1 d2 : dict V) : dict V :=
  fold_left (fun d kv => dict_set d (fst kv) (snd kv)) d2 d1.

(** ** TOML values and files *)

(** The values a TOML file can hold (dates are left out: [VDate] is an opaque time stamp in
    seconds), and Python's None. *)
Inductive value : Type :=
| VBool (b : bool) | VInt (z : Z) | VFloat (r : R) | VStr (s : string)
| VList (l : list value) | VDate (t : Z) | VNone.

(** a file: tables with their keys.  Keys outside of any table do not occur in the files of
    /repo and are not modelled. *)
Definition table : Type := dict value.
Definition toml : Type := dict table.

(** truth value of a Python object *)
Definition truthy (v : value) : bool :=
  match v with
  | VBool b => b
  | VInt z => negb (z =? 0)%Z
  | VFloat r => if Req_EM_T r 0 then false else true
  | VStr s => negb (String.eqb s EmptyString)
  | VList l => match l with [] => false | _ => true end
  | VDate _ => true
  | VNone => false
  end.

(** [v == 0]; in Python [False == 0] holds *)
Definition equals_zero (v : value) : bool :=
  match v with
  | VBool b => negb b
  | VInt z => (z =? 0)%Z
  | VFloat r => if Req_EM_T r 0 then true else false
  | _ => false
  end.

(** [config_table[h][k]] *)
Definition get2 (t : toml) (h k : string) : res value := s <- dict_get t h ;; dict_get s k.

(** [config_table[h][k] = v] *)
Definition set2 (t : toml) (h k : string) (v : value) : res toml :=
  s <- dict_get t h ;; Ok (dict_set t h (dict_set s k v)).

(** ** Normalisation *)

(** config.py:199-219 [Config.set_correct_config] *)
Definition config_correct (t : toml) : res toml :=
  wrf <- get2 t "DIMENSIONS" "WRF" ;;
  t1 <- (if truthy wrf
         then t' <- set2 t "DIMENSIONS" "northing" (VStr "south_north") ;;
              set2 t' "DIMENSIONS" "easting" (VStr "west_east")
         else Ok t) ;;
  coupled <- get2 t1 "DIMENSIONS" "WRF_X_CSPY" ;;
  t2 <- (if truthy coupled then set2 t1 "FULL_FIELDS" "full_field" (VBool true) else Ok t1) ;;
  workers <- get2 t2 "PARALLELIZATION" "workers" ;;
  (if equals_zero workers then set2 t2 "PARALLELIZATION" "workers" VNone else Ok t2).

(** constants.py:28-46 [Constants.set_correct_config]; [config] holds the attributes of the
    class Config *)
Definition constants_correct (config : dict value) (t : toml) : res toml :=
  coupled <- attr_get config "WRF_X_CSPY" ;;
  if truthy coupled
  then t' <- set2 t "PARAMETERIZATIONS" "albedo_method" (VStr "Oerlemans98") ;;
       set2 t' "PARAMETERIZATIONS" "stability_correction" (VStr "MO")
  else Ok t.

(** [a * b] as the text of an f-string; only whole numbers are followed ([True] counts
    as 1) *)
Definition whole (v : value) : res Z :=
  match v with
  | VInt z => Ok z
  | VBool b => Ok (if b then 1%Z else 0%Z)
  | _ => Err NotReal
  end.

Definition decimal (z : Z) : string := NilZero.string_of_int (Z.to_int z).

(** config.py:253-270 [SlurmConfig.set_correct_config] *)
Definition slurm_correct (t : toml) : res toml :=
  m <- get2 t "OVERRIDES" "memory_per_process" ;;
  if truthy m
  then per <- whole m ;;
       cs <- get2 t "MEMORY" "cores" ;;
       cores <- whole cs ;;
       set2 t "MEMORY" "memory" (VStr (decimal (per * cores) ++ "GB"))
  else Ok t.

(** config.py:170-179 [set_config_values]: [attrs] are the attributes of the class before
    and after *)
Definition set_config_values (t : toml) (attrs : dict value) : dict value :=
  fold_left
    (fun a ht => fold_left (fun a' kv => dict_set a' (fst kv) (snd kv)) (snd ht) a) t attrs.

(** config.py:193-197 [Config.load], constants.py:22-26 [Constants.load],
    config.py:247-251 [SlurmConfig.load]; the file has been read into [t] *)
Definition config_load (t : toml) (attrs : dict value) : res (dict value) :=
  t' <- config_correct t ;; Ok (set_config_values t' attrs).

Definition constants_load (config : dict value) (t : toml) (attrs : dict value)
  : res (dict value) :=
  t' <- constants_correct config t ;; Ok (set_config_values t' attrs).

Definition slurm_load (t : toml) (attrs : dict value) : res (dict value) :=
  t' <- slurm_correct t ;; Ok (set_config_values t' attrs).

(** config_utils.py:58-68 [UtilitiesConfig.set_config_values]: one attribute per table, the
    named tuple of its entries, which are tables themselves.  namedtuple refuses names that are
    no identifiers, start with an underscore or are keywords; the files of /repo have none and
    the check is left out. *)
Definition utilities_load {T : Type} (t : dict T) (attrs : dict T) : dict T :=
  fold_left (fun a ht => dict_set a (fst ht) (snd ht)) t attrs.

(** config_utils.py:50-56 with the [load_config] of aws2cosipy.py:1007-1021,
    wrf2cosipy.py:220-234, create_static_file.py:75-89: the tables of one utility; [t] is the
    file, [attrs] are the attributes of the class UtilitiesConfig before *)
Definition utility_config {T : Type} (t attrs : dict T) (name : string) : res T :=
  attr_get (utilities_load t attrs) name.
