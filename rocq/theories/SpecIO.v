(** * Vocabulary for the properties of input, output and the driver *)
From Coq Require Import Ascii.
From Verif Require Import ModelPy ModelConstants ModelNode ModelGrid ModelSurface ModelInit
  ModelCore ModelConfig ModelIO ModelMain.
From Coq Require Import Permutation Sorted.

(** ** Gridded data *)

(** entry of a cell, by position; None outside of the array *)
Definition cell_at {A : Type} (a : cells A) (y x : Z) : option A :=
  if ((0 <=? y) && (0 <=? x))%Z%bool
  then match nth_error a (Z.to_nat y) with
       | Some row => nth_error row (Z.to_nat x)
       | None => None
       end
  else None.

(** the glacier mask is 1 in a cell *)
Definition is_glacier (data : Gridded) (y x : Z) : Prop :=
  exists masks, dict_find (g_vars data) "MASK"%string = Some masks /\
    cell_at masks y x = Some (Series [Some 1]).

(** a variable of the dataset has a NaN in a cell *)
Definition has_nan (data : Gridded) (y x : Z) : Prop :=
  exists name arr b, In (name, arr) (g_vars data) /\ cell_at arr y x = Some b /\
    In None (block_values b).

(** every variable of the dataset covers a grid of [ny] times [nx] cells, and the mask holds one
    number per cell *)
Definition on_grid (data : Gridded) (ny nx : Z) : Prop :=
  (forall name arr, In (name, arr) (g_vars data) ->
     Z.of_nat (length arr) = ny /\ Forall (fun row => Z.of_nat (length row) = nx) arr) /\
  exists masks, dict_find (g_vars data) "MASK"%string = Some masks /\
    forall y x b, cell_at masks y x = Some b -> exists v, b = Series [v].

(** the horizontal dimensions carry the names by which the program selects *)
Definition dimensions_named (cfg : RunConfig) : Prop :=
  if rc_WRF cfg
  then rc_northing cfg = "south_north"%string /\ rc_easting cfg = "west_east"%string
  else rc_northing cfg = "lat"%string /\ rc_easting cfg = "lon"%string.

(** cells of a list of jobs *)
Definition job_cell (j : Job) : Z * Z := (j_y j, j_x j).

(** an order in which the workers finish: every job once *)
Definition schedule (arrivals : list Job -> list Job) : Prop :=
  forall jobs, Permutation jobs (arrivals jobs).

(** a worker answers for the cell it was asked for *)
Definition answers_for_its_cell (work : Job -> res (list pyval)) : Prop :=
  forall j r, work j = Ok r -> firstn 2 r = [PIdx (j_y j); PIdx (j_x j)].

(** a worker answers with the tuple of cosipy_core for its cell *)
Definition answers_as_core (full_field : bool) (m : Z) (work : Job -> res (list pyval)) : Prop :=
  forall j r, work j = Ok r ->
    exists d outs names stat df,
      r = core_return full_field m (j_y j) (j_x j) d outs names stat df.

(** ** Meaning of the output variables *)

(** what a result variable of the atmosphere list holds at a step *)
Definition atm_field (name : string) : option (Output -> number) :=
  dict_find
    [("RAIN", fun o => Some (o_RAIN o)); ("SNOWFALL", fun o => Some (o_SNOWFALL o));
     ("LWin", fun o => Some (o_LWin o)); ("LWout", fun o => Some (o_LWout o));
     ("H", fun o => Some (o_H o)); ("LE", fun o => Some (o_LE o)); ("B", fun o => Some (o_B o));
     ("QRR", fun o => Some (o_QRR o)); ("TS", fun o => Some (o_TS o));
     ("ALBEDO", fun o => Some (o_ALBEDO o)); ("Z0", fun o => Some (o_Z0 o))]%string name.

(** ... of the list of internal variables *)
Definition internal_field (name : string) : option (Output -> number) :=
  dict_find
    [("surfMB", fun o => Some (o_surfMB o)); ("MB", fun o => Some (o_MB o));
     ("Q", fun o => Some (o_Q o)); ("SNOWHEIGHT", fun o => Some (o_SNOWHEIGHT o));
     ("TOTALHEIGHT", fun o => Some (o_TOTALHEIGHT o));
     ("LAYERS", fun o => Some (IZR (o_NLAYERS o))); ("ME", fun o => Some (o_ME o));
     ("intMB", fun o => Some (o_intMB o)); ("EVAPORATION", fun o => Some (o_EVAPORATION o));
     ("SUBLIMATION", fun o => Some (o_SUBLIMATION o));
     ("CONDENSATION", fun o => Some (o_CONDENSATION o));
     ("DEPOSITION", fun o => Some (o_DEPOSITION o)); ("REFREEZE", fun o => Some (o_REFREEZE o));
     ("subM", fun o => Some (o_subM o)); ("surfM", fun o => Some (o_surfM o));
     ("MOL", o_MOL)]%string name.

(** ... and of the list of layer variables *)
Definition layer_field (name : string) : option (LayerFields -> list R) :=
  dict_find
    [("HEIGHT", lf_HEIGHT); ("RHO", lf_RHO); ("T", lf_T); ("LWC", lf_LWC); ("CC", lf_CC);
     ("POROSITY", lf_POROSITY); ("ICE_FRACTION", lf_ICE_FRACTION);
     ("IRREDUCIBLE_WATER", lf_IRREDUCIBLE_WATER); ("REFREEZE", lf_REFREEZE)]%string name.

(** a profile written into a row of [m] layers, NaN below the last layer *)
Definition profile_row (m : Z) (f : LayerFields -> list R) (o : Output) : list number :=
  match o_profiles o with
  | Some p => map Some (f p) ++ repeat None (Z.to_nat m - length (f p))
  | None => repeat None (Z.to_nat m)
  end.

(** a job as COSIPY.py submits it: a glacier cell without NaN, the restart data of the cell if
    there is a restart file, the stakes of the cell if there is an evaluation *)
Definition proper_job (cfg : RunConfig) (data : Gridded) (restart : option restart_file)
  (stakes : list (Z * Z * string)) (j : Job) : Prop :=
  is_glacier data (j_y j) (j_x j) /\ ~ has_nan data (j_y j) (j_x j) /\
  j_stakes j = (if rc_stake_evaluation cfg then Some (stakes_of stakes (j_y j) (j_x j)) else None) /\
  if rc_restart cfg
  then exists r d, restart = Some r /\ restart_cell r (j_y j) (j_x j) = Ok d /\ j_restart j = Some d
  else j_restart j = None.

(** what the worker of a cell has returned: restart data and one output per step *)
Definition found (cfg : RunConfig) (m : Z) (work : Job -> res (list pyval)) (data : Gridded)
  (restart : option restart_file) (stakes : list (Z * Z * string)) (y x : Z)
  (d : dataset) (outs : list Output) : Prop :=
  exists j names stat df,
    proper_job cfg data restart stakes j /\ job_cell j = (y, x) /\
    work j = Ok (core_return (rc_full_field cfg) m y x d outs names stat df).

(** an array holds in each glacier cell the [value] of what the worker of the cell has returned,
    and [missing] in each other cell *)
Definition filled (data : Gridded) (ny nx : Z)
  (found : Z -> Z -> dataset -> list Output -> Prop)
  (value : dataset -> list Output -> option block) (missing : block) (a : cells block) : Prop :=
  forall y x, (0 <= y < ny)%Z -> (0 <= x < nx)%Z ->
    (is_glacier data y x ->
       exists d outs b, found y x d outs /\ value d outs = Some b /\ cell_at a y x = Some b) /\
    (~ is_glacier data y x -> cell_at a y x = Some missing).

(** some cell of the grid is glacier *)
Definition some_glacier (data : Gridded) (ny nx : Z) : Prop :=
  exists y x, (0 <= y < ny)%Z /\ (0 <= x < nx)%Z /\ is_glacier data y x.

(** restart variable of a cell *)
Definition restart_variable (d : dataset) (name : string) : option block :=
  option_map Series (dict_find d name).

(** ** Time *)

(** values of a cell with their time labels *)
Definition labelled (times : list Z) (b : block) : list (Z * number) :=
  match b with Series l => combine times l | Layers _ => [] end.

Definition ascending (l : list Z) : Prop := StronglySorted Z.le l.

(** ** Input data *)

(** the ranges of io.py:242-253, smallest and largest value; the slope as it is meant *)
Definition valid_range : dict (R * R) :=
  [("T2"%string, (243.16, 313.16)); ("RH2"%string, (0, 100)); ("G"%string, (0, 1600));
   ("U2"%string, (0, 50)); ("RRR"%string, (0, 20)); ("N"%string, (0, 1));
   ("PRES"%string, (400, 1080)); ("LWin"%string, (200, 400)); ("SNOWFALL"%string, (0, 0.1));
   ("SLOPE"%string, (0, 90))].

(** all numbers of a variable, NaNs left out, lie in a range *)
Definition values_within (lo hi : R) (arr : cells block) : Prop :=
  forall row b v, In row arr -> In b row -> In (Some v) (block_values b) -> lo <= v <= hi.

(** a variable holds nothing but NaN *)
Definition all_nan (arr : cells block) : Prop :=
  forall row b v, In row arr -> In b row -> ~ In (Some v) (block_values b).

(** a variable has at least one entry *)
Definition some_entry (arr : cells block) : Prop :=
  exists row b v, In row arr /\ In b row /\ In v (block_values b).

(** ** Stakes *)

(** pairs of a measured and a simulated number where both are there *)
Definition common (obs sim : list number) : list (R * R) :=
  flat_map (fun p => match p with (Some a, Some b) => [(a, b)] | _ => [] end) (combine obs sim).

(** ** Workers whose answer fits into the arrays *)

Definition profile_fits (m : Z) (p : LayerFields) : Prop :=
  forall f, In f [lf_HEIGHT; lf_RHO; lf_T; lf_LWC; lf_CC; lf_POROSITY; lf_ICE_FRACTION;
                  lf_IRREDUCIBLE_WATER; lf_REFREEZE] -> (Z.of_nat (length (f p)) <= m)%Z.

Definition restart_fits (m : Z) (d : dataset) : Prop :=
  (forall name, In name ["NLAYERS"; "NEWSNOWHEIGHT"; "NEWSNOWTIMESTAMP"; "OLDSNOWTIMESTAMP"]%string ->
     exists v, ds_get d name = Ok [v]) /\
  (forall name, In name ["LAYER_HEIGHT"; "LAYER_RHO"; "LAYER_T"; "LAYER_LWC"; "LAYER_IF"]%string ->
     exists l, ds_get d name = Ok l /\ length l = Z.to_nat m).

Definition answer_fits (m n : Z) (d : dataset) (outs : list Output) : Prop :=
  length outs = Z.to_nat n /\
  Forall (fun o => match o_profiles o with Some p => profile_fits m p | None => True end) outs /\
  restart_fits m d.

(** every listed output variable has an entry in the table of units *)
Definition names_known (full_field : bool) (io : IO) : Prop :=
  (forall name, In name (io_atm io) \/ In name (io_internal io) ->
     dict_find result_metadata name <> None) /\
  (full_field = true -> forall name, In name (io_full io) ->
     dict_find result_metadata ("LAYER_" ++ name)%string <> None).

(** the period a run reads: from the start of [time_start], or from the given restart time, to the
    end of what [time_end] names *)
Definition period (parse : parser) (cfg : RunConfig) (restart_date : option Z) (lo hi : Z) : Prop :=
  (exists e, slice_bounds parse (rc_time_end cfg) = Ok (e, hi)) /\
  match restart_date with
  | Some t => lo = t
  | None => exists e, slice_bounds parse (rc_time_start cfg) = Ok (lo, e)
  end.

Definition between (lo hi t : Z) : bool := ((lo <=? t) && (t <=? hi))%Z%bool.

(** ** File names *)

(** a time in text: a date in the form YYYY-MM-DD, then anything *)
Definition iso_text (date rest : string) (y m d : string) : Prop :=
  date = (y ++ "-" ++ m ++ "-" ++ d ++ rest)%string /\
  String.length y = 4%nat /\ String.length m = 2%nat /\ String.length d = 2%nat /\
  (forall i, String.get i y <> Some "-"%char) /\ (forall i, String.get i m <> Some "-"%char) /\
  (forall i, String.get i d <> Some "-"%char).
