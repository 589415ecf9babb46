(** * Vocabulary for the properties of the conversion of station data *)
From Verif Require Import ModelPy ModelConstants ModelNode ModelGrid ModelHeat ModelSurface ModelInit
  ModelCore ModelConfig ModelIO ModelMain ModelRadCor SpecIO SpecRadCor ModelAws.

(** ** Files *)

(** series of a variable in a cell *)
Definition file_series (f : ncfile) (name : string) (y x : Z) : option (list number) :=
  match dict_find (nf_vars f) name with
  | Some v => match cell_at (v_data v) y x with Some (Series l) => Some l | _ => None end
  | None => None
  end.

(** ** Station data *)

(** the last number among [l] *)
Definition newer (old v : number) : number := match v with Some _ => v | None => old end.
Definition last_known (l : list number) : number := fold_left newer l None.
(** a column in which every missing value is replaced by the last number before it *)
Definition carried (col : list number) : list number :=
  map (fun k => last_known (firstn (S k) col)) (seq 0 (length col)).

(** values of a column with time stamps in [b, b + w) *)
Definition during (b w : Z) (index : list Z) (col : list number) : list number :=
  map snd (filter (fun tv => ((b <=? fst tv) && (fst tv <? b + w))%Z%bool) (combine index col)).

(** arithmetic mean of the numbers of a list, sum of the numbers of a list *)
Definition mean_of (l : list number) : number :=
  match reals_of l with [] => None | r => Some (fold_right Rplus 0 r / INR (length r)) end.
Definition sum_of (l : list number) : R := fold_right Rplus 0 (reals_of l).
(** the same, missing if there is no number *)
Definition total_of (l : list number) : number :=
  match reals_of l with [] => None | r => Some (fold_right Rplus 0 r) end.

(** a column of the station file *)
Definition column (csv : frame) (name : string) : option (list number) := dict_find (f_cols csv) name.

(** the columns have the length of the index *)
Definition rectangular (csv : frame) : Prop :=
  forall n c, dict_find (f_cols csv) n = Some c -> length c = length (f_index csv).

(** the names of the columns *)
Definition column_names (cfg : AwsConfig) : list string :=
  [aw_T2 cfg; aw_RH2 cfg; aw_U2 cfg; aw_G cfg; aw_RRR cfg; aw_PRES cfg; aw_LWin cfg; aw_N cfg;
   aw_SNOWFALL cfg].

(** ** Physics *)

(** temperature [K] of a station value *)
Definition kelvin (cfg : AwsConfig) (v : R) : R := if aw_in_K cfg then v else v + 273.16.

(** factor of the barometric formula *)
Definition standard_atmosphere (z : R) : R := 1 - 0.0065 * z / 288.15.

(** the arrays of a static file have the size of its coordinates *)
Definition static_shape (st : static_file) : Prop :=
  let ny := length (st_lats st) in
  let nx := length (st_lons st) in
  sized (st_HGT st) ny nx /\ sized (st_SLOPE st) ny nx /\ sized (st_ASPECT st) ny nx /\
  sized (st_MASK st) ny nx /\ Forall (fun nr => sized (snd nr) ny nx) (st_other st).

(** a column of the station file, all missing if it is not there *)
Definition column_or_nan (csv : frame) (name : string) : list number :=
  match column csv name with Some c => c | None => map (fun _ => None) (f_index csv) end.
(** columns that the point conversion cannot do without *)
Definition required_columns (cfg : AwsConfig) : list string :=
  [aw_T2 cfg; aw_RH2 cfg; aw_U2 cfg; aw_G cfg; aw_RRR cfg; aw_PRES cfg].

(** hourly mean and hourly sum of a column; missing if no number is known *)
Definition hourly_mean (csv : frame) (name : string) (b : Z) : number :=
  mean_of (during b 3600 (f_index csv) (carried (column_or_nan csv name))).
Definition hourly_total (csv : frame) (name : string) (b : Z) : number :=
  total_of (during b 3600 (f_index csv) (carried (column_or_nan csv name))).

(** the times between two dates; everything if one of them is not given *)
Definition in_slice (parse : parser) (start_date end_date : option string) (t : Z) : bool :=
  match start_date, end_date with
  | Some a, Some b =>
      match parse a, parse b with
      | Some (lo, _), Some (hi, w) => ((lo <=? t) && (t <=? hi + w - 1))%Z%bool
      | _, _ => false
      end
  | _, _ => true
  end.

(** ** Gridded conversion *)

(** rows of the station file between the two dates *)
Definition kept_times (parse : parser) (csv : frame) (sd ed : option string) : list Z :=
  filter (in_slice parse sd ed) (f_index csv).
Definition kept_values (parse : parser) (csv : frame) (sd ed : option string) (c : list number)
  : list number :=
  map snd (filter (fun tv => in_slice parse sd ed (fst tv)) (combine (f_index csv) c)).

(** ... and the values used, [whole] combines the rows of one aggregation step *)
Definition used_times (parse : parser) (cfg : AwsConfig) (csv : frame) (sd ed : option string) : list Z :=
  if aw_aggregate cfg then bins (aw_step cfg) (kept_times parse csv sd ed)
  else kept_times parse csv sd ed.
Definition used_values (parse : parser) (cfg : AwsConfig) (csv : frame) (sd ed : option string)
  (whole : list number -> number) (c : list number) : list number :=
  if aw_aggregate cfg
  then map (fun b => whole (during b (aw_step cfg) (kept_times parse csv sd ed) (kept_values parse csv sd ed c)))
           (bins (aw_step cfg) (kept_times parse csv sd ed))
  else kept_values parse csv sd ed c.
Definition mean_column (parse : parser) (cfg : AwsConfig) (csv : frame) (sd ed : option string)
  (name : string) : option (list number) :=
  option_map (used_values parse cfg csv sd ed mean_of) (column csv name).
Definition sum_column (parse : parser) (cfg : AwsConfig) (csv : frame) (sd ed : option string)
  (name : string) : option (list number) :=
  option_map (used_values parse cfg csv sd ed (fun l => Some (sum_of l))) (column csv name).

(** ** Corrections *)

(** relative humidity: values above 100 become 100, values below 0 become 0.1 *)
Definition humidity_range (h : R) : R :=
  if Rlt_dec 100 h then 100 else if Rlt_dec h 0 then 0.1 else h.
(** pressure at height [z] from the pressure [p] at the height [z0], with two exponents *)
Definition lapsed_pressure (e0 e z0 z p : R) : R :=
  p / Rpower (standard_atmosphere z0) e0 * Rpower (standard_atmosphere z) e.

(** the static file has no variable of its own with the name of an input variable *)
Definition plain_static (st : static_file) : Prop :=
  forall n, dict_find variable_metadata n <> None -> dict_find (st_other st) n = None.

(** a column of the station file has at least one number *)
Definition has_number (csv : frame) (name : string) : Prop :=
  exists c x, column csv name = Some c /\ In (Some x) c.

(** the hours of the file written for a point *)
Definition hour_in_file (parse : parser) (csv : frame) (sd ed : option string) (b : Z) : Prop :=
  (b mod 3600 = 0)%Z /\ in_slice parse sd ed b = true /\
  exists t u : Z, In t (f_index csv) /\ In u (f_index csv) /\
    (3600 * (t / 3600) <= b <= 3600 * (u / 3600))%Z.

(** ** Spatial window *)

(** [a <= v <= b], a bound that is not given holds *)
Definition within (a b : option R) (v : R) : Prop :=
  (forall u, a = Some u -> u <= v) /\ (forall u, b = Some u -> v <= u).
