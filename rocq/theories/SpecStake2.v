(** * Vocabulary for the files of the stakes *)
From Verif Require Import ModelPy ModelConstants ModelNode ModelGrid ModelSurface ModelInit
  ModelCore ModelConfig ModelIO ModelMain SpecIO SpecCell.

(** what is simulated at the times of the measurements: the sum of the mass balance up to this
    time, or the snow height at this time, and nothing at a time that is not simulated *)
Definition simulated (obs_type : string) (index times : list Z) (outs : list Output)
  (sim : list number) : Prop :=
  length sim = length index /\
  forall i t, nth_error index i = Some t ->
    (~ In t times -> nth_error sim i = Some None) /\
    (forall k out, nth_error times k = Some t -> nth_error outs k = Some out ->
       (obs_type = "mb"%string -> nth_error sim i = Some (Some (sum_list (map o_MB (firstn (S k) outs))))) /\
       (obs_type = "snowheight"%string -> nth_error sim i = Some (Some (o_SNOWHEIGHT out)))).

(** the column model on the data of one cell *)
Definition column_of (fuel : nat) (cfg : RunConfig) (c : Consts) (sw : Switches) (sv : Solvers)
  (data : Gridded) (restart : option restart_file) (y x : Z) (outs : list Output) : Prop :=
  exists d start s last,
    reads data y x d /\ starts_from cfg restart y x start /\
    cosipy_core fuel c sw sv d start = Ok (s, outs, Some last).

(** the number of a stake: the root of the mean squared difference over the times with both a
    measurement and a simulation, NaN if there is none *)
Definition deviation (obs sim : list number) (r : number) : Prop :=
  match r with
  | None => common obs sim = []
  | Some v => common obs sim <> [] /\ 0 <= v /\
      v ^ 2 * INR (length (common obs sim)) = sum_list (map (fun p => (fst p - snd p) ^ 2) (common obs sim))
  end.

(** ** A run with two stakes, the second one outside of the glacier *)
Definition stake_config : RunConfig :=
  mkRunConfig "SNOWFALL" "MB" "HEIGHT" true false false "lat" "lon" false 0 1 0 1 true "rmse" "mb"
    (VStr "2009-01-01") (VStr "2009-01-01") "out".
Definition two_stakes : list (Z * Z * string) := [((0, 0)%Z, "A"%string); ((0, 1)%Z, "B"%string)].
Definition two_measured : dict (list number) := [("A"%string, [Some 0.5]); ("B"%string, [Some 0.7])].
Definition stake_io : IO := mkIO ["SNOWFALL"]%string ["MB"]%string ["HEIGHT"]%string 1 2 1 [] [] [].

(** the data of a cell as [reads] wants them, except for the slope *)
Definition reads_without_slope (data : Gridded) (y x : Z) (d : Data) : Prop :=
  entry_at (g_vars data) "T2" y x = Some (all_numbers (d_T2 d)) /\
  entry_at (g_vars data) "RH2" y x = Some (all_numbers (d_RH2 d)) /\
  entry_at (g_vars data) "PRES" y x = Some (all_numbers (d_PRES d)) /\
  entry_at (g_vars data) "G" y x = Some (all_numbers (d_G d)) /\
  entry_at (g_vars data) "U2" y x = Some (all_numbers (d_U2 d)) /\
  entry_at (g_vars data) "SNOWFALL" y x = option_map all_numbers (d_SNOWFALL d) /\
  entry_at (g_vars data) "RRR" y x = option_map all_numbers (d_RRR d) /\
  entry_at (g_vars data) "LWin" y x = option_map all_numbers (d_LWin d) /\
  entry_at (g_vars data) "N" y x = option_map all_numbers (d_N d) /\
  entry_at (g_vars data) "SNOWHEIGHT" y x = option_map (fun v => Series [v]) (d_SNOWHEIGHT d).
