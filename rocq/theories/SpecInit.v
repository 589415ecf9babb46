(** * Specification vocabulary for start and restart *)
From Verif Require Import ModelPy ModelConstants ModelNode ModelGrid ModelSurface ModelInit
  ModelCore Spec SpecCore.

(** the snow height a run starts with: from the data (NaN counts as none), else the constant *)
Definition start_height (c : Consts) (snowheight : option number) : R :=
  match snowheight with
  | Some (Some h) => h
  | Some None => 0
  | None => c_initial_snowheight_constant c
  end.

(** the temperature of every layer is [f] of the depth of its lower boundary; the list
    starts at depth [z] *)
Fixpoint follows (f : R -> R) (z : R) (l : list Node) : Prop :=
  match l with
  | [] => True
  | x :: t => n_temperature x = f (z + n_height x) /\ follows f (z + n_height x) t
  end.

(** the linear temperature profile from [top] at the surface to [bottom] at depth [D] *)
Definition linear_temperature (top bottom D z : R) : R := top + (bottom - top) * (z / D).

(** [s'] is as good as [s] for the rest of a run: same layers, same counter, same snow clock;
    surface temperature and snow albedo matter only if they enter the albedo *)
Definition resumes (c : Consts) (s s' : State) : Prop :=
  same_layers (s_grid s) (s_grid s') /\
  g_number_nodes (s_grid s') = g_number_nodes (s_grid s) /\
  same_clock (s_grid s) (s_grid s') /\
  (c_albedo_method c = "Oerlemans98"%string \/
   (s_surface_temperature s' = s_surface_temperature s /\ s_albedo_snow s' = s_albedo_snow s)).

(** the variable names under which the snow clock is written *)
Definition written_names : string * string * string :=
  ("NEWSNOWHEIGHT", "NEWSNOWTIMESTAMP", "OLDSNOWTIMESTAMP")%string.

(** the forcing from step [n] on *)
Definition later_data (n : nat) (d : Data) : Data :=
  mkData (skipn n (d_T2 d)) (skipn n (d_RH2 d)) (skipn n (d_PRES d)) (skipn n (d_G d))
    (skipn n (d_U2 d)) (option_map (skipn n) (d_SNOWFALL d)) (option_map (skipn n) (d_RRR d))
    (option_map (skipn n) (d_LWin d)) (option_map (skipn n) (d_N d)) (d_SLOPE d)
    (d_SNOWHEIGHT d) (d_coupled d).
Definition later_inputs (n : nat) (i : Inputs) : Inputs :=
  mkInputs (option_map (skipn n) (i_SNOWF i)) (option_map (skipn n) (i_RRR i))
    (option_map (skipn n) (i_LWin i)) (option_map (skipn n) (i_N i)) (i_SLOPE i).
