(** * Vocabulary for the properties of coupled runs *)
From Verif Require Import ModelPy ModelConstants ModelNode ModelGrid ModelSurface ModelInit
  ModelCore ModelConfig ModelIO ModelMain ModelCoupled.

(** the numbers at a position of the returned tuple *)
Definition returned (ret : list pyval) (position : nat) : list number :=
  match nth_error ret position with Some (PBlock (Series l)) => l | _ => [] end.

(** what the calling program hands back for the next call: the returned layers and the snow clock,
    under the names that are read *)
Definition handed_back (ret : list pyval) : dataset :=
  [("NLAYERS", returned ret 18); ("LAYER_HEIGHT", returned ret 33); ("LAYER_RHO", returned ret 34);
   ("LAYER_T", returned ret 35); ("LAYER_LWC", returned ret 36); ("LAYER_IF", returned ret 39);
   ("new_snow_height", returned ret 29); ("new_snow_timestamp", returned ret 30);
   ("old_snow_timestamp", returned ret 31)]%string.

(** one call after the other, each with what the one before returned *)
Fixpoint call_by_call (fuel : nat) (c : Consts) (sw : Switches) (sv : Solvers)
  (restart : option dataset) (data : list Data) : res (list (list pyval)) :=
  match data with
  | [] => Ok []
  | d :: rest =>
      r <- coupled_call fuel c sw sv d restart ;;
      match r with
      | None => Ok []
      | Some ret =>
          rs <- call_by_call fuel c sw sv (Some (handed_back ret)) rest ;;
          Ok (ret :: rs)
      end
  end.

(** the same steps by a program that keeps everything in memory *)
Fixpoint kept_in_memory (fuel : nat) (c : Consts) (sw : Switches) (sv : Solvers)
  (s : State) (data : list Data) : res (list (list pyval)) :=
  match data with
  | [] => Ok []
  | d :: rest =>
      settings <- run_settings c sw d ;;
      inp <- select_inputs c sw d ;;
      '(s1, o) <- core_step fuel c sw sv settings d inp 0 s ;;
      ret <- coupled_return c (snd (fst settings)) (s_grid s1) o ;;
      rs <- kept_in_memory fuel c sw sv s1 rest ;;
      Ok (ret :: rs)
  end.

(** the output of one step together with the layers it left *)
Definition with_profiles (o : Output) (p : LayerFields) : Output :=
  mkOutput (o_RAIN o) (o_SNOWFALL o) (o_LWin o) (o_LWout o) (o_H o) (o_LE o) (o_B o) (o_QRR o)
    (o_MB o) (o_surfMB o) (o_Q o) (o_SNOWHEIGHT o) (o_TOTALHEIGHT o) (o_TS o) (o_ALBEDO o)
    (o_NLAYERS o) (o_ME o) (o_intMB o) (o_EVAPORATION o) (o_SUBLIMATION o) (o_CONDENSATION o)
    (o_DEPOSITION o) (o_REFREEZE o) (o_subM o) (o_Z0 o) (o_surfM o) (o_MOL o)
    (o_new_snow_height o) (o_new_snow_timestamp o) (o_old_snow_timestamp o) (Some p).

(** the places of the returned tuple that are empty *)
Definition empty_places : list nat := [0; 1; 2; 3; 4; 5; 37; 38; 40; 41; 42; 43; 44]%nat.

(** the calm night of the other examples as a coupled call *)
Definition calm_coupled_data : Data :=
  mkData [220] [60] [600] [0] [0] (Some [0.02]) (Some [6]) (Some [50]) None None None
    (Some (3600%Z, 200%Z, 2)).
Definition calm_coupled_switches : Switches := mkSwitches true false false true.
