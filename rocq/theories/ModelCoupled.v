(** * A call of the model by an atmospheric model (cosipy_core.py with WRF_X_CSPY)

    The program that makes the calls is not part of /repo.  Stakes are left out. *)
From Verif Require Import ModelPy ModelConstants ModelNode ModelGrid ModelSurface ModelInit
  ModelCore ModelConfig ModelIO ModelMain.

(** a number *)
Definition one (x : R) : pyval := PBlock (Series [Some x]).

(** cosipy_core.py:458-483: the tuple that is returned after the first step *)
Definition coupled_return (c : Consts) (max_layers : Z) (g : Grid) (o : Output) : res (list pyval) :=
  hs <- get_height g ;; vh <- fill_nan max_layers hs ;;
  ds <- get_density c g ;; vd <- fill_nan max_layers ds ;;
  ts <- get_temperature g ;; vt <- fill_nan max_layers ts ;;
  ws <- get_liquid_water_content g ;; vw <- fill_nan max_layers ws ;;
  fs <- get_ice_fraction g ;; vf <- fill_nan max_layers fs ;;
  Ok [PNone; PNone; PNone; PNone; PNone; PNone; one (o_LWout o); one (o_H o); one (o_LE o);
      one (o_B o); one (o_QRR o); one (o_MB o); one (o_surfMB o); one (o_Q o); one (o_SNOWHEIGHT o);
      one (o_TOTALHEIGHT o); one (o_TS o); one (o_ALBEDO o); one (IZR (o_NLAYERS o)); one (o_ME o);
      one (o_intMB o); one (o_EVAPORATION o); one (o_SUBLIMATION o); one (o_CONDENSATION o);
      one (o_DEPOSITION o); one (o_REFREEZE o); one (o_subM o); one (o_Z0 o); one (o_surfM o);
      one (o_new_snow_height o); one (o_new_snow_timestamp o); one (o_old_snow_timestamp o);
      PBlock (Series [o_MOL o]); PBlock (Series vh); PBlock (Series vd); PBlock (Series vt);
      PBlock (Series vw); PNone; PNone; PBlock (Series vf); PNone; PNone; PNone; PNone; PNone].

(** cosipy_core.py:53-483 [cosipy_core] in a coupled run.  Without any step the function ends
    without a return statement. *)
Definition coupled_call (fuel : nat) (c : Consts) (sw : Switches) (sv : Solvers) (d : Data)
  (restart : option dataset) : res (option (list pyval)) :=
  '(dt, max_layers, z) <- run_settings c sw d ;;
  '(s, os, _) <- cosipy_core fuel c sw sv d restart ;;
  match os with
  | [] => Ok None
  | o :: _ => r <- coupled_return c max_layers (s_grid s) o ;; Ok (Some r)
  end.
