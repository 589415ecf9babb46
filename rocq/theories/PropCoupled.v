(** * Coupled runs

    Theorems only; the proofs are in LemFinCoupled.v and the files it uses. *)

From Verif Require Import ModelPy ModelConstants ModelNode ModelGrid ModelSurface ModelInit ModelCore ModelConfig ModelIO ModelMain ModelFiles ModelCoupled Spec SpecCore SpecInit SpecConfig SpecCalm SpecCoupled.
From Verif Require Import LemFinCoupled.

(** C115.  One call after the other, each with the layers and the snow clock that the one before returned, returns exactly what a program would that keeps everything in memory, or stops with the same exception at the same step: nothing is lost between the calls.  This is so with the albedo of Oerlemans and Knap. *)
Theorem coupled_calls_chain :
  forall fuel c sw sv restart g d rest,
  c_albedo_method c = "Oerlemans98"%string -> sw_WRF_X_CSPY sw = true ->
  Forall (fun d => nt d <> 0%nat) (d :: rest) ->
  (match restart with
   | Some r => load_snowpack c r
   | None => T2_0 <- py_get (d_T2 d) 0 ;; init_snowpack c (d_SNOWHEIGHT d) T2_0
   end) = Ok g ->
  call_by_call fuel c sw sv restart (d :: rest) = kept_in_memory fuel c sw sv (start_state c sw g) (d :: rest).
Proof. exact coupled_calls_chain_lem. Qed.
Print Assumptions coupled_calls_chain.

(** C115.  A coupled call does exactly one step, the first of its data, with the time step, the number of layers and the height of measurement that are given with the data, not with those of the constants; without these it stops with an AttributeError, and with data without any time it returns nothing. *)
Theorem coupled_one_step :
  forall fuel c sw sv d restart, sw_WRF_X_CSPY sw = true ->
  (d_coupled d = None -> coupled_call fuel c sw sv d restart = Err AttributeError) /\
  (forall r, coupled_call fuel c sw sv d restart = Ok r -> r = None <-> nt d = 0%nat) /\
  (forall ret, coupled_call fuel c sw sv d restart = Ok (Some ret) ->
     exists dt m z g inp s o,
       d_coupled d = Some (dt, m, z) /\
       (match restart with
        | Some r => load_snowpack c r
        | None => T2_0 <- py_get (d_T2 d) 0 ;; init_snowpack c (d_SNOWHEIGHT d) T2_0
        end) = Ok g /\
       select_inputs c sw d = Ok inp /\
       core_step fuel c sw sv (IZR dt, m, z) d inp 0 (mkState g 270 (c_albedo_firn c) 0) = Ok (s, o) /\
       (get_number_layers (s_grid s) <= m)%Z /\
       coupled_return c m (s_grid s) o = Ok ret).
Proof. exact coupled_one_step_lem. Qed.
Print Assumptions coupled_one_step.

(** C115.  The returned tuple has the places of the tuple of a stand-alone run, with the number of the one step in the place of the series of the same quantity and the layers of the one step in the place of the layers of all steps; the first six places (position, restart data, rain, snowfall, incoming longwave radiation), cold content, porosity, irreducible water, refreezing and the stakes are empty. *)
Theorem coupled_places :
  forall fuel c sw sv dt m z d inp t s s1 o ret p y x restart names stat df,
  sw_WRF_X_CSPY sw = true -> counted (s_grid s1) ->
  core_step fuel c sw sv (dt, m, z) d inp t s = Ok (s1, o) ->
  coupled_return c m (s_grid s1) o = Ok ret ->
  store_profiles c m (s_grid s1) = Ok p ->
  let alone := core_return true m y x restart [with_profiles o p]
    names stat df in
  length ret = length alone /\
  forall i v, nth_error ret i = Some v ->
    (In i empty_places /\ v = PNone) \/
    (~ In i empty_places /\
     exists l, v = PBlock (Series l) /\
     (nth_error alone i = Some (PBlock (Series l)) \/ nth_error alone i = Some (PBlock (Layers [l])))).
Proof. exact coupled_places_lem. Qed.
Print Assumptions coupled_places.

(** C115.  The limit on the number of layers: a step that ends with more layers than the limit stops with a ValueError, and otherwise the limit does not matter, in a coupled run as in a stand-alone run that stores the layers. *)
Theorem layer_limit :
  forall fuel c sw sv dt m m' z d inp t s s1 o,
  (sw_WRF_X_CSPY sw = true \/ sw_full_field sw = true) -> counted (s_grid s) ->
  core_step fuel c sw sv (dt, m, z) d inp t s = Ok (s1, o) ->
  core_step fuel c sw sv (dt, m', z) d inp t s =
    if (m' <? Z.of_nat (length (g_nodes (s_grid s1))))%Z then Err ValueError else Ok (s1, o).
Proof. exact layer_limit_lem. Qed.
Print Assumptions layer_limit.

(** C115.  The two parameterisations that a coupled run needs are set when the constants are loaded, whatever the file says (unless a key occurs in two tables): the albedo of Oerlemans and Knap, for which nothing is lost, and the stability correction of Monin and Obukhov. *)
Theorem coupled_schemes :
  forall config t t' attrs attrs' coupled c,
  dict_find config "WRF_X_CSPY"%string = Some coupled -> truthy coupled = true ->
  constants_correct config t = Ok t' -> keys_distinct t' ->
  constants_load config t attrs = Ok attrs' -> consts_of attrs' = Ok c ->
  c_albedo_method c = "Oerlemans98"%string /\ c_stability_correction c = "MO"%string.
Proof. exact coupled_schemes_lem. Qed.
Print Assumptions coupled_schemes.

(** C115 The calm night of the other examples as a coupled call: it returns 45 values, among them the four layers, and its
   data come with the time step, the number of layers and the height of measurement. *)
Example coupled_example :
  exists fuel ret,
  sw_WRF_X_CSPY calm_coupled_switches = true /\ c_albedo_method calm_constants = "Oerlemans98"%string /\
  nt calm_coupled_data = 1%nat /\
  coupled_call fuel calm_constants calm_coupled_switches calm_solvers calm_coupled_data None = Ok (Some ret) /\
  length ret = 45%nat /\ nth_error ret 18 = Some (PBlock (Series [Some 4])) /\ nth_error ret 16 = Some (PBlock (Series [Some 220])) /\
  length (returned ret 33) = 200%nat.
Proof. exact coupled_example_lem. Qed.
