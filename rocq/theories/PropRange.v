(** * Ranges of what is reported

    Theorems only; the proofs are in LemFinRange.v and the files it uses. *)

From Verif Require Import ModelPy ModelConstants ModelNode ModelGrid ModelWater ModelHeat ModelDensification ModelRadiation ModelAlbedo ModelSurface ModelInit ModelCore ModelConfig ModelIO ModelMain Spec SpecSurface SpecInit SpecCore SpecIO SpecRun SpecCell SpecRange SpecCalm.
From Verif Require Import LemFinRange.

From Coq Require Import Lra Lia.

(** C112.  In every completed step the albedo after Oerlemans lies between that of ice and that of fresh
   snow, and the roughness between those of fresh snow and firn, or it is that of ice. *)
Theorem step_surface_range :
  forall fuel c sw sv dt ml z d inp t s s' o lo,
    run_constants_ok c lo -> surface_constants_ok c -> 0 <= dt ->
    c_albedo_method c = "Oerlemans98"%string ->
    Forall (fun T => lo <= T) (d_T2 d) ->
    counted (s_grid s) -> clock_ok (s_grid s) ->
    sound_column lo (c_zero_temperature c) (g_nodes (s_grid s)) ->
    core_step fuel c sw sv (dt, ml, z) d inp t s = Ok (s', o) ->
    surface_range c o.
Proof. exact step_surface_range_lem. Qed.
Print Assumptions step_surface_range.

(** C112.  The same over any number of steps, together with the signs and bounds of all other reported values. *)
Theorem run_surface_range :
  forall fuel c sw sv dt ml z d inp lo count t s s' os,
    run_constants_ok c lo -> surface_constants_ok c -> 0 <= dt -> respects_bounds (sv_minimize sv) ->
    c_albedo_method c = "Oerlemans98"%string ->
    Forall (fun T => lo <= T) (d_T2 d) ->
    counted (s_grid s) -> clock_ok (s_grid s) ->
    sound_column lo (c_zero_temperature c) (g_nodes (s_grid s)) ->
    c_densification_method c = "constant"%string \/
    (forall k sk osk, (k <= count)%nat ->
       core_loop fuel c sw sv (dt, ml, z) d inp k t s = Ok (sk, osk) -> layers_ok (g_nodes (s_grid sk))) ->
    core_loop fuel c sw sv (dt, ml, z) d inp count t s = Ok (s', os) ->
    Forall (sound_report lo (c_zero_temperature c)) os /\ Forall (surface_range c) os.
Proof. exact run_surface_range_lem. Qed.
Print Assumptions run_surface_range.

(** C112.  A complete run of one cell from the initial column: every reported value of every step has the right sign and lies in its range. *)
Theorem cell_ranges :
  forall fuel c sw sv d lo s os r,
    run_constants_ok c lo -> surface_constants_ok c -> initial_constants_ok c lo ->
    respects_bounds (sv_minimize sv) -> c_albedo_method c = "Oerlemans98"%string ->
    Forall (fun T => lo <= T) (d_T2 d) -> sw_WRF_X_CSPY sw = false ->
    densification_safe fuel c sw sv d ->
    cosipy_core fuel c sw sv d None = Ok (s, os, r) ->
    Forall (sound_report lo (c_zero_temperature c)) os /\ Forall (surface_range c) os.
Proof. exact cell_ranges_lem. Qed.
Print Assumptions cell_ranges.

(** C112.  In the result file of a completed run without restart every value of a glacier cell lies in the range of its
   variable, for each variable that is written and has a range. *)
Theorem file_ranges :
  forall fuel cfg c sw sv sd arrivals data stakes measured io col lo y x k,
    run_cosipy cfg c (cell_work fuel cfg c sw sv sd data) arrivals data None stakes measured io = Ok col ->
    schedule arrivals -> sw_full_field sw = rc_full_field cfg -> rc_restart cfg = false ->
    sizes data = Ok (io_ny io, io_nx io) -> (0 <= y < io_ny io)%Z -> (0 <= x < io_nx io)%Z -> is_glacier data y x ->
    run_constants_ok c lo -> surface_constants_ok c -> initial_constants_ok c lo ->
    respects_bounds (sv_minimize sv) -> c_albedo_method c = "Oerlemans98"%string -> sw_WRF_X_CSPY sw = false ->
    (forall d, reads data y x d ->
       (k < nt d)%nat /\ Forall (fun T => lo <= T) (d_T2 d) /\ densification_safe fuel c sw sv d) ->
    (forall name P, In name (io_atm io) -> atm_range c name = Some P ->
       exists v, file_number (io_RESULT (col_io col)) name y x k v /\ P v) /\
    (forall name P, In name (io_internal io) -> internal_range name = Some P ->
       exists v, file_number (io_RESULT (col_io col)) name y x k v /\ P v) /\
    (forall name P, rc_full_field cfg = true -> In name (io_full io) -> layer_range c lo name = Some P ->
       exists row, file_profile (io_RESULT (col_io col)) ("LAYER_" ++ name)%string y x k row /\
         forall v, In (Some v) row -> P v).
Proof. exact file_ranges_lem. Qed.
Print Assumptions file_ranges.

(** C112.  The same for the whole program: what the result file of a completed run without restart holds in a glacier
   cell of the data, or of their tile. *)
Theorem main_ranges :
  forall parse fuel cfg c sw sv sd arrivals file open_restart stakes measured w whole ms lo ny nx y x k,
    cosipy_main parse cfg c (cell_work fuel cfg c sw sv sd) arrivals file open_restart stakes measured = Ok w ->
    schedule arrivals -> sw_full_field sw = rc_full_field cfg -> rc_restart cfg = false ->
    init_data_dataset parse cfg file None = Ok (whole, ms) ->
    let data := if rc_tile cfg then cut_tile cfg whole else whole in
    sizes data = Ok (ny, nx) -> (0 <= y < ny)%Z -> (0 <= x < nx)%Z -> is_glacier data y x ->
    run_constants_ok c lo -> surface_constants_ok c -> initial_constants_ok c lo ->
    respects_bounds (sv_minimize sv) -> c_albedo_method c = "Oerlemans98"%string -> sw_WRF_X_CSPY sw = false ->
    (forall d, reads data y x d ->
       (k < nt d)%nat /\ Forall (fun T => lo <= T) (d_T2 d) /\ densification_safe fuel c sw sv d) ->
    (forall name P, In name (io_atm (io_init cfg)) -> atm_range c name = Some P ->
       exists v, file_number (w_result w) name y x k v /\ P v) /\
    (forall name P, In name (io_internal (io_init cfg)) -> internal_range name = Some P ->
       exists v, file_number (w_result w) name y x k v /\ P v) /\
    (forall name P, rc_full_field cfg = true -> In name (io_full (io_init cfg)) -> layer_range c lo name = Some P ->
       exists row, file_profile (w_result w) ("LAYER_" ++ name)%string y x k row /\
         forall v, In (Some v) row -> P v).
Proof. exact main_ranges_lem. Qed.
Print Assumptions main_ranges.

(** C112 All hypotheses hold for the run over the two cells of a calm night: its file holds an albedo, a surface
   temperature and layer heights in their ranges. *)
Example calm_ranges :
  exists fuel,
  forall sd, exists w v t row,
  cosipy_main calm_parse (calm_config false) calm_constants
    (cell_work fuel (calm_config false) calm_constants calm_switches calm_solvers sd) (@rev Job)
    (Some calm_file) (fun _ => None) [] [] = Ok w /\
  file_number (w_result w) "ALBEDO" 0 0 0 v /\ 0.3 <= v <= 0.85 /\
  file_number (w_result w) "TS" 0 0 0 t /\ 220 <= t <= 273.16 /\
  file_profile (w_result w) "LAYER_HEIGHT" 0 0 0 row /\ forall h, In (Some h) row -> 0 < h.
Proof. exact calm_ranges_lem. Qed.
