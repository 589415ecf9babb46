(** * Albedo and roughness (C28-C31)

    Theorems only; the proofs are in LemFinAlbedo.v and the files it uses. *)

From Verif Require Import ModelPy ModelConstants ModelNode ModelGrid ModelAlbedo Spec.
From Verif Require Import LemFinAlbedo.

(** C28,C29.  What Oerlemans' method computes, exactly: the published formula with the depth
    of all snow layers and the age of the fresh snow, or of the older snow if the fresh
    snow is gone; the ice albedo if the top layer is heavier than the threshold.  Nothing
    but the age of the fresh snow changes in the grid. *)
Theorem oerlemans_exact :
  forall (c : Consts) (g : Grid) (top : Node) (below : list Node),
  surface_constants_ok c -> counted g -> g_nodes g = top :: below ->
  exists g' a, method_Oerlemans c g = Ok (g', a) /\ same_column g g' /\
    g_new_snow_timestamp g' / 3600 = albedo_age c g /\
    (layer_density c top <= c_snow_ice_threshold c ->
       a = snow_albedo_formula c (albedo_age c g) (reported_snow c (g_nodes g))) /\
    (c_snow_ice_threshold c < layer_density c top -> a = c_albedo_ice c).
Proof. exact oerlemans_exact_lem. Qed.
Print Assumptions oerlemans_exact.

(** C28.  The Oerlemans albedo lies between the ice and the fresh snow albedo. *)
Theorem oerlemans_range :
  forall (c : Consts) (g : Grid),
  surface_constants_ok c -> counted g -> layers_ok (g_nodes g) -> g_nodes g <> [] ->
  0 <= g_new_snow_timestamp g -> 0 <= g_old_snow_timestamp g ->
  exists g' a, method_Oerlemans c g = Ok (g', a) /\
    c_albedo_ice c <= a <= c_albedo_fresh_snow c /\ g_nodes g' = g_nodes g.
Proof. exact oerlemans_range_lem. Qed.
Print Assumptions oerlemans_range.

(** C29.  Older snow is never brighter, deeper snow is never darker. *)
Theorem oerlemans_monotone :
  forall (c : Consts) (hours hours' h h' : R),
  surface_constants_ok c -> 0 <= hours <= hours' -> 0 <= h <= h' ->
  snow_albedo_formula c hours' h <= snow_albedo_formula c hours h /\
  snow_albedo_formula c hours h <= snow_albedo_formula c hours h'.
Proof. exact oerlemans_monotone_lem. Qed.
Print Assumptions oerlemans_monotone.

(** C30.  What one step of Bougamont's method does to the snow albedo, exactly: unless it
    snowed (age 0), the distance from the firn albedo is multiplied by
    1 - 86400 s / (timescale * dt). *)
Theorem bougamont_exact :
  forall (c : Consts) (g : Grid) (Ts a : R) (top : Node) (below : list Node),
  constants_ok c -> surface_constants_ok c -> counted g -> g_nodes g = top :: below ->
  0 < decay_timescale c Ts -> layer_density c top <= c_snow_ice_threshold c ->
  exists g' alb a', method_Bougamont c g Ts a = Ok (g', alb, a') /\ same_column g g' /\
    (albedo_age c g = 0 -> a' = c_albedo_fresh_snow c) /\
    (albedo_age c g <> 0 -> a' - c_albedo_firn c = bougamont_factor c Ts * (a - c_albedo_firn c)) /\
    alb = a' + (c_albedo_ice c - a') * exp (- (100 * reported_snow c (g_nodes g) / c_albedo_mod_snow_depth c)).
Proof. exact bougamont_exact_lem. Qed.
Print Assumptions bougamont_exact.

(** C30.  The time scale of the decay in days: that of wet snow on a melting surface, on a colder one that of dry
    snow and [t_star_K] days more for every kelvin below melting, down to the cutoff temperature. *)
Theorem bougamont_timescale :
  forall (c : Consts) (Ts : R),
  c_t_star_cutoff c <= c_zero_temperature c ->
  (c_zero_temperature c <= Ts -> decay_timescale c Ts = c_t_star_wet c) /\
  (Ts < c_zero_temperature c ->
     decay_timescale c Ts =
       c_t_star_dry c + c_t_star_K c * (c_zero_temperature c - Rmax Ts (c_t_star_cutoff c))) /\
  (forall T, 0 <= c_t_star_K c -> T <= Ts < c_zero_temperature c ->
     decay_timescale c Ts <= decay_timescale c T <=
       c_t_star_dry c + c_t_star_K c * (c_zero_temperature c - c_t_star_cutoff c)).
Proof. exact bougamont_timescale_lem. Qed.
Print Assumptions bougamont_timescale.

(** C30.  The snow albedo stays between firn and fresh snow albedo in every step whose decay
    time scale in days times the step in days is at least one. *)
Theorem bougamont_stable :
  forall (c : Consts) (g : Grid) (Ts a : R) (top : Node) (below : list Node),
  constants_ok c -> surface_constants_ok c -> counted g -> g_nodes g = top :: below ->
  layer_density c top <= c_snow_ice_threshold c ->
  86400 <= decay_timescale c Ts * c_dt c -> 0 < decay_timescale c Ts ->
  c_albedo_firn c <= a <= c_albedo_fresh_snow c ->
  exists g' alb a', method_Bougamont c g Ts a = Ok (g', alb, a') /\
    c_albedo_firn c <= a' <= c_albedo_fresh_snow c.
Proof. exact bougamont_stable_lem. Qed.
Print Assumptions bougamont_stable.

(** C30.  With the shipped constants (hourly steps) every melting hour multiplies the distance
    from the firn albedo by -1.4, in every history. *)
Theorem bougamont_melting_history :
  forall (hist : list (Grid * R)) (a : R),
  Forall (melting_step default_constants) hist ->
  bougamont_run default_constants hist a
  = Ok (c_albedo_firn default_constants
        + (-1.4) ^ length hist * (a - c_albedo_firn default_constants)).
Proof. exact bougamont_melting_history_lem. Qed.
Print Assumptions bougamont_melting_history.

(** C30.  Starting from fresh snow the albedo is below the firn value after one melting hour,
    above one after two and negative after three: the stated range is refuted. *)
Theorem bougamont_diverges_refuted :
  exists h1 h2 h3 : list (Grid * R),
    Forall (melting_step default_constants) (h1 ++ h2 ++ h3) /\
    exists a1 a2 a3, bougamont_run default_constants h1 (c_albedo_fresh_snow default_constants) = Ok a1 /\
      bougamont_run default_constants h2 a1 = Ok a2 /\ bougamont_run default_constants h3 a2 = Ok a3 /\
      a1 < c_albedo_firn default_constants /\ 1 < a2 /\ a3 < 0.
Proof. exact bougamont_diverges_refuted_lem. Qed.
Print Assumptions bougamont_diverges_refuted.

(** C31.  The roughness length in metres lies between the fresh snow and the firn value over
    snow and is the ice value otherwise; it never decreases with the age of the snow. *)
Theorem roughness_range :
  forall (c : Consts) (g : Grid) (top : Node) (below : list Node),
  surface_constants_ok c -> g_nodes g = top :: below -> 0 <= g_new_snow_timestamp g ->
  exists z, method_Moelg c g = Ok z /\
    (layer_density c top <= c_snow_ice_threshold c ->
      c_roughness_fresh_snow c / 1000 <= z <= c_roughness_firn c / 1000) /\
    (c_snow_ice_threshold c < layer_density c top -> z = c_roughness_ice c / 1000) /\
    0 < z.
Proof. exact roughness_range_lem. Qed.
Print Assumptions roughness_range.

(** C31.   *)
Theorem roughness_monotone :
  forall (c : Consts) (g g' : Grid) (z z' : R),
  surface_constants_ok c -> hd_error (g_nodes g) = hd_error (g_nodes g') ->
  g_new_snow_timestamp g <= g_new_snow_timestamp g' ->
  method_Moelg c g = Ok z -> method_Moelg c g' = Ok z' -> z <= z'.
Proof. exact roughness_monotone_lem. Qed.
Print Assumptions roughness_monotone.

(** C28,C31.  The dispatchers: unknown method names raise ValueError; the snow albedo is
    passed through by Oerlemans' method. *)
Theorem surface_dispatch :
  forall (c : Consts) (g : Grid) (Ts a : R),
  (~ In (c_albedo_method c) ["Oerlemans98"; "Bougamont05"]%string -> updateAlbedo c g Ts a = Err ValueError) /\
  (c_albedo_method c = "Oerlemans98"%string ->
     forall g' alb, method_Oerlemans c g = Ok (g', alb) -> updateAlbedo c g Ts a = Ok (g', alb, a)) /\
  (c_albedo_method c = "Bougamont05"%string -> updateAlbedo c g Ts a = method_Bougamont c g Ts a) /\
  (c_roughness_method c <> "Moelg12"%string -> updateRoughness c g = Err ValueError) /\
  (c_roughness_method c = "Moelg12"%string -> updateRoughness c g = method_Moelg c g).
Proof. exact surface_dispatch_lem. Qed.
Print Assumptions surface_dispatch.

(** A snow-covered grid with fresh snow two hours old meets the hypotheses. *)
Example albedo_case :
  constants_ok default_constants /\ surface_constants_ok default_constants /\
  counted ex_albedo_grid /\ layers_ok (g_nodes ex_albedo_grid) /\
  layer_density default_constants ex_a1 <= c_snow_ice_threshold default_constants /\
  albedo_age default_constants ex_albedo_grid = 2 /\
  melting_step default_constants (ex_albedo_grid, 273.16).
Proof. exact albedo_case_lem. Qed.
