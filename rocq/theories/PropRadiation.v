(** * Penetrating radiation (C26, C27)

    Theorems only; the proofs are in LemFinRadiation.v and the files it uses. *)

From Verif Require Import ModelPy ModelConstants ModelNode ModelGrid ModelRadiation Spec.
From Verif Require Import LemFinRadiation.

(** C26,C27.  What the scheme does, exactly: a tenth (snow) or a fifth (ice) of the net
    radiation penetrates; every layer but the last absorbs what is lost between the centre
    of the layer above and its own centre and warms, melts or vanishes accordingly; the
    last layer stays.  On such columns it never fails. *)
Theorem bintanja_exact :
  forall (c : Consts) (g : Grid) (SWnet dt : R) (top z : Node) (l : list Node),
  constants_ok c -> counted g -> layers_ok (g_nodes g) -> g_nodes g = l ++ [z] ->
  hd_error (g_nodes g) = Some top ->
  exists g' l' melt,
    method_Bintanja c g SWnet dt = Ok (g', melt, SWnet * penetrating_share c top) /\
    sunlit_column c dt
      (map (fun i => SWnet * penetrating_share c top * absorbed_share (extinction c top) l i)
           (seq 0 (length l))) l l' melt /\
    g_nodes g' = l' ++ [z] /\ counted g' /\ same_clock g g'.
Proof. exact bintanja_exact_lem. Qed.
Print Assumptions bintanja_exact.

(** C26.  The layers' shares of the penetrating radiation are not negative and add up to less
    than one; the penetrating part is a tenth or a fifth of the net radiation. *)
Theorem bintanja_shares :
  forall (c : Consts) (top : Node) (l : list Node),
  layers_ok l ->
  Forall (fun i => 0 <= absorbed_share (extinction c top) l i) (seq 0 (length l)) /\
  fold_right Rplus 0 (map (absorbed_share (extinction c top) l) (seq 0 (length l))) < 1 /\
  0 < penetrating_share c top <= 0.2.
Proof. exact bintanja_shares_lem. Qed.
Print Assumptions bintanja_shares.

(** C26.  No layer uses more energy, for warming and melting together, than the radiation it
    absorbs; what the water and the air of a melting layer would have taken is dropped. *)
Theorem bintanja_energy :
  forall (c : Consts) (dt e : R) (x : Node) (y : list Node) (m : R),
  constants_ok c -> 0 < n_height x -> 0 < n_ice x -> 0 <= n_lwc x -> 0 <= e * dt ->
  n_temperature x <= c_zero_temperature c -> sunlit c dt e x y m ->
  Forall (fun x' =>
    layer_density c x * c_spec_heat_ice c * n_height x * (n_temperature x' - n_temperature x)
    + c_lat_heat_melting c * c_ice_density c * (n_ice x * n_height x - n_ice x' * n_height x')
    <= e * dt) y.
Proof. exact bintanja_energy_lem. Qed.
Print Assumptions bintanja_energy.

(** C27.  After the call every layer but the last is at or below melting temperature, however
    warm it was before, and the last layer is as it was. *)
Theorem bintanja_cold :
  forall (c : Consts) (g : Grid) (SWnet dt : R) (z : Node) (l : list Node),
  constants_ok c -> counted g -> layers_ok (g_nodes g) -> g_nodes g = l ++ [z] ->
  exists g' l' melt Si, method_Bintanja c g SWnet dt = Ok (g', melt, Si) /\
    g_nodes g' = l' ++ [z] /\ (length l' <= length l)%nat /\
    Forall (fun n => n_temperature n <= c_zero_temperature c) l' /\ layers_ok (g_nodes g') /\
    counted g' /\ same_clock g g'.
Proof. exact bintanja_cold_lem. Qed.
Print Assumptions bintanja_cold.

(** C27.  Ice plus water of the column is conserved as long as no layer is melted away. *)
Theorem bintanja_conserves_mass :
  forall (c : Consts) (dt : R) (es : list R) (l l' : list Node) (m : R),
  constants_ok c -> sunlit_column c dt es l l' m ->
  Forall2 (fun e x => melted_share c dt e x < 1) es l ->
  column_mass c l' = column_mass c l /\ length l' = length l.
Proof. exact bintanja_conserves_mass_lem. Qed.
Print Assumptions bintanja_conserves_mass.

(** C27.  The reported subsurface melt is too small whenever a layer melts partly: it is
    taken over the height after melting. *)
Theorem bintanja_underreports :
  forall (c : Consts) (dt : R) (es : list R) (l l' : list Node) (m : R),
  constants_ok c -> layers_ok l -> sunlit_column c dt es l l' m ->
  Forall2 (fun e x => melted_share c dt e x < 1) es l ->
  m * c_water_density c <= c_ice_density c * (column_ice l - column_ice l') /\
  (Exists (fun p => c_zero_temperature c < heated c dt (fst p) (snd p)) (combine es l) ->
   m * c_water_density c < c_ice_density c * (column_ice l - column_ice l')).
Proof. exact bintanja_underreports_lem. Qed.
Print Assumptions bintanja_underreports.

(** C27.  A thin layer below a thick one receives the radiation absorbed in the lower half of
    the thick layer; with an hour of 800 W/m2 it is melted away and its mass is lost to the
    column without being handed to percolation. *)
Theorem bintanja_loses_layer_refuted :
  exists (g g' : Grid) (SWnet dt melt Si : R), counted g /\ layers_ok (g_nodes g) /\ SWnet = 800 /\ dt = 3600 /\
    Forall (fun n => n_temperature n <= c_zero_temperature default_constants) (g_nodes g) /\
    method_Bintanja default_constants g SWnet dt = Ok (g', melt, Si) /\
    (length (g_nodes g') < length (g_nodes g))%nat /\
    column_mass default_constants (g_nodes g') < column_mass default_constants (g_nodes g).
Proof. exact bintanja_loses_layer_refuted_lem. Qed.
Print Assumptions bintanja_loses_layer_refuted.

(** C26.  Any other method name raises ValueError. *)
Theorem penetrating_dispatch :
  forall (c : Consts) (g : Grid) (SWnet dt : R),
  (c_penetrating_method c = "Bintanja95"%string ->
   penetrating_radiation c g SWnet dt = method_Bintanja c g SWnet dt) /\
  (c_penetrating_method c <> "Bintanja95"%string ->
   penetrating_radiation c g SWnet dt = Err ValueError).
Proof. exact penetrating_dispatch_lem. Qed.
Print Assumptions penetrating_dispatch.

(** The hypotheses hold for snow over wet snow over ice. *)
Example radiation_case :
  constants_ok default_constants /\
  counted ex_rad_grid /\ layers_ok (g_nodes ex_rad_grid) /\
  g_nodes ex_rad_grid = [ex_r1; ex_r2] ++ [ex_r3] /\ hd_error (g_nodes ex_rad_grid) = Some ex_r1.
Proof. exact radiation_case_lem. Qed.
