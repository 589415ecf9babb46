(** * Properties of the remeshed column

    Theorems only; the proofs are in LemFinRemesh.v and the files it uses. *)

From Verif Require Import ModelPy ModelConstants ModelNode ModelGrid Spec SpecRemesh.
From Verif Require Import LemFinRemesh.

(** C90.  Dry snow over enough dry ice: after logarithmic remeshing the snow layers have the thicknesses f, fs, fss, ... of the documented profile, the ice layers continue the series, snow and ice are not mixed and keep their heights. *)
Theorem log_profile_layers :
  forall c g snow ice,
    0 < c_first_layer_height c -> 1 <= c_layer_stretching c -> counted g ->
    g_nodes g = snow ++ ice -> Forall dry (snow ++ ice) -> snow_over_ice c snow ice ->
    c_first_layer_height c <= column_height ice -> c_layer_stretching c * column_height snow <= column_height ice ->
    exists N, forall fuel, (N <= fuel)%nat -> exists g' snow' ice' k j,
      log_profile fuel c g = Ok g' /\ g_nodes g' = snow' ++ ice' /\ snow_over_ice c snow' ice' /\ Forall dry (snow' ++ ice') /\
      log_profiled (c_first_layer_height c) (c_layer_stretching c) (column_height snow) k snow' /\
      log_profiled (target (c_first_layer_height c) (c_layer_stretching c) k) (c_layer_stretching c) (column_height ice) j ice' /\
      (0 < j)%nat.
Proof. exact log_profile_layers_lem. Qed.
Print Assumptions log_profile_layers.

(** the hypotheses are met by a concrete case *)
Example log_profile_layers_ex :
  let snow := [mkNode 0.005 268 0 0.3 0; mkNode 0.2 268 0 0.4 0] in
  let ice := [mkNode 1 265 0 1 0; mkNode 3 265 0 1 0] in
  let c := default_constants in
  Forall dry (snow ++ ice) /\ snow_over_ice c snow ice /\
  c_first_layer_height c <= column_height ice /\ c_layer_stretching c * column_height snow <= column_height ice /\
  reach (c_first_layer_height c) (c_layer_stretching c) 2 < column_height snow.
Proof. exact log_profile_layers_ex_lem. Qed.

(** C90.  Finding: where both the snow and the ice below it are thinner than the first layer, remeshing merges them, so that snow and ice are mixed. *)
Theorem log_profile_mixes :
  forall c g x y fuel,
    dry x -> dry y -> is_snow c x -> ~ is_snow c y -> 0 < c_first_layer_height c ->
    n_height x < c_first_layer_height c -> n_height y < c_first_layer_height c ->
    counted g -> g_nodes g = [x; y] -> (3 <= fuel)%nat ->
    exists g' m, log_profile fuel c g = Ok g' /\ g_nodes g' = [m] /\ merger x y m.
Proof. exact log_profile_mixes_lem. Qed.
Print Assumptions log_profile_mixes.

(** C90.  Finding: the first layer has not always the defined height.  With a little more snow than one layer, but not enough for two, it is thicker. *)
Theorem first_layer_thickened :
  forall c g snow ice,
    0 < c_first_layer_height c -> 1 <= c_layer_stretching c -> counted g ->
    g_nodes g = snow ++ ice -> Forall dry (snow ++ ice) -> snow_over_ice c snow ice ->
    c_first_layer_height c <= column_height ice -> c_layer_stretching c * column_height snow <= column_height ice ->
    c_first_layer_height c < column_height snow < c_first_layer_height c + c_layer_stretching c * c_first_layer_height c ->
    exists N, forall fuel, (N <= fuel)%nat -> exists g' x below,
      log_profile fuel c g = Ok g' /\ g_nodes g' = x :: below /\ c_first_layer_height c < n_height x.
Proof. exact first_layer_thickened_lem. Qed.
Print Assumptions first_layer_thickened.

(** the hypotheses are met by a concrete case *)
Example first_layer_thickened_ex :
  let snow := [mkNode 0.015 268 0 0.3 0] in
  let ice := [mkNode 3 265 0 1 0] in
  let c := default_constants in
  Forall dry (snow ++ ice) /\ snow_over_ice c snow ice /\
  c_first_layer_height c <= column_height ice /\ c_layer_stretching c * column_height snow <= column_height ice /\
  c_first_layer_height c < column_height snow < c_first_layer_height c + c_layer_stretching c * c_first_layer_height c.
Proof. exact first_layer_thickened_ex_lem. Qed.

(** C91.  After the snow part of adaptive remeshing every snow layer but the lowest is thicker than the minimum. *)
Theorem adaptive_snow_thickness :
  forall fuel c g g' i merges,
    counted g -> column_ok (g_nodes g) -> g_nodes g <> [] -> adaptive_snow fuel c g = Ok (g', i, merges) ->
    Forall (fun n => c_minimum_snow_layer_height c < n_height n) (firstn (nsnow c (g_nodes g') - 1) (g_nodes g')).
Proof. exact adaptive_snow_thickness_lem. Qed.
Print Assumptions adaptive_snow_thickness.

(** C91.  After adaptive remeshing the first layer has exactly the defined height, or it is thinner and lies at the bottom or above a layer of the other kind. *)
Theorem adaptive_top_layer :
  forall fuel c g g',
    0 < c_first_layer_height c -> counted g -> column_ok (g_nodes g) -> g_nodes g <> [] ->
    (length (g_nodes g) + 2 < fuel)%nat -> adaptive_profile fuel c g = Ok g' ->
    exists x below, g_nodes g' = x :: below /\
      (n_height x = c_first_layer_height c \/
       (n_height x < c_first_layer_height c /\ (below = [] \/ exists y t, below = y :: t /\ ~ same_class c x y))).
Proof. exact adaptive_top_layer_lem. Qed.
Print Assumptions adaptive_top_layer.
