(** * Columns that logarithmic remeshing leaves alone

    Theorems only; the proofs are in LemFinSettled.v and the files it uses. *)

From Verif Require Import ModelPy ModelConstants ModelNode ModelGrid Spec SpecRemesh.
From Verif Require Import LemFinSettled.

(** C132.  A dry column that has the logarithmic profile is not changed by the remeshing: no layer is resized, mixed or cut, and nothing else in the grid changes.  A layer that is thicker than its place in the profile is cut and put together again. *)
Theorem log_profile_leaves_settled :
  forall c g snow ice k j fuel,
    0 < c_first_layer_height c -> 1 <= c_layer_stretching c -> counted g ->
    g_nodes g = snow ++ ice -> Forall dry (snow ++ ice) -> snow_over_ice c snow ice ->
    settled (c_first_layer_height c) (c_layer_stretching c) k snow ->
    settled (target (c_first_layer_height c) (c_layer_stretching c) k) (c_layer_stretching c) j ice -> (0 < j)%nat ->
    (length (g_nodes g) + 3 <= fuel)%nat ->
    log_profile fuel c g = Ok g.
Proof. exact log_profile_leaves_settled_lem. Qed.
Print Assumptions log_profile_leaves_settled.

(** C132.  Over enough ice these are the only dry columns that the remeshing leaves unchanged. *)
Theorem log_profile_unchanged_iff_settled :
  forall c g snow ice,
    0 < c_first_layer_height c -> 1 <= c_layer_stretching c -> counted g ->
    g_nodes g = snow ++ ice -> Forall dry (snow ++ ice) -> snow_over_ice c snow ice ->
    c_first_layer_height c <= column_height ice -> c_layer_stretching c * column_height snow <= column_height ice ->
    exists N, forall fuel, (N <= fuel)%nat ->
      (log_profile fuel c g = Ok g <->
       exists k j, settled (c_first_layer_height c) (c_layer_stretching c) k snow /\ (0 < j)%nat /\
         settled (target (c_first_layer_height c) (c_layer_stretching c) k) (c_layer_stretching c) j ice).
Proof. exact log_profile_unchanged_iff_settled_lem. Qed.
Print Assumptions log_profile_unchanged_iff_settled.

(** C132 Examples: two snow layers in the profile, the second thickened by the remainder, over ice that continues the profile; and the same with the remainder in a third layer. *)
Example settled_example :
  let c := default_constants in
  let ice := [mkNode 0.0144 265 0 1 0; mkNode 0.02 265 0 1 0] in
  let f := c_first_layer_height c in let s := c_layer_stretching c in
  settled f s 2 [mkNode 0.01 268 0 0.3 0; mkNode 0.013 268 0 0.4 0] /\
  settled f s 2 [mkNode 0.01 268 0 0.3 0; mkNode 0.013 268 0 0.4 0; mkNode 0.005 268 0 0.4 0] /\
  settled (target f s 2) s 2 ice /\ ~ settled f s 2 [mkNode 0.01 268 0 0.3 0; mkNode 0.012 268 0 0.4 0; mkNode 0.005 268 0 0.4 0].
Proof. exact settled_example_lem. Qed.

(** C132.  Finding: remeshing a remeshed column may change it again.  Four snow layers, together thinner than the first layer of the profile, become two, and these become one. *)
Theorem log_profile_idempotent_refuted :
  exists g N, counted g /\ Forall dry (g_nodes g) /\ forall fuel, (N <= fuel)%nat ->
    exists g', log_profile fuel default_constants g = Ok g' /\ log_profile fuel default_constants g' <> Ok g'.
Proof. exact log_profile_idempotent_refuted_lem. Qed.
Print Assumptions log_profile_idempotent_refuted.

(** C132.  With the logarithmic profile a settled column whose top layer has the minimum height comes back unchanged from update_grid. *)
Theorem update_grid_leaves_settled :
  forall c g snow ice k j fuel top l,
    c_remesh_method c = "log_profile"%string ->
    0 < c_first_layer_height c -> 1 <= c_layer_stretching c -> counted g ->
    g_nodes g = snow ++ ice -> Forall dry (snow ++ ice) -> snow_over_ice c snow ice ->
    settled (c_first_layer_height c) (c_layer_stretching c) k snow ->
    settled (target (c_first_layer_height c) (c_layer_stretching c) k) (c_layer_stretching c) j ice -> (0 < j)%nat ->
    (length (g_nodes g) + 3 <= fuel)%nat -> g_nodes g = top :: l -> c_minimum_snow_layer_height c <= n_height top ->
    update_grid fuel c g = Ok g.
Proof. exact update_grid_leaves_settled_lem. Qed.
Print Assumptions update_grid_leaves_settled.
