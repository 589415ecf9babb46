(** * Which layers adaptive remeshing changes

    Theorems only; the proofs are in LemFinAdaptive.v and the files it uses. *)

From Verif Require Import ModelPy ModelConstants ModelNode ModelGrid Spec SpecRemesh.
From Verif Require Import LemFinAdaptive.

(** C133.  The snow part of adaptive remeshing walks through the snow from the top: a layer of at most 10 cm that is like the next in temperature and density is merged with it, as long as no more than merge_max layers were merged before; otherwise a layer no thicker than the minimum is deleted; otherwise the walk goes on with the next layer, up to the last but one layer of snow. *)
Theorem adaptive_snow_walk :
  forall c g fuel,
    counted g -> positive_heights (g_nodes g) -> (length (g_nodes g) < fuel)%nat ->
    exists g' i merges, adaptive_snow fuel c g = Ok (g', i, merges) /\ counted g' /\ same_clock g g' /\
      walk c 0 [] (g_nodes g) (g_nodes g').
Proof. exact adaptive_snow_walk_lem. Qed.
Print Assumptions adaptive_snow_walk.

(** C133.  It leaves the column unchanged exactly if no layer of snow but the last is thin or like the next. *)
Theorem adaptive_snow_unchanged :
  forall c g fuel,
    counted g -> positive_heights (g_nodes g) -> (0 <= c_merge_max c)%Z -> (length (g_nodes g) < fuel)%nat ->
    ((exists i merges, adaptive_snow fuel c g = Ok (g, i, merges)) <-> quiet_snow c (g_nodes g)).
Proof. exact adaptive_snow_unchanged_lem. Qed.
Print Assumptions adaptive_snow_unchanged.

(** C133.  The whole of adaptive remeshing: the walk through the snow; then, from the first layer below the snow, but not from the top layer, ice layers thinner than the minimum are merged with the next; then the top layer is brought to the defined height.  If at most one layer of snow is left and the top layer is thinner than the defined height, the layer below is brought to that height first; without such a layer this is an IndexError. *)
Theorem adaptive_profile_steps :
  forall c g fuel,
    0 < c_first_layer_height c -> counted g -> column_ok (g_nodes g) -> g_nodes g <> [] ->
    (length (g_nodes g) + 2 < fuel)%nat ->
    exists x l, walk c 0 [] (g_nodes g) (x :: l) /\
      let thin_top := (nsnow c (x :: l) <= 1)%nat /\ n_height x < c_first_layer_height c in
      (thin_top -> l = [] -> adaptive_profile fuel c g = Err IndexError) /\
      (thin_top -> l <> [] -> exists g' y l1 l2, adaptive_profile fuel c g = Ok g' /\
         resized c (c_first_layer_height c) l (y :: l1) /\ thickened c l1 l2 /\
         resized c (c_first_layer_height c) (x :: y :: l2) (g_nodes g')) /\
      (~ thin_top -> exists g' snow ice ice', adaptive_profile fuel c g = Ok g' /\
         x :: l = snow ++ ice /\ length snow = Nat.max 1 (nsnow c (x :: l)) /\ thickened c ice ice' /\
         resized c (c_first_layer_height c) (snow ++ ice') (g_nodes g')).
Proof. exact adaptive_profile_steps_lem. Qed.
Print Assumptions adaptive_profile_steps.

(** C133.  Bare ice whose top layer is at least as thick as defined: afterwards the top layer has the defined height and, the two top layers and the last layer excepted, every layer has the minimum height. *)
Theorem adaptive_bare_ice :
  forall c g fuel top l,
    0 < c_first_layer_height c -> counted g -> column_ok (g_nodes g) -> g_nodes g = top :: l ->
    Forall (fun n => ~ is_snow c n) (g_nodes g) -> c_first_layer_height c <= n_height top -> (length (g_nodes g) + 2 < fuel)%nat ->
    exists g' first second rest, adaptive_profile fuel c g = Ok g' /\ g_nodes g' = first :: second ++ rest /\
      n_height first = c_first_layer_height c /\ (length second <= 1)%nat /\
      Forall (fun n => c_minimum_snow_layer_height c <= n_height n) (removelast rest).
Proof. exact adaptive_bare_ice_lem. Qed.
Print Assumptions adaptive_bare_ice.

(** C133 Example with the shipped constants: the first two layers are alike and are merged, the third is thin and is deleted, the fourth is the last layer of snow. *)
Example adaptive_walk_example :
  let c := default_constants in
  let a := mkNode 0.02 268 0 0.3 0 in let b := mkNode 0.02 268.005 0 0.302 0 in
  let thin := mkNode 0.0005 260 0 0.4 0 in let d := mkNode 0.2 265 0 0.45 0 in let ice := mkNode 1 265 0 1 0 in
  exists m, merger a b m /\ walk c 0 [] [a; b; thin; d; ice] [m; d; ice] /\ quiet_snow c [m; d; ice] /\ ~ quiet_snow c [a; b; thin; d; ice].
Proof. exact adaptive_walk_example_lem. Qed.

(** C133.  A column whose snow needs no change, whose layers below have the minimum height, and whose top layer has the defined height, comes back unchanged, also from update_grid. *)
Theorem adaptive_profile_leaves :
  forall c g fuel top l above below,
    0 < c_first_layer_height c -> counted g -> column_ok (g_nodes g) -> (length (g_nodes g) + 2 < fuel)%nat ->
    g_nodes g = top :: l -> n_height top = c_first_layer_height c -> quiet_snow c (g_nodes g) ->
    g_nodes g = above ++ below -> length above = Nat.max 1 (nsnow c (g_nodes g)) ->
    Forall (fun n => c_minimum_snow_layer_height c <= n_height n) (removelast below) ->
    adaptive_profile fuel c g = Ok g /\
    (c_remesh_method c = "adaptive_profile"%string -> c_minimum_snow_layer_height c <= c_first_layer_height c -> update_grid fuel c g = Ok g).
Proof. exact adaptive_profile_leaves_lem. Qed.
Print Assumptions adaptive_profile_leaves.
