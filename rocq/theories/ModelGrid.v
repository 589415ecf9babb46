(** * Grid: the column of layers (cosipy/cpkernel/grid.py) *)
From Verif Require Import ModelPy ModelConstants ModelNode.

(** grid.py:13-23 (spec): stored attributes.  The constructor arrays
    [layer_heights] ... [layer_ice_fraction] are only read by [init_grid] and are
    not kept here.  [number_nodes] is a separate counter, as in the code. *)
Record Grid : Type := mkGrid {
  g_nodes : list Node;
  g_number_nodes : Z;
  g_new_snow_height : R;
  g_new_snow_timestamp : R;
  g_old_snow_timestamp : R
}.

Definition with_nodes (g : Grid) (l : list Node) : Grid :=
  mkGrid l (g_number_nodes g) (g_new_snow_height g) (g_new_snow_timestamp g)
         (g_old_snow_timestamp g).
Definition with_number (g : Grid) (k : Z) : Grid :=
  mkGrid (g_nodes g) k (g_new_snow_height g) (g_new_snow_timestamp g)
         (g_old_snow_timestamp g).

(** ** Setters and getters of single nodes *)

(** the common part of grid.py:726-782 and 784-929: [self.grid[idx]] *)
Definition get_node (g : Grid) (idx : Z) : res Node := py_get (g_nodes g) idx.
Definition upd_node (g : Grid) (idx : Z) (f : Node -> Node) : res Grid :=
  l <- py_update (g_nodes g) idx f ;; Ok (with_nodes g l).

(** grid.py:828-830 *)
Definition get_node_height (g : Grid) (idx : Z) : res R :=
  n <- get_node g idx ;; Ok (n_height n).
(** grid.py:791-793 *)
Definition get_node_temperature (g : Grid) (idx : Z) : res R :=
  n <- get_node g idx ;; Ok (n_temperature n).
(** grid.py:843-845 *)
Definition get_node_lwc (g : Grid) (idx : Z) : res R :=
  n <- get_node g idx ;; Ok (n_lwc n).
(** grid.py:854-856 *)
Definition get_node_ice_fraction (g : Grid) (idx : Z) : res R :=
  n <- get_node g idx ;; Ok (n_ice n).
(** grid.py:920-922 *)
Definition get_node_refreeze (g : Grid) (idx : Z) : res R :=
  n <- get_node g idx ;; Ok (n_refreeze n).
(** grid.py:832-834 *)
Definition get_node_density (c : Consts) (g : Grid) (idx : Z) : res R :=
  n <- get_node g idx ;; Ok (layer_density c n).
(** grid.py:865-867 *)
Definition get_node_irreducible (g : Grid) (idx : Z) : res R :=
  n <- get_node g idx ;; layer_irreducible n.
(** grid.py:887-889 *)
Definition get_node_porosity (g : Grid) (idx : Z) : res R :=
  n <- get_node g idx ;; Ok (layer_porosity n).
(** grid.py:898-900 *)
Definition get_node_thermal_conductivity (c : Consts) (g : Grid) (idx : Z) : res R :=
  n <- get_node g idx ;; layer_thermal_conductivity c n.

(** grid.py:744-746 *)
Definition set_node_height (g : Grid) (idx : Z) (h : R) : res Grid :=
  upd_node g idx (set_layer_height h).
(** grid.py:726-733 *)
Definition set_node_temperature (g : Grid) (idx : Z) (t : R) : res Grid :=
  upd_node g idx (set_layer_temperature t).
(** grid.py:753-757 *)
Definition set_node_lwc (g : Grid) (idx : Z) (w : R) : res Grid :=
  upd_node g idx (set_layer_lwc w).
(** grid.py:766-768 *)
Definition set_node_ice_fraction (g : Grid) (idx : Z) (f : R) : res Grid :=
  upd_node g idx (set_layer_ice f).
(** grid.py:775-777 *)
Definition set_node_refreeze (g : Grid) (idx : Z) (r : R) : res Grid :=
  upd_node g idx (set_layer_refreeze r).

(** ** Profiles: [[self.grid[idx].f() for idx in range(self.number_nodes)]] *)
Definition get_profile {A : Type} (f : Node -> res A) (g : Grid) : res (list A) :=
  map_res (fun i => n <- get_node g i ;; f n) (zrange 0 (g_number_nodes g)).

(** grid.py:806-811 *)
Definition get_height (g : Grid) : res (list R) :=
  get_profile (fun n => Ok (n_height n)) g.
(** grid.py:784-789 *)
Definition get_temperature (g : Grid) : res (list R) :=
  get_profile (fun n => Ok (n_temperature n)) g.
(** grid.py:847-852 *)
Definition get_liquid_water_content (g : Grid) : res (list R) :=
  get_profile (fun n => Ok (n_lwc n)) g.
(** grid.py:858-863 *)
Definition get_ice_fraction (g : Grid) : res (list R) :=
  get_profile (fun n => Ok (n_ice n)) g.
(** grid.py:924-929 *)
Definition get_refreeze (g : Grid) : res (list R) :=
  get_profile (fun n => Ok (n_refreeze n)) g.
(** grid.py:836-841 *)
Definition get_density (c : Consts) (g : Grid) : res (list R) :=
  get_profile (fun n => Ok (layer_density c n)) g.
(** grid.py:880-885 *)
Definition get_cold_content (c : Consts) (g : Grid) : res (list R) :=
  get_profile (fun n => Ok (layer_cold_content c n)) g.
(** grid.py:891-896 *)
Definition get_porosity (g : Grid) : res (list R) :=
  get_profile (fun n => Ok (layer_porosity n)) g.
(** grid.py:869-874 *)
Definition get_irreducible_water_content (g : Grid) : res (list R) :=
  get_profile layer_irreducible g.
(** grid.py:795-800 *)
Definition get_specific_heat (c : Consts) (g : Grid) : res (list R) :=
  get_profile (fun n => Ok (layer_specific_heat c n)) g.
(** grid.py:913-918 *)
Definition get_thermal_diffusivity (c : Consts) (g : Grid) : res (list R) :=
  get_profile (layer_thermal_diffusivity c) g.

(** grid.py:965-967 *)
Definition get_number_layers (g : Grid) : Z := g_number_nodes g.

(** grid.py:956-963: counts the layers lighter than the threshold, wherever
    they are in the column *)
Definition get_number_snow_layers (c : Consts) (g : Grid) : res Z :=
  ds <- get_density c g ;;
  Ok (fold_left (fun k d => if Rltb d (c_snow_ice_threshold c) then (k + 1)%Z else k)
        ds 0%Z).

(** grid.py:813-818: heights of the FIRST [number_snow_layers] nodes *)
Definition get_snow_heights (c : Consts) (g : Grid) : res (list R) :=
  k <- get_number_snow_layers c g ;;
  map_res (fun i => get_node_height g i) (zrange 0 k).

(** grid.py:820-826 *)
Definition get_ice_heights (c : Consts) (g : Grid) : res (list R) :=
  hs <- get_height g ;;
  ds <- get_density c g ;;
  Ok (map fst (filter (fun p => Rleb (c_snow_ice_threshold c) (snd p)) (combine hs ds))).

(** grid.py:948-950 *)
Definition get_total_snowheight (c : Consts) (g : Grid) : res R :=
  hs <- get_snow_heights c g ;; Ok (sum_list hs).

(** grid.py:952-954 *)
Definition get_total_height (g : Grid) : res R :=
  hs <- get_height g ;; Ok (sum_list hs).

(** grid.py:931-937 *)
Definition get_node_depth (g : Grid) (idx : Z) : res R :=
  h <- get_node_height g idx ;;
  let d := h / 2 in
  if (idx =? 0)%Z then Ok d
  else for_range 0 idx (fun i d => hi <- get_node_height g i ;; Ok (d + hi)) d.

Fixpoint map2 {A B D : Type} (f : A -> B -> D) (la : list A) (lb : list B) : list D :=
  match la, lb with
  | a :: ta, b :: tb => f a b :: map2 f ta tb
  | _, _ => []
  end.

(** grid.py:939-946.  [z[0] = 0.5*h[0]] on an empty column is out of bounds
    (numba does not check array bounds; treated as IndexError here). *)
Definition get_depth (g : Grid) : res (list R) :=
  h <- get_height g ;;
  match h with
  | [] => Err IndexError
  | h0 :: t =>
      Ok (0.5 * h0 :: map2 (fun s x => s + 0.5 * x) (cumsum (removelast h)) t)
  end.

(** ** Fresh snow bookkeeping *)

(** grid.py:670-680 *)
Definition set_fresh_snow_props (g : Grid) (height : R) : Grid :=
  mkGrid (g_nodes g) (g_number_nodes g) height 0 (g_new_snow_timestamp g).
(** grid.py:682-689 *)
Definition set_fresh_snow_props_to_old_props (g : Grid) : Grid :=
  mkGrid (g_nodes g) (g_number_nodes g) (g_new_snow_height g)
         (g_old_snow_timestamp g) (g_old_snow_timestamp g).
(** grid.py:691-699 *)
Definition set_fresh_snow_props_update_time (g : Grid) (seconds : R) : Grid :=
  mkGrid (g_nodes g) (g_number_nodes g) (g_new_snow_height g)
         (g_new_snow_timestamp g + seconds) (g_old_snow_timestamp g + seconds).
(** grid.py:701-707 *)
Definition set_fresh_snow_props_height (g : Grid) (height : R) : Grid :=
  mkGrid (g_nodes g) (g_number_nodes g) height (g_new_snow_timestamp g)
         (g_old_snow_timestamp g).
(** grid.py:709-724 *)
Definition get_fresh_snow_props (g : Grid) : R * R * R :=
  (g_new_snow_height g, g_new_snow_timestamp g, g_old_snow_timestamp g).

(** ** Construction *)

(** One row of the constructor arrays: height, density, temperature, liquid
    water content and (optional) ice fraction of a layer. *)
Record LayerInput : Type := mkLayer {
  li_height : R; li_density : R; li_temperature : R; li_lwc : R; li_ice : option R
}.

Definition node_of_layer (c : Consts) (r : LayerInput) : Node :=
  new_node c (li_height r) (li_density r) (li_temperature r) (li_lwc r) (li_ice r).

(** grid.py:114-129: appends one node per input row to the existing list and
    leaves the counter alone *)
Definition init_grid (c : Consts) (rows : list LayerInput) (g : Grid) : Grid :=
  with_nodes g (g_nodes g ++ map (node_of_layer c) rows).

(** grid.py:68-112 [Grid.__init__]; the fresh-snow triple is used only when all
    three values are given.  Simplification: the five arrays are given as rows,
    i.e. they have equal lengths. *)
Definition new_grid (c : Consts) (rows : list LayerInput)
  (nsh nst ost : option R) : Grid :=
  let '(h, t, o) :=
    match nsh, nst, ost with
    | Some h, Some t, Some o => (h, t, o)
    | _, _, _ => (0, 0, 0)
    end in
  init_grid c rows (mkGrid [] (Z.of_nat (length rows)) h t o).

(** ** Structural changes *)

(** grid.py:131-161 *)
Definition add_fresh_snow (c : Consts) (g : Grid) (height density temperature lwc dt : R)
  : Grid :=
  let g1 := with_nodes g (py_insert (g_nodes g) 0
                            (new_node c height density temperature lwc None)) in
  let g2 := with_number g1 (g_number_nodes g1 + 1) in
  if Rltb height (c_minimum_snowfall c)
  then set_fresh_snow_props_update_time g2 dt
  else set_fresh_snow_props g2 height.

(** [sorted(idx, reverse=True)] *)
Fixpoint insert_desc (x : Z) (l : list Z) : list Z :=
  match l with
  | [] => [x]
  | y :: t => if (y <=? x)%Z then x :: l else y :: insert_desc x t
  end.
Definition sort_desc (l : list Z) : list Z := fold_right insert_desc [] l.

Fixpoint del_all (l : list Node) (idx : list Z) : res (list Node) :=
  match idx with
  | [] => Ok l
  | i :: t => l' <- py_del l i ;; del_all l' t
  end.

(** grid.py:163-179; [idx = None] and [idx = []] both remove the first node *)
Definition remove_node (g : Grid) (idx : option (list Z)) : res Grid :=
  match g_nodes g with
  | [] => Ok g
  | _ :: _ =>
      match idx with
      | None | Some [] =>
          l <- py_del (g_nodes g) 0 ;;
          Ok (with_number (with_nodes g l) (g_number_nodes g - 1))
      | Some ids =>
          l <- del_all (g_nodes g) (sort_desc ids) ;;
          Ok (with_number (with_nodes g l)
                (g_number_nodes g - Z.of_nat (length ids)))
      end
  end.

(** grid.py:519-540 *)
Definition update_node (g : Grid) (idx : Z) (height temperature ice_fraction lwc : R)
  : res Grid :=
  g1 <- set_node_height g idx height ;;
  g2 <- set_node_temperature g1 idx temperature ;;
  g3 <- set_node_ice_fraction g2 idx ice_fraction ;;
  set_node_lwc g3 idx lwc.

(** grid.py:181-256.  The consistency warning (219-235) only prints. *)
Definition merge_nodes (g : Grid) (idx : Z) : res Grid :=
  h0 <- get_node_height g idx ;;
  h1 <- get_node_height g (idx + 1) ;;
  let new_height := h0 + h1 in
  w0 <- get_node_lwc g idx ;;
  w1 <- get_node_lwc g (idx + 1) ;;
  new_lwc <- fdiv (w0 * h0 + w1 * h1) new_height ;;
  f0 <- get_node_ice_fraction g idx ;;
  f1 <- get_node_ice_fraction g (idx + 1) ;;
  new_ice <- fdiv (f0 * h0 + f1 * h1) new_height ;;
  t0 <- get_node_temperature g idx ;;
  t1 <- get_node_temperature g (idx + 1) ;;
  a0 <- fdiv h0 new_height ;;
  a1 <- fdiv h1 new_height ;;
  let new_temperature := a0 * t0 + a1 * t1 in
  g1 <- update_node g idx new_height new_temperature new_ice new_lwc ;;
  remove_node g1 (Some [(idx + 1)%Z]).

(** grid.py:276-291: condition of the merging loop of [correct_layer] *)
Definition correct_layer_cond (idx : Z) (min_height : R) (s : Grid * R * bool)
  : res bool :=
  let '(g, total_height, stop) := s in
  Ok (negb stop && (Rltb total_height min_height
                    && (idx + 1 <? get_number_layers g)%Z)).

(** grid.py:279-291: one pass; the flag records a [break] *)
Definition correct_layer_body (c : Consts) (idx : Z) (s : Grid * R * bool)
  : res (Grid * R * bool) :=
  let '(g, total_height, _) := s in
  d0 <- get_node_density c g idx ;;
  d1 <- get_node_density c g (idx + 1) ;;
  if Rltb d0 (c_snow_ice_threshold c) && Rltb d1 (c_snow_ice_threshold c) then
    (g1 <- merge_nodes g idx ;; th <- get_node_height g1 idx ;; Ok (g1, th, false))
  else if Rleb (c_snow_ice_threshold c) d0 && Rleb (c_snow_ice_threshold c) d1 then
    (g1 <- merge_nodes g idx ;; th <- get_node_height g1 idx ;; Ok (g1, th, false))
  else Ok (g, total_height, true).

(** grid.py:295-362: the split of a layer that is too thick *)
Definition correct_layer_split (c : Consts) (g : Grid) (idx : Z)
  (min_height total_height : R) : res Grid :=
  let h0 := min_height in
  let h1 := total_height - min_height in
  lwc <- get_node_lwc g idx ;;
  irr <- get_node_irreducible g idx ;;
  h <- get_node_height g idx ;;
  let '(lw0, lw1) :=
    if Rltb 0 (lwc - irr) then (irr * h, lwc * h - irr * h)
    else (lwc * h, 0) in
  ifr <- get_node_ice_fraction g idx ;;
  t <- get_node_temperature g idx ;;
  lwc0 <- fdiv lw0 h0 ;;
  lwc1 <- fdiv lw1 h1 ;;
  g1 <- update_node g idx h0 t ifr lwc0 ;;
  d <- get_node_density c g1 idx ;;
  let l := py_insert (g_nodes g1) (idx + 1) (new_node c h1 d t lwc1 (Some ifr)) in
  Ok (with_number (with_nodes g1 l) (g_number_nodes g1 + 1)).

(** grid.py:258-362 *)
Definition correct_layer (fuel : nat) (c : Consts) (g : Grid) (idx : Z)
  (min_height : R) : res Grid :=
  total_height <- get_node_height g idx ;;
  '(g1, th, _) <- while_loop fuel (correct_layer_cond idx min_height)
                    (correct_layer_body c idx) (g, total_height, false) ;;
  if Rltb min_height th then correct_layer_split c g1 idx min_height th
  else Ok g1.

(** Loop state of [log_profile]: grid, idx, hrest, last_layer_height *)
Definition log_state : Type := (Grid * Z * R * R)%type.

(** grid.py:386 *)
Definition log_snow_cond (c : Consts) (s : log_state) : res bool :=
  let '(g, idx, _, _) := s in
  k <- get_number_snow_layers c g ;; Ok (idx <? k)%Z.

(** grid.py:387-401 *)
Definition log_snow_body (fuel : nat) (c : Consts) (s : log_state) : res log_state :=
  let '(g, idx, hrest, last) := s in
  if Rleb last hrest then
    g1 <- correct_layer fuel c g idx last ;;
    Ok (g1, (idx + 1)%Z, hrest - last, c_layer_stretching c * last)
  else if Rltb hrest last && (0 <? idx)%Z then
    g1 <- merge_nodes g (idx - 1) ;;
    Ok (g1, (idx + 1)%Z, hrest, last)
  else Ok (g, (idx + 1)%Z, hrest, last).

(** grid.py:410 *)
Definition log_ice_cond (s : log_state) : res bool :=
  let '(g, idx, _, _) := s in Ok (idx <? get_number_layers g)%Z.

(** grid.py:411-425 *)
Definition log_ice_body (fuel : nat) (c : Consts) (s : log_state) : res log_state :=
  let '(g, idx, hrest, last) := s in
  if Rleb last hrest then
    g1 <- correct_layer fuel c g idx last ;;
    Ok (g1, (idx + 1)%Z, hrest - last, c_layer_stretching c * last)
  else if Rltb hrest last then
    g1 <- merge_nodes g (idx - 1) ;;
    Ok (g1, (idx + 1)%Z, hrest, last)
  else Ok (g, (idx + 1)%Z, hrest, last).

(** grid.py:364-425 *)
Definition log_profile (fuel : nat) (c : Consts) (g : Grid) : res Grid :=
  hsnow <- get_total_snowheight c g ;;
  '(g1, _, _, last) <-
     while_loop fuel (log_snow_cond c) (log_snow_body fuel c)
       (g, 0%Z, hsnow, c_first_layer_height c) ;;
  th <- get_total_height g1 ;;
  sh <- get_total_snowheight c g1 ;;
  idx <- get_number_snow_layers c g1 ;;
  '(g2, _, _, _) <-
     while_loop fuel log_ice_cond (log_ice_body fuel c)
       (g1, idx, th - sh, last) ;;
  Ok g2.

(** Loop state of the snow part of [adaptive_profile]: grid, idx, merge_counter *)
Definition adapt_state : Type := (Grid * Z * Z)%type.

(** grid.py:448 *)
Definition adapt_cond (c : Consts) (s : adapt_state) : res bool :=
  let '(g, idx, _) := s in
  k <- get_number_snow_layers c g ;; Ok (idx <? k - 1)%Z.

(** grid.py:449-469 *)
Definition adapt_body (c : Consts) (s : adapt_state) : res adapt_state :=
  let '(g, idx, merge_counter) := s in
  t0 <- get_node_temperature g idx ;;
  t1 <- get_node_temperature g (idx + 1) ;;
  let dT := Rabs (t0 - t1) in
  d0 <- get_node_density c g idx ;;
  d1 <- get_node_density c g (idx + 1) ;;
  let dRho := Rabs (d0 - d1) in
  h <- get_node_height g idx ;;
  if Rleb dT (c_temperature_threshold_merging c)
     && Rleb dRho (c_density_threshold_merging c)
     && Rleb h 0.1 && (merge_counter <=? c_merge_max c)%Z then
    g1 <- merge_nodes g idx ;; Ok (g1, idx, (merge_counter + 1)%Z)
  else if Rleb h (c_minimum_snow_layer_height c) then
    g1 <- remove_node g (Some [idx]) ;; Ok (g1, idx, merge_counter)
  else Ok (g, (idx + 1)%Z, merge_counter).

(** grid.py:480 *)
Definition adapt_ice_cond (s : Grid * Z) : res bool :=
  let '(g, idx) := s in Ok (idx <? get_number_layers g - 1)%Z.

(** grid.py:481-485 *)
Definition adapt_ice_body (c : Consts) (s : Grid * Z) : res (Grid * Z) :=
  let '(g, idx) := s in
  h <- get_node_height g idx ;;
  if Rltb h (c_minimum_snow_layer_height c) then
    g1 <- merge_nodes g idx ;; Ok (g1, idx)
  else Ok (g, (idx + 1)%Z).

(** grid.py:445-469: the snow part, returning the merge counter as well *)
Definition adaptive_snow (fuel : nat) (c : Consts) (g : Grid) : res adapt_state :=
  while_loop fuel (adapt_cond c) (adapt_body c) (g, 0%Z, 0%Z).

(** grid.py:427-486 *)
Definition adaptive_profile (fuel : nat) (c : Consts) (g : Grid) : res Grid :=
  '(g1, _, _) <- adaptive_snow fuel c g ;;
  k <- get_number_snow_layers c g1 ;;
  let min_ice_idx := Z.max 1 k in
  h <- get_node_height g1 0 ;;
  '(g2, idx) <-
     (if ((min_ice_idx =? 1)%Z && Rltb h (c_first_layer_height c)) then
        g' <- correct_layer fuel c g1 min_ice_idx (c_first_layer_height c) ;;
        Ok (g', (min_ice_idx + 1)%Z)
      else Ok (g1, min_ice_idx)) ;;
  '(g3, _) <- while_loop fuel adapt_ice_cond (adapt_ice_body c) (g2, idx) ;;
  correct_layer fuel c g3 0 (c_first_layer_height c).

(** grid.py:488-517.  Note the order: the new node is inserted first, then the
    old one is halved. *)
Definition split_node (c : Consts) (g : Grid) (pos : Z) : res Grid :=
  h <- get_node_height g pos ;;
  d <- get_node_density c g pos ;;
  t <- get_node_temperature g pos ;;
  w <- get_node_lwc g pos ;;
  f <- get_node_ice_fraction g pos ;;
  let g1 := with_nodes g
              (py_insert (g_nodes g) (pos + 1)
                 (new_node c (h / 2) d t (w / 2) (Some f))) in
  h' <- get_node_height g1 pos ;;
  t' <- get_node_temperature g1 pos ;;
  f' <- get_node_ice_fraction g1 pos ;;
  w' <- get_node_lwc g1 pos ;;
  g2 <- update_node g1 pos (h' / 2) t' f' (w' / 2) ;;
  Ok (with_number g2 (g_number_nodes g2 + 1)).

(** grid.py:562-590 *)
Definition update_grid (fuel : nat) (c : Consts) (g : Grid) : res Grid :=
  g1 <- (if String.eqb (c_remesh_method c) "log_profile"%string then log_profile fuel c g
         else if String.eqb (c_remesh_method c) "adaptive_profile"%string
              then adaptive_profile fuel c g
              else Ok g) ;;
  h <- get_node_height g1 0 ;;
  if Rltb h (c_minimum_snow_layer_height c) then remove_node g1 (Some [0%Z])
  else Ok g1.

(** grid.py:592-617 *)
Definition merge_snow_with_glacier (c : Consts) (g : Grid) (idx : Z) : res Grid :=
  d0 <- get_node_density c g idx ;;
  d1 <- get_node_density c g (idx + 1) ;;
  if Rltb d0 (c_snow_ice_threshold c) && Rleb (c_snow_ice_threshold c) d1 then
    h0 <- get_node_height g idx ;;
    q <- fdiv d0 (c_ice_density c) ;;
    let surface_layer_height := h0 * q in
    h1 <- get_node_height g (idx + 1) ;;
    t1 <- get_node_temperature g (idx + 1) ;;
    f1 <- get_node_ice_fraction g (idx + 1) ;;
    g1 <- update_node g (idx + 1) (h1 + surface_layer_height) t1 f1 0 ;;
    remove_node g1 (Some [idx])
  else Ok g.

(** grid.py:637: loop condition of [remove_melt_weq]; state: grid, melt,
    lwc_from_layers *)
Definition melt_cond (idx : Z) (s : Grid * R * R) : res bool :=
  let '(g, melt, _) := s in
  Ok (Rltb 0 melt && (idx <? g_number_nodes g)%Z).

(** grid.py:638-658 *)
Definition melt_body (c : Consts) (idx : Z) (s : Grid * R * R) : res (Grid * R * R) :=
  let '(g, melt, lwc_from_layers) := s in
  h <- get_node_height g idx ;;
  d <- get_node_density c g idx ;;
  q <- fdiv d (c_water_density c) ;;
  let SWE := h * q in
  if Rltb melt SWE then
    nh <- fdiv (SWE - melt) q ;;
    g1 <- set_node_height g idx nh ;;
    Ok (g1, 0, lwc_from_layers)
  else if Rleb SWE melt then
    w <- get_node_lwc g idx ;;
    g1 <- remove_node g (Some [idx]) ;;
    Ok (g1, melt - SWE, lwc_from_layers + w * h)
  else Ok (g, melt, lwc_from_layers).

(** grid.py:621-664: returns the new grid and the liquid water of the removed
    layers *)
Definition remove_melt_weq (fuel : nat) (c : Consts) (g : Grid) (melt : R) (idx : Z)
  : res (Grid * R) :=
  '(g1, melt1, lwc) <- while_loop fuel (melt_cond idx) (melt_body c idx) (g, melt, 0) ;;
  let g2 := if (idx =? 0)%Z
            then set_fresh_snow_props_height g1 (g_new_snow_height g1 - melt1)
            else g1 in
  Ok (g2, lwc).

(** grid.py:735-742, 748-751, 759-764, 770-773, 779-782: write a whole profile;
    the array is indexed with the node index *)
Definition set_profile (set : R -> Node -> Node) (g : Grid) (v : list R) : res Grid :=
  for_range 0 (g_number_nodes g)
    (fun i g => x <- py_get v i ;; upd_node g i (set x)) g.

Definition set_temperature (g : Grid) (v : list R) : res Grid :=
  set_profile set_layer_temperature g v.

(** ** Client programs: sequences of public Grid operations *)

(** one call of a public method of grid.py (131, 163, 181, 258, 364, 427, 488, 519, 562, 592,
    621), with its arguments *)
Inductive grid_op : Type :=
| OpAddSnow (height density temperature lwc dt : R)
| OpRemove (idx : option (list Z))
| OpMerge (idx : Z)
| OpCorrect (idx : Z) (h : R)
| OpLog | OpAdaptive
| OpSplit (pos : Z)
| OpUpdateNode (idx : Z) (height temperature ice_fraction lwc : R)
| OpUpdateGrid
| OpMergeSnow (idx : Z)
| OpRemoveMelt (melt : R) (idx : Z).

(** the grid after one call *)
Definition run_op (fuel : nat) (c : Consts) (g : Grid) (o : grid_op) : res Grid :=
  match o with
  | OpAddSnow h d t w dt => Ok (add_fresh_snow c g h d t w dt)
  | OpRemove ids => remove_node g ids
  | OpMerge i => merge_nodes g i
  | OpCorrect i h => correct_layer fuel c g i h
  | OpLog => log_profile fuel c g
  | OpAdaptive => adaptive_profile fuel c g
  | OpSplit p => split_node c g p
  | OpUpdateNode i h t f w => update_node g i h t f w
  | OpUpdateGrid => update_grid fuel c g
  | OpMergeSnow i => merge_snow_with_glacier c g i
  | OpRemoveMelt m i => r <- remove_melt_weq fuel c g m i ;; Ok (fst r)
  end.

(** the grid after a sequence of calls; stops at the first exception *)
Fixpoint run_ops (fuel : nat) (c : Consts) (g : Grid) (os : list grid_op) : res Grid :=
  match os with
  | [] => Ok g
  | o :: t => g' <- run_op fuel c g o ;; run_ops fuel c g' t
  end.
