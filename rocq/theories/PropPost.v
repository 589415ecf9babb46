(** * Plots of profiles

    Theorems only; the proofs are in LemFinPost.v and the files it uses. *)

From Verif Require Import ModelPy ModelConstants ModelNode ModelGrid ModelHeat ModelSurface ModelInit ModelCore ModelConfig ModelIO ModelMain ModelRadCor ModelAws ModelSetup ModelPost SpecPost.
From Verif Require Import LemFinPost.

(** C98.  The search for a value answers the first position whose number is next to it, and fails exactly if there is no number. *)
Theorem nearest_value_found :
  forall array v,
  (forall i x, find_nearest array v = Ok (i, x) <-> exists a, x = Some a /\ first_nearest array v i a) /\
  (forall e, find_nearest array v = Err e <-> e = ValueError /\ forall j b, ~ is_number array j b).
Proof. exact nearest_value_found_lem. Qed.
Print Assumptions nearest_value_found.

(** C98.  For a cell with layers, every depth from the surface down gets a line. It shows the boundary next to the depth, and the values of the layer above this boundary, which are those of the layer that holds the depth only if the depth is in its lower half or in the top layer. The density curve has the layers at their lower boundaries. *)
Theorem profile_printed :
  forall lats lons la lo data p h missing ds,
  sel_nearest lats lons la lo data = Ok p -> pf_height p = stored h missing ->
  length (pf_rho p) = length (pf_height p) -> length (pf_t p) = length (pf_height p) ->
  Forall (fun x => 0 < x) h -> h <> [] -> Forall (fun d => 0 <= d) ds ->
  exists printed curve,
    plot_profile_1D lats lons (Some la) (Some lo) data (Some ds) = Ok (printed, curve) /\
    length printed = length ds /\
    (forall n d k, nth_error ds n = Some d -> holds_depth h k d ->
       let m := if Rle_dec (d - layer_top h k) (layer_top h (S k) - d) then k else S k in
       nth_error printed n = Some (Some (layer_top h m), nth (pred m) (pf_rho p) None, nth (pred m) (pf_t p) None)) /\
    nth_error curve 0 = Some (nth 0 (pf_rho p) None, Some 0) /\
    (forall k, (k < length h)%nat -> nth_error curve (S k) = Some (nth k (pf_rho p) None, Some (layer_top h (S k)))).
Proof. exact profile_printed_lem. Qed.
Print Assumptions profile_printed.

(** C98.  Two layers of one metre: at a depth of 1.2 m the density of the upper layer is printed. *)
Theorem profile_layer_refuted :
  exists p h d k printed curve,
    pf_height p = stored h 0 /\ holds_depth h k d /\ nth k (pf_rho p) None = Some 600 /\
    plot_profile_1D [0] [0] (Some 0) (Some 0) [[p]] (Some [d]) = Ok (printed, curve) /\
    printed = [(Some 1, Some 300, Some 270)].
Proof. exact profile_layer_refuted_lem. Qed.
Print Assumptions profile_layer_refuted.

(** C98.  A profile is plotted only for a cell chosen by both coordinates, or for a file with one cell; with only one coordinate, a cell of several layers cannot be plotted either. *)
Theorem profile_needs_cell :
  forall lats lons lat lon data d r,
  plot_profile_1D lats lons lat lon data d = Ok r ->
  (exists la lo p, lat = Some la /\ lon = Some lo /\ sel_nearest lats lons la lo data = Ok p) \/
  (exists p, concat data = [p] /\
     (data = [[p]] -> (lat = None /\ lon = None) \/
        (length (pf_rho p) + length (pf_rho p) = S (length (pf_height p)))%nat)).
Proof. exact profile_needs_cell_lem. Qed.
Print Assumptions profile_needs_cell.

(** C98.  In the image of a profile over time nothing is drawn from the snow surface upwards. A point below it shows the layer whose lower boundary is next to it: this is the layer that holds the point if the point is in its lower half or in the top layer, and otherwise the layer above. Points below the column show the last layer. *)
Theorem image_pixel :
  forall yi s h missing V,
  Forall (fun x => 0 < x) h -> h <> [] -> length V = (length h + missing)%nat ->
  exists column,
    image_column yi (Some s) (stored h missing) V = Ok column /\ length column = length yi /\
    forall n y, nth_error yi n = Some y ->
      (s <= y -> nth_error column n = Some None) /\
      (forall k, y < s -> holds_depth h k (s - y) ->
         nth_error column n =
           Some (nth (if Rle_dec (s - y - layer_top h k) (layer_top h (S k) - (s - y)) then pred k else k) V None)).
Proof. exact image_pixel_lem. Qed.
Print Assumptions image_pixel.

(** C98.  Two layers of one metre over the base: the point at 0.8 m, in the lower layer, shows the upper one. *)
Theorem image_pixel_refuted :
  exists h s y k V, holds_depth h k (s - y) /\ image_column [y] (Some s) (stored h 0) V = Ok [Some 300] /\ nth k V None = Some 600.
Proof. exact image_pixel_refuted_lem. Qed.
Print Assumptions image_pixel_refuted.

(** C98.  With the required version of numpy the image of a profile over time is never drawn. *)
Theorem image_never_drawn :
  forall var fl domainy snow_all steps, profile_image false var fl domainy snow_all steps = Err AttributeError.
Proof. exact image_never_drawn_lem. Qed.
Print Assumptions image_never_drawn.

(** C98.  With an older numpy, the image has one column per time, on heights in steps of the first layer's height, from the given start (or 0) to beyond the highest snow surface of all cells. *)
Theorem image_axes :
  forall var fl domainy snow_all steps columns,
  profile_image true var fl domainy snow_all steps = Ok columns -> 0 < fl ->
  exists yi top,
    (forall n y, nth_error yi n = Some y <-> y = match domainy with Some y0 => y0 | None => 0 end + INR n * fl /\ y < top) /\
    (forall s, In (Some s) snow_all -> s < top) /\
    Forall2 (fun step column => exists V, profile_variable var (snd step) = Some V /\
       image_column yi (fst step) (lv_height (snd step)) V = Ok column) steps columns.
Proof. exact image_axes_lem. Qed.
Print Assumptions image_axes.

(** C98.  For coordinates without NaN the search for a cell answers one with the smallest distance. *)
Theorem nearest_cell_found :
  forall lat lon ny nx lat0 lon0,
  rectangular lat ny nx -> rectangular lon ny nx -> (0 < ny)%nat -> (0 < nx)%nat ->
  exists iy ix,
    naive_fast (map (map Some) lat) (map (map Some) lon) lat0 lon0 = Ok (iy, ix) /\ (iy < ny)%nat /\ (ix < nx)%nat /\
    forall jy jx, (jy < ny)%nat -> (jx < nx)%nat ->
      let at_ (a : raster R) y x := nth x (nth y a []) 0 in
      (at_ lat iy ix - lat0) ^ 2 + (at_ lon iy ix - lon0) ^ 2 <=
      (at_ lat jy jx - lat0) ^ 2 + (at_ lon jy jx - lon0) ^ 2.
Proof. exact nearest_cell_found_lem. Qed.
Print Assumptions nearest_cell_found.

(** C98.  If the coordinates hold a NaN, its cell is taken, however near another one is. *)
Theorem nearest_cell_refuted :
  exists lat lon, naive_fast lat lon 46 10 = Ok (0%nat, 1%nat) /\ lat = [[Some 46; None]] /\ lon = [[Some 10; Some 11]].
Proof. exact nearest_cell_refuted_lem. Qed.
Print Assumptions nearest_cell_refuted.

(** C98 A column of two layers of 0.1 m and 0.4 m with two missing layers meets the hypotheses of the theorems on printed values and on the image; the depth of 0.2 m is in the second layer. *)
Example profile_case :
  let p := mkProfile (stored [0.1; 0.4] 2) [Some 300; Some 450; None; None] [Some 270; Some 268; None; None] in
  sel_nearest [46] [10] 46.1 10.1 [[p]] = Ok p /\ Forall (fun x => 0 < x) [0.1; 0.4] /\
  length (pf_rho p) = length (pf_height p) /\ holds_depth [0.1; 0.4] 1 0.2.
Proof. exact profile_case_lem. Qed.
