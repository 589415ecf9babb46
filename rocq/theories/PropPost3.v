(** * Surface plots

    Theorems only; the proofs are in LemFinPost3.v and the files it uses. *)

From Verif Require Import ModelPy ModelConstants ModelNode ModelGrid ModelHeat ModelSurface ModelInit ModelCore ModelConfig ModelIO ModelMain ModelFiles ModelRadCor ModelAws ModelSetup ModelPost SpecIO SpecPost.
From Verif Require Import LemFinPost3.

(** C100.  The points of a surface are those of the grid, numbered column by column; no other points exist. *)
Theorem surface_points :
  forall lats lons HGT,
  rectangular HGT (length lats) (length lons) ->
  exists points, create_points lats lons HGT = Ok points /\
    length points = (length lons * length lats)%nat /\
    forall i j, (i < length lons)%nat -> (j < length lats)%nat ->
      nth_error points (i * length lats + j) = grid_point lats lons HGT j i /\ grid_point lats lons HGT j i <> None.
Proof. exact surface_points_lem. Qed.
Print Assumptions surface_points.

(** C100.  The cells of the older surface: a cell at each point but those of the last column and those of the first row. *)
Theorem surface_cells :
  forall nlat nlon quad, (0 < nlat)%Z -> (0 <= nlon)%Z ->
  In quad (dem_quads (nlon * nlat) nlat) <->
  exists i j, (0 <= i < nlon - 1)%Z /\ (1 <= j < nlat)%Z /\ quad = grid_cell nlat i j.
Proof. exact surface_cells_lem. Qed.
Print Assumptions surface_cells.

(** C100.  In every grid of at least two rows and two columns the cells of the older surface are wrong: one has a corner at a point that does not exist, each column has one that joins its last row with the first row of the next column, and those of the first row are missing. *)
Theorem surface_cells_refuted :
  forall lats lons HGT dims points quads,
  (2 <= length lats)%nat -> (2 <= length lons)%nat -> rectangular HGT (length lats) (length lons) ->
  createDEM_v2 dims lats lons HGT = Ok (points, quads) ->
  let nlat := Z.of_nat (length lats) in
  (exists a b c d, In (a, b, c, d) quads /\ (Z.of_nat (length points) <= c)%Z) /\
  (forall i, (0 <= i < Z.of_nat (length lons) - 1)%Z -> In (grid_cell nlat i (nlat - 1)) quads) /\
  (forall i, ~ In (grid_cell nlat i 0) quads).
Proof. exact surface_cells_refuted_lem. Qed.
Print Assumptions surface_cells_refuted.

(** C100.  If the search for the closest point gives each point of the grid its own number, every value of the field is on its own point, and all other points, and those without value, have no value. *)
Theorem surface_values :
  forall closest number_of lats lons HGT data num_points,
  rectangular HGT (length lats) (length lons) -> rectangular data (length lats) (length lons) ->
  (forall j i p, grid_point lats lons HGT j i = Some p -> closest p = Z.of_nat (number_of j i)) ->
  (forall j i, (j < length lats)%nat -> (i < length lons)%nat -> (number_of j i < num_points)%nat) ->
  (forall j i j' i', (j < length lats)%nat -> (i < length lons)%nat -> (j' < length lats)%nat -> (i' < length lons)%nat ->
     number_of j i = number_of j' i' -> j = j' /\ i = i') ->
  exists scalar, add_scalar closest (Z.of_nat num_points) lats lons HGT data = Ok scalar /\
    length scalar = num_points /\
    (forall j i row v, nth_error data j = Some row -> nth_error row i = Some v ->
       nth_error scalar (number_of j i) = Some v) /\
    (forall k, (k < num_points)%nat -> (forall j i, (j < length lats)%nat -> (i < length lons)%nat -> k <> number_of j i) ->
       nth_error scalar k = Some None).
Proof. exact surface_values_lem. Qed.
Print Assumptions surface_values.

(** C100 A grid of two by two: the points of the first column come first; the one cell of the older surface refers to a fifth point. *)
Example surface_case :
  exists points, createDEM_v2 [("time", 1%Z); ("lat", 2%Z); ("lon", 2%Z)]%string [30; 31] [90; 91]
      [[Some 6370000; None]; [Some 0; Some 637]] = Ok (points, [(1, 2, 4, 3)%Z]) /\
    nth_error points 1 = Some (90, 31, Some (0 / 6370000)) /\ nth_error points 2 = Some (91, 30, None) /\ nth_error points 4 = None.
Proof. exact surface_case_lem. Qed.
