(** * The cell whose profile is shown

    Theorems only; the proofs are in LemFinNearest.v and the files it uses. *)

From Verif Require Import ModelPy ModelConstants ModelNode ModelGrid ModelHeat ModelSurface ModelInit ModelCore ModelConfig ModelIO ModelMain ModelRadCor ModelAws ModelSetup ModelPost SpecPost.
From Verif Require Import LemFinNearest.

(** C98.  Looking up a cell by position takes the row whose latitude is next to the given one and the column whose longitude is next to the given one, each by itself; of two latitudes or longitudes equally far away the larger one. It fails with KeyError if there are no latitudes or no longitudes, and otherwise finds a cell in every field of that shape. *)
Theorem profile_cell_nearest :
  forall (A : Type) (lats lons : list R) (la lo : R) (field : raster A),
    let next_to (l : list R) (p : R) (k : nat) :=
      exists v, nth_error l k = Some v /\
        forall w, In w l -> Rabs (v - p) <= Rabs (w - p) /\ (Rabs (v - p) = Rabs (w - p) -> w <= v) in
    (lats = [] \/ lons = [] -> sel_nearest lats lons la lo field = Err KeyError) /\
    (forall cell, sel_nearest lats lons la lo field = Ok cell ->
       exists j i row, next_to lats la j /\ next_to lons lo i /\
         nth_error field j = Some row /\ nth_error row i = Some cell) /\
    (lats <> [] -> lons <> [] -> rectangular field (length lats) (length lons) ->
       exists cell, sel_nearest lats lons la lo field = Ok cell).
Proof. exact profile_cell_nearest_lem. Qed.
Print Assumptions profile_cell_nearest.

(** C98 Halfway between two latitudes the larger one is taken, also if the latitudes descend. *)
Example profile_cell_example :
  sel_nearest [47; 46] [10; 11] 46.5 10.2 [["a"; "b"]; ["c"; "d"]]%string = Ok "a"%string /\
  sel_nearest [46; 47] [10; 11] 46.5 10.2 [["a"; "b"]; ["c"; "d"]]%string = Ok "c"%string.
Proof. exact profile_cell_example_lem. Qed.
