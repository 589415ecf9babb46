(** * Shading by the surrounding terrain

    Theorems only; the proofs are in LemFinShade.v and the files it uses. *)

From Verif Require Import ModelPy ModelConstants ModelNode ModelGrid ModelHeat ModelSurface ModelInit ModelCore ModelConfig ModelIO ModelMain ModelRadCor Spec SpecIO SpecRadCor.
From Verif Require Import LemFinShade.

(** C71.  The shading is 0 or 1 in glacier cells that do not lie at the border of the raster, and missing
   in all other cells of the elevation model. *)
Theorem shading_values :
  forall dem mask lats lons solh sdirfn illu y x,
    relshad dem mask lats lons solh sdirfn = Ok illu ->
    (shaded_cell mask lats lons y x ->
       cell_at illu y x = Some (Some 0) \/ cell_at illu y x = Some (Some 1)) /\
    (~ shaded_cell mask lats lons y x ->
       cell_at illu y x = match cell_at dem y x with Some _ => Some None | None => None end).
Proof. exact shading_values_lem. Qed.
Print Assumptions shading_values.

(** C71.  A rising sun never puts a cell into shade: at a higher sun in the same direction the computation
   fails in the same cases, and no cell of the result is darker. *)
Theorem shading_monotone :
  forall dem mask lats lons h h' a, h <= h' ->
    match relshad dem mask lats lons h a, relshad dem mask lats lons h' a with
    | Ok low, Ok high => forall y x v, cell_at low y x = Some (Some v) ->
        exists w, cell_at high y x = Some (Some w) /\ v <= w
    | Err e, Err e' => e = e'
    | _, _ => False
    end.
Proof. exact shading_monotone_lem. Qed.
Print Assumptions shading_monotone.

(** C71.  Only differences of elevation matter: raising the whole terrain leaves the shading as it is. *)
Theorem shading_shift :
  forall k dem mask lats lons solh sdirfn,
    relshad (map (map (fun z => z + k)) dem) mask lats lons solh sdirfn
    = relshad dem mask lats lons solh sdirfn.
Proof. exact shading_shift_lem. Qed.
Print Assumptions shading_shift.

(** C71.  Level terrain: nothing is in shade while the sun is not below the horizon, and everything is in
   shade while it is. *)
Theorem shading_level :
  forall dem mask lats lons solh sdirfn illu y x z,
    relshad dem mask lats lons solh sdirfn = Ok illu ->
    Forall (Forall (fun v => v = z)) dem ->
    shaded_cell mask lats lons y x ->
    (0 <= solh -> cell_at illu y x = Some (Some 1)) /\ (solh < 0 -> cell_at illu y x = Some (Some 0)).
Proof. exact shading_level_lem. Qed.
Print Assumptions shading_level.

(** C71.  What shade means on a regular grid: a cell is in shade exactly if at some point of its profile the
   terrain rises above the ray towards the sun.  The profile starts in the centre of the cell and leads
   towards the azimuth of the sun in steps of constant length; it contains every such point strictly
   inside the raster and no other; the distance of a point is its great-circle distance, and its elevation
   is taken from a cell whose centre is at most one cell width away in each direction. *)
Theorem shading_meaning :
  forall dem mask lats lons oy sy ox sx s h a illu y x,
    grid lats lons oy sy ox sx -> profile_step lats lons sy sx s ->
    -90 < h < 90 ->
    relshad dem mask lats lons h a = Ok illu ->
    shaded_cell mask lats lons y x ->
    let lat k := oy + IZR y * sy + INR k * (s * cos (radians a)) in
    let lon k := ox + IZR x * sx + INR k * (s * sin (radians a)) in
    0 < s /\
    exists z0 profile, cell_at dem y x = Some z0 /\ profile <> [] /\
      (forall k, nth_error profile k <> None <-> within lats (lat (S k)) /\ within lons (lon (S k))) /\
      (forall k z d, nth_error profile k = Some (z, d) ->
         haversine (lat O) (lon O) (lat (S k)) (lon (S k)) = Ok d /\ 0 < d /\
         exists y' x', cell_at dem y' x' = Some z /\
           Rabs (oy + IZR y' * sy - lat (S k)) <= - sy /\ Rabs (ox + IZR x' * sx - lon (S k)) <= sx) /\
      (cell_at illu y x = Some (Some 0) <->
         exists z d, In (z, d) profile /\ z0 + d * tan (radians h) < z) /\
      (cell_at illu y x = Some (Some 1) <->
         forall z d, In (z, d) profile -> z <= z0 + d * tan (radians h)).
Proof. exact shading_meaning_lem. Qed.
Print Assumptions shading_meaning.

(** C71.  When the shading can be computed: on a regular grid of real coordinates the computation succeeds
   exactly if for every glacier cell off the border the first point of its profile still lies strictly
   inside the raster; otherwise it raises ValueError. *)
Theorem shading_progress :
  forall dem mask lats lons oy sy ox sx s h a,
    grid lats lons oy sy ox sx -> profile_step lats lons sy sx s ->
    sized dem (length lats) (length lons) -> sized mask (length lats) (length lons) ->
    (forall v, In v lats -> -90 <= v <= 90) ->
    (forall v w, In v lons -> In w lons -> v - w < 360) ->
    let stays y x := within lats (oy + IZR y * sy + s * cos (radians a)) /\
                     within lons (ox + IZR x * sx + s * sin (radians a)) in
    ((forall y x, shaded_cell mask lats lons y x -> stays y x) ->
       exists illu, relshad dem mask lats lons h a = Ok illu /\ sized illu (length lats) (length lons)) /\
    (~ (forall y x, shaded_cell mask lats lons y x -> stays y x) ->
       relshad dem mask lats lons h a = Err ValueError).
Proof. exact shading_progress_lem. Qed.
Print Assumptions shading_progress.

(** C71.  The computation is not total: on a grid of four by four cells with one glacier cell next to the border
   row it raises ValueError towards the north, for every elevation model and every solar elevation. *)
Theorem shading_border_refuted :
  exists lats lons mask y x,
    grid lats lons 3 (-1) 0 1 /\ sized mask (length lats) (length lons) /\
    shaded_cell mask lats lons y x /\
    forall dem h, sized dem (length lats) (length lons) ->
      relshad dem mask lats lons h 360 = Err ValueError.
Proof. exact shading_border_refuted_lem. Qed.
Print Assumptions shading_border_refuted.

(** One cell further from the border the computation succeeds, for every elevation model. *)
Example shading_progress_case :
  forall dem h, sized dem 4 4 -> exists illu, relshad dem (one_glacier 2 2) [3; 2; 1; 0] [0; 1; 2; 3] h 360 = Ok illu.
Proof. exact shading_progress_case_lem. Qed.
