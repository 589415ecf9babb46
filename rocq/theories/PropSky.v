(** * Sky view, shading table and modelled radiation

    Theorems only; the proofs are in LemFinSky.v and the files it uses. *)

From Verif Require Import ModelPy ModelConstants ModelNode ModelGrid ModelHeat ModelSurface ModelInit ModelCore ModelConfig ModelIO ModelMain ModelRadCor Spec SpecIO SpecRadCor.
From Verif Require Import LemFinSky.

(** C72.  The sky view factor of a glacier cell is the fraction of the 1584 directions (36 azimuths, 44
   elevations) that lie above the plane of the slope and are not shaded by the terrain. *)
Theorem sky_view_counts :
  forall dem mask slopes aspects lats lons svf y x z,
    LUTsvf dem mask slopes aspects lats lons = Ok svf ->
    cell_at dem y x = Some z -> cell_at mask y x = Some (Some 1) ->
    exists slope aspect (visible : list (Z * Z)),
      cell_at slopes y x = Some slope /\ cell_at aspects y x = Some aspect /\ NoDup visible /\
      (forall azi el, In (azi, el) visible <->
         (exists i j, azi = 10 * i /\ el = 2 * j /\ 1 <= i <= 36 /\ 1 <= j <= 44)%Z /\
         0 < dot (direction (radians (IZR el)) (radians (IZR azi))) (normal (radians slope) (radians aspect)) /\
         forall illu, relshad dem mask lats lons (IZR el) (IZR azi) = Ok illu ->
           cell_at illu y x <> Some (Some 0)) /\
      cell_at svf y x = Some (Some (INR (length visible) / 1584)).
Proof. exact sky_view_counts_lem. Qed.
Print Assumptions sky_view_counts.

(** C72.  It lies between 0 and 1 in glacier cells and is missing in all others. *)
Theorem sky_view_range :
  forall dem mask slopes aspects lats lons svf y x z,
    LUTsvf dem mask slopes aspects lats lons = Ok svf -> cell_at dem y x = Some z ->
    (cell_at mask y x = Some (Some 1) -> exists v, cell_at svf y x = Some (Some v) /\ 0 <= v <= 1) /\
    (cell_at mask y x <> Some (Some 1) -> cell_at svf y x = Some None).
Proof. exact sky_view_range_lem. Qed.
Print Assumptions sky_view_range.

(** C72.  A level cell in level terrain sees the whole sky. *)
Theorem sky_view_level :
  forall dem mask slopes aspects lats lons svf y x z,
    LUTsvf dem mask slopes aspects lats lons = Ok svf ->
    Forall (Forall (fun v => v = z)) dem -> cell_at dem y x = Some z ->
    cell_at mask y x = Some (Some 1) -> cell_at slopes y x = Some 0 ->
    cell_at svf y x = Some (Some 1).
Proof. exact sky_view_level_lem. Qed.
Print Assumptions sky_view_level.

(** C72.  On a regular grid of real coordinates the sky view factor can be computed if and only if every
   glacier cell off the border is further than one step of the profile from the centres of the border cells
   in the four main directions; otherwise ValueError is raised. *)
Theorem sky_view_progress :
  forall dem mask slopes aspects lats lons oy sy ox sx s,
    grid lats lons oy sy ox sx -> profile_step lats lons sy sx s ->
    sized dem (length lats) (length lons) -> sized mask (length lats) (length lons) ->
    sized slopes (length lats) (length lons) -> sized aspects (length lats) (length lons) ->
    (forall v, In v lats -> -90 <= v <= 90) ->
    (forall v w, In v lons -> In w lons -> v - w < 360) ->
    let clear y x := within lats (oy + IZR y * sy - s) /\ within lats (oy + IZR y * sy + s) /\
                     within lons (ox + IZR x * sx - s) /\ within lons (ox + IZR x * sx + s) in
    ((forall y x, shaded_cell mask lats lons y x -> clear y x) ->
       exists svf, LUTsvf dem mask slopes aspects lats lons = Ok svf) /\
    (~ (forall y x, shaded_cell mask lats lons y x -> clear y x) ->
       LUTsvf dem mask slopes aspects lats lons = Err ValueError).
Proof. exact sky_view_progress_lem. Qed.
Print Assumptions sky_view_progress.

(** On a grid of six by six cells with a glacier cell in the middle the sky view factor can be computed
   for every terrain. *)
Example sky_view_case :
  forall dem slopes aspects, sized dem 6 6 -> sized slopes 6 6 -> sized aspects 6 6 ->
    exists svf, LUTsvf dem glacier_6x6 slopes aspects [5; 4; 3; 2; 1; 0] [0; 1; 2; 3; 4; 5] = Ok svf.
Proof. exact sky_view_case_lem. Qed.
