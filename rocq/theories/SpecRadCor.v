(** * Vocabulary for the properties of the terrain correction of radiation *)
From Verif Require Import ModelPy ModelConstants ModelNode ModelGrid ModelHeat ModelSurface ModelInit
  ModelCore ModelConfig ModelIO ModelMain ModelRadCor SpecIO.

(** ** Directions
    Vectors with the components east, north, up. *)
Definition vec := (R * R * R)%type.
Definition dot (u v : vec) : R :=
  let '(a, b, c) := u in let '(x, y, z) := v in a * x + b * y + c * z.
(** direction with elevation [h] and azimuth [a] clockwise from north, both in radians *)
Definition direction (h a : R) : vec := (cos h * sin a, cos h * cos a, sin h).
(** direction of the sun at latitude [l], declination [d] and hour angle [w] (positive before noon),
    in radians *)
Definition sun (l d w : R) : vec :=
  (cos d * sin w, cos l * sin d - sin l * cos d * cos w, sin l * sin d + cos l * cos d * cos w).
(** normal of a surface with slope [s] facing the azimuth [a] clockwise from north, in radians *)
Definition normal (s a : R) : vec := (sin s * sin a, sin s * cos a, cos s).
(** point of the unit sphere with latitude and longitude in degrees *)
Definition on_sphere (lat lon : R) : vec :=
  (cos (radians lat) * cos (radians lon), cos (radians lat) * sin (radians lon), sin (radians lat)).

(** sine of the solar declination on a day of the year (Wohlfahrt et al.) *)
Definition sin_declination (day : R) : R :=
  0.39785 * sin (radians (278.97 + 0.9856 * day + 1.9165 * sin (radians (356.6 + 0.9856 * day)))).

(** ** Grids *)

(** coordinates with constant spacing *)
Definition regular (from step : R) (l : list R) : Prop :=
  forall k v, nth_error l k = Some v -> v = from + INR k * step.

(** strictly between the smallest and the largest coordinate *)
Definition within (l : list R) (v : R) : Prop :=
  (exists a, In a l /\ a < v) /\ (exists b, In b l /\ v < b).

(** cells for which shading is computed: glacier cells that do not lie at the border of the raster *)
Definition shaded_cell (mask : raster number) (lats lons : list R) (y x : Z) : Prop :=
  (1 <= y < Z.of_nat (length lats) - 1)%Z /\ (1 <= x < Z.of_nat (length lons) - 1)%Z /\
  cell_at mask y x = Some (Some 1).

(** a raster with [ny] rows of [nx] cells *)
Definition sized {A} (a : raster A) (ny nx : nat) : Prop :=
  length a = ny /\ Forall (fun row => length row = nx) a.

(** latitudes from north to south and longitudes from west to east, both with constant spacing
    [sy] < 0 and [sx] > 0 [deg] *)
Definition grid (lats lons : list R) (oy sy ox sx : R) : Prop :=
  regular oy sy lats /\ regular ox sx lons /\ sy < 0 /\ 0 < sx /\
  (2 <= length lats)%nat /\ (1 <= length lons)%nat.

(** [s] is the distance [deg] of the points of a profile: the diagonal of the raster is divided into
    [n] - 1 parts, with [n] the number of cells of height [ny sy] / [ny] that fit into it *)
Definition profile_step (lats lons : list R) (sy sx s : R) : Prop :=
  let ny := INR (length lats) in
  let nx := INR (length lons) in
  let diagonal := sqrt (((ny - 1) * sy) ^ 2 + ((nx - 1) * sx) ^ 2) in
  exists n : Z, IZR n <= diagonal * ny / ((ny - 1) * - sy) < IZR n + 1 /\ s * (IZR n - 1) = diagonal.
