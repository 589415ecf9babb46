(** * Vocabulary for the properties of the conversion of WRF output *)
From Verif Require Import ModelPy ModelConstants ModelNode ModelGrid ModelHeat ModelSurface ModelInit
  ModelCore ModelConfig ModelIO ModelMain ModelRadCor SpecIO SpecRadCor ModelAws ModelWrf.
From Coq Require Import Ascii.

(** value of an array at time step [k] in a cell *)
Definition at_time {A : Type} (a : list (raster A)) (k : nat) (y x : Z) : option A :=
  match nth_error a k with Some r => cell_at r y x | None => None end.

(** value of a variable of the file written *)
Definition written (f : cosipy_file) (name : string) (k : nat) (y x : Z) : option number :=
  match dict_find (cf_vars f) name with
  | Some (mkWrfVariable (Timed l) _ _) => at_time l k y x
  | _ => None
  end.
Definition written_once (f : cosipy_file) (name : string) (y x : Z) : option number :=
  match dict_find (cf_vars f) name with
  | Some (mkWrfVariable (Flat r) _ _) => cell_at r y x
  | _ => None
  end.

(** sum of [r] over the steps [i, i + n) *)
Definition sum_steps (r : nat -> R) (i n : nat) : R := fold_right Rplus 0 (map r (seq i n)).

(** an array has [n] time steps, [ny] rows and [nx] columns *)
Definition shaped {A : Type} (n ny nx : nat) (a : list (raster A)) : Prop :=
  length a = n /\ Forall (fun r => sized r ny nx) a.
Definition wrf_shape (n ny nx : nat) (w : wrf_file) : Prop :=
  length (w_Time w) = n /\
  Forall (shaped n ny nx)
    [w_XLAT w; w_XLONG w; w_HGT w; w_T2 w; w_Q2 w; w_PSFC w; w_SWDOWN w; w_GLW w; w_SNOWH w; w_SNOW w;
     w_SNOWC w; w_LU_INDEX w; w_TSK w; w_U10 w; w_V10 w; w_RAINNC w; w_RAINC w; w_SNOWNC w].

(** relative humidity [%] of air at temperature [t] with mixing ratio [q] and pressure [p], between 0
    and 100 *)
Definition saturation_ratio (t q p : R) : R :=
  100 * q * p / (379.90516 * exp (17.2693882 * (t - 273.16) / (t - 35.86))).
Definition humidity_percent (t q p : R) : R := Rmax 0 (Rmin 100 (saturation_ratio t q p)).

(** wind speed at 2 m from the components at 10 m, logarithmic profile over roughness 4 mm *)
Definition log_wind (u v : R) : R := sqrt (u * u + v * v) * (ln 500 / ln 2500).

(** a date as pandas prints it; the fields fit *)
Definition proper_stamp (t : stamp) : Prop :=
  (0 <= s_year t <= 9999)%Z /\ (0 <= s_month t <= 99)%Z /\ (0 <= s_day t <= 99)%Z /\
  (0 <= s_hour t <= 99)%Z /\ (0 <= s_minute t <= 99)%Z.
(** the dates as the usage text asks for them, yyyymmdd, and with hyphens *)
Definition yyyymmdd (y m d : Z) : string := four_digits y (two_digits m (two_digits d EmptyString)).
Definition iso_date (y m d : Z) : string :=
  four_digits y (String "-" (two_digits m (String "-" (two_digits d EmptyString)))).
(** order of calendar days *)
Definition day_before (y m d y' m' d' : Z) : Prop :=
  (y < y' \/ (y = y' /\ (m < m' \/ (m = m' /\ d < d'))))%Z.
