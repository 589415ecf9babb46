(** * File names, stakes and small functions of the driver

    Theorems only; the proofs are in LemFinDriver.v and the files it uses. *)

From Verif Require Import ModelPy ModelConstants ModelNode ModelGrid ModelSurface ModelInit ModelCore ModelConfig ModelIO ModelMain SpecIO.
From Verif Require Import LemFinDriver.

From Coq Require Import Ascii.

From Coq Require Import Permutation Sorted Rtrigo_def Rtrigo_calc Rtrigo1 Rtrigo_reg Lra.

(** C65.  The name of the output file is the prefix and the two dates; the times of the day are not in it. *)
Theorem output_name :
  forall cfg s1 r1 y1 m1 d1 s2 r2 y2 m2 d2,
    rc_time_start cfg = VStr s1 -> rc_time_end cfg = VStr s2 ->
    iso_text s1 r1 y1 m1 d1 -> iso_text s2 r2 y2 m2 d2 ->
    set_output_netcdf_path cfg =
      Ok (rc_output_prefix cfg ++ "_" ++ y1 ++ m1 ++ d1 ++ "-" ++ y2 ++ m2 ++ d2 ++ ".nc")%string.
Proof. exact output_name_lem. Qed.
Print Assumptions output_name.

(** C65.  A start or an end that is not a text, such as a date of the TOML file, has no name: TypeError. *)
Theorem output_name_refused :
  forall cfg, (forall s, rc_time_start cfg <> VStr s) \/ (forall s, rc_time_end cfg <> VStr s) ->
    set_output_netcdf_path cfg = Err TypeError.
Proof. exact output_name_refused_lem. Qed.
Print Assumptions output_name_refused.

(** C65.  Two runs with the same prefix write to the same file if and only if they start on the same day
   and end on the same day. *)
Theorem output_name_collision :
  forall cfg cfg' s1 r1 y1 m1 d1 s2 r2 y2 m2 d2 s1' r1' y1' m1' d1' s2' r2' y2' m2' d2',
    rc_output_prefix cfg' = rc_output_prefix cfg ->
    rc_time_start cfg = VStr s1 -> rc_time_end cfg = VStr s2 ->
    rc_time_start cfg' = VStr s1' -> rc_time_end cfg' = VStr s2' ->
    iso_text s1 r1 y1 m1 d1 -> iso_text s2 r2 y2 m2 d2 ->
    iso_text s1' r1' y1' m1' d1' -> iso_text s2' r2' y2' m2' d2' ->
    (set_output_netcdf_path cfg = set_output_netcdf_path cfg' <->
     (y1, m1, d1) = (y1', m1', d1') /\ (y2, m2, d2) = (y2', m2', d2')).
Proof. exact output_name_collision_lem. Qed.
Print Assumptions output_name_collision.

(** the names of the shipped configuration; a run of the same days that starts later overwrites it *)
Example output_name_case :
  exists cfg cfg',
    rc_time_start cfg = VStr "2009-01-01T06:00" /\ rc_time_start cfg' = VStr "2009-01-01T18:00" /\
    set_output_netcdf_path cfg = Ok "Zhadang_ERA5_20090101-20090110.nc"%string /\
    set_output_netcdf_path cfg' = set_output_netcdf_path cfg /\
    iso_text "2009-01-01T06:00" "T06:00" "2009" "01" "01".
Proof. exact output_name_case_lem. Qed.

(** C66.  For every stake of the cell the statistic is the root mean square of the differences of measured and
   simulated numbers at the times where both are there: never negative, zero exactly for a perfect match,
   NaN exactly if no time has both. *)
Theorem rmse_root_mean_square :
  forall cfg names sd mb snowheight stat,
    rmse cfg names sd (mb, snowheight) = Ok stat ->
    map fst stat = names /\
    exists sim, (rc_obs_type cfg = "mb"%string /\ sim = mb \/
                 rc_obs_type cfg = "snowheight"%string /\ sim = snowheight) /\
    forall name r, In (name, r) stat ->
      exists obs, dict_find (sd_columns sd) name = Some obs /\
        match r with
        | None => common obs sim = []
        | Some v =>
            common obs sim <> [] /\ 0 <= v /\
            v ^ 2 * INR (length (common obs sim)) =
              sum_list (map (fun p => (fst p - snd p) ^ 2) (common obs sim)) /\
            (v = 0 <-> forall a b, In (a, b) (common obs sim) -> a = b)
        end.
Proof. exact rmse_root_mean_square_lem. Qed.
Print Assumptions rmse_root_mean_square.

(** C66.  The simulated number at a stake measurement: the sum of the mass balance up to and including the step
   whose time is the time of the measurement, and the snow height of that step; NaN if no step has that time. *)
Theorem stake_simulated :
  forall names index times outs i t,
    names <> [] -> NoDup times -> nth_error index i = Some t ->
    (~ In t times ->
       nth_error (fst (stake_frame names index times outs)) i = Some None /\
       nth_error (snd (stake_frame names index times outs)) i = Some None) /\
    (forall k out, nth_error times k = Some t -> nth_error outs k = Some out ->
       nth_error (fst (stake_frame names index times outs)) i =
         Some (Some (sum_list (map o_MB (firstn (S k) outs)))) /\
       nth_error (snd (stake_frame names index times outs)) i = Some (Some (o_SNOWHEIGHT out))).
Proof. exact stake_simulated_lem. Qed.
Print Assumptions stake_simulated.

(** C66.  A run with stake evaluation and an evaluation method other than rmse never completes, although evaluate
   provides for it, as soon as there is one glacier cell: nothing of it is written. *)
Theorem other_evaluation_fails :
  forall fuel cfg c sw sv sd arrivals data restart stakes measured io col ny nx,
    rc_stake_evaluation cfg = true -> rc_eval_method cfg <> "rmse"%string ->
    schedule arrivals -> sizes data = Ok (ny, nx) -> some_glacier data ny nx ->
    run_cosipy cfg c (cell_work fuel cfg c sw sv sd data) arrivals data restart stakes
      measured io <> Ok col.
Proof. exact other_evaluation_fails_lem. Qed.
Print Assumptions other_evaluation_fails.

(** one stake with a missing measurement: the differences are 1 and -1, the statistic is 1 *)
Example rmse_case :
  exists cfg sd,
    rmse cfg ["stake1"%string] sd ([Some 2; Some 5; None], [None; None; None]) =
      Ok [("stake1"%string, Some 1)] /\
    dict_find (sd_columns sd) "stake1"%string = Some [Some 3; Some 4; Some 7].
Proof. exact rmse_case_lem. Qed.

(** C67.  The cartesian coordinates of every point lie on the WGS84 ellipsoid with the semi-axes a = 6378.137 km and
   b = a sqrt(1 - e2). *)
Theorem on_ellipsoid :
  forall lat lon x y z,
    transform_coordinates lat lon = (x, y, z) ->
    (x ^ 2 + y ^ 2) / 6378.137 ^ 2 + z ^ 2 / (6378.137 ^ 2 * (1 - 0.00669437999014)) = 1.
Proof. exact on_ellipsoid_lem. Qed.
Print Assumptions on_ellipsoid.

(** C67.  Two points other than the poles have the same coordinates only if they are the same point. *)
Theorem coordinates_injective :
  forall lat lon lat' lon',
    -90 < lat < 90 -> -90 < lat' < 90 -> -180 < lon <= 180 -> -180 < lon' <= 180 ->
    transform_coordinates lat lon = transform_coordinates lat' lon' -> lat = lat' /\ lon = lon'.
Proof. exact coordinates_injective_lem. Qed.
Print Assumptions coordinates_injective.

(** C67.  Packing into n bits: the smallest number goes to -2^(n-1), the largest one to 2^(n-1) - 1, and every number in
   between into that range, so nothing overflows. *)
Theorem packing :
  forall mn mx n s o,
    (1 <= n)%nat -> mn < mx -> compute_scale_and_offset mn mx n = Ok (s, o) ->
    0 < s /\ s * - 2 ^ (n - 1) + o = mn /\ s * (2 ^ (n - 1) - 1) + o = mx /\
    forall v, mn <= v <= mx -> - 2 ^ (n - 1) <= (v - o) / s <= 2 ^ (n - 1) - 1.
Proof. exact packing_lem. Qed.
Print Assumptions packing.

(** packing of [0, 255] into eight bits *)
Example packing_case :
  compute_scale_and_offset 0 255 8 = Ok (1, 128).
Proof. exact packing_case_lem. Qed.
