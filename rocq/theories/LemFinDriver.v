(** * File names, stakes and small functions of the driver *)
From Coq Require Import Ascii.
From Verif Require Import ModelPy ModelConstants ModelNode ModelGrid ModelSurface ModelInit
  ModelCore ModelConfig ModelIO ModelMain SpecIO LemPy LemDict LemIO LemIO2 LemIO3 LemIO4 LemIO5
  LemIO6 LemIO7 LemFinIO.
From Coq Require Import Permutation Sorted Rtrigo_def Rtrigo_calc Rtrigo1 Rtrigo_reg Lra.

(** ** File names *)

Lemma remove_hyphens_app a b : remove_hyphens (a ++ b) = (remove_hyphens a ++ remove_hyphens b)%string.
Proof.
  induction a as [|c a IH]; cbn; [reflexivity|]. destruct (Ascii.eqb c "-"); rewrite IH; reflexivity.
Qed.

Lemma remove_hyphens_none a : (forall i, String.get i a <> Some "-"%char) -> remove_hyphens a = a.
Proof.
  induction a as [|c a IH]; intros H; cbn; [reflexivity|].
  destruct (Ascii.eqb_spec c "-") as [->|_].
  - exfalso. exact (H 0%nat eq_refl).
  - f_equal. apply IH. intros i. exact (H (S i)).
Qed.

Lemma substring_app a b : substring 0 (String.length a) (a ++ b) = a.
Proof. induction a as [|c a IH]; cbn; [destruct b; reflexivity|]. rewrite IH. reflexivity. Qed.

Lemma length_append a b : String.length (a ++ b) = (String.length a + String.length b)%nat.
Proof. induction a; cbn; auto. Qed.

Lemma append_assoc_s a b c : ((a ++ b) ++ c = a ++ (b ++ c))%string.
Proof. induction a as [|x a IH]; cbn; [reflexivity|]. rewrite IH. reflexivity. Qed.

Lemma label_iso s rest y m d : iso_text s rest y m d ->
  get_timestamp_label (VStr s) = Ok (y ++ m ++ d)%string.
Proof.
  intros (-> & Ly & Lm & Ld & Hy & Hm & Hd). unfold get_timestamp_label. f_equal.
  replace (y ++ "-" ++ m ++ "-" ++ d ++ rest)%string
    with ((y ++ "-" ++ m ++ "-" ++ d) ++ rest)%string by (rewrite !append_assoc_s; reflexivity).
  replace 10%nat with (String.length (y ++ "-" ++ m ++ "-" ++ d)).
  - rewrite substring_app. rewrite !remove_hyphens_app. cbn [remove_hyphens Ascii.eqb].
    rewrite (remove_hyphens_none y), (remove_hyphens_none m), (remove_hyphens_none d) by assumption.
    reflexivity.
  - rewrite !length_append. cbn [String.length]. lia.
Qed.

Lemma append_split a a' b b' : String.length a = String.length a' ->
  (a ++ b = a' ++ b')%string -> a = a' /\ b = b'.
Proof.
  revert a'; induction a as [|c a IH]; intros [|c' a'] L E; try discriminate; [auto|].
  cbn in *. injection E as -> E. injection L as L. destruct (IH a' L E) as [-> ->]. auto.
Qed.

(*@ C65 The name of the output file is the prefix and the two dates; the times of the day are not in it. *)
Lemma output_name_lem :
  forall cfg s1 r1 y1 m1 d1 s2 r2 y2 m2 d2,
    rc_time_start cfg = VStr s1 -> rc_time_end cfg = VStr s2 ->
    iso_text s1 r1 y1 m1 d1 -> iso_text s2 r2 y2 m2 d2 ->
    set_output_netcdf_path cfg =
      Ok (rc_output_prefix cfg ++ "_" ++ y1 ++ m1 ++ d1 ++ "-" ++ y2 ++ m2 ++ d2 ++ ".nc")%string.
Proof.
  intros cfg s1 r1 y1 m1 d1 s2 r2 y2 m2 d2 E1 E2 I1 I2.
  unfold set_output_netcdf_path. rewrite E1, E2, (label_iso _ _ _ _ _ I1), (label_iso _ _ _ _ _ I2).
  cbn [bind]. rewrite !append_assoc_s. reflexivity.
Qed.

(*@ C65 A start or an end that is not a text, such as a date of the TOML file, has no name: TypeError. *)
Lemma output_name_refused_lem :
  forall cfg, (forall s, rc_time_start cfg <> VStr s) \/ (forall s, rc_time_end cfg <> VStr s) ->
    set_output_netcdf_path cfg = Err TypeError.
Proof.
  intros cfg H.
  assert (L : forall v, get_timestamp_label v = Err TypeError \/ exists s t, v = VStr s /\ get_timestamp_label v = Ok t)
    by (intros v; destruct v; auto; right; eexists _, _; split; reflexivity).
  unfold set_output_netcdf_path.
  destruct (L (rc_time_start cfg)) as [->|(s & t & E & ->)]; [reflexivity|]. cbn [bind].
  destruct (L (rc_time_end cfg)) as [->|(s' & t' & E' & ->)]; [reflexivity|].
  destruct H as [H|H]; exfalso; eapply H; eassumption.
Qed.

Lemma append_inj_l p a b : (p ++ a = p ++ b)%string -> a = b.
Proof. induction p as [|c p IH]; cbn; intros E; [exact E|]. injection E as E. auto. Qed.

(*@ C65 Two runs with the same prefix write to the same file if and only if they start on the same day
   and end on the same day. *)
Lemma output_name_collision_lem :
  forall cfg cfg' s1 r1 y1 m1 d1 s2 r2 y2 m2 d2 s1' r1' y1' m1' d1' s2' r2' y2' m2' d2',
    rc_output_prefix cfg' = rc_output_prefix cfg ->
    rc_time_start cfg = VStr s1 -> rc_time_end cfg = VStr s2 ->
    rc_time_start cfg' = VStr s1' -> rc_time_end cfg' = VStr s2' ->
    iso_text s1 r1 y1 m1 d1 -> iso_text s2 r2 y2 m2 d2 ->
    iso_text s1' r1' y1' m1' d1' -> iso_text s2' r2' y2' m2' d2' ->
    (set_output_netcdf_path cfg = set_output_netcdf_path cfg' <->
     (y1, m1, d1) = (y1', m1', d1') /\ (y2, m2, d2) = (y2', m2', d2')).
Proof.
  intros cfg cfg' s1 r1 y1 m1 d1 s2 r2 y2 m2 d2 s1' r1' y1' m1' d1' s2' r2' y2' m2' d2'
    P E1 E2 E1' E2' I1 I2 I1' I2'.
  rewrite (output_name_lem cfg _ _ _ _ _ _ _ _ _ _ E1 E2 I1 I2),
    (output_name_lem cfg' _ _ _ _ _ _ _ _ _ _ E1' E2' I1' I2'), P.
  destruct I1 as (_ & L1 & L2 & L3 & _), I2 as (_ & L4 & L5 & L6 & _),
    I1' as (_ & L1' & L2' & L3' & _), I2' as (_ & L4' & L5' & L6' & _).
  split.
  - intros E. injection E as E. apply append_inj_l in E. injection E as E.
    apply append_split in E as [-> E]; [|congruence].
    apply append_split in E as [-> E]; [|congruence].
    apply append_split in E as [-> E]; [|congruence].
    injection E as E.
    apply append_split in E as [-> E]; [|congruence].
    apply append_split in E as [-> E]; [|congruence].
    apply append_split in E as [-> E]; [|congruence]. auto.
  - intros [E E']. injection E as -> -> ->. injection E' as -> -> ->. reflexivity.
Qed.

(*@ex the names of the shipped configuration; a run of the same days that starts later overwrites it *)
Lemma output_name_case_lem :
  exists cfg cfg',
    rc_time_start cfg = VStr "2009-01-01T06:00" /\ rc_time_start cfg' = VStr "2009-01-01T18:00" /\
    set_output_netcdf_path cfg = Ok "Zhadang_ERA5_20090101-20090110.nc"%string /\
    set_output_netcdf_path cfg' = set_output_netcdf_path cfg /\
    iso_text "2009-01-01T06:00" "T06:00" "2009" "01" "01".
Proof.
  exists (mkRunConfig "" "" "" false true false "lat" "lon" false 0 0 0 0 false
            "rmse" "mb" (VStr "2009-01-01T06:00") (VStr "2009-01-10T00:00") "Zhadang_ERA5").
  exists (mkRunConfig "" "" "" false true false "lat" "lon" false 0 0 0 0 false
            "rmse" "mb" (VStr "2009-01-01T18:00") (VStr "2009-01-10T00:00") "Zhadang_ERA5").
  repeat (split; [reflexivity|]).
  repeat split; intros i; do 5 (destruct i as [|i]; [discriminate|]); destruct i; discriminate.
Qed.

(** ** Stakes *)

Lemma squared_common obs sim :
  squared_differences obs sim = map (fun p => (fst p - snd p) ^ 2) (common obs sim).
Proof.
  unfold common. revert sim; induction obs as [|[a|] obs IH]; intros [|[b|] sim];
    cbn [squared_differences combine flat_map app map fst snd]; try reflexivity;
    try (f_equal; apply IH); apply IH.
Qed.

Lemma sum_squares_nonneg {A} (f : A -> R) l : 0 <= sum_list (map (fun p => f p ^ 2) l).
Proof.
  induction l as [|a l IH]; [unfold sum_list; cbn; lra|]. cbn [map]. rewrite sum_list_cons.
  pose proof (pow2_ge_0 (f a)). lra.
Qed.

Lemma sum_squares_zero {A} (f : A -> R) l :
  sum_list (map (fun p => f p ^ 2) l) = 0 <-> (forall a, In a l -> f a = 0).
Proof.
  induction l as [|a l IH]; [split; [intros _ a []|reflexivity]|]. cbn [map]. rewrite sum_list_cons.
  pose proof (sum_squares_nonneg f l). pose proof (pow2_ge_0 (f a)). split.
  - intros E b [<-|I]; [|apply IH; [lra|exact I]]. assert (f a ^ 2 = 0) by lra.
    apply Rsqr_0_uniq. unfold Rsqr. lra.
  - intros E. rewrite (E a (or_introl eq_refl)). destruct IH as [_ ->]; [lra|]. intros b I. apply E. right; exact I.
Qed.

(*@ C66 For every stake of the cell the statistic is the root mean square of the differences of measured and
   simulated numbers at the times where both are there: never negative, zero exactly for a perfect match,
   NaN exactly if no time has both. *)
Lemma rmse_root_mean_square_lem :
  forall cfg names sd mb snowheight stat,
    rmse cfg names sd (mb, snowheight) = Ok stat ->
    map fst stat = names /\
    exists sim, (rc_obs_type cfg = "mb"%string /\ sim = mb \/
                 rc_obs_type cfg = "snowheight"%string /\ sim = snowheight) /\
    forall name r, In (name, r) stat ->
      exists obs, dict_find (sd_columns sd) name = Some obs /\
        match r with
        | None => common obs sim = []
        | Some v =>
            common obs sim <> [] /\ 0 <= v /\
            v ^ 2 * INR (length (common obs sim)) =
              sum_list (map (fun p => (fst p - snd p) ^ 2) (common obs sim)) /\
            (v = 0 <-> forall a b, In (a, b) (common obs sim) -> a = b)
        end.
Proof.
  intros cfg names sd mb snowheight stat H. unfold rmse in H.
  apply bind_ok in H as (sim & E & H).
  apply map_res_forall2 in H.
  split.
  { clear E. induction H as [|n [k r] names stat E F IH]; [reflexivity|]. cbn.
    apply bind_ok in E as (obs & _ & E). injection E as <- <-. rewrite IH. reflexivity. }
  exists sim. split.
  { destruct (eqb_spec_s (rc_obs_type cfg) "mb"%string) as [e|_].
    - injection E as <-. auto.
    - destruct (eqb_spec_s (rc_obs_type cfg) "snowheight"%string) as [e|_]; [|discriminate].
      injection E as <-. auto. }
  clear E. intros name r I.
  destruct (forall2_right _ _ _ _ H I) as (n & _ & E). 
  apply bind_ok in E as (obs & E & E'). injection E' as -> <-. exists obs.
  split. { unfold dict_get in E. destruct (dict_find (sd_columns sd) name); [congruence|discriminate]. }
  rewrite squared_common. destruct (common obs sim) as [|p l] eqn:C; [reflexivity|].
  cbn [mean option_map map].
  change ((fst p - snd p) ^ 2 :: map (fun p => (fst p - snd p) ^ 2) l)
    with (map (fun p => (fst p - snd p) ^ 2) (p :: l)).
  rewrite map_length. set (q := p :: l). set (S := sum_list _).
  assert (HS : 0 <= S) by apply (sum_squares_nonneg (fun p => fst p - snd p)).
  assert (HN : 0 < INR (length q)) by (apply lt_0_INR; cbn; lia).
  assert (HD : 0 <= S / INR (length q)) by (apply Rmult_le_pos; [exact HS|left; apply Rinv_0_lt_compat; exact HN]).
  split; [discriminate|]. split; [apply sqrt_pos|]. split.
  - rewrite pow2_sqrt by exact HD. field. lra.
  - split.
    + intros Z0 a b Iab. apply sqrt_eq_0 in Z0; [|exact HD].
      assert (S0 : S = 0). { apply (f_equal (fun z => z * INR (length q))) in Z0.
        unfold Rdiv in Z0. rewrite Rmult_assoc, Rinv_l in Z0 by lra. lra. }
      pose proof (sum_squares_zero (fun p : R * R => fst p - snd p) q) as [G _].
      specialize (G S0 _ Iab). cbn in G. lra.
    + intros G. replace S with 0. { unfold Rdiv. rewrite Rmult_0_l. apply sqrt_0. }
      symmetry. apply (sum_squares_zero (fun p : R * R => fst p - snd p) q).
      intros [a b] Iab. cbn. rewrite (G a b Iab). lra.
Qed.

Lemma value_at_none t times vals : ~ In t times -> value_at t times vals = None.
Proof.
  revert vals; induction times as [|u times IH]; intros [|v vals] H; cbn; try reflexivity.
  rewrite IH by (intros I; apply H; right; exact I).
  destruct (Z.eqb_spec u t); [|reflexivity]. exfalso. apply H. left; assumption.
Qed.

Lemma value_at_step t times vals k v : NoDup times ->
  nth_error times k = Some t -> nth_error vals k = Some v -> value_at t times vals = Some v.
Proof.
  revert vals k; induction times as [|u times IH]; intros vals k N Ht Hv; [destruct k; discriminate|].
  inversion N as [|? ? N1 N2]; subst. destruct k as [|k]; destruct vals as [|w vals]; cbn in *; try discriminate.
  - injection Ht as ->. injection Hv as ->. rewrite value_at_none by exact N1.
    rewrite Z.eqb_refl. reflexivity.
  - rewrite (IH _ _ N2 Ht Hv). reflexivity.
Qed.

Lemma cumsum_from_nth_error l : forall acc k v, nth_error (cumsum_from acc l) k = Some v ->
  v = acc + sum_list (firstn (S k) l).
Proof.
  induction l as [|x l IH]; intros acc [|k] v H; cbn in H; try discriminate.
  - injection H as <-. cbn [firstn]. rewrite sum_list_cons. unfold sum_list. cbn. lra.
  - apply IH in H. subst v. change (firstn (S (S k)) (x :: l)) with (x :: firstn (S k) l).
    rewrite sum_list_cons. lra.
Qed.

Lemma cumsum_from_length_d l : forall acc, length (cumsum_from acc l) = length l.
Proof. induction l as [|x l IH]; intros acc; cbn; [reflexivity|]. rewrite IH. reflexivity. Qed.

(*@ C66 The simulated number at a stake measurement: the sum of the mass balance up to and including the step
   whose time is the time of the measurement, and the snow height of that step; NaN if no step has that time. *)
Lemma stake_simulated_lem :
  forall names index times outs i t,
    names <> [] -> NoDup times -> nth_error index i = Some t ->
    (~ In t times ->
       nth_error (fst (stake_frame names index times outs)) i = Some None /\
       nth_error (snd (stake_frame names index times outs)) i = Some None) /\
    (forall k out, nth_error times k = Some t -> nth_error outs k = Some out ->
       nth_error (fst (stake_frame names index times outs)) i =
         Some (Some (sum_list (map o_MB (firstn (S k) outs)))) /\
       nth_error (snd (stake_frame names index times outs)) i = Some (Some (o_SNOWHEIGHT out))).
Proof.
  intros names index times outs i t Nn Nt Hi. destruct names as [|n names]; [congruence|].
  cbn [stake_frame fst snd]. rewrite !(map_nth_error _ _ _ Hi). split.
  - intros Ht. rewrite !value_at_none by exact Ht. auto.
  - intros k out Hk Ho. split.
    + assert (Hl : (k < length (cumsum (map o_MB outs)))%nat).
      { unfold cumsum. rewrite cumsum_from_length_d, map_length. apply nth_error_Some. congruence. }
      apply nth_error_Some in Hl. destruct (nth_error (cumsum (map o_MB outs)) k) as [v|] eqn:E; [|congruence].
      rewrite (value_at_step _ _ _ _ _ Nt Hk E). apply cumsum_from_nth_error in E.
      subst v. rewrite Rplus_0_l, firstn_map. reflexivity.
    + rewrite (value_at_step _ _ _ k (o_SNOWHEIGHT out) Nt Hk); [reflexivity|].
      apply map_nth_error. exact Ho.
Qed.

Lemma collect_first cfg work j l acc col : collect cfg work (j :: l) acc = Ok col ->
  exists r acc', work j = Ok r /\ store_result cfg r acc = Ok acc'.
Proof.
  cbn [collect]. intros H. apply bind_ok in H as (r & E & H). apply bind_ok in H as (acc' & E' & _). eauto.
Qed.

(*@ C66 A run with stake evaluation and an evaluation method other than rmse never completes, although evaluate
   provides for it, as soon as there is one glacier cell: nothing of it is written. *)
Lemma other_evaluation_fails_lem :
  forall fuel cfg c sw sv sd arrivals data restart stakes measured io col ny nx,
    rc_stake_evaluation cfg = true -> rc_eval_method cfg <> "rmse"%string ->
    schedule arrivals -> sizes data = Ok (ny, nx) -> some_glacier data ny nx ->
    run_cosipy cfg c (cell_work fuel cfg c sw sv sd data) arrivals data restart stakes
      measured io <> Ok col.
Proof.
  intros fuel cfg c sw sv sd arrivals data restart stakes measured io col ny nx
    Se Em Sc Sz Gl H.
  apply run_parts in H as (ny' & nx' & jobs & E1 & E2 & H). rewrite Sz in E1. injection E1 as <- <-.
  destruct (submit_ok _ _ _ _ _ _ _ E2) as (_ & G & F).
  destruct Gl as (y & x & Gl). apply G in Gl.
  pose proof (Sc jobs) as P. destruct (arrivals jobs) as [|j l].
  { apply Permutation_sym, Permutation_nil in P. subst jobs. destruct Gl. }
  apply collect_first in H as (r & acc' & Ew & Es).
  assert (Ij : In j jobs) by (apply (Permutation_in j (Permutation_sym P)); left; reflexivity).
  rewrite Forall_forall in F. destruct (F _ Ij) as (_ & _ & F1 & _). rewrite Se in F1.
  unfold cell_work in Ew. rewrite F1 in Ew.
  apply bind_ok in Ew as (cell & _ & Ew). apply bind_ok in Ew as (dc & _ & Ew).
  apply bind_ok in Ew as ([[s outs] rs] & _ & Ew). destruct rs as [d|]; [|discriminate].
  apply bind_ok in Ew as ([[names stat] df] & E3 & Ew).
  unfold evaluate in E3. destruct (eqb_spec_s (rc_eval_method cfg) "rmse"%string) as [|_]; [contradiction|].
  cbn [bind] in E3. injection E3 as <- <- <-. injection Ew as <-.
  unfold store_result in Es.
  change (negb (length _ =? length unpack_names)%nat) with false in Es. cbv iota in Es.
  apply bind_ok in Es as (args & _ & Es). apply bind_ok in Es as (io1 & _ & Es).
  apply bind_ok in Es as (vy & _ & Es). apply bind_ok in Es as (y' & _ & Es).
  apply bind_ok in Es as (vx & _ & Es). apply bind_ok in Es as (x' & _ & Es).
  apply bind_ok in Es as (rs & _ & Es). apply bind_ok in Es as (d' & _ & Es).
  apply bind_ok in Es as (io2 & _ & Es). apply bind_ok in Es as (io3 & _ & Es).
  apply bind_ok in Es as (io4 & _ & Es). apply bind_ok in Es as ([st vals] & Es & _).
  unfold store_stakes in Es. rewrite Se in Es. discriminate.
Qed.

(*@ex one stake with a missing measurement: the differences are 1 and -1, the statistic is 1 *)
Lemma rmse_case_lem :
  exists cfg sd,
    rmse cfg ["stake1"%string] sd ([Some 2; Some 5; None], [None; None; None]) =
      Ok [("stake1"%string, Some 1)] /\
    dict_find (sd_columns sd) "stake1"%string = Some [Some 3; Some 4; Some 7].
Proof.
  exists (mkRunConfig "" "" "" false true false "lat" "lon" false 0 0 0 0 true
            "rmse" "mb" (VStr "") (VStr "") "").
  exists (mkStakeData [0; 1; 2]%Z [("stake1"%string, [Some 3; Some 4; Some 7])]).
  split; [|reflexivity]. unfold rmse. cbn. do 4 f_equal.
  unfold sum_list; cbn. replace (_ / _) with 1 by (cbn; lra). apply sqrt_1.
Qed.

(** ** Coordinates *)

Lemma e2_range s : -1 <= s <= 1 -> 0 < 1 - 0.00669437999014 * s ^ 2.
Proof. intros H. assert (s ^ 2 <= 1) by nra. nra. Qed.

(*@ C67 The cartesian coordinates of every point lie on the WGS84 ellipsoid with the semi-axes a = 6378.137 km and
   b = a sqrt(1 - e2). *)
Lemma on_ellipsoid_lem :
  forall lat lon x y z,
    transform_coordinates lat lon = (x, y, z) ->
    (x ^ 2 + y ^ 2) / 6378.137 ^ 2 + z ^ 2 / (6378.137 ^ 2 * (1 - 0.00669437999014)) = 1.
Proof.
  intros lat lon x y z H. unfold transform_coordinates in H.
  set (p := lat * PI / 180) in *. set (q := lon * PI / 180) in *.
  assert (Hp : 0 < 1 - 0.00669437999014 * sin p ^ 2) by (apply e2_range, SIN_bound).
  set (D := 1 - 0.00669437999014 * sin p ^ 2) in *.
  assert (HD : sqrt D ^ 2 = D) by (apply pow2_sqrt; lra).
  assert (HD0 : 0 < sqrt D) by (apply sqrt_lt_R0; exact Hp).
  set (A := 6378.137) in *. set (E := 0.00669437999014) in *.
  assert (HA : A <> 0) by (unfold A; lra). assert (HE : 1 - E <> 0) by (unfold E; lra).
  injection H as <- <- <-.
  pose proof (sin2_cos2 p) as S1. pose proof (sin2_cos2 q) as S2. unfold Rsqr in S1, S2.
  replace (((A / sqrt D * cos p * cos q) ^ 2 + (A / sqrt D * cos p * sin q) ^ 2) / A ^ 2 +
    (A / sqrt D * (1 - E) * sin p) ^ 2 / (A ^ 2 * (1 - E)))
    with ((cos p ^ 2 * (sin q * sin q + cos q * cos q) + (1 - E) * sin p ^ 2) / sqrt D ^ 2)
    by (field; repeat split; lra).
  rewrite S2, HD. replace (cos p ^ 2 * 1 + (1 - E) * sin p ^ 2) with D by (unfold D; lra).
  field. lra.
Qed.

Lemma sin_inj_lat a b : - (PI / 2) <= a <= PI / 2 -> - (PI / 2) <= b <= PI / 2 -> sin a = sin b -> a = b.
Proof.
  intros Ha Hb E. destruct (Rtotal_order a b) as [H|[H|H]]; [|exact H|].
  - pose proof (sin_increasing_1 a b). lra.
  - pose proof (sin_increasing_1 b a). lra.
Qed.

Lemma angle_inj a b : - PI < a <= PI -> - PI < b <= PI -> cos a = cos b -> sin a = sin b -> a = b.
Proof.
  intros Ha Hb C S.
  assert (E : cos (a - b) = 1).
  { rewrite cos_minus, C, S. pose proof (sin2_cos2 b). unfold Rsqr in *. lra. }
  assert (E2 : sin ((a - b) / 2) = 0).
  { replace (a - b) with (2 * ((a - b) / 2)) in E by field. rewrite cos_2a_sin in E.
    assert (sin ((a - b) / 2) * sin ((a - b) / 2) = 0) by lra.
    apply Rmult_integral in H as [H|H]; exact H. }
  pose proof PI_RGT_0.
  destruct (Rtotal_order ((a - b) / 2) 0) as [G|[G|G]].
  - exfalso. pose proof (sin_lt_0_var ((a - b) / 2)). lra.
  - lra.
  - exfalso. pose proof (sin_gt_0 ((a - b) / 2)). lra.
Qed.

(*@ C67 Two points other than the poles have the same coordinates only if they are the same point. *)
Lemma coordinates_injective_lem :
  forall lat lon lat' lon',
    -90 < lat < 90 -> -90 < lat' < 90 -> -180 < lon <= 180 -> -180 < lon' <= 180 ->
    transform_coordinates lat lon = transform_coordinates lat' lon' -> lat = lat' /\ lon = lon'.
Proof.
  intros lat lon lat' lon' H1 H2 H3 H4 H. unfold transform_coordinates in H.
  set (p := lat * PI / 180) in *. set (q := lon * PI / 180) in *.
  set (p' := lat' * PI / 180) in *. set (q' := lon' * PI / 180) in *.
  pose proof PI_RGT_0 as HPI.
  assert (Rp : - (PI / 2) < p < PI / 2) by (unfold p; nra).
  assert (Rp' : - (PI / 2) < p' < PI / 2) by (unfold p'; nra).
  assert (Rq : - PI < q <= PI) by (unfold q; nra).
  assert (Rq' : - PI < q' <= PI) by (unfold q'; nra).
  set (E := 0.00669437999014) in *. set (A := 6378.137) in *.
  assert (Hp : 0 < 1 - E * sin p ^ 2) by (apply e2_range, SIN_bound).
  assert (Hp' : 0 < 1 - E * sin p' ^ 2) by (apply e2_range, SIN_bound).
  assert (D0 : 0 < sqrt (1 - E * sin p ^ 2)) by (apply sqrt_lt_R0; exact Hp).
  assert (D0' : 0 < sqrt (1 - E * sin p' ^ 2)) by (apply sqrt_lt_R0; exact Hp').
  assert (D2 : sqrt (1 - E * sin p ^ 2) ^ 2 = 1 - E * sin p ^ 2) by (apply pow2_sqrt; lra).
  assert (D2' : sqrt (1 - E * sin p' ^ 2) ^ 2 = 1 - E * sin p' ^ 2) by (apply pow2_sqrt; lra).
  set (D := sqrt (1 - E * sin p ^ 2)) in *. set (D' := sqrt (1 - E * sin p' ^ 2)) in *.
  injection H as X Y Z.
  assert (HA : 0 < A) by (unfold A; lra). assert (HE : 0 < 1 - E) by (unfold E; lra).
  assert (Zs : sin p * D' = sin p' * D).
  { apply (f_equal (fun v => v * (D * D' / (A * (1 - E))))) in Z.
    replace (A / D * (1 - E) * sin p * (D * D' / (A * (1 - E)))) with (sin p * D') in Z by (field; lra).
    replace (A / D' * (1 - E) * sin p' * (D * D' / (A * (1 - E)))) with (sin p' * D) in Z by (field; lra).
    exact Z. }
  assert (Sq : sin p ^ 2 = sin p' ^ 2).
  { assert (G : sin p ^ 2 * D' ^ 2 = sin p' ^ 2 * D ^ 2).
    { replace (sin p ^ 2 * D' ^ 2) with ((sin p * D') ^ 2) by ring. rewrite Zs. ring. }
    rewrite D2, D2' in G. lra. }
  assert (Ss : sin p = sin p').
  { assert (D = D') by (unfold D, D'; rewrite Sq; reflexivity).
    rewrite <- H in Zs. apply Rmult_eq_reg_r in Zs; lra. }
  assert (Ep : p = p') by (apply sin_inj_lat; lra).
  assert (El : lat = lat') by (unfold p, p' in Ep; apply (Rmult_eq_reg_r (PI / 180)); lra).
  split; [exact El|].
  assert (DD : D = D') by (unfold D, D'; rewrite Ep; reflexivity).
  rewrite <- Ep, <- DD in X, Y.
  assert (Cp : 0 < cos p) by (apply cos_gt_0; lra).
  assert (F : 0 < A / D * cos p) by (apply Rmult_lt_0_compat; [apply Rdiv_lt_0_compat; lra|exact Cp]).
  apply Rmult_eq_reg_l in X; [|lra]. apply Rmult_eq_reg_l in Y; [|lra].
  assert (Eq : q = q') by (apply angle_inj; lra).
  unfold q, q' in Eq. apply (Rmult_eq_reg_r (PI / 180)); lra.
Qed.

(*@ C67 Packing into n bits: the smallest number goes to -2^(n-1), the largest one to 2^(n-1) - 1, and every number in
   between into that range, so nothing overflows. *)
Lemma packing_lem :
  forall mn mx n s o,
    (1 <= n)%nat -> mn < mx -> compute_scale_and_offset mn mx n = Ok (s, o) ->
    0 < s /\ s * - 2 ^ (n - 1) + o = mn /\ s * (2 ^ (n - 1) - 1) + o = mx /\
    forall v, mn <= v <= mx -> - 2 ^ (n - 1) <= (v - o) / s <= 2 ^ (n - 1) - 1.
Proof.
  intros mn mx n s o Hn Hm H. destruct n as [|n]; [lia|].
  unfold compute_scale_and_offset, fdiv in H.
  assert (P : 1 <= 2 ^ n) by (apply pow_R1_Rle; lra).
  assert (P2 : 2 ^ S n = 2 * 2 ^ n) by reflexivity.
  replace (S n - 1)%nat with n in * by lia.
  destruct (Req_EM_T (2 ^ S n - 1) 0) as [e|ne]; [exfalso; rewrite P2 in e; lra|].
  cbn [bind] in H. injection H as <- <-. rewrite P2 in *.
  assert (D : 0 < 2 * 2 ^ n - 1) by lra.
  set (t := 2 ^ n) in *. set (s := (mx - mn) / (2 * t - 1)).
  assert (Hs : 0 < s) by (apply Rdiv_lt_0_compat; lra).
  assert (Hst : s * (2 * t - 1) = mx - mn) by (unfold s; field; lra).
  split; [exact Hs|]. split; [lra|]. split; [lra|]. intros v Hv. split.
  - apply Rmult_le_reg_r with s; [exact Hs|]. unfold Rdiv. rewrite Rmult_assoc, Rinv_l by lra. lra.
  - apply Rmult_le_reg_r with s; [exact Hs|]. unfold Rdiv. rewrite Rmult_assoc, Rinv_l by lra. lra.
Qed.

(*@ex packing of [0, 255] into eight bits *)
Lemma packing_case_lem :
  compute_scale_and_offset 0 255 8 = Ok (1, 128).
Proof.
  unfold compute_scale_and_offset, fdiv. destruct (Req_EM_T (2 ^ 8 - 1) 0); [lra|].
  cbn [bind]. replace ((255 - 0) / (2 ^ 8 - 1)) with 1 by lra. f_equal. f_equal. cbn [Nat.sub]. lra.
Qed.
