From Verif Require Import ModelPy ModelConstants ModelNode ModelGrid ModelHeat ModelSurface ModelInit
  ModelCore ModelConfig ModelIO ModelMain ModelRadCor SpecIO SpecRadCor ModelAws ModelWrf SpecWrf.
From Verif Require Import LemPy LemDict LemIO LemIO4 LemIO5 LemShad LemShad2 LemShad3 LemShad4 LemShad5 LemAws LemAws2 LemAws5 LemWrf.
From Coq Require Import Ascii.

Lemma wrf_ok c cfg slope aspect w sd ed f chk : create_input c cfg slope aspect w sd ed = Ok (f, chk) ->
  let ds := select_period sd ed w in
  let found n d := exists u l, dict_find (cf_vars f) n = Some (mkWrfVariable d u l) in
  exists hgt lu_index z lu tq rh U2 rain rrr s0 sf DX DY,
    cf_time f = map strftime (w_Time ds) /\ py_get (w_XLAT ds) 0 = Ok (cf_lat f) /\ py_get (w_XLONG ds) 0 = Ok (cf_lon f) /\
    py_get (w_HGT ds) 0 = Ok hgt /\ py_get (w_LU_INDEX ds) 0 = Ok lu_index /\ dict_get cfg "hu"%string = Ok z /\ dict_get cfg "lu_class"%string = Ok lu /\
    zip_array pair (w_T2 ds) (w_Q2 ds) = Ok tq /\ zip_array (fun tq p => wrf_rh (fst tq) (snd tq) p) tq (w_PSFC ds) = Ok rh /\
    zip_array (fun v u => wrf_wind u v) (w_V10 ds) (w_U10 ds) = Ok U2 /\
    zip_array Rplus (w_RAINNC ds) (w_RAINC ds) = Ok rain /\
    increments (length (w_Time ds)) rain (map_array (fun _ => 0) (w_T2 ds)) = Ok rrr /\
    increments (length (w_Time ds)) (w_SNOWNC ds) (map_array (fun _ => 0) (w_T2 ds)) = Ok s0 /\
    wrf_snow c (w_T2 ds) U2 s0 = Ok sf /\ w_DX ds = Some DX /\ w_DY ds = Some DY /\ chk = wrf_checks (cf_vars f) /\
    found "HGT"%string (flat hgt) /\ found "LU_INDEX"%string (flat lu_index) /\ found "MASK"%string (flat (slab_map (wrf_mask lu) lu_index)) /\
    found "T2"%string (timed (w_T2 ds)) /\ found "RH2"%string (Timed rh) /\ found "U2"%string (timed U2) /\
    found "G"%string (timed (w_SWDOWN ds)) /\ found "LWin"%string (timed (w_GLW ds)) /\
    found "PRES"%string (timed (map_array (fun p => p / 100.0) (w_PSFC ds))) /\ found "RRR"%string (timed rrr) /\
    found "SNOWFALL"%string (timed sf) /\ found "SLOPE"%string (Flat (slope hgt DX DY)) /\ found "ASPECT"%string (Flat (aspect hgt DX DY)).
Proof.
  unfold create_input. cbv zeta. set (ds := select_period sd ed w). intros H.
  apply bind_ok in H as (lat & E1 & H). apply bind_ok in H as (lon & E2 & H). apply bind_ok in H as (hgt & E3 & H).
  apply bind_ok in H as (tq & E4 & H). apply bind_ok in H as (rh & E5 & H). apply bind_ok in H as (snowh & E6 & H).
  apply bind_ok in H as (snow & E7 & H). apply bind_ok in H as (snowc & E8 & H). apply bind_ok in H as (lu_index & E9 & H).
  apply bind_ok in H as (tsk & E10 & H). apply bind_ok in H as (z & E11 & H). apply bind_ok in H as (U2 & E12 & H).
  apply bind_ok in H as (lu & E13 & H). apply bind_ok in H as (rain & E14 & H). apply bind_ok in H as (rrr & E15 & H).
  apply bind_ok in H as (s0 & E16 & H). apply bind_ok in H as (sf & E17 & H).
  destruct (w_DX ds) as [DX|] eqn:EX; [|discriminate]. destruct (w_DY ds) as [DY|] eqn:EY; [|discriminate].
  inversion H as [[HF HC]]. clear H. exists hgt, lu_index, z, lu, tq, rh, U2, rain, rrr, s0, sf, DX, DY.
  cbn [cf_time cf_lat cf_lon cf_vars]. repeat (split; [first [assumption | reflexivity | do 2 eexists; reflexivity]|]).
  do 2 eexists; reflexivity.
Qed.

Lemma written_timed f n l k y x : (exists u s, dict_find (cf_vars f) n = Some (mkWrfVariable (timed l) u s)) ->
  written f n k y x = option_map (@Some R) (at_time l k y x).
Proof. intros (u & s & E). unfold written. rewrite E. apply at_time_map. Qed.
Lemma written_Timed f n l k y x : (exists u s, dict_find (cf_vars f) n = Some (mkWrfVariable (Timed l) u s)) ->
  written f n k y x = at_time l k y x.
Proof. intros (u & s & E). unfold written. rewrite E. reflexivity. Qed.
Lemma written_flat f n r y x : (exists u s, dict_find (cf_vars f) n = Some (mkWrfVariable (flat r) u s)) ->
  written_once f n y x = option_map (@Some R) (cell_at r y x).
Proof. intros (u & s & E). unfold written_once. rewrite E. apply cell_at_mapmap. Qed.

(** ** Sums *)
Lemma sum_telescopes (A r : nat -> R) n : (forall k, (0 < k < n)%nat -> r k = A k - A (k - 1)%nat) ->
  forall i m, (i + m < n)%nat -> sum_steps r (S i) m = A (i + m)%nat - A i.
Proof.
  intros H i m. revert i. induction m as [|m IH]; intros i L; unfold sum_steps; cbn [seq map fold_right].
  - rewrite Nat.add_0_r. lra.
  - fold (sum_steps r (S (S i)) m). rewrite (IH (S i)) by lia. rewrite (H (S i)) by lia.
    replace (S i - 1)%nat with i by lia. replace (S i + m)%nat with (i + S m)%nat by lia. lra.
Qed.

(** ** Texts *)
Lemma compare_cons a b s t : String.compare (String a s) (String b t) =
  match N.compare (N_of_ascii a) (N_of_ascii b) with Eq => String.compare s t | r => r end.
Proof. reflexivity. Qed.

Lemma digit_code n : N_of_ascii (digit n) = Z.to_N (48 + n mod 10).
Proof.
  unfold digit. apply N_ascii_embedding. pose proof (Z.mod_pos_bound n 10 ltac:(lia)). change 256%N with (Z.to_N 256). apply Z2N.inj_lt; lia.
Qed.
Lemma digit_compare a b : N.compare (N_of_ascii (digit a)) (N_of_ascii (digit b)) = Z.compare (a mod 10) (b mod 10).
Proof.
  rewrite !digit_code. pose proof (Z.mod_pos_bound a 10 ltac:(lia)). pose proof (Z.mod_pos_bound b 10 ltac:(lia)).
  rewrite Z2N.inj_compare by lia. apply Z.add_compare_mono_l.
Qed.

Lemma two_compare a b s t : (0 <= a <= 99)%Z -> (0 <= b <= 99)%Z ->
  String.compare (two_digits a s) (two_digits b t) = match Z.compare a b with Eq => String.compare s t | r => r end.
Proof.
  intros HA HB. unfold two_digits. rewrite !compare_cons, !digit_compare.
  assert (a / 10 < 10)%Z by (apply Z.div_lt_upper_bound; lia). assert (b / 10 < 10)%Z by (apply Z.div_lt_upper_bound; lia).
  assert (0 <= a / 10)%Z by (apply Z.div_pos; lia). assert (0 <= b / 10)%Z by (apply Z.div_pos; lia).
  rewrite !(Z.mod_small (_ / 10)) by lia. pose proof (Z.div_mod a 10 ltac:(lia)). pose proof (Z.div_mod b 10 ltac:(lia)).
  pose proof (Z.mod_pos_bound a 10 ltac:(lia)). pose proof (Z.mod_pos_bound b 10 ltac:(lia)).
  destruct (Z.compare_spec (a / 10) (b / 10)) as [E|E|E].
  - destruct (Z.compare_spec (a mod 10) (b mod 10)), (Z.compare_spec a b); try reflexivity; lia.
  - destruct (Z.compare_spec a b); try reflexivity; lia.
  - destruct (Z.compare_spec a b); try reflexivity; lia.
Qed.

Lemma two_mod a s : two_digits (a mod 100) s = two_digits a s.
Proof.
  assert (E1 : ((a mod 100) mod 10 = a mod 10)%Z).
  { rewrite (Z.mod_eq a 100) by lia. replace (a - 100 * (a / 100))%Z with (a + (- (10 * (a / 100))) * 10)%Z by ring. apply Z.mod_add. lia. }
  assert (E2 : ((a mod 100 / 10) mod 10 = (a / 10) mod 10)%Z).
  { rewrite (Z.mod_eq a 100) by lia. replace (a - 100 * (a / 100))%Z with (a + (- (10 * (a / 100))) * 10)%Z by ring.
    rewrite Z.div_add by lia. replace (a / 10 + - (10 * (a / 100)))%Z with (a / 10 + (- (a / 100)) * 10)%Z by ring. apply Z.mod_add. lia. }
  unfold two_digits, digit. rewrite E1, E2. reflexivity.
Qed.

Lemma four_compare a b s t : (0 <= a <= 9999)%Z -> (0 <= b <= 9999)%Z ->
  String.compare (four_digits a s) (four_digits b t) = match Z.compare a b with Eq => String.compare s t | r => r end.
Proof.
  intros HA HB. unfold four_digits. rewrite <- (two_mod a), <- (two_mod b).
  pose proof (Z.div_mod a 100 ltac:(lia)). pose proof (Z.div_mod b 100 ltac:(lia)).
  pose proof (Z.mod_pos_bound a 100 ltac:(lia)). pose proof (Z.mod_pos_bound b 100 ltac:(lia)).
  assert (a / 100 < 100)%Z by (apply Z.div_lt_upper_bound; lia). assert (b / 100 < 100)%Z by (apply Z.div_lt_upper_bound; lia).
  assert (0 <= a / 100)%Z by (apply Z.div_pos; lia). assert (0 <= b / 100)%Z by (apply Z.div_pos; lia).
  rewrite two_compare by lia. destruct (Z.compare_spec (a / 100) (b / 100)) as [E|E|E].
  - rewrite two_compare by lia. destruct (Z.compare_spec (a mod 100) (b mod 100)), (Z.compare_spec a b); try reflexivity; lia.
  - destruct (Z.compare_spec a b); try reflexivity; lia.
  - destruct (Z.compare_spec a b); try reflexivity; lia.
Qed.

Lemma minus_digit a s t : String.compare (String "-" s) (two_digits a t) = Lt.
Proof.
  unfold two_digits. rewrite compare_cons, digit_code. pose proof (Z.mod_pos_bound (a / 10) 10 ltac:(lia)).
  change (N_of_ascii "-") with (Z.to_N 45). rewrite Z2N.inj_compare by lia. destruct (Z.compare_spec 45 (48 + (a / 10) mod 10)); try reflexivity; lia.
Qed.
Lemma digit_minus a s t : String.compare (two_digits a t) (String "-" s) = Gt.
Proof.
  unfold two_digits. rewrite compare_cons, digit_code. pose proof (Z.mod_pos_bound (a / 10) 10 ltac:(lia)).
  change (N_of_ascii "-") with (Z.to_N 45). rewrite Z2N.inj_compare by lia. destruct (Z.compare_spec (48 + (a / 10) mod 10) 45); try reflexivity; lia.
Qed.
Lemma same_cons a s t : String.compare (String a s) (String a t) = String.compare s t.
Proof. rewrite compare_cons, N.compare_refl. reflexivity. Qed.

(** ** Wind *)
Lemma log_wind_facts u v : 0 <= log_wind u v <= sqrt (u * u + v * v) /\ (log_wind u v = 0 <-> u = 0 /\ v = 0).
Proof.
  assert (L1 : 0 < ln 500) by (rewrite <- ln_1; apply ln_increasing; lra). assert (L2 : ln 500 < ln 2500) by (apply ln_increasing; lra).
  assert (Q : 0 < ln 500 / ln 2500) by (apply Rdiv_lt_0_compat; lra).
  assert (Q1 : ln 500 / ln 2500 <= 1) by (apply Rmult_le_reg_r with (ln 2500); [lra|]; unfold Rdiv; rewrite Rmult_assoc, Rinv_l by lra; lra).
  pose proof (sqrt_pos (u * u + v * v)) as SP. unfold log_wind. split; [split; [apply Rmult_le_pos; lra|]|].
  - rewrite <- (Rmult_1_r (sqrt (u * u + v * v))) at 2. apply Rmult_le_compat_l; lra.
  - split.
    + intros E. apply Rmult_integral in E. destruct E as [E|E]; [|lra]. apply sqrt_eq_0 in E; [|nra]. split; nra.
    + intros [-> ->]. rewrite Rmult_0_l, Rplus_0_l, sqrt_0. ring.
Qed.

Lemma pick_map_filter {A} (f : A -> bool) l : pick (map f l) l = filter f l.
Proof. induction l as [|a l IH]; [reflexivity|]. cbn. destruct (f a); cbn; rewrite IH; reflexivity. Qed.
Lemma filter_false {A} (f : A -> bool) l : (forall a, In a l -> f a = false) -> filter f l = [].
Proof. induction l as [|a l IH]; intros H; [reflexivity|]. cbn. rewrite H by (left; reflexivity). apply IH. intros b B. apply H. right. exact B. Qed.
