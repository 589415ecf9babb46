(** * Elementwise operations and tables of rasters *)
From Verif Require Import ModelPy ModelConstants ModelNode ModelGrid ModelHeat ModelSurface ModelInit
  ModelCore ModelConfig ModelIO ModelMain ModelRadCor Spec SpecIO SpecRadCor LemPy LemGridBase LemDict
  LemIO LemIO5 LemSim LemHeat LemSurface LemRadCor LemShad LemShad2 LemShad3 LemShad4.

Lemma mapi_res_nth {A B} (f : Z -> A -> res B) l : forall i ys, mapi_res i f l = Ok ys ->
  forall k, match nth_error l k with
            | Some v => exists w, f (i + Z.of_nat k)%Z v = Ok w /\ nth_error ys k = Some w
            | None => nth_error ys k = None
            end.
Proof.
  induction l as [|a l IH]; intros i ys H k; cbn [mapi_res] in H.
  - injection H as <-. destruct k; reflexivity.
  - apply bind_ok in H as (y & E1 & H). apply bind_ok in H as (t & E2 & H). injection H as <-.
    destruct k as [|k]; cbn [nth_error].
    + exists y. split; [|reflexivity]. replace (i + Z.of_nat 0)%Z with i by lia. exact E1.
    + specialize (IH _ _ E2 k). replace (i + Z.of_nat (S k))%Z with (i + 1 + Z.of_nat k)%Z by lia. exact IH.
Qed.

Lemma mapi_res_length {A B} (f : Z -> A -> res B) l : forall i ys, mapi_res i f l = Ok ys -> length ys = length l.
Proof.
  induction l as [|a l IH]; intros i ys H; cbn [mapi_res] in H.
  - injection H as <-. reflexivity.
  - apply bind_ok in H as (y & E1 & H). apply bind_ok in H as (t & E2 & H). injection H as <-.
    cbn. f_equal. eapply IH; exact E2.
Qed.

Lemma raster_map_at {A B} (f : Z -> Z -> A -> res B) a b y x : raster_map f a = Ok b ->
  match cell_at a y x with
  | Some v => exists w, f y x v = Ok w /\ cell_at b y x = Some w
  | None => cell_at b y x = None
  end.
Proof.
  intros H. unfold cell_at. destruct (Z.leb_spec 0 y), (Z.leb_spec 0 x); cbn [andb]; try reflexivity.
  unfold raster_map in H. pose proof (mapi_res_nth _ _ _ _ H (Z.to_nat y)) as N.
  destruct (nth_error a (Z.to_nat y)) as [row|]; [|rewrite N; reflexivity].
  destruct N as (row' & N1 & ->). pose proof (mapi_res_nth _ _ _ _ N1 (Z.to_nat x)) as M.
  rewrite !Z2Nat.id in * by assumption. exact M.
Qed.

Lemma mapi_res_ok {A B} (f : Z -> A -> res B) l : forall i,
  (forall k v, nth_error l k = Some v -> exists w, f (i + Z.of_nat k)%Z v = Ok w) -> exists ys, mapi_res i f l = Ok ys.
Proof.
  induction l as [|a l IH]; intros i H; cbn [mapi_res]; [eauto|].
  destruct (H 0%nat a eq_refl) as (w & E). replace (i + Z.of_nat 0)%Z with i in E by lia. rewrite E. cbn [bind].
  destruct (IH (i + 1)%Z) as (ys & ->).
  - intros k v Hk. destruct (H (S k) v Hk) as (w' & E'). exists w'. rewrite <- E'. f_equal. lia.
  - cbn [bind]. eauto.
Qed.

Lemma raster_map_ok {A B} (f : Z -> Z -> A -> res B) a :
  (forall y x v, cell_at a y x = Some v -> exists w, f y x v = Ok w) -> exists b, raster_map f a = Ok b.
Proof.
  intros H. unfold raster_map. apply mapi_res_ok. intros k row Hk. apply mapi_res_ok. intros j v Hj.
  apply H. unfold cell_at. destruct (Z.leb_spec 0 (0 + Z.of_nat k)); [|lia]. destruct (Z.leb_spec 0 (0 + Z.of_nat j)); [|lia].
  cbn [andb]. replace (Z.to_nat (0 + Z.of_nat k)) with k by lia. replace (Z.to_nat (0 + Z.of_nat j)) with j by lia.
  rewrite Hk. exact Hj.
Qed.

Lemma raster_map_sized {A B} (f : Z -> Z -> A -> res B) a b ny nx : raster_map f a = Ok b ->
  sized a ny nx -> sized b ny nx.
Proof.
  intros H [L F]. unfold raster_map in H. split; [rewrite (mapi_res_length _ _ _ _ H); exact L|].
  apply Forall_forall. intros row I. apply In_nth_error in I as (k & Ek).
  pose proof (mapi_res_nth _ _ _ _ H k) as N. destruct (nth_error a k) as [row0|] eqn:E0; [|congruence].
  destruct N as (row' & N1 & N2). rewrite Ek in N2. injection N2 as <-. rewrite (mapi_res_length _ _ _ _ N1).
  rewrite Forall_forall in F. apply F. eapply nth_error_In; exact E0.
Qed.

(** ** Loops over lists *)

Lemma for_each_app {A T} (body : A -> T -> res T) l1 l2 s :
  for_each (l1 ++ l2) body s = (t <- for_each l1 body s ;; for_each l2 body t).
Proof. revert s. induction l1 as [|a l IH]; intros s; cbn; [reflexivity|]. destruct (body a s); cbn; auto. Qed.

Lemma for_each_ok {A T} (I : T -> Prop) (body : A -> T -> res T) l : forall s, I s ->
  (forall a s, In a l -> I s -> exists s', body a s = Ok s' /\ I s') -> exists s', for_each l body s = Ok s' /\ I s'.
Proof.
  induction l as [|a l IH]; intros s Hs H; cbn; [eauto|].
  destruct (H a s (or_introl eq_refl) Hs) as (s' & -> & Hs'). cbn [bind]. apply IH; [exact Hs'|].
  intros b t Ib. apply H. right. exact Ib.
Qed.

(** a loop that adds 0 or 1 counts *)
Lemma for_each_count {A T} (P : A -> Prop) (val : T -> option R) (body : A -> T -> res T) l : NoDup l ->
  forall s s' v, for_each l body s = Ok s' -> val s = Some v ->
  (forall a s s' v, In a l -> body a s = Ok s' -> val s = Some v ->
     (P a /\ val s' = Some (v + 1)) \/ (~ P a /\ val s' = Some v)) ->
  exists vis, NoDup vis /\ (forall a, In a vis <-> In a l /\ P a) /\ val s' = Some (v + INR (length vis)).
Proof.
  intros ND. induction ND as [|a l Na ND IH]; intros s s' v H Hv B; cbn [for_each] in H.
  - injection H as <-. exists []. split; [constructor|]. split; [intros; cbn; tauto|]. rewrite Hv. f_equal. cbn. ring.
  - apply bind_ok in H as (t & E & H).
    destruct (B a s t v (or_introl eq_refl) E Hv) as [[Pa Ht]|[Pa Ht]].
    + destruct (IH t s' (v + 1) H Ht) as (vis & N & M & K). { intros b r r' w Ib. apply B. right. exact Ib. }
      exists (a :: vis). split; [constructor; [|exact N]; rewrite M; tauto|]. split.
      * intros b. cbn [In]. rewrite M. split; [intros [<-|[? ?]]; auto|intros [[<-|?] ?]; auto].
      * rewrite K. f_equal. cbn [length]. rewrite S_INR. ring.
    + destruct (IH t s' v H Ht) as (vis & N & M & K). { intros b r r' w Ib. apply B. right. exact Ib. }
      exists vis. split; [exact N|]. split; [|exact K].
      intros b. cbn [In]. rewrite M. split; [tauto|intros [[<-|?] ?]; tauto].
Qed.

(** nested *)
Lemma for_each_nested {A B T} (body : A -> B -> T -> res T) la lb s :
  for_each la (fun a => for_each lb (body a)) s
  = for_each (list_prod la lb) (fun p => body (fst p) (snd p)) s.
Proof.
  revert s. induction la as [|a la IH]; intros s; cbn [for_each list_prod]; [reflexivity|].
  rewrite for_each_app. assert (E: forall l s, for_each l (body a) s
    = for_each (map (fun y => (a, y)) l) (fun p => body (fst p) (snd p)) s).
  { intros l; induction l as [|b l IHl]; intros t; cbn; [reflexivity|]. destruct (body a b t); cbn; auto. }
  rewrite <- E. destruct (for_each lb (body a) s); cbn [bind]; [apply IH|reflexivity].
Qed.

Lemma nodup_app {A} (l m : list A) : NoDup l -> NoDup m -> (forall a, In a l -> ~ In a m) -> NoDup (l ++ m).
Proof.
  intros Nl Nm H. induction Nl as [|a l Ha Nl IH]; cbn; [exact Nm|]. constructor.
  - rewrite in_app_iff. intros [I|I]; [contradiction|]. apply (H a); [left; reflexivity|exact I].
  - apply IH. intros b Ib. apply H. right. exact Ib.
Qed.

Lemma nodup_map_inj {A B} (f : A -> B) l : (forall x y, f x = f y -> x = y) -> NoDup l -> NoDup (map f l).
Proof.
  intros Hf N. induction N as [|a l Ha N IH]; cbn; constructor; auto.
  rewrite in_map_iff. intros (b & E & I). apply Hf in E. subst. contradiction.
Qed.

Lemma nodup_prod {A B} (la : list A) (lb : list B) : NoDup la -> NoDup lb -> NoDup (list_prod la lb).
Proof.
  intros Na Nb. induction Na as [|a la Ha Na IH]; cbn; [constructor|]. apply nodup_app.
  - apply nodup_map_inj; [|exact Nb]. intros x y E. congruence.
  - exact IH.
  - intros [x y] I J. apply in_map_iff in I as (b & E & _). injection E as <- <-.
    apply in_prod_iff in J as [J _]. contradiction.
Qed.

(** ** The sun of the shading table *)

Lemma sun_unit l d w : dot (sun l d w) (sun l d w) = 1.
Proof.
  unfold sun, dot. pose proof (trig1 l). pose proof (trig1 d). pose proof (trig1 w).
  set (a := sin l) in *. set (b := cos l) in *. set (c := sin d) in *. set (e := cos d) in *.
  set (k := cos w) in *. set (m := sin w) in *.
  replace (e * m * (e * m) + (b * c - a * e * k) * (b * c - a * e * k) + (a * c + b * e * k) * (a * c + b * e * k))
    with (e * e * (m * m) + (a * a + b * b) * (c * c + e * e * (k * k))) by ring.
  rewrite H. replace (e * e * (m * m) + 1 * (c * c + e * e * (k * k))) with (c * c + e * e * (m * m + k * k)) by ring.
  rewrite H1. lra.
Qed.

Lemma normal_unit s a : dot (normal s a) (normal s a) = 1.
Proof.
  unfold normal, dot. pose proof (trig1 s). pose proof (trig1 a).
  set (c := sin a) in *. set (d := cos a) in *. set (p := sin s) in *. set (q := cos s) in *.
  replace (p * c * (p * c) + p * d * (p * d) + q * q) with (p * p * (c * c + d * d) + q * q) by ring.
  rewrite H0. lra.
Qed.

Lemma shad_sun_exact lat dec tcorr TCART hod :
  let l := radians lat in
  let w := radians (180 + 15 / 2 - hod * 15 - tcorr + TCART) in
  let U := sin l * sin dec + cos l * cos dec * cos w in
  let N := cos l * sin dec - sin l * cos dec * cos w in
  let h := asin U in
  shad_sun lat dec tcorr TCART hod =
  (if Req_EM_T (cos h) 0 then Err ZeroDivisionError
   else if Req_EM_T (cos l) 0 then Err ZeroDivisionError
   else Ok (U, degrees h, 180 - (if Rltb 0 (180 + 15 / 2 - hod * 15 - tcorr + TCART)
                                  then degrees (acos (- N / cos h)) else degrees (acos (- N / cos h)) * -1))).
Proof.
  intros l w U N h. unfold shad_sun. cbv zeta.
  change (lat * PI / 180) with l.
  change ((180 + 15 / 2 - hod * 15 - tcorr + TCART) * PI / 180) with w.
  replace (sin dec * sin l + cos dec * cos l * cos w) with U by (unfold U; ring).
  rewrite py_asin_ok by apply elevation_bound. cbn [bind]. fold h.
  unfold fdiv. destruct (Req_EM_T (cos h) 0) as [C|C]; [reflexivity|]. cbn [bind].
  destruct (Req_EM_T (cos l) 0) as [L|L]; [reflexivity|]. cbn [bind].
  replace (U * sin l - sin dec) with (- cos l * N).
  2:{ unfold U, N. rewrite <- azimuth_argument. ring. }
  replace (- cos l * N / cos h / cos l) with (- N / cos h) by (field; auto).
  assert (Hc: cos h = sqrt (1 - U²)) by (unfold h; rewrite cos_asin; [reflexivity|apply elevation_bound]).
  assert (Cp: 0 < cos h).
  { destruct (sqrt_pos (1 - U²)) as [P|P]; [rewrite Hc; exact P|exfalso; apply C; rewrite Hc; auto]. }
  assert (Sq: cos h * cos h = 1 - U * U).
  { pose proof (trig1 h) as T. unfold h in T at 1 2. rewrite sin_asin in T by apply elevation_bound. lra. }
  assert (NN: N * N <= cos h * cos h).
  { pose proof (sun_unit l dec w) as S1. unfold sun, dot in S1. fold N U in S1.
    pose proof (Rle_0_sqr (cos dec * sin w)) as S2. unfold Rsqr in S2. lra. }
  rewrite py_acos_ok.
  - cbn [bind]. reflexivity.
  - apply sq_le1. replace (- N / cos h * (- N / cos h)) with (N * N / (cos h * cos h)) by (field; exact C).
    apply (Rmult_le_reg_r (cos h * cos h)); [apply Rmult_lt_0_compat; exact Cp|].
    replace (N * N / (cos h * cos h) * (cos h * cos h)) with (N * N) by (field; exact C). lra.
Qed.

Lemma shad_sun_direction lat dec tcorr TCART hod :
  let l := radians lat in
  let stime := 180 + 15 / 2 - hod * 15 - tcorr + TCART in
  let w := radians stime in
  -90 < lat < 90 -> - PI / 2 <= dec <= PI / 2 -> -180 <= stime <= 180 ->
  -1 < sin l * sin dec + cos l * cos dec * cos w < 1 ->
  exists h a, shad_sun lat dec tcorr TCART hod = Ok (sin (radians h), h, a) /\ -90 < h < 90 /\
    direction (radians h) (radians a) = sun l dec w.
Proof.
  intros l stime w Hlat Hdec Hst HU. pose proof PI_RGT_0 as PP.
  rewrite shad_sun_exact. fold l. fold stime. fold w.
  set (U := sin l * sin dec + cos l * cos dec * cos w) in *.
  set (N := cos l * sin dec - sin l * cos dec * cos w). set (h := asin U).
  assert (Hh: - (PI/2) < h < PI/2).
  { destruct (asin_bound U) as [B1 B2]. unfold h.
    assert (S1: sin (asin U) = U) by (apply sin_asin; lra). split.
    - destruct B1 as [B1|B1]; [lra|exfalso]. rewrite <- B1, sin_neg, sin_PI2 in S1. lra.
    - destruct B2 as [B2|B2]; [lra|exfalso]. rewrite B2, sin_PI2 in S1. lra. }
  assert (Cp: 0 < cos h) by (apply cos_gt_0; lra).
  assert (Lp: 0 < cos l) by (apply cos_gt_0; unfold l, radians; nra).
  destruct (Req_EM_T (cos h) 0); [lra|]. destruct (Req_EM_T (cos l) 0); [lra|].
  assert (SU: sin h = U) by (unfold h; apply sin_asin; lra).
  assert (Sq: cos h * cos h = 1 - U * U) by (pose proof (trig1 h) as T; rewrite SU in T; lra).
  assert (ENU: cos dec * sin w * (cos dec * sin w) + N * N + U * U = 1) by exact (sun_unit l dec w).
  set (c := - N / cos h).
  assert (Cc: -1 <= c <= 1).
  { apply sq_le1. unfold c. replace (- N / cos h * (- N / cos h)) with (N * N / (cos h * cos h)) by (field; lra).
    apply (Rmult_le_reg_r (cos h * cos h)); [apply Rmult_lt_0_compat; exact Cp|].
    replace (N * N / (cos h * cos h) * (cos h * cos h)) with (N * N) by (field; lra).
    pose proof (Rle_0_sqr (cos dec * sin w)) as S2. unfold Rsqr in S2. lra. }
  assert (RD: forall x, radians (degrees x) = x) by (intros x; unfold radians, degrees; field; lra).
  exists (degrees h), (180 - (if Rltb 0 stime then degrees (acos c) else degrees (acos c) * -1)).
  split; [rewrite RD, SU; reflexivity|]. split.
  { unfold degrees. split; apply (Rmult_lt_reg_r PI); try exact PP; replace (h * 180 / PI * PI) with (h * 180) by (field; lra); lra. }
  rewrite RD. set (A := radians (180 - _)).
  assert (CA: cos A = - c /\ (0 < stime -> sin A = sqrt (1 - c²)) /\ (~ 0 < stime -> sin A = - sqrt (1 - c²))).
  { unfold A. destruct (Rltb_spec 0 stime) as [P|P].
    - replace (radians (180 - degrees (acos c))) with (PI - acos c) by (unfold radians, degrees; field; lra).
      rewrite Rtrigo_facts.cos_pi_minus, cos_acos by exact Cc. rewrite sin_PI_x, sin_acos by exact Cc. split; [reflexivity|]. split; [reflexivity|contradiction].
    - replace (radians (180 - degrees (acos c) * -1)) with (acos c + PI) by (unfold radians, degrees; field; lra).
      rewrite neg_cos, neg_sin, cos_acos, sin_acos by exact Cc. split; [reflexivity|]. split; [contradiction|reflexivity]. }
  destruct CA as (CA & SA1 & SA2).
  assert (Cd: 0 <= cos dec) by (apply cos_ge_0; lra).
  assert (Sc: cos h * sqrt (1 - c²) = Rabs (cos dec * sin w)).
  { rewrite <- (sqrt_square (cos h)) at 1 by lra. rewrite <- sqrt_mult_alt by nra.
    rewrite <- sqrt_Rsqr_abs. f_equal. unfold c, Rsqr.
    replace (cos h * cos h * (1 - - N / cos h * (- N / cos h))) with (cos h * cos h - N * N) by (field; lra).
    rewrite Sq. lra. }
  unfold direction, sun. fold U N. rewrite SU, CA.
  replace (cos h * - c) with N by (unfold c; field; lra). f_equal. f_equal.
  destruct (Rlt_dec 0 stime) as [P|P].
  - rewrite (SA1 P), Sc. apply Rabs_right, Rle_ge. apply Rmult_le_pos; [exact Cd|].
    apply sin_ge_0; unfold w, radians; nra.
  - rewrite (SA2 P). replace (cos h * - sqrt (1 - c²)) with (- (cos h * sqrt (1 - c²))) by ring. rewrite Sc.
    rewrite Rabs_left1; [ring|]. assert (sin w <= 0); [|nra].
    replace w with (- - w) by ring. rewrite sin_neg. assert (0 <= sin (- w)); [|lra].
    apply sin_ge_0; unfold w, radians; nra.
Qed.

Lemma cos_zetap_dot lat dec stime slope aspect :
  cos_zetap lat dec stime slope aspect
  = dot (sun (radians lat) dec (radians stime)) (normal (radians slope) (radians aspect)).
Proof.
  unfold cos_zetap, dot, sun, normal. cbv zeta.
  replace (radians (180 - aspect)) with (PI - radians aspect) by (unfold radians; field).
  rewrite Rtrigo_facts.cos_pi_minus, sin_PI_x. change (stime * PI / 180) with (radians stime). ring.
Qed.
