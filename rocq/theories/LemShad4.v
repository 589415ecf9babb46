(** * Shading on regular grids *)
From Verif Require Import ModelPy ModelConstants ModelNode ModelGrid ModelHeat ModelSurface ModelInit
  ModelCore ModelConfig ModelIO ModelMain ModelRadCor Spec SpecIO SpecRadCor LemPy LemGridBase LemDict
  LemIO LemIO5 LemSim LemHeat LemSurface LemRadCor LemShad LemShad2 LemShad3 LemFinInit.

Lemma for_loop_res {T} (I : T -> Prop) (E : exn -> Prop) (body : Z -> T -> res T) lo hi :
  (forall i s, (lo <= i < hi)%Z -> I s -> match body i s with Ok s' => I s' | Err e => E e end) ->
  forall n i s, (lo <= i)%Z -> (i + Z.of_nat n <= hi)%Z -> I s ->
  match for_loop n i body s with Ok s' => I s' | Err e => E e end.
Proof.
  intros H. induction n as [|n IH]; intros i s Hi Hn Hs; [exact Hs|]. cbn [for_loop].
  specialize (H i s ltac:(lia) Hs). destruct (body i s) as [s'|e]; cbn [bind]; [|exact H].
  apply IH; [lia|lia|exact H].
Qed.

Lemma for_range_res {T} (I : T -> Prop) (E : exn -> Prop) (body : Z -> T -> res T) lo hi s :
  (forall i s, (lo <= i < hi)%Z -> I s -> match body i s with Ok s' => I s' | Err e => E e end) -> I s ->
  match for_range lo hi body s with Ok s' => I s' | Err e => E e end.
Proof.
  intros H Hs. unfold for_range. destruct (Z_le_gt_dec lo hi).
  - apply (for_loop_res I E body lo hi); auto; lia.
  - replace (Z.to_nat (hi - lo)) with O by lia. exact Hs.
Qed.

Lemma for_range_ext {T} lo hi (f g : Z -> T -> res T) s :
  (forall i s, f i s = g i s) -> for_range lo hi f s = for_range lo hi g s.
Proof.
  intros H. apply for_loop_ext, H.
Qed.

Lemma Forall_update {A} (P : A -> Prop) f (l : list A) k :
  Forall P l -> (forall a, P a -> P (f a)) -> Forall P (list_update k f l).
Proof.
  intros F H. revert k. induction F as [|a l Pa F IH]; intros [|k]; cbn; constructor; auto.
Qed.

Lemma sized_put {A} (a : raster A) ny nx y x v : sized a ny nx -> sized (put y x v a) ny nx.
Proof.
  intros [L F]. split; [unfold put; rewrite list_update_length; exact L|].
  apply Forall_update; [exact F|]. intros r Hr. rewrite list_update_length. exact Hr.
Qed.

Lemma sized_map {A B} (f : A -> B) (a : raster A) ny nx : sized a ny nx -> sized (map (map f) a) ny nx.
Proof.
  intros [L F]. split; [rewrite map_length; exact L|]. apply Forall_map.
  eapply Forall_impl; [|exact F]. intros r Hr. cbv beta. rewrite map_length. exact Hr.
Qed.

(** ** Extremes of a regular sequence *)

Lemma regular_in from step l v : regular from step l -> In v l ->
  exists k, v = from + INR k * step /\ (k < length l)%nat.
Proof.
  intros R I. apply In_nth_error in I as (k & E). exists k. split; [apply R, E|].
  apply nth_error_Some. congruence.
Qed.

Lemma regular_nth from step l k : regular from step l -> (k < length l)%nat -> In (from + INR k * step) l.
Proof.
  intros R L. destruct (nth_error l k) as [v|] eqn:E; [|apply nth_error_None in E; lia].
  rewrite <- (R _ _ E). eapply nth_error_In; exact E.
Qed.

Lemma max_exact l b : In b l -> (forall v, In v l -> v <= b) -> py_max l = Ok b.
Proof.
  intros I H. destruct (max_ok l) as (m & E). { destruct l; [destruct I|discriminate]. }
  rewrite E. apply py_max_spec in E as [Im F]. rewrite Forall_forall in F. f_equal.
  apply Rle_antisym; auto.
Qed.

Lemma min_exact l b : In b l -> (forall v, In v l -> b <= v) -> py_min l = Ok b.
Proof.
  intros I H. destruct (py_min_ok l) as (m & E). { destruct l; [destruct I|discriminate]. }
  rewrite E. apply py_min_spec in E as [Im F]. rewrite Forall_forall in F. f_equal.
  apply Rle_antisym; auto.
Qed.

Lemma index_bound k n : (k < n)%nat -> 0 <= INR k <= INR n - 1.
Proof.
  intros H. split; [apply pos_INR|]. replace (INR n - 1) with (INR (n - 1)).
  - apply le_INR. lia.
  - rewrite minus_INR by lia. reflexivity.
Qed.

Section Grid.
Variables (lats lons : list R) (oy sy ox sx : R).
Hypothesis G : grid lats lons oy sy ox sx.
Notation ny := (INR (length lats)).
Notation nx := (INR (length lons)).
Definition diag := sqrt (((ny - 1) * sy) ^ 2 + ((nx - 1) * sx) ^ 2).

Lemma Ry : regular oy sy lats. Proof. apply G. Qed.
Lemma Rx : regular ox sx lons. Proof. apply G. Qed.
Lemma Sy : sy < 0. Proof. apply G. Qed.
Lemma Sx : 0 < sx. Proof. apply G. Qed.
Lemma Ly : (2 <= length lats)%nat. Proof. apply G. Qed.
Lemma Lx : (1 <= length lons)%nat. Proof. apply G. Qed.

Lemma ny_2 : 2 <= ny. Proof. apply (le_INR 2), Ly. Qed.
Lemma nx_1 : 1 <= nx. Proof. apply (le_INR 1), Lx. Qed.

Lemma lat_max : py_max lats = Ok oy.
Proof.
  apply max_exact.
  - replace oy with (oy + INR 0 * sy) by (cbn; ring). apply regular_nth; [apply Ry|pose proof Ly; lia].
  - intros v Iv. destruct (regular_in _ _ _ _ Ry Iv) as (k & -> & Lk). pose proof (pos_INR k). pose proof Sy. nra.
Qed.
Lemma lat_min : py_min lats = Ok (oy + (ny - 1) * sy).
Proof.
  apply min_exact.
  - replace (ny - 1) with (INR (length lats - 1)).
    + apply regular_nth; [apply Ry|pose proof Ly; lia].
    + rewrite minus_INR by (pose proof Ly; lia). reflexivity.
  - intros v Iv. destruct (regular_in _ _ _ _ Ry Iv) as (k & -> & Lk).
    pose proof (index_bound _ _ Lk). pose proof Sy. nra.
Qed.
Lemma lon_min : py_min lons = Ok ox.
Proof.
  apply min_exact.
  - replace ox with (ox + INR 0 * sx) by (cbn; ring). apply regular_nth; [apply Rx|pose proof Lx; lia].
  - intros v Iv. destruct (regular_in _ _ _ _ Rx Iv) as (k & -> & Lk). pose proof (pos_INR k). pose proof Sx. nra.
Qed.
Lemma lon_max : py_max lons = Ok (ox + (nx - 1) * sx).
Proof.
  apply max_exact.
  - replace (nx - 1) with (INR (length lons - 1)).
    + apply regular_nth; [apply Rx|pose proof Lx; lia].
    + rewrite minus_INR by (pose proof Lx; lia). reflexivity.
  - intros v Iv. destruct (regular_in _ _ _ _ Rx Iv) as (k & -> & Lk).
    pose proof (index_bound _ _ Lk). pose proof Sx. nra.
Qed.

Lemma radius_diag : shad_radius lats lons = Ok diag.
Proof.
  unfold shad_radius. rewrite lat_max, lat_min, lon_max, lon_min. cbn [bind]. f_equal. unfold diag. f_equal.
  rewrite <- !Rsqr_pow2, <- !Rsqr_abs. unfold Rsqr. ring.
Qed.

Lemma lat_first : py_get lats 0 = Ok oy.
Proof.
  rewrite py_get_nonneg by lia. destruct (nth_error lats (Z.to_nat 0)) as [v|] eqn:E.
  - rewrite (Ry _ _ E). cbn. f_equal. ring.
  - apply nth_error_None in E. pose proof Ly. cbn in E. lia.
Qed.
Lemma lat_last : py_get lats (-1) = Ok (oy + (ny - 1) * sy).
Proof.
  pose proof Ly as L. unfold py_get, py_index. cbv zeta.
  assert (E: nth_error lats (length lats - 1) = Some (oy + (ny - 1) * sy)).
  { destruct (nth_error lats (length lats - 1)) as [v|] eqn:E; [|apply nth_error_None in E; lia].
    rewrite (Ry _ _ E), minus_INR by lia. reflexivity. }
  change (-1 <? 0)%Z with true. cbv iota.
  replace (Z.of_nat (length lats) + -1)%Z with (Z.of_nat (length lats - 1)) by lia.
  repeat match goal with
  | |- context [Z.ltb ?a ?b] => destruct (Z.ltb_spec a b); try lia
  | |- context [Z.leb ?a ?b] => destruct (Z.leb_spec a b); try lia
  end; cbn [andb orb negb]; rewrite ?Nat2Z.id, ?E; reflexivity.
Qed.

Lemma diag_ge : (ny - 1) * - sy <= diag.
Proof.
  pose proof ny_2. pose proof Sy. assert (0 <= (ny - 1) * - sy) by nra.
  rewrite <- (sqrt_pow2 ((ny - 1) * - sy)) by assumption. unfold diag. apply sqrt_le_1_alt.
  pose proof (pow2_ge_0 ((nx - 1) * sx)). nra.
Qed.

Definition count := py_int (diag * ny / ((ny - 1) * - sy)).

Lemma span_pos : 0 < (ny - 1) * - sy.
Proof. pose proof ny_2. pose proof Sy. nra. Qed.
Lemma diag_pos : 0 < diag.
Proof. pose proof diag_ge. pose proof span_pos. lra. Qed.

Lemma count_q : ny <= diag * ny / ((ny - 1) * - sy).
Proof.
  pose proof span_pos as P. pose proof diag_ge as D. pose proof ny_2.
  apply (Rmult_le_reg_r ((ny - 1) * - sy)); [exact P|].
  set (w := (ny - 1) * - sy) in *. replace (diag * ny / w * w) with (diag * ny) by (field; lra). nra.
Qed.

Lemma count_spec : IZR count <= diag * ny / ((ny - 1) * - sy) < IZR count + 1.
Proof. unfold count. apply py_int_spec. pose proof count_q. pose proof ny_2. lra. Qed.

Lemma count_ge : (Z.of_nat (length lats) <= count)%Z.
Proof.
  pose proof count_spec. pose proof count_q. rewrite INR_IZR_INZ in *.
  assert (IZR (Z.of_nat (length lats)) < IZR (count + 1)) by (rewrite plus_IZR; lra).
  apply lt_IZR in H1. lia.
Qed.

Lemma step_count s : profile_step lats lons sy sx s -> s = diag / IZR (count - 1) /\ 0 < s.
Proof.
  intros (n & Hn & Hs). fold diag in Hn, Hs.
  assert (n = count).
  { pose proof count_spec. assert (IZR n < IZR (count + 1)) by (rewrite plus_IZR; lra).
    assert (IZR count < IZR (n + 1)) by (rewrite plus_IZR; lra). apply lt_IZR in H0, H1. lia. }
  subst n. pose proof count_ge. pose proof Ly. pose proof diag_pos.
  assert (0 < IZR (count - 1)) by (apply (IZR_lt 0); lia). rewrite minus_IZR in *.
  assert (E: s = diag / (IZR count - 1)) by (rewrite <- Hs; field; lra).
  split; [exact E|]. rewrite E. apply Rdiv_lt_0_compat; lra.
Qed.

Lemma step_exists : exists s, profile_step lats lons sy sx s.
Proof.
  exists (diag / (IZR count - 1)). exists count. split; [apply count_spec|]. fold diag.
  pose proof count_ge. pose proof Ly. assert (0 < IZR (count - 1)) by (apply (IZR_lt 0); lia).
  rewrite minus_IZR in *. field. lra.
Qed.

Lemma beta a : radians (90 - a) = PI / 2 - radians a.
Proof. unfold radians. field. Qed.
Lemma sin_beta a : sin (radians (90 - a)) = cos (radians a).
Proof. rewrite beta. apply sin_shift. Qed.
Lemma cos_beta a : cos (radians (90 - a)) = sin (radians a).
Proof. rewrite beta. apply cos_shift. Qed.

Lemma relshad_grid dem mask solh sdirfn :
  relshad dem mask lats lons solh sdirfn =
  for_range 1 (Z.of_nat (length lats) - 1) (fun ilat (illu : raster number) =>
    for_range 1 (Z.of_nat (length lons) - 1) (fun ilon (illu : raster number) =>
      m <- raster_get mask ilat ilon ;;
      if num_eqb m 1 then
        v <- (m <- horizon dem lats lons count (cos (radians sdirfn) * diag) (sin (radians sdirfn) * diag) ilat ilon ;;
              Ok (if Rltb solh m then 0 else 1)) ;;
        raster_set illu ilat ilon (Some v : number)
      else Ok illu) illu) (map (map (fun _ => None : number)) dem).
Proof.
  unfold relshad. cbv zeta. rewrite radius_diag, lat_first, lat_last. cbn [bind].
  replace (oy - (oy + (ny - 1) * sy)) with ((ny - 1) * - sy) by ring.
  pose proof span_pos as P. unfold adiv. destruct (Req_EM_T ((ny - 1) * - sy) 0); [lra|]. cbn [bind].
  rewrite sin_beta, cos_beta. fold count.
  apply for_range_ext. intros y il. apply for_range_ext. intros x il'.
  destruct (raster_get mask y x); cbn [bind]; [|reflexivity]. destruct (num_eqb _ 1); [|reflexivity].
  rewrite relshad_cell_horizon. reflexivity.
Qed.

Variables (dem : raster R) (mask : raster number).
Hypothesis Dem : sized dem (length lats) (length lons).
Hypothesis Mask : sized mask (length lats) (length lons).
Hypothesis By : forall v, In v lats -> -90 <= v <= 90.
Hypothesis Bx : forall v w, In v lons -> In w lons -> -360 < v - w < 360.

Definition leaves (s a : R) (y x : Z) : Prop :=
  ~ (within lats (oy + IZR y * sy + s * cos (radians a)) /\ within lons (ox + IZR x * sx + s * sin (radians a))).

Lemma relshad_progress s solh sdirfn : profile_step lats lons sy sx s ->
  match relshad dem mask lats lons solh sdirfn with
  | Ok illu => sized illu (length lats) (length lons) /\
               forall y x, shaded_cell mask lats lons y x -> ~ leaves s sdirfn y x
  | Err e => e = ValueError /\ exists y x, shaded_cell mask lats lons y x /\ leaves s sdirfn y x
  end.
Proof.
  intros Hs. apply step_count in Hs as [Es Ps].
  pose proof diag_pos as Dp. pose proof count_ge as Cg. pose proof Ly as L2. pose proof Sy. pose proof Sx.
  set (dy := cos (radians sdirfn) * diag). set (dx := sin (radians sdirfn) * diag).
  assert (Hd: dy <> 0 \/ dx <> 0).
  { destruct (Req_dec (cos (radians sdirfn)) 0) as [E|E].
    - right. unfold dx. pose proof (trig1 (radians sdirfn)) as T. rewrite E in T.
      apply Rmult_integral_contrapositive; split; [|lra]. intros E2. rewrite E2 in T. lra.
    - left. unfold dy. apply Rmult_integral_contrapositive; split; [exact E|lra]. }
  assert (Cn: IZR (count - 1) <> 0) by (apply not_0_IZR; lia).
  assert (Ey: dy / IZR (count - 1) = s * cos (radians sdirfn)) by (rewrite Es; unfold dy; field; exact Cn).
  assert (Ex: dx / IZR (count - 1) = s * sin (radians sdirfn)) by (rewrite Es; unfold dx; field; exact Cn).
  assert (HP: forall y x, (1 <= y < Z.of_nat (length lats) - 1)%Z -> (1 <= x < Z.of_nat (length lons) - 1)%Z ->
    (~ leaves s sdirfn y x -> exists m, horizon dem lats lons count dy dx y x = Ok m) /\
    (leaves s sdirfn y x -> horizon dem lats lons count dy dx y x = Err ValueError)).
  { intros y x Hy Hx.
    destruct (horizon_progress dem lats lons oy sy ox sx Ry Rx ltac:(lra) ltac:(lra) Dem By Bx
                count dy dx y x Hy Hx ltac:(lia) Hd) as [P1 P2].
    rewrite Ey, Ex in P1, P2. unfold leaves. split; [|exact P2]. intros N. apply P1.
    destruct (Classical_Prop.classic (within lats (oy + IZR y * sy + s * cos (radians sdirfn)) /\
      within lons (ox + IZR x * sx + s * sin (radians sdirfn)))); tauto. }
  destruct (relshad dem mask lats lons solh sdirfn) as [illu|e] eqn:ER.
  - split.
    + pose proof ER as ER'. rewrite relshad_grid in ER'. fold dy dx in ER'.
      match type of ER' with ?t = _ => assert (K: match t with Ok il => sized il (length lats) (length lons) | Err e => True end) end.
      { apply for_range_res; [|apply sized_map; exact Dem]. intros y il Hy Hil.
        apply for_range_res; [|exact Hil]. intros x il' Hx Hil'.
        destruct (raster_get mask y x); cbn [bind]; [|exact I]. destruct (num_eqb _ 1); [|exact Hil'].
        destruct (horizon _ _ _ _ _ _ _ _); cbn [bind]; [|exact I].
        rewrite raster_set_at by lia. destruct (cell_at il' y x); [|exact I]. apply sized_put. exact Hil'. }
      rewrite ER' in K. exact K.
    + intros y x (Hy & Hx & Hm) Lv.
      apply relshad_inv in ER as (rm & fi & la & E1 & E2 & E3 & E4 & Q). cbv zeta in Q.
      rewrite radius_diag in E1. injection E1 as <-. rewrite lat_first in E2. injection E2 as <-.
      rewrite lat_last in E3. injection E3 as <-.
      replace (oy - (oy + (ny - 1) * sy)) with ((ny - 1) * - sy) in Q by ring.
      rewrite sin_beta, cos_beta in Q. fold count in Q. fold dy dx in Q.
      destruct (Q y x ltac:(lia) ltac:(lia)) as [Q1 _]. specialize (Q1 (conj Hy Hx)).
      destruct Q1 as [Qb _]. destruct (Qb Hm) as (m & Em & _).
      rewrite (proj2 (HP y x Hy Hx) Lv) in Em. discriminate Em.
  - rewrite relshad_grid in ER. fold dy dx in ER.
    match type of ER with ?t = _ => assert (K: match t with Ok il => sized il (length lats) (length lons)
      | Err e => e = ValueError /\ exists y x, shaded_cell mask lats lons y x /\ leaves s sdirfn y x end) end.
    { apply for_range_res; [|apply sized_map; exact Dem]. intros y il Hy Hil.
      apply for_range_res; [|exact Hil]. intros x il' Hx Hil'.
      destruct (sized_at mask _ _ y x Mask ltac:(lia) ltac:(lia)) as (b & Eb).
      assert (Eb' := Eb). apply raster_get_ok in Eb'; [|lia|lia]. rewrite Eb'. cbn [bind].
      destruct (num_eqb b 1) eqn:Eq; [|exact Hil']. apply num_eqb_spec in Eq. subst b.
      destruct (HP y x Hy Hx) as [P1 P2].
      destruct (Classical_Prop.classic (leaves s sdirfn y x)) as [Lv|Lv].
      - rewrite (P2 Lv). cbn [bind]. split; [reflexivity|]. exists y, x. split; [|exact Lv]. unfold shaded_cell. auto.
      - destruct (P1 Lv) as (m & ->). cbn [bind]. rewrite raster_set_at by lia.
        destruct (sized_at il' _ _ y x Hil' ltac:(lia) ltac:(lia)) as (w & ->). apply sized_put. exact Hil'. }
    rewrite ER in K. exact K.
Qed.

Lemma profile_complete s a y x k : profile_step lats lons sy sx s ->
  within lats (oy + IZR y * sy) -> within lons (ox + IZR x * sx) -> 0 <= k ->
  within lats (oy + IZR y * sy + k * (s * cos (radians a))) ->
  within lons (ox + IZR x * sx + k * (s * sin (radians a))) -> k < IZR (count - 1).
Proof.
  intros Hs W1 W2 Hk W3 W4. apply step_count in Hs as [Es Ps].
  assert (Bl: forall v, In v lats -> oy + (ny - 1) * sy <= v <= oy).
  { intros v Iv. destruct (regular_in _ _ _ _ Ry Iv) as (j & -> & Lj).
    pose proof (index_bound _ _ Lj). pose proof Sy. split; nra. }
  assert (Bo: forall v, In v lons -> ox <= v <= ox + (nx - 1) * sx).
  { intros v Iv. destruct (regular_in _ _ _ _ Rx Iv) as (j & -> & Lj).
    pose proof (index_bound _ _ Lj). pose proof Sx. split; nra. }
  pose proof (within_between _ _ _ _ W1 Bl) as A1. pose proof (within_between _ _ _ _ W3 Bl) as A3.
  pose proof (within_between _ _ _ _ W2 Bo) as A2. pose proof (within_between _ _ _ _ W4 Bo) as A4.
  set (u := k * (s * cos (radians a))) in *. set (v := k * (s * sin (radians a))) in *.
  assert (U: - ((ny - 1) * - sy) < u < (ny - 1) * - sy) by lra.
  assert (V: - ((nx - 1) * sx) < v < (nx - 1) * sx) by lra.
  assert (UV: u ^ 2 + v ^ 2 = (k * s) ^ 2).
  { unfold u, v. replace ((k * (s * cos (radians a))) ^ 2 + (k * (s * sin (radians a))) ^ 2)
      with ((k * s) ^ 2 * (sin (radians a) * sin (radians a) + cos (radians a) * cos (radians a))) by ring.
    rewrite trig1. ring. }
  assert (L: k * s < diag).
  { assert (0 <= k * s) by (apply Rmult_le_pos; lra). rewrite <- (sqrt_pow2 (k * s)) by assumption.
    unfold diag. apply sqrt_lt_1_alt. split; [apply pow2_ge_0|]. rewrite <- UV. nra. }
  pose proof count_ge. pose proof Ly. assert (Cp: 0 < IZR (count - 1)) by (apply (IZR_lt 0); lia).
  apply (Rmult_lt_reg_r s); [exact Ps|]. rewrite Es at 2.
  replace (IZR (count - 1) * (diag / IZR (count - 1))) with diag by (field; lra). exact L.
Qed.
End Grid.
