(** * When the shading of a raster can be computed *)
From Verif Require Import ModelPy ModelConstants ModelNode ModelGrid ModelHeat ModelSurface ModelInit
  ModelCore ModelConfig ModelIO ModelMain ModelRadCor Spec SpecIO SpecRadCor LemPy LemGridBase LemDict
  LemIO LemIO5 LemSim LemHeat LemSurface LemRadCor LemShad LemShad2.

(** ** Different coordinates are different points *)

Lemma sphere_inj lat1 lon1 lat2 lon2 :
  -90 < lat1 < 90 -> -90 < lat2 < 90 -> -360 < lon1 - lon2 < 360 ->
  on_sphere lat1 lon1 = on_sphere lat2 lon2 -> lat1 = lat2 /\ lon1 = lon2.
Proof.
  intros H1 H2 H3 E. pose proof PI_RGT_0 as PP. unfold on_sphere in E. injection E as E1 E2 E3.
  assert (R1: - (PI/2) < radians lat1 < PI/2) by (unfold radians; split; nra).
  assert (R2: - (PI/2) < radians lat2 < PI/2) by (unfold radians; split; nra).
  assert (L: lat1 = lat2).
  { destruct (Rtotal_order lat1 lat2) as [L|[L|L]]; [exfalso| exact L|exfalso].
    - assert (radians lat1 < radians lat2) by (unfold radians; nra).
      assert (sin (radians lat1) < sin (radians lat2)) by (apply sin_increasing_1; lra). lra.
    - assert (radians lat2 < radians lat1) by (unfold radians; nra).
      assert (sin (radians lat2) < sin (radians lat1)) by (apply sin_increasing_1; lra). lra. }
  subst lat2. split; [reflexivity|].
  assert (C: 0 < cos (radians lat1)) by (apply cos_gt_0; lra).
  apply Rmult_eq_reg_l in E1; [|lra]. apply Rmult_eq_reg_l in E2; [|lra].
  set (d := radians lon1 - radians lon2).
  assert (Cd: cos d = 1).
  { unfold d. rewrite cos_minus, E1, E2. pose proof (trig1 (radians lon2)). lra. }
  assert (Sd: sin (d/2) = 0).
  { assert (sin (d/2) ^ 2 = 0) by (rewrite half_angle, Cd; field). nra. }
  assert (Bd: - PI < d / 2 < PI) by (unfold d, radians; split; nra).
  assert (D0: d / 2 = 0).
  { destruct (Rtotal_order (d/2) 0) as [L|[L|L]]; [exfalso|exact L|exfalso].
    - assert (sin (d/2) < 0) by (apply sin_lt_0_var; lra). lra.
    - assert (0 < sin (d/2)) by (apply sin_gt_0; lra). lra. }
  unfold d, radians in D0. nra.
Qed.

Lemma haversine_apart lat1 lon1 lat2 lon2 :
  -90 < lat1 < 90 -> -90 < lat2 < 90 -> -360 < lon1 - lon2 < 360 ->
  (lat1 <> lat2 \/ lon1 <> lon2) -> exists d, haversine lat1 lon1 lat2 lon2 = Ok d /\ 0 < d.
Proof.
  intros H1 H2 H3 N. rewrite haversine_exact. eexists. split; [reflexivity|].
  pose proof (asin_chord_range lat1 lon1 lat2 lon2) as B.
  destruct (Rtotal_order 0 (2 * 6371000 * asin (chord lat1 lon1 lat2 lon2))) as [L|[L|L]]; [exact L| |lra].
  exfalso. assert (A: asin (chord lat1 lon1 lat2 lon2) = 0) by lra.
  assert (on_sphere lat1 lon1 = on_sphere lat2 lon2).
  { apply dot_one; try apply on_sphere_unit. rewrite <- cos_haversine, A, Rmult_0_r. apply cos_0. }
  apply sphere_inj in H; tauto.
Qed.

(** ** Rasters of a given size *)

Lemma sized_at {A} (a : raster A) ny nx y x : sized a ny nx ->
  (0 <= y < Z.of_nat ny)%Z -> (0 <= x < Z.of_nat nx)%Z -> exists v, cell_at a y x = Some v.
Proof.
  intros [L F] Hy Hx. unfold cell_at. destruct (Z.leb_spec 0 y); [|lia]. destruct (Z.leb_spec 0 x); [|lia].
  cbn [andb]. destruct (nth_error a (Z.to_nat y)) as [row|] eqn:E; [|apply nth_error_None in E; lia].
  assert (length row = nx). { rewrite Forall_forall in F. apply F. eapply nth_error_In; exact E. }
  destruct (nth_error row (Z.to_nat x)) as [v|] eqn:E2; [eauto|apply nth_error_None in E2; lia].
Qed.

Lemma within_between l v a b : within l v -> (forall w, In w l -> a <= w <= b) -> a < v < b.
Proof. intros [(p & Ip & Lp) (q & Iq & Lq)] H. pose proof (H p Ip). pose proof (H q Iq). lra. Qed.

Lemma max_ok l : l <> [] -> exists m, py_max l = Ok m.
Proof. destruct l; [congruence|]. cbn. eauto. Qed.

Lemma py_get_last_ok {A} (f : Z -> A) c : (1 <= c)%nat -> py_get (map f (zseq 0 c)) (-1) = Ok (f (Z.of_nat c - 1)%Z).
Proof.
  intros Hc. destruct (py_get (map f (zseq 0 c)) (-1)) as [v|e] eqn:E.
  - apply py_get_last in E as [_ ->]. reflexivity.
  - apply py_get_err in E as [_ E]. rewrite map_length, zseq_len in E. lia.
Qed.

Section Progress.
Variables (dem : raster R) (lats lons : list R) (oy sy ox sx : R).
Hypothesis Ry : regular oy sy lats.
Hypothesis Rx : regular ox sx lons.
Hypothesis Sy : sy <> 0.
Hypothesis Sx : sx <> 0.
Hypothesis Dem : sized dem (length lats) (length lons).
Hypothesis By : forall v, In v lats -> -90 <= v <= 90.
Hypothesis Bx : forall v w, In v lons -> In w lons -> -360 < v - w < 360.

Lemma horizon_progress nums dy dx y x :
  (1 <= y < Z.of_nat (length lats) - 1)%Z -> (1 <= x < Z.of_nat (length lons) - 1)%Z ->
  (2 <= nums)%Z -> dy <> 0 \/ dx <> 0 ->
  let la := oy + IZR y * sy in
  let lo := ox + IZR x * sx in
  (within lats (la + dy / IZR (nums - 1)) /\ within lons (lo + dx / IZR (nums - 1)) ->
     exists m, horizon dem lats lons nums dy dx y x = Ok m) /\
  (~ (within lats (la + dy / IZR (nums - 1)) /\ within lons (lo + dx / IZR (nums - 1))) ->
     horizon dem lats lons nums dy dx y x = Err ValueError).
Proof.
  intros Hy Hx Hn Hd la lo.
  set (ty := dy / IZR (nums - 1)). set (tx := dx / IZR (nums - 1)).
  assert (Hn1: 0 < IZR (nums - 1)) by (apply (IZR_lt 0); lia).
  assert (Ht: ty <> 0 \/ tx <> 0).
  { destruct Hd as [Hd|Hd]; [left|right]; intros E; apply Hd.
    - replace dy with (ty * IZR (nums - 1)) by (unfold ty; field; lra). rewrite E. ring.
    - replace dx with (tx * IZR (nums - 1)) by (unfold tx; field; lra). rewrite E. ring. }
  assert (E0: py_get lats y = Ok la).
  { rewrite py_get_nonneg by lia. destruct (nth_error lats (Z.to_nat y)) as [v|] eqn:E; [|apply nth_error_None in E; lia].
    rewrite (Ry _ _ E), INR_IZR_INZ, Z2Nat.id by lia. reflexivity. }
  assert (E1: py_get lons x = Ok lo).
  { rewrite py_get_nonneg by lia. destruct (nth_error lons (Z.to_nat x)) as [v|] eqn:E; [|apply nth_error_None in E; lia].
    rewrite (Rx _ _ E), INR_IZR_INZ, Z2Nat.id by lia. reflexivity. }
  destruct (max_ok lats) as (mxy & Emxy). { destruct lats; [cbn in Hy; lia|discriminate]. }
  destruct (py_min_ok lats) as (mny & Emny). { destruct lats; [cbn in Hy; lia|discriminate]. }
  destruct (max_ok lons) as (mxx & Emxx). { destruct lons; [cbn in Hx; lia|discriminate]. }
  destruct (py_min_ok lons) as (mnx & Emnx). { destruct lons; [cbn in Hx; lia|discriminate]. }
  assert (Wla: within lats la) by (apply interior_within; assumption).
  assert (Wlo: within lons lo) by (apply interior_within; assumption).
  assert (Iy: mny < la < mxy) by (apply inside_spec; apply (within_inside lats mxy mny); auto).
  assert (Ix: mnx < lo < mxx) by (apply inside_spec; apply (within_inside lons mxx mnx); auto).
  unfold horizon. cbv zeta. rewrite E0, E1. cbn [bind]. rewrite !linspace_map by lia. cbn [bind].
  replace (la + dy - la) with dy by ring. replace (lo + dx - lo) with dx by ring. fold ty tx.
  rewrite Emxy, Emny, Emxx, Emnx. cbn [bind].
  change (fun v => (Rltb v mxy && Rltb mny v)%bool) with (inside mny mxy).
  change (fun v => (Rltb v mxx && Rltb mnx v)%bool) with (inside mnx mxx).
  destruct (filter_line la ty mny mxy Iy (Z.to_nat nums) 0 ltac:(lia)) as (c1 & Lc1 & F1 & G1 & G1').
  destruct (filter_line lo tx mnx mxx Ix (Z.to_nat nums) 0 ltac:(lia)) as (c2 & Lc2 & F2 & G2 & G2').
  rewrite F1, F2. rewrite ?map_length, ?zseq_len, ?firstn_map, ?firstn_zseq.
  rewrite ?map_length, ?zseq_len, ?firstn_zseq.
  set (c := Nat.min c2 c1) in *. replace (Nat.min c c2) with c by lia.
  rewrite ?map_length, ?zseq_len.
  assert (C1: (1 <= c1)%nat).
  { assert (0 < 0 + Z.of_nat c1)%Z; [|lia]. apply G1'; [lia|]. apply inside_spec. rewrite Rmult_0_l. lra. }
  assert (C2: (1 <= c2)%nat).
  { assert (0 < 0 + Z.of_nat c2)%Z; [|lia]. apply G2'; [lia|]. apply inside_spec. rewrite Rmult_0_l. lra. }
  assert (Hc: (1 <= c)%nat) by lia.
  assert (Wy: forall i, (0 <= i < Z.of_nat c)%Z -> within lats (la + IZR i * ty)).
  { intros i Hi. apply (within_inside lats mxy mny); auto. apply G1. lia. }
  assert (Wx: forall i, (0 <= i < Z.of_nat c)%Z -> within lons (lo + IZR i * tx)).
  { intros i Hi. apply (within_inside lons mxx mnx); auto. apply G2. lia. }
  rewrite py_get_last_ok by exact Hc. cbn [bind].
  destruct (argmin_spec (map (fun v => Rabs (v - (la + IZR (Z.of_nat c - 1) * ty))) lats)) as (ey & Eey & _).
  { destruct lats; [cbn in Hy; lia|discriminate]. }
  rewrite Eey. cbn [bind]. rewrite py_get_last_ok by exact Hc. cbn [bind].
  destruct (argmin_spec (map (fun v => Rabs (v - (lo + IZR (Z.of_nat c - 1) * tx))) lons)) as (ex & Eex & _).
  { destruct lons; [cbn in Hx; lia|discriminate]. }
  rewrite Eex. cbn [bind]. rewrite !linspace_map by lia. cbn [bind]. rewrite Nat2Z.id, !combine_maps.
  destruct (nearest_index oy sy lats _ _ Ry Sy (Wy (Z.of_nat c - 1)%Z ltac:(lia)) Eey) as [Bey Ney].
  destruct (nearest_index ox sx lons _ _ Rx Sx (Wx (Z.of_nat c - 1)%Z ltac:(lia)) Eex) as [Bex Nex].
  (* elevations *)
  match goal with |- context [map_res ?f ?l] => set (fz := f); set (lz := l) end.
  assert (EZ: exists zi, map_res fz lz = Ok zi).
  { apply map_res_progress. intros p Ip. unfold lz in Ip. apply in_map_iff in Ip as (i & <- & Ii).
    apply in_zseq in Ii. unfold fz. cbn [fst snd].
    destruct (Nat.eq_dec c 1) as [E|E].
    - assert (i = 0%Z) by lia. subst i. rewrite !Rmult_0_l, !Rplus_0_r, !round_int.
      destruct (sized_at dem _ _ y x Dem ltac:(lia) ltac:(lia)) as (v & Ev). exists v.
      apply raster_get_ok; [lia|lia|exact Ev].
    - assert (Ei: i = Z.of_nat (Z.to_nat i)) by lia. rewrite Ei.
      destruct (index_line oy sy lats y (Z.of_nat ey) ty c (Z.to_nat i) Sy ltac:(lia) ltac:(lia) ltac:(lia) ltac:(lia) Ney) as (I1 & _ & I3).
      destruct (index_line ox sx lons x (Z.of_nat ex) tx c (Z.to_nat i) Sx ltac:(lia) ltac:(lia) ltac:(lia) ltac:(lia) Nex) as (J1 & _ & J3).
      specialize (I3 ltac:(lia) ltac:(lia)). specialize (J3 ltac:(lia) ltac:(lia)).
      destruct (sized_at dem _ _ _ _ Dem (conj I1 I3) (conj J1 J3)) as (v & Ev). exists v.
      apply raster_get_ok; [exact I1|exact J1|exact Ev]. }
  destruct EZ as (zi & Ezi). rewrite Ezi. cbn [bind].
  assert (Lzi: length zi = c) by (rewrite (map_res_length _ _ _ Ezi); unfold lz; rewrite map_length, zseq_len; reflexivity).
  match goal with |- context [map_res ?f ?l] => set (fd := f); set (ld := l) end.
  assert (ED: exists ds, map_res fd ld = Ok ds).
  { apply map_res_progress. intros p _. unfold fd. rewrite haversine_exact. eauto. }
  destruct ED as (ds & Eds). rewrite Eds. cbn [bind].
  assert (Lds: length ds = c) by (rewrite (map_res_length _ _ _ Eds); unfold ld; rewrite map_length, zseq_len; reflexivity).
  destruct zi as [|z0 zt]; [cbn in Lzi; lia|]. change (py_get (z0 :: zt) 0) with (Ok z0). cbn [bind tl].
  destruct ds as [|d0 dt]; [cbn in Lds; lia|]. cbn [tl].
  assert (PD: forall d, In d dt -> 0 < d).
  { intros d Id. apply In_nth_error in Id as (k & Ek).
    assert (Lk: (k < length dt)%nat) by (apply nth_error_Some; congruence). cbn in Lds.
    destruct (map_res_nth fd ld (d0 :: dt) (S k) d Eds Ek) as (p & Ep & Gp). unfold ld in Ep.
    rewrite nth_error_map, nth_zseq in Ep by lia. cbn [option_map] in Ep. injection Ep as <-.
    change (haversine la lo (la + IZR (Z.of_nat (S k)) * ty) (lo + IZR (Z.of_nat (S k)) * tx) = Ok d) in Gp.
    assert (W1 := Wy (Z.of_nat (S k)) ltac:(lia)). assert (W2 := Wx (Z.of_nat (S k)) ltac:(lia)).
    set (K := IZR (Z.of_nat (S k))) in *. assert (HK: 0 < K) by (apply (IZR_lt 0); lia).
    destruct (haversine_apart la lo (la + K * ty) (lo + K * tx)) as (d' & Ed' & Pd').
    - apply (within_between _ _ _ _ Wla By).
    - apply (within_between _ _ _ _ W1 By).
    - destruct Wlo as [(a1 & A1 & A2) (b1 & B1 & B2)]. destruct W2 as [(a2 & A3 & A4) (b2 & B3 & B4)].
      pose proof (Bx _ _ B1 A3). pose proof (Bx _ _ A1 B3). lra.
    - destruct Ht as [Ht|Ht]; [left|right]; intros E; apply Ht; nra.
    - rewrite Ed' in Gp. injection Gp as <-. exact Pd'. }
  match goal with |- context [map_res ?f ?l] => set (fh := f); set (lh := l) end.
  assert (EH: exists hs, map_res fh lh = Ok hs).
  { apply map_res_progress. intros [z d] Ip. unfold fh. cbn [fst snd].
    assert (Pd: 0 < d) by (apply PD; unfold lh in Ip; eapply in_combine_r; exact Ip).
    unfold adiv. destruct (Req_EM_T d 0); [lra|]. cbn [bind]. eauto. }
  destruct EH as (hs & Ehs). rewrite Ehs. cbn [bind].
  assert (Lhs: length hs = (c - 1)%nat).
  { rewrite (map_res_length _ _ _ Ehs). unfold lh. rewrite combine_length. cbn in Lzi, Lds. lia. }
  assert (KEY: (2 <= c)%nat <-> within lats (la + ty) /\ within lons (lo + tx)).
  { split.
    - intros Hc2. specialize (Wy 1%Z ltac:(lia)). specialize (Wx 1%Z ltac:(lia)). rewrite !Rmult_1_l in Wy, Wx. auto.
    - intros [W1 W2]. apply (within_inside lats mxy mny) in W1; auto. apply (within_inside lons mxx mnx) in W2; auto.
      rewrite <- (Rmult_1_l ty) in W1. rewrite <- (Rmult_1_l tx) in W2.
      apply (G1' 1%Z) in W1; [|lia]. apply (G2' 1%Z) in W2; [|lia]. lia. }
  split.
  - intros W. apply KEY in W. apply max_ok. destruct hs; [cbn in Lhs; lia|discriminate].
  - intros W. assert (c = 1)%nat. { destruct (le_lt_dec 2 c) as [L|L]; [exfalso; apply W, KEY, L|lia]. }
    destruct hs; [reflexivity|cbn in Lhs; lia].
Qed.
End Progress.
