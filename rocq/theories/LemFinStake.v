(** * Stakes go to the closest cell *)
From Verif Require Import ModelPy ModelConstants ModelNode ModelGrid ModelSurface ModelInit
  ModelCore ModelConfig ModelIO ModelMain ModelStake SpecIO SpecStake.
From Verif Require Import LemPy LemDict LemIO LemIO2 LemIO3 LemIO4 LemIO5 LemFinIO LemFinDriver.
From Coq Require Import Lra Lia Reals List Psatz.

(** ** Indices *)

Lemma concat_nth {A} (g : list (list A)) nx y x row : Forall (fun r => length r = nx) g ->
  nth_error g y = Some row -> (x < nx)%nat -> nth_error (concat g) (y * nx + x) = nth_error row x.
Proof.
  intros F. revert y; induction F as [|r g Hr F IH]; intros [|y] E Hx; try discriminate; cbn [concat].
  - injection E as ->. cbn [Nat.mul Nat.add]. apply nth_error_app1. lia.
  - cbn [nth_error] in E. rewrite nth_error_app2 by (cbn; lia).
    replace (S y * nx + x - length r)%nat with (y * nx + x)%nat by (rewrite Hr; cbn; lia).
    apply IH; assumption.
Qed.

Lemma concat_size {A} (g : list (list A)) nx : Forall (fun r => length r = nx) g ->
  length (concat g) = (length g * nx)%nat.
Proof. induction 1 as [|r g Hr F IH]; [reflexivity|]. cbn. rewrite app_length, IH, Hr. reflexivity. Qed.

Lemma hd_size {A} (g : list (list A)) nx : Forall (fun r => length r = nx) g -> g <> [] ->
  length (hd [] g) = nx.
Proof. destruct 1; [congruence|auto]. Qed.

Lemma concat_at {A} (g : list (list A)) nx k a : Forall (fun r => length r = nx) g ->
  nth_error (concat g) k = Some a ->
  exists row, nth_error g (k / nx) = Some row /\ nth_error row (k mod nx) = Some a.
Proof.
  intros F E. assert (L : (k < length g * nx)%nat).
  { rewrite <- (concat_size g nx F). apply nth_error_Some. congruence. }
  assert (N : nx <> 0%nat) by (intros ->; lia).
  assert (Q : (k / nx < length g)%nat) by (apply Nat.div_lt_upper_bound; [exact N|lia]).
  destruct (nth_error g (k / nx)) as [row|] eqn:Er; [|apply nth_error_None in Er; lia].
  exists row. split; [reflexivity|].
  rewrite <- (concat_nth g nx _ (k mod nx) row F Er) by (apply Nat.mod_upper_bound; exact N).
  rewrite <- E. f_equal. rewrite (Nat.div_mod k nx N) at 3. lia.
Qed.

Lemma finite_pair p q : finite_point (transform_pair p) = Ok q ->
  exists lat lon, p = (Some lat, Some lon) /\ q = transform_coordinates lat lon.
Proof.
  destruct p as [[lat|] [lon|]]; cbn; try discriminate. intros H; injection H as <-. eauto.
Qed.

(** the points of the tree are those of the cells *)
Lemma tree_in coords tree : map_res (fun p => finite_point (transform_pair p)) (concat coords) = Ok tree ->
  forall y x lat lon, lies_at coords y x lat lon -> In (transform_coordinates lat lon) tree.
Proof.
  intros E y x lat lon (row & E1 & E2 & _). apply map_res_forall2 in E.
  assert (I : In (Some lat, Some lon) (concat coords)).
  { apply in_concat. exists row. split; eapply nth_error_In; eassumption. }
  destruct (forall2_left _ _ _ _ E I) as (b & Ib & Eb). cbn in Eb. injection Eb as <-. exact Ib.
Qed.

Lemma forall2_len {A B} (P : A -> B -> Prop) l rs : Forall2 P l rs -> length l = length rs.
Proof. induction 1; cbn; congruence. Qed.

Lemma forall2_nth {A B} (P : A -> B -> Prop) l rs k b : Forall2 P l rs -> nth_error rs k = Some b ->
  exists a, nth_error l k = Some a /\ P a b.
Proof.
  intros F. revert k; induction F as [|a b' l rs F1 F2 IH]; intros [|k] E; try discriminate; cbn in *.
  - injection E as ->. eauto.
  - apply IH; exact E.
Qed.

Lemma tree_at coords nx tree k q : rectangular coords nx ->
  map_res (fun p => finite_point (transform_pair p)) (concat coords) = Ok tree ->
  nth_error tree k = Some q ->
  exists lat lon, lies_at coords (Z.of_nat (k / nx)) (Z.of_nat (k mod nx)) lat lon /\
    q = transform_coordinates lat lon.
Proof.
  intros F E K. apply map_res_forall2 in E. destruct (forall2_nth _ _ _ _ _ E K) as (p & Ep & H).
  apply finite_pair in H as (lat & lon & -> & ->). exists lat, lon. split; [|reflexivity].
  destruct (concat_at _ _ _ _ F Ep) as (row & E1 & E2). exists row. rewrite !Nat2Z.id.
  repeat split; [exact E1|exact E2|lia|lia].
Qed.

Lemma lies_inside coords nx y x lat lon : rectangular coords nx -> lies_at coords y x lat lon ->
  (0 <= y < Z.of_nat (length coords))%Z /\ (0 <= x < Z.of_nat nx)%Z.
Proof.
  intros F (row & E1 & E2 & Hy & Hx).
  assert (L1 : (Z.to_nat y < length coords)%nat) by (apply nth_error_Some; congruence).
  assert (L2 : (Z.to_nat x < length row)%nat) by (apply nth_error_Some; congruence).
  assert (L3 : length row = nx).
  { pose proof (proj1 (Forall_forall _ _) F row (nth_error_In _ _ E1)) as H. exact H. }
  lia.
Qed.

(*@ C111 Every stake gets a cell inside of the grid, and no other cell is closer to it. *)
Lemma stake_closest_lem :
  forall query coords nx rows stakes,
    finds_nearest query -> rectangular coords nx ->
    locate_stakes query coords rows = Ok stakes ->
    Forall2 (fun row stake =>
      exists lat lon name y x la lo,
        row = (Some lat, Some lon, name) /\ stake = (y, x, name) /\
        (0 <= y < Z.of_nat (length coords))%Z /\ (0 <= x < Z.of_nat nx)%Z /\
        lies_at coords y x la lo /\
        forall y' x' la' lo', lies_at coords y' x' la' lo' ->
          apart2 lat lon la lo <= apart2 lat lon la' lo') rows stakes.
Proof.
  intros query coords nx rows stakes Q F H. unfold locate_stakes in H.
  apply bind_ok in H as (tree & Et & H). apply map_res_forall2 in H.
  induction H as [|row stake rows stakes H _ IH]; [constructor|]. constructor; [|exact IH]. clear IH.
  apply bind_ok in H as (p & Ep & H). apply bind_ok in H as (yx & Eu & H). injection H as <-.
  destruct row as [c name]. cbn [fst snd] in *. apply finite_pair in Ep as (lat & lon & -> & ->).
  unfold unravel_index in Eu.
  destruct (Nat.ltb_spec (query tree (transform_coordinates lat lon)) (length coords * length (hd [] coords)))
    as [L|]; [|discriminate]. injection Eu as <-. cbn [fst snd].
  assert (Ne : coords <> []) by (intros ->; cbn in L; lia).
  rewrite (hd_size coords nx F Ne) in *.
  assert (Nt : tree <> []).
  { intros ->. apply map_res_forall2 in Et. apply forall2_len in Et. cbn [length] in Et.
    rewrite (concat_size coords nx F) in Et. lia. }
  destruct (Q tree (transform_coordinates lat lon) Nt) as (q & Eq & M).
  destruct (tree_at coords nx tree _ q F Et Eq) as (la & lo & La & ->).
  set (k := query tree (transform_coordinates lat lon)) in *.
  destruct (lies_inside _ _ _ _ _ _ F La) as [I1 I2].
  exists lat, lon, name, (Z.of_nat (k / nx)), (Z.of_nat (k mod nx)), la, lo.
  split; [reflexivity|]. split; [reflexivity|]. split; [exact I1|]. split; [exact I2|].
  split; [exact La|]. intros y' x' la' lo' H'. apply M. eapply tree_in; eassumption.
Qed.

(*@ C111 The stakes are located exactly if no coordinate is NaN, that of a cell or that of a stake, and there is a
   cell if there is a stake. There is no limit to the distance: a stake far outside of the grid
   gets a cell as well. Where this fails, the run stops with ValueError. *)
Lemma stakes_located_lem :
  forall query coords nx rows,
    finds_nearest query -> rectangular coords nx ->
    ((exists stakes, locate_stakes query coords rows = Ok stakes) <->
     Forall (Forall (fun p => exists lat lon, p = (Some lat, Some lon))) coords /\
     Forall (fun row => exists lat lon, fst row = (Some lat, Some lon)) rows /\
     (rows <> [] -> concat coords <> [])) /\
    (forall e, locate_stakes query coords rows = Err e -> e = ValueError).
Proof.
  intros query coords nx rows Q F. unfold locate_stakes. split; [split|].
  - intros (stakes & H). apply bind_ok in H as (tree & Et & H).
    apply map_res_forall2 in Et. apply map_res_forall2 in H.
    split; [|split].
    + apply Forall_forall. intros r Hr. apply Forall_forall. intros p Hp.
      assert (I : In p (concat coords)) by (apply in_concat; eauto).
      destruct (forall2_left _ _ _ _ Et I) as (b & _ & Eb).
      apply finite_pair in Eb as (lat & lon & -> & _). eauto.
    + apply Forall_forall. intros row Hr. destruct (forall2_left _ _ _ _ H Hr) as (b & _ & Eb).
      apply bind_ok in Eb as (p & Ep & _). apply finite_pair in Ep as (lat & lon & E & _). exists lat, lon. exact E.
    + intros Nr Nc. destruct rows as [|row rows]; [congruence|].
      inversion H as [|? ? ? ? Eb _]; subst. apply bind_ok in Eb as (p & _ & Eb).
      apply bind_ok in Eb as (yx & Eu & _). unfold unravel_index in Eu.
      destruct (Nat.ltb_spec (query tree p) (length coords * length (hd [] coords))) as [L|]; [|discriminate].
      assert (Ne : coords <> []) by (intros E; rewrite E in L; cbn in L; lia).
      rewrite (hd_size coords nx F Ne), <- (concat_size coords nx F), Nc in L. cbn in L. lia.
  - intros (C & Rw & Ne).
    destruct (map_res_progress (fun p => finite_point (transform_pair p)) (concat coords)) as [tree Et].
    { intros p Hp. apply in_concat in Hp as (r & Hr & Hp).
      destruct (proj1 (Forall_forall _ _) (proj1 (Forall_forall _ _) C r Hr) p Hp) as (lat & lon & ->).
      cbn. eauto. }
    rewrite Et. cbn [bind]. apply map_res_progress. intros row Hr. cbv beta.
    destruct (proj1 (Forall_forall _ _) Rw row Hr) as (lat & lon & Er). destruct row as [c0 name0]. cbn [fst snd] in Er |- *. subst c0. cbn [transform_pair finite_point bind].
    assert (N : concat coords <> []) by (apply Ne; intros ->; destruct Hr).
    assert (Nt : tree <> []).
    { intros ->. apply map_res_forall2 in Et. apply forall2_len in Et. destruct (concat coords); [congruence|discriminate]. }
    destruct (Q tree (transform_coordinates lat lon) Nt) as (q & Eq & _).
    assert (L : (query tree (transform_coordinates lat lon) < length tree)%nat) by (apply nth_error_Some; congruence).
    apply map_res_forall2 in Et. apply forall2_len in Et. rewrite <- Et, (concat_size coords nx F) in L.
    assert (Nc : coords <> []) by (intros E; rewrite E in N; cbn in N; congruence).
    unfold unravel_index. rewrite (hd_size coords nx F Nc).
    apply Nat.ltb_lt in L. rewrite L. cbn. eauto.
  - intros e H. destruct (map_res (fun p => finite_point (transform_pair p)) (concat coords)) as [tree|e'] eqn:Et;
      cbn [bind] in H.
    + apply map_res_err in H as (row & _ & H).
      destruct (finite_point (transform_pair (fst row))) as [p|e'] eqn:Ep; cbn [bind] in H.
      * unfold unravel_index in H.
        destruct (query tree p <? length coords * length (hd [] coords))%nat; cbn in H; [discriminate|congruence].
      * destruct (transform_pair (fst row)); cbn in Ep; congruence.
    + injection H as ->. apply map_res_err in Et as (p & _ & H).
      destruct (transform_pair p); cbn in H; congruence.
Qed.

Lemma distance_zero p q : distance2 p q <= 0 -> p = q.
Proof.
  destruct p as [[x y] z], q as [[x' y'] z']. cbn [distance2]. intros H.
  pose proof (pow2_ge_0 (x - x')). pose proof (pow2_ge_0 (y - y')). pose proof (pow2_ge_0 (z - z')).
  assert (x - x' = 0) by nra. assert (y - y' = 0) by nra. assert (z - z' = 0) by nra.
  f_equal; [f_equal|]; lra.
Qed.

(*@ C111 A stake with the coordinates of a cell belongs to this cell. *)
Lemma stake_in_own_cell_lem :
  forall query coords nx rows stakes k lat lon name y x,
    finds_nearest query -> rectangular coords nx ->
    (forall y x la lo, lies_at coords y x la lo -> -90 < la < 90 /\ -180 < lo <= 180) ->
    (forall y x y' x' la lo, lies_at coords y x la lo -> lies_at coords y' x' la lo -> y = y' /\ x = x') ->
    locate_stakes query coords rows = Ok stakes ->
    nth_error rows k = Some (Some lat, Some lon, name) ->
    lies_at coords y x lat lon ->
    nth_error stakes k = Some (y, x, name).
Proof.
  intros query coords nx rows stakes k lat lon name y x Q F B D H K L.
  pose proof (stake_closest_lem query coords nx rows stakes Q F H) as A. clear H.
  revert k K. induction A as [|row stake rows stakes A _ IH]; intros [|k] K; try discriminate;
    [|apply IH; exact K].
  cbn in K. injection K as ->. clear IH.
  destruct A as (lat1 & lon1 & name1 & y1 & x1 & la & lo & E1 & -> & _ & _ & La & M).
  injection E1 as <- <- <-. cbn.
  specialize (M y x lat lon L). unfold apart2 in M at 2.
  assert (Z0 : distance2 (transform_coordinates lat lon) (transform_coordinates lat lon) = 0).
  { destruct (transform_coordinates lat lon) as [[u v] w]. cbn. ring. }
  rewrite Z0 in M. apply distance_zero in M.
  destruct (B _ _ _ _ L) as [B1 B2]. destruct (B _ _ _ _ La) as [B3 B4].
  destruct (coordinates_injective_lem lat lon la lo B1 B3 B2 B4 M) as [<- <-].
  destruct (D _ _ _ _ _ _ La L) as [-> ->]. reflexivity.
Qed.

Lemma apart_same_lat lat : exists r, (-90 < lat < 90 -> 0 < r) /\
  forall lo lo', apart2 lat lo lat lo' = r * (1 - cos (lo * PI / 180 - lo' * PI / 180)).
Proof.
  set (p := lat * PI / 180).
  set (n := 6378.137 / sqrt (1 - 0.00669437999014 * (sin p) ^ 2)).
  assert (Hp : 0 < 1 - 0.00669437999014 * sin p ^ 2) by (apply e2_range, SIN_bound).
  assert (Hn : 0 < n). { unfold n. apply Rdiv_lt_0_compat; [lra|]. apply sqrt_lt_R0; exact Hp. }
  exists (2 * (n * cos p) ^ 2). split.
  - intros B. pose proof PI_RGT_0. assert (0 < cos p) by (apply cos_gt_0; unfold p; nra).
    assert (0 < n * cos p) by (apply Rmult_lt_0_compat; assumption). nra.
  - intros lo lo'. unfold apart2, transform_coordinates, distance2. fold p. fold n.
    set (a := lo * PI / 180). set (b := lo' * PI / 180). rewrite cos_minus.
    pose proof (sin2_cos2 a) as A. pose proof (sin2_cos2 b) as C. unfold Rsqr in A, C.
    set (m := n * cos p).
    replace ((m * cos a - m * cos b) ^ 2 + (m * sin a - m * sin b) ^ 2 + (n * (1 - 0.00669437999014) * sin p - n * (1 - 0.00669437999014) * sin p) ^ 2)
      with (m ^ 2 * ((sin a * sin a + cos a * cos a) + (sin b * sin b + cos b * cos b) - 2 * (cos a * cos b + sin a * sin b))) by ring.
    rewrite A, C. ring.
Qed.

Lemma cos_abs_le a b : Rabs a <= PI -> Rabs b <= PI -> cos b <= cos a -> Rabs a <= Rabs b.
Proof.
  intros Ha Hb C. destruct (Rle_or_lt (Rabs a) (Rabs b)) as [|L]; [assumption|]. exfalso.
  assert (E : forall t, cos (Rabs t) = cos t).
  { intros t. unfold Rabs. destruct (Rcase_abs t); [apply cos_neg|reflexivity]. }
  rewrite <- (E a), <- (E b) in C. pose proof (Rabs_pos a). pose proof (Rabs_pos b).
  pose proof (cos_decreasing_1 (Rabs b) (Rabs a)). lra.
Qed.

(*@ C111 Among the cells on the parallel of the stake, no cell is closer in longitude than the one chosen, if the one chosen is on
   this parallel. *)
Lemma stake_longitude_lem :
  forall query coords nx rows stakes lat lon name y x lo,
    finds_nearest query -> rectangular coords nx -> -90 < lat < 90 ->
    (forall y x la lo, lies_at coords y x la lo -> Rabs (lon - lo) <= 180) ->
    locate_stakes query coords rows = Ok stakes ->
    (exists k, nth_error rows k = Some (Some lat, Some lon, name) /\ nth_error stakes k = Some (y, x, name)) ->
    lies_at coords y x lat lo ->
    forall y' x' lo', lies_at coords y' x' lat lo' -> Rabs (lon - lo) <= Rabs (lon - lo').
Proof.
  intros query coords nx rows stakes lat lon name y x lo Q F B W H (k & K1 & K2) L y' x' lo' L'.
  pose proof (stake_closest_lem query coords nx rows stakes Q F H) as A. clear H.
  assert (M : apart2 lat lon lat lo <= apart2 lat lon lat lo').
  { revert k K1 K2. induction A as [|row stake rows stakes A _ IH]; intros [|k] K1 K2; try discriminate;
      [|eapply IH; eassumption].
    cbn in K1, K2. injection K1 as ->. injection K2 as ->. clear IH.
    destruct A as (lat1 & lon1 & name1 & y1 & x1 & la1 & lo1 & E1 & E2 & _ & _ & La & M).
    injection E1 as <- <- <-. injection E2 as <- <-.
    destruct La as (r1 & R1 & R2 & _), L as (r2 & S1 & S2 & _). rewrite R1 in S1. injection S1 as <-.
    rewrite R2 in S2. injection S2 as -> ->. eapply M; eassumption. }
  destruct (apart_same_lat lat) as (r & Hr & E). specialize (Hr B). rewrite !E in M.
  assert (C : cos (lon * PI / 180 - lo' * PI / 180) <= cos (lon * PI / 180 - lo * PI / 180)) by nra.
  pose proof PI_RGT_0 as P.
  assert (S : forall t, Rabs (lon * PI / 180 - t * PI / 180) = Rabs (lon - t) * (PI / 180)).
  { intros t. replace (lon * PI / 180 - t * PI / 180) with ((lon - t) * (PI / 180)) by field.
    rewrite Rabs_mult. f_equal. apply Rabs_right. lra. }
  pose proof (W _ _ _ _ L) as W1. pose proof (W _ _ _ _ L') as W2.
  assert (D : Rabs (lon * PI / 180 - lo * PI / 180) <= Rabs (lon * PI / 180 - lo' * PI / 180)).
  { apply cos_abs_le; [rewrite S; nra|rewrite S; nra|exact C]. }
  rewrite !S in D. nra.
Qed.

(*@ C111 The worker of a cell evaluates exactly the stakes for which this cell was chosen. *)
Lemma worker_stakes_lem :
  forall query coords nx rows stakes cfg data restart ny jobs j,
    finds_nearest query -> rectangular coords nx ->
    locate_stakes query coords rows = Ok stakes ->
    rc_stake_evaluation cfg = true ->
    submit cfg data restart stakes ny (Z.of_nat nx) = Ok jobs -> In j jobs ->
    exists names, j_stakes j = Some names /\
      (forall name, In name names <->
         exists k row, nth_error rows k = Some row /\ nth_error stakes k = Some (j_y j, j_x j, name)) /\
      (forall name, In name names ->
         exists lat lon la lo, In (Some lat, Some lon, name) rows /\
           lies_at coords (j_y j) (j_x j) la lo /\
           forall y' x' la' lo', lies_at coords y' x' la' lo' ->
             apart2 lat lon la lo <= apart2 lat lon la' lo').
Proof.
  intros query coords nx rows stakes cfg data restart ny jobs j Q F H Ev Sb J.
  destruct (submit_ok _ _ _ _ _ _ _ Sb) as (_ & _ & P). rewrite Forall_forall in P. specialize (P j J).
  destruct P as (_ & _ & P & _). rewrite Ev in P. exists (stakes_of stakes (j_y j) (j_x j)).
  split; [exact P|].
  pose proof (stake_closest_lem query coords nx rows stakes Q F H) as A.
  split.
  - intros name. rewrite stakes_of_cell_lem. split.
    + intros I. apply In_nth_error in I as (k & K). destruct (forall2_nth _ _ _ _ _ A K) as (row & E & _).
      exists k, row. auto.
    + intros (k & row & _ & K). eapply nth_error_In; exact K.
  - intros name I. apply stakes_of_cell_lem in I. destruct (forall2_right _ _ _ _ A I) as (row & Ir & G).
    destruct G as (lat & lon & name1 & y & x & la & lo & -> & E & _ & _ & La & M).
    injection E as -> -> ->. exists lat, lon, la, lo. auto.
Qed.

(*@ C111 A stake whose closest cell is not glacier is evaluated by no worker, and the run says nothing about it. *)
Lemma stake_off_glacier_lem :
  forall cfg data restart stakes ny nx jobs y x name,
    rc_stake_evaluation cfg = true ->
    submit cfg data restart stakes ny nx = Ok jobs ->
    NoDup (map snd stakes) -> In (y, x, name) stakes -> ~ is_glacier data y x ->
    forall j names, In j jobs -> j_stakes j = Some names -> ~ In name names.
Proof.
  intros cfg data restart stakes ny nx jobs y x name Ev Sb ND I Ng j names J Ej In1.
  destruct (submit_ok _ _ _ _ _ _ _ Sb) as (_ & _ & P). rewrite Forall_forall in P. specialize (P j J).
  destruct P as (Gl & _ & P & _). rewrite Ev in P. rewrite P in Ej. injection Ej as <-.
  apply stakes_of_cell_lem in In1.
  assert (U : forall (l : list (Z * Z * string)) a b, NoDup (map snd l) -> In a l -> In b l -> snd a = snd b -> a = b).
  { induction l as [|c l IH]; intros a b N Ha Hb E; [destruct Ha|]. cbn in N. inversion N as [|? ? N1 N2]; subst.
    destruct Ha as [->|Ha], Hb as [->|Hb]; [reflexivity|..].
    - exfalso. apply N1. rewrite E. apply in_map; exact Hb.
    - exfalso. apply N1. rewrite <- E. apply in_map; exact Ha.
    - apply IH; auto. }
  pose proof (U stakes _ _ ND I In1 eq_refl) as E. injection E as -> ->. contradiction.
Qed.

Lemma meshgrid_rectangular lats lons : rectangular (meshgrid lats lons) (length lons).
Proof.
  apply Forall_forall. intros row H. apply in_map_iff in H as (la & <- & _). apply map_length.
Qed.

(*@ C111 Without WRF the cell (y, x) has the latitude y and the longitude x of the two axes; with WRF its
   coordinates are those of the input. *)
Lemma coordinates_of_cells_lem :
  forall cfg wrf lats lons,
    (rc_WRF cfg = true -> cell_coordinates cfg wrf lats lons = wrf) /\
    (rc_WRF cfg = false ->
       rectangular (cell_coordinates cfg wrf lats lons) (length lons) /\
       length (cell_coordinates cfg wrf lats lons) = length lats /\
       forall y x la lo, (0 <= y)%Z -> (0 <= x)%Z ->
         lies_at (cell_coordinates cfg wrf lats lons) y x la lo <->
         nth_error lats (Z.to_nat y) = Some (Some la) /\ nth_error lons (Z.to_nat x) = Some (Some lo)).
Proof.
  intros cfg wrf lats lons. unfold cell_coordinates. split; intros ->; [reflexivity|].
  split; [apply meshgrid_rectangular|]. split; [apply map_length|].
  intros y x la lo Hy Hx. unfold lies_at, meshgrid. split.
  - intros (row & E1 & E2 & _). rewrite nth_error_map in E1.
    destruct (nth_error lats (Z.to_nat y)) as [v|]; [|discriminate]. cbn in E1. injection E1 as <-.
    rewrite nth_error_map in E2. destruct (nth_error lons (Z.to_nat x)) as [w|]; [|discriminate].
    cbn in E2. injection E2 as -> ->. auto.
  - intros [E1 E2]. eexists. rewrite nth_error_map, E1. cbn. split; [reflexivity|].
    rewrite nth_error_map, E2. cbn. auto.
Qed.

(*@ C111 The places of the stakes matter only if stakes are evaluated: without evaluation the run is the same
   whatever the file of the stakes holds. *)
Lemma stakes_unused_lem :
  forall query query' wrf wrf' lats lats' lons lons' rows rows' cfg c work arrivals data restart measured io,
    rc_stake_evaluation cfg = false ->
    run_with_stakes query wrf lats lons rows cfg c work arrivals data restart measured io =
    run_with_stakes query' wrf' lats' lons' rows' cfg c work arrivals data restart measured io.
Proof. intros; unfold run_with_stakes. rewrite H. reflexivity. Qed.

(*@ C111 With evaluation, one stake without latitude or longitude stops the whole run with ValueError. *)
Lemma stake_without_place_lem :
  forall query wrf lats lons rows cfg c work arrivals data restart measured io row,
    rc_stake_evaluation cfg = true -> In row rows ->
    fst (fst row) = None \/ snd (fst row) = None ->
    run_with_stakes query wrf lats lons rows cfg c work arrivals data restart measured io = Err ValueError.
Proof.
  intros query wrf lats lons rows cfg c work arrivals data restart measured io row Ev I N.
  unfold run_with_stakes. rewrite Ev.
  assert (E : locate_stakes query (cell_coordinates cfg wrf lats lons) rows = Err ValueError); [|rewrite E; reflexivity].
  set (coords := cell_coordinates cfg wrf lats lons). unfold locate_stakes.
  destruct (map_res (fun p => finite_point (transform_pair p)) (concat coords)) as [tree|e] eqn:Et; cbn [bind].
  - apply map_res_fails with (a := row); [exact I| |].
    + destruct row as [[[lat|] [lon|]] name]; cbn in N |- *; try reflexivity. destruct N; discriminate.
    + intros b e _ H. destruct b as [c0 n0]. cbn [fst snd] in H. destruct (transform_pair c0) as [p|]; cbn [finite_point bind] in H; [|injection H as <-; reflexivity].
      unfold unravel_index in H.
      destruct (query tree p <? length coords * length (hd [] coords))%nat; cbn in H; [discriminate|injection H as <-; reflexivity].
  - apply map_res_err in Et as (p & _ & H). destruct (transform_pair p); cbn in H; [discriminate|].
    injection H as <-. reflexivity.
Qed.

(** ** Examples *)

Lemma scan_finds p pts : forall pre best q, nth_error pre best = Some q ->
  (forall q', In q' pre -> distance2 p q <= distance2 p q') ->
  exists q1, nth_error (pre ++ pts) (scan (length pre) best (distance2 p q) p pts) = Some q1 /\
    forall q', In q' (pre ++ pts) -> distance2 p q1 <= distance2 p q'.
Proof.
  induction pts as [|r pts IH]; intros pre best q E M; cbn [scan].
  - rewrite app_nil_r. exists q. auto.
  - replace (pre ++ r :: pts) with ((pre ++ [r]) ++ pts) by (rewrite <- app_assoc; reflexivity).
    replace (S (length pre)) with (length (pre ++ [r])) by (rewrite app_length; cbn; lia).
    assert (L : (best < length pre)%nat) by (apply nth_error_Some; congruence).
    destruct (Rlt_dec (distance2 p r) (distance2 p q)) as [D|D]; apply IH.
    + rewrite nth_error_app2, Nat.sub_diag by lia. reflexivity.
    + intros q' I. apply in_app_or in I as [I|[<-|[]]]; [pose proof (M q' I)|]; lra.
    + rewrite nth_error_app1 by exact L. exact E.
    + intros q' I. apply in_app_or in I as [I|[<-|[]]]; [apply M; exact I|]; lra.
Qed.

(*@ex C111 Such a search exists: look at every point. *)
Lemma search_example_lem :
  finds_nearest scan_query.
Proof.
  intros pts p N. destruct pts as [|q pts]; [congruence|]. cbn [scan_query].
  apply (scan_finds p pts [q] 0 q); [reflexivity|]. intros q' [<-|[]]. lra.
Qed.

Lemma valley_lies y x la lo : lies_at valley_coordinates y x la lo ->
  (y = 0%Z /\ la = 46 \/ y = 1%Z /\ la = 47) /\ (x = 0%Z /\ lo = 10 \/ x = 1%Z /\ lo = 11).
Proof.
  intros (row & E1 & E2 & Hy & Hx). unfold valley_coordinates, meshgrid in E1. cbn [map] in E1.
  destruct (Z.to_nat y) as [|[|n]] eqn:Ey; cbn in E1.
  3:{ destruct n; discriminate. }
  all: injection E1 as <-; destruct (Z.to_nat x) as [|[|m]] eqn:Ex; cbn in E2;
    [| |destruct m; discriminate]; injection E2 as <- <-;
    (split; [first [left; split; [lia|reflexivity]|right; split; [lia|reflexivity]]
            |first [left; split; [lia|reflexivity]|right; split; [lia|reflexivity]]]).
Qed.

(*@ex C111 In a valley with two times two cells, a stake at the second cell of the first row gets this cell, and a
   stake on the equator gets a cell as well. *)
Lemma valley_stakes_lem :
  exists y x,
    locate_stakes scan_query valley_coordinates
      [(Some 46, Some 11, "s1"%string); (Some 0, Some 0, "s2"%string)]
    = Ok [(0, 1, "s1"%string); (y, x, "s2"%string)]%Z.
Proof.
  assert (F : rectangular valley_coordinates 2) by (repeat constructor).
  set (rows := [(Some 46, Some 11, "s1"%string); (Some 0, Some 0, "s2"%string)] : list (number * number * string)).
  destruct (stakes_located_lem scan_query valley_coordinates 2 rows search_example_lem F) as [[_ T] _].
  destruct T as (stakes & T).
  { split; [|split].
    - repeat constructor; eauto.
    - repeat constructor; cbn; eauto.
    - intros _. discriminate. }
  pose proof (stake_in_own_cell_lem scan_query valley_coordinates 2 rows stakes 0 46 11 "s1"%string 0 1
    search_example_lem F) as O.
  assert (O1 : nth_error stakes 0 = Some (0, 1, "s1"%string)%Z).
  { apply O; [..|exact T|reflexivity|].
    - intros y x la lo L. apply valley_lies in L as [[[_ ->]|[_ ->]] [[_ ->]|[_ ->]]]; lra.
    - intros y x y' x' la lo L L'. apply valley_lies in L as [[[-> ->]|[-> ->]] [[-> ->]|[-> ->]]];
        apply valley_lies in L' as [[[-> E1]|[-> E1]] [[-> E2]|[-> E2]]]; try lra; split; reflexivity.
    - eexists. split; [reflexivity|]. split; [reflexivity|lia]. }
  pose proof (stake_closest_lem _ _ _ _ _ search_example_lem F T) as A.
  inversion A as [|? s1 ? l1 A1 A2]; subst. inversion A2 as [|? s2 ? l2 A3 A4]; subst. inversion A4; subst.
  cbn in O1. injection O1 as ->.
  destruct A3 as (lat & lon & name & y & x & la & lo & E & -> & _). injection E as _ _ <-.
  exists y, x. exact T.
Qed.
