(** * Shading by the surrounding terrain *)
From Verif Require Import ModelPy ModelConstants ModelNode ModelGrid ModelHeat ModelSurface ModelInit
  ModelCore ModelConfig ModelIO ModelMain ModelRadCor Spec SpecIO SpecRadCor LemPy LemGridBase LemDict
  LemIO LemIO5 LemSim LemHeat LemSurface LemRadCor LemShad LemShad2 LemShad3 LemShad4.

(** ** Values *)

(*@ C71 The shading is 0 or 1 in glacier cells that do not lie at the border of the raster, and missing
   in all other cells of the elevation model. *)
Lemma shading_values_lem :
  forall dem mask lats lons solh sdirfn illu y x,
    relshad dem mask lats lons solh sdirfn = Ok illu ->
    (shaded_cell mask lats lons y x ->
       cell_at illu y x = Some (Some 0) \/ cell_at illu y x = Some (Some 1)) /\
    (~ shaded_cell mask lats lons y x ->
       cell_at illu y x = match cell_at dem y x with Some _ => Some None | None => None end).
Proof.
  intros dem mask lats lons solh sdirfn illu y x H.
  apply relshad_inv in H as (rm & fi & la & E1 & E2 & E3 & E4 & Q). cbv zeta in Q.
  destruct (Z_lt_le_dec y 0) as [Ny|Py].
  { split; [intros (A & _); lia|]. intros _. unfold cell_at. destruct (Z.leb_spec 0 y); [lia|reflexivity]. }
  destruct (Z_lt_le_dec x 0) as [Nx|Px].
  { split; [intros (_ & A & _); lia|]. intros _. unfold cell_at. destruct (Z.leb_spec 0 x); [lia|].
    rewrite andb_false_r. reflexivity. }
  specialize (Q y x Py Px). split.
  - intros (A & B & C). destruct Q as [Q _]. destruct (Q (conj A B)) as [Q1 _].
    destruct (Q1 C) as (m & _ & ->). destruct (Rltb solh m); auto.
  - intros N. change (match cell_at dem y x with Some _ => Some None | None => None end)
      with (option_map (fun _ : R => None : number) (cell_at dem y x)).
    destruct Q as [Q1 Q2].
    destruct (Classical_Prop.classic (1 <= y < Z.of_nat (length lats) - 1 /\ 1 <= x < Z.of_nat (length lons) - 1)%Z)
      as [In1|Out]; [|apply Q2, Out].
    apply Q1; [exact In1|]. intros C. apply N. unfold shaded_cell. tauto.
Qed.

(*@ C71 A rising sun never puts a cell into shade: at a higher sun in the same direction the computation
   fails in the same cases, and no cell of the result is darker. *)
Lemma shading_monotone_lem :
  forall dem mask lats lons h h' a, h <= h' ->
    match relshad dem mask lats lons h a, relshad dem mask lats lons h' a with
    | Ok low, Ok high => forall y x v, cell_at low y x = Some (Some v) ->
        exists w, cell_at high y x = Some (Some w) /\ v <= w
    | Err e, Err e' => e = e'
    | _, _ => False
    end.
Proof.
  intros dem mask lats lons h h' a L.
  pose proof (relshad_rel (fun v w => match v, w with Some v, Some w => v <= w | None, None => True | _, _ => False end)
    dem dem mask lats lons h h' a) as H.
  assert (R: res_rel (Forall2 (Forall2 (fun v w : number => match v, w with Some v, Some w => v <= w | None, None => True | _, _ => False end)))
    (relshad dem mask lats lons h a) (relshad dem mask lats lons h' a)).
  { apply H.
    - intros. apply res_refl.
    - apply raster_true.
    - exact I.
    - intros m. cbv beta iota. destruct (Rltb_spec h m), (Rltb_spec h' m); lra. }
  clear H. destruct (relshad dem mask lats lons h a), (relshad dem mask lats lons h' a); try exact R.
  intros y x v E. pose proof (raster_rel_at _ _ _ y x R) as P. rewrite E in P.
  destruct (cell_at a1 y x) as [[w|]|]; try contradiction. eauto.
Qed.

(*@ C71 Only differences of elevation matter: raising the whole terrain leaves the shading as it is. *)
Lemma shading_shift_lem :
  forall k dem mask lats lons solh sdirfn,
    relshad (map (map (fun z => z + k)) dem) mask lats lons solh sdirfn
    = relshad dem mask lats lons solh sdirfn.
Proof.
  intros k dem mask lats lons solh sdirfn. change (map (map (fun z => z + k)) dem) with (shifted k dem).
  pose proof (relshad_rel eq (shifted k dem) dem mask lats lons solh solh sdirfn) as H.
  assert (R: res_rel (Forall2 (Forall2 eq)) (relshad (shifted k dem) mask lats lons solh sdirfn)
    (relshad dem mask lats lons solh sdirfn)).
  { apply H; auto.
    - intros. rewrite horizon_shifted. apply res_refl.
    - unfold shifted. clear. induction dem as [|r d IH]; cbn; constructor; auto.
      induction r; cbn; constructor; auto. }
  destruct (relshad (shifted k dem) mask lats lons solh sdirfn), (relshad dem mask lats lons solh sdirfn);
    cbn [res_rel] in R; try contradiction; [|congruence].
  f_equal. clear -R. induction R as [|r r' l l' Hr R IH]; [reflexivity|]. f_equal; [|exact IH].
  clear -Hr. induction Hr; [reflexivity|]. f_equal; assumption.
Qed.

Lemma py_get_in {A} (l : list A) i v : py_get l i = Ok v -> In v l.
Proof.
  unfold py_get. destruct (py_index (length l) i) as [k|]; [|discriminate].
  destruct (nth_error l k) eqn:E; [|discriminate]. intros H. injection H as <-. eapply nth_error_In; exact E.
Qed.

Lemma map_res_forall {A B} (f : A -> res B) (P : B -> Prop) l rs : map_res f l = Ok rs ->
  (forall a b, In a l -> f a = Ok b -> P b) -> Forall P rs.
Proof.
  intros H HP. apply map_res_forall2 in H. induction H; constructor.
  - eapply HP; [left; reflexivity|eassumption].
  - apply IHForall2. intros a b Ia. apply HP. right. exact Ia.
Qed.

Lemma raster_get_in {A} (a : raster A) y x v : raster_get a y x = Ok v -> exists row, In row a /\ In v row.
Proof.
  unfold raster_get. intros H. apply bind_ok in H as (r & E1 & E2). apply py_get_in in E1, E2. eauto.
Qed.

Lemma horizon_flat dem lats lons n dy dx y x c m :
  Forall (Forall (fun z => z = c)) dem ->
  horizon dem lats lons n dy dx y x = Ok m -> m = 0.
Proof.
  intros Fl H. unfold horizon in H. cbv zeta in H.
  do 14 (apply bind_ok in H as (? & ? & H)). apply bind_ok in H as (zi & Ez & H).
  apply bind_ok in H as (ds & Ed & H). apply bind_ok in H as (z0 & E0 & H). apply bind_ok in H as (hs & Eh & H).
  assert (Zc: Forall (fun z => z = c) zi).
  { apply (map_res_forall _ _ _ _ Ez). intros p v _ Hp. apply raster_get_in in Hp as (row & I1 & I2).
    rewrite Forall_forall in Fl. specialize (Fl _ I1). rewrite Forall_forall in Fl. auto. }
  assert (Z0: z0 = c). { apply py_get_in in E0. rewrite Forall_forall in Zc. auto. }
  assert (Hc: Forall (fun h => h = 0) hs).
  { apply (map_res_forall _ _ _ _ Eh). intros [z d] v Ip Hp. cbn [fst snd] in Hp.
    apply in_combine_l in Ip. assert (z = c).
    { rewrite Forall_forall in Zc. apply Zc. destruct zi; [destruct Ip|right; exact Ip]. }
    apply bind_ok in Hp as (q & Eq & Hp). injection Hp as <-. unfold adiv in Eq.
    destruct (Req_EM_T d 0); [discriminate|]. injection Eq as <-.
    replace ((z - z0) / d) with 0 by (subst; field; assumption). rewrite atan_0. unfold degrees. field. apply PI_neq0. }
  apply py_max_spec in H as [Im _]. rewrite Forall_forall in Hc. auto.
Qed.

(*@ C71 Level terrain: nothing is in shade while the sun is not below the horizon, and everything is in
   shade while it is. *)
Lemma shading_level_lem :
  forall dem mask lats lons solh sdirfn illu y x z,
    relshad dem mask lats lons solh sdirfn = Ok illu ->
    Forall (Forall (fun v => v = z)) dem ->
    shaded_cell mask lats lons y x ->
    (0 <= solh -> cell_at illu y x = Some (Some 1)) /\ (solh < 0 -> cell_at illu y x = Some (Some 0)).
Proof.
  intros dem mask lats lons solh sdirfn illu y x z H Fl (A & B & C).
  apply relshad_inv in H as (rm & fi & la & E1 & E2 & E3 & E4 & Q). cbv zeta in Q.
  destruct (Q y x ltac:(lia) ltac:(lia)) as [Q1 _]. destruct (Q1 (conj A B)) as [Q2 _].
  destruct (Q2 C) as (m & Em & ->). apply (horizon_flat _ _ _ _ _ _ _ _ _ _ Fl) in Em. subst m.
  destruct (Rltb_spec solh 0); split; intros; try lra; reflexivity.
Qed.

(** ** Meaning on a regular grid *)

(*@ C71 What shade means on a regular grid: a cell is in shade exactly if at some point of its profile the
   terrain rises above the ray towards the sun.  The profile starts in the centre of the cell and leads
   towards the azimuth of the sun in steps of constant length; it contains every such point strictly
   inside the raster and no other; the distance of a point is its great-circle distance, and its elevation
   is taken from a cell whose centre is at most one cell width away in each direction. *)
Lemma shading_meaning_lem :
  forall dem mask lats lons oy sy ox sx s h a illu y x,
    grid lats lons oy sy ox sx -> profile_step lats lons sy sx s ->
    -90 < h < 90 ->
    relshad dem mask lats lons h a = Ok illu ->
    shaded_cell mask lats lons y x ->
    let lat k := oy + IZR y * sy + INR k * (s * cos (radians a)) in
    let lon k := ox + IZR x * sx + INR k * (s * sin (radians a)) in
    0 < s /\
    exists z0 profile, cell_at dem y x = Some z0 /\ profile <> [] /\
      (forall k, nth_error profile k <> None <-> within lats (lat (S k)) /\ within lons (lon (S k))) /\
      (forall k z d, nth_error profile k = Some (z, d) ->
         haversine (lat O) (lon O) (lat (S k)) (lon (S k)) = Ok d /\ 0 < d /\
         exists y' x', cell_at dem y' x' = Some z /\
           Rabs (oy + IZR y' * sy - lat (S k)) <= - sy /\ Rabs (ox + IZR x' * sx - lon (S k)) <= sx) /\
      (cell_at illu y x = Some (Some 0) <->
         exists z d, In (z, d) profile /\ z0 + d * tan (radians h) < z) /\
      (cell_at illu y x = Some (Some 1) <->
         forall z d, In (z, d) profile -> z <= z0 + d * tan (radians h)).
Proof.
  intros dem mask lats lons oy sy ox sx s h a illu y x G Hs Hh H (A & B & C) lat lon.
  destruct (step_count _ _ _ _ _ _ G _ Hs) as [Es Ps]. split; [exact Ps|].
  pose proof (relshad_grid _ _ _ _ _ _ G dem mask h a) as RG.
  apply relshad_inv in H as (rm & fi & la & E1 & E2 & E3 & E4 & Q). cbv zeta in Q.
  rewrite (radius_diag _ _ _ _ _ _ G) in E1. injection E1 as <-.
  rewrite (lat_first _ _ _ _ _ _ G) in E2. injection E2 as <-.
  rewrite (lat_last _ _ _ _ _ _ G) in E3. injection E3 as <-.
  replace (oy - (oy + (INR (length lats) - 1) * sy)) with ((INR (length lats) - 1) * - sy) in Q by ring.
  rewrite sin_beta, cos_beta in Q. fold (count lats lons sy sx) in Q.
  destruct (Q y x ltac:(lia) ltac:(lia)) as [Q1 _]. destruct (Q1 (conj A B)) as [Q2 _].
  destruct (Q2 C) as (m & Em & EC). clear Q Q1 Q2.
  pose proof (Sy _ _ _ _ _ _ G) as Sy. pose proof (Sx _ _ _ _ _ _ G) as Sx.
  destruct (horizon_profile dem lats lons oy sy ox sx (Ry _ _ _ _ _ _ G) (Rx _ _ _ _ _ _ G) ltac:(lra) ltac:(lra)
     _ _ _ y x m A B Em) as (Cn & z0 & pts & E0 & Ne & HP & HQ & HR).
  set (n := count lats lons sy sx) in *. set (D := diag lats lons sy sx) in *.
  assert (Hn: IZR (n - 1) <> 0) by (apply not_0_IZR; lia).
  replace (cos (radians a) * D / IZR (n - 1)) with (s * cos (radians a)) in HP, HQ by (rewrite Es; field; exact Hn).
  replace (sin (radians a) * D / IZR (n - 1)) with (s * sin (radians a)) in HP, HQ by (rewrite Es; field; exact Hn).
  exists z0, pts. split; [exact E0|]. split; [exact Ne|]. split; [|split; [|split]].
  - intros k. split.
    + intros Hk. destruct (nth_error pts k) as [[z d]|] eqn:Ek; [|congruence].
      destruct (HP k z d Ek) as (_ & _ & W1 & W2 & _). auto.
    + intros [W1 W2]. apply HQ; [|exact W1|exact W2].
      assert (L: INR (S k) < IZR (n - 1)).
      { apply (profile_complete lats lons oy sy ox sx G s a y x (INR (S k)) Hs).
        - apply interior_within; [apply (Ry _ _ _ _ _ _ G)|lra|exact A].
        - apply interior_within; [apply (Rx _ _ _ _ _ _ G)|lra|exact B].
        - apply pos_INR.
        - exact W1.
        - exact W2. }
      rewrite INR_IZR_INZ in L. apply lt_IZR in L. lia.
  - intros k z d Ek. destruct (HP k z d Ek) as (H1 & H2 & _ & _ & y' & x' & H3 & H4 & H5).
    unfold lat, lon. cbn [INR]. rewrite !Rmult_0_l, !Rplus_0_r. split; [exact H1|]. split; [exact H2|].
    exists y', x'. split; [exact H3|]. rewrite (Rabs_left sy) in H4 by lra. rewrite (Rabs_right sx) in H5 by lra. auto.
  - rewrite <- (HR h Hh). rewrite EC. destruct (Rltb_spec h m); split; intros; try reflexivity; try lra.
    exfalso. injection H. lra.
  - rewrite EC. destruct (Rltb_spec h m) as [L|L]; split.
    + intros E. exfalso. injection E. lra.
    + intros E. exfalso. apply (HR h Hh) in L as (z & d & I1 & I2). specialize (E z d I1). lra.
    + intros _ z d I1. apply Rnot_lt_le. intros I2. apply L, (HR h Hh). eauto.
    + reflexivity.
Qed.

(*@ C71 When the shading can be computed: on a regular grid of real coordinates the computation succeeds
   exactly if for every glacier cell off the border the first point of its profile still lies strictly
   inside the raster; otherwise it raises ValueError. *)
Lemma shading_progress_lem :
  forall dem mask lats lons oy sy ox sx s h a,
    grid lats lons oy sy ox sx -> profile_step lats lons sy sx s ->
    sized dem (length lats) (length lons) -> sized mask (length lats) (length lons) ->
    (forall v, In v lats -> -90 <= v <= 90) ->
    (forall v w, In v lons -> In w lons -> v - w < 360) ->
    let stays y x := within lats (oy + IZR y * sy + s * cos (radians a)) /\
                     within lons (ox + IZR x * sx + s * sin (radians a)) in
    ((forall y x, shaded_cell mask lats lons y x -> stays y x) ->
       exists illu, relshad dem mask lats lons h a = Ok illu /\ sized illu (length lats) (length lons)) /\
    (~ (forall y x, shaded_cell mask lats lons y x -> stays y x) ->
       relshad dem mask lats lons h a = Err ValueError).
Proof.
  intros dem mask lats lons oy sy ox sx s h a G Hs D M By Bx stays.
  assert (Bx': forall v w, In v lons -> In w lons -> -360 < v - w < 360).
  { intros v w Iv Iw. pose proof (Bx v w Iv Iw). pose proof (Bx w v Iw Iv). lra. }
  pose proof (relshad_progress lats lons oy sy ox sx G dem mask D M By Bx' s h a Hs) as P.
  destruct (relshad dem mask lats lons h a) as [illu|e].
  - destruct P as [P1 P2]. split; [eauto|]. intros N. exfalso. apply N. intros y x Hc.
    specialize (P2 y x Hc). unfold leaves in P2. apply Classical_Prop.NNPP. exact P2.
  - destruct P as [-> (y & x & P1 & P2)]. split; [|reflexivity]. intros Q. exfalso. apply P2, Q, P1.
Qed.

Lemma sqrt2_bounds : 1.414 < sqrt 2 < 1.415.
Proof.
  split.
  - rewrite <- (sqrt_pow2 1.414) by lra. apply sqrt_lt_1_alt. lra.
  - rewrite <- (sqrt_pow2 1.415) by lra. apply sqrt_lt_1_alt. lra.
Qed.

Lemma grid_4x4 : grid [3; 2; 1; 0] [0; 1; 2; 3] 3 (-1) 0 1.
Proof.
  unfold grid, regular. repeat split; try lra; try (cbn; lia).
  all: intros k v H; do 4 (destruct k as [|k]; [injection H as <-; cbn; ring|]); destruct k; discriminate.
Qed.

Lemma step_4x4 s : profile_step [3; 2; 1; 0] [0; 1; 2; 3] (-1) 1 s -> s = 3 * sqrt 2 / 4.
Proof.
  intros (n & Hn & Hs). cbn [length INR] in Hn, Hs. replace (1 + 1 + 1 + 1) with 4 in * by ring.
  replace (((4 - 1) * -1) ^ 2 + ((4 - 1) * 1) ^ 2) with (3 ^ 2 * 2) in * by ring.
  rewrite sqrt_mult_alt, sqrt_pow2 in * by lra. pose proof sqrt2_bounds.
  replace (3 * sqrt 2 * 4 / ((4 - 1) * - -1)) with (4 * sqrt 2) in Hn by field.
  assert (n = 5%Z).
  { assert (IZR n < IZR 6) by lra. assert (IZR 4 < IZR n) by lra. apply lt_IZR in H0, H1. lia. }
  subst n. lra.
Qed.

Definition one_glacier (y x : nat) : raster number :=
  map (fun i => map (fun j => if (Nat.eqb i y && Nat.eqb j x)%bool then Some 1 else Some 0) [0; 1; 2; 3]%nat) [0; 1; 2; 3]%nat.

Lemma one_glacier_sized y x : sized (one_glacier y x) 4 4.
Proof. split; [reflexivity|]. repeat constructor. Qed.

(*@ C71 The computation is not total: on a grid of four by four cells with one glacier cell next to the border
   row it raises ValueError towards the north, for every elevation model and every solar elevation. *)
Lemma shading_border_refuted_lem :
  exists lats lons mask y x,
    grid lats lons 3 (-1) 0 1 /\ sized mask (length lats) (length lons) /\
    shaded_cell mask lats lons y x /\
    forall dem h, sized dem (length lats) (length lons) ->
      relshad dem mask lats lons h 360 = Err ValueError.
Proof.
  exists [3; 2; 1; 0], [0; 1; 2; 3], (one_glacier 1 1), 1%Z, 1%Z.
  assert (SC: shaded_cell (one_glacier 1 1) [3; 2; 1; 0] [0; 1; 2; 3] 1 1).
  { unfold shaded_cell. cbn [length]. split; [lia|]. split; [lia|]. reflexivity. }
  split; [exact grid_4x4|]. split; [apply one_glacier_sized|]. split; [exact SC|].
  intros dem h SD. destruct (step_exists _ _ _ _ _ _ grid_4x4) as (s & Hs).
  destruct (shading_progress_lem dem (one_glacier 1 1) [3; 2; 1; 0] [0; 1; 2; 3] 3 (-1) 0 1 s h 360) as [_ P]; auto.
  - exact grid_4x4.
  - apply one_glacier_sized.
  - intros v [<-|[<-|[<-|[<-|[]]]]]; lra.
  - intros v w [<-|[<-|[<-|[<-|[]]]]] [<-|[<-|[<-|[<-|[]]]]]; lra.
  - apply P. intros Q. specialize (Q 1%Z 1%Z SC). destruct Q as [[_ (b & Ib & Lb)] _].
    apply step_4x4 in Hs. pose proof sqrt2_bounds.
    replace (radians 360) with (2 * PI) in Lb by (unfold radians; field). rewrite cos_2PI in Lb.
    destruct Ib as [<-|[<-|[<-|[<-|[]]]]]; lra.
Qed.

(*@ex One cell further from the border the computation succeeds, for every elevation model. *)
Lemma shading_progress_case_lem :
  forall dem h, sized dem 4 4 -> exists illu, relshad dem (one_glacier 2 2) [3; 2; 1; 0] [0; 1; 2; 3] h 360 = Ok illu.
Proof.
  intros dem h SD. destruct (step_exists _ _ _ _ _ _ grid_4x4) as (s & Hs).
  destruct (shading_progress_lem dem (one_glacier 2 2) [3; 2; 1; 0] [0; 1; 2; 3] 3 (-1) 0 1 s h 360) as [P _]; auto.
  - exact grid_4x4.
  - apply one_glacier_sized.
  - intros v [<-|[<-|[<-|[<-|[]]]]]; lra.
  - intros v w [<-|[<-|[<-|[<-|[]]]]] [<-|[<-|[<-|[<-|[]]]]]; lra.
  - destruct P as (illu & E & _); [|eauto]. intros y x (Hy & Hx & Hm). cbn [length] in Hy, Hx.
    assert (E: (y = 2 /\ x = 2)%Z).
    { assert (y = 1 \/ y = 2)%Z as [-> | ->] by lia; assert (x = 1 \/ x = 2)%Z as [-> | ->] by lia; auto;
        exfalso; cbv in Hm; injection Hm; intros; lra. }
    destruct E as [-> ->]. apply step_4x4 in Hs. pose proof sqrt2_bounds.
    replace (radians 360) with (2 * PI) by (unfold radians; field). rewrite cos_2PI, sin_2PI.
    split; split.
    + exists 0. split; [cbn; tauto|lra].
    + exists 3. split; [cbn; tauto|lra].
    + exists 0. split; [cbn; tauto|lra].
    + exists 3. split; [cbn; tauto|lra].
Qed.
