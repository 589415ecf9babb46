(** * Lemmas on topographic shading *)
From Verif Require Import ModelPy ModelConstants ModelNode ModelGrid ModelHeat ModelSurface ModelInit
  ModelCore ModelConfig ModelIO ModelMain ModelRadCor Spec SpecIO SpecRadCor LemPy LemGridBase LemDict
  LemIO LemIO5 LemSim LemHeat LemSurface LemRadCor.

(** ** Rasters *)

Lemma raster_get_at {A} (a : raster A) (y x : Z) : (0 <= y)%Z -> (0 <= x)%Z ->
  raster_get a y x = match cell_at a y x with Some v => Ok v | None => Err IndexError end.
Proof. exact (cell_get_at a y x). Qed.

Lemma raster_set_at {A} (a : raster A) (y x : Z) (v : A) : (0 <= y)%Z -> (0 <= x)%Z ->
  raster_set a y x v = match cell_at a y x with Some _ => Ok (put y x v a) | None => Err IndexError end.
Proof. exact (cell_set_at a y x v). Qed.

Lemma raster_get_ok {A} (a : raster A) y x v : (0 <= y)%Z -> (0 <= x)%Z ->
  raster_get a y x = Ok v <-> cell_at a y x = Some v.
Proof.
  intros Hy Hx. rewrite raster_get_at by assumption. destruct (cell_at a y x); split; congruence.
Qed.

Lemma cell_at_nonneg {A} (a : raster A) y x v : cell_at a y x = Some v -> (0 <= y)%Z /\ (0 <= x)%Z.
Proof.
  unfold cell_at. destruct (Z.leb_spec 0 y), (Z.leb_spec 0 x); cbn [andb]; try discriminate. auto.
Qed.

Lemma cell_at_mapmap {A B} (f : A -> B) (a : raster A) y x :
  cell_at (map (map f) a) y x = option_map f (cell_at a y x).
Proof.
  unfold cell_at. destruct ((0 <=? y) && (0 <=? x))%Z%bool; [|reflexivity].
  rewrite nth_error_map. destruct (nth_error a (Z.to_nat y)); cbn [option_map]; [|reflexivity].
  apply nth_error_map.
Qed.

(** ** The double loop *)

Section Loop.
Variables (ny nx : Z) (m : Z -> Z -> res number) (cellf : Z -> Z -> res R) (illu0 : raster number).

Definition good (il : raster number) (y x : Z) : Prop :=
  exists b, m y x = Ok b /\
    (num_eqb b 1 = true -> exists v, cellf y x = Ok v /\ cell_at il y x = Some (Some v)) /\
    (num_eqb b 1 = false -> cell_at il y x = cell_at illu0 y x).

Definition state (done : Z -> Z -> Prop) (il : raster number) : Prop :=
  forall y x, (0 <= y)%Z -> (0 <= x)%Z ->
    (done y x -> good il y x) /\ (~ done y x -> cell_at il y x = cell_at illu0 y x).

Lemma state_ext (d d' : Z -> Z -> Prop) il : (forall y x, d y x <-> d' y x) -> state d il -> state d' il.
Proof.
  intros E S1 y x Hy Hx. destruct (S1 y x Hy Hx) as [S2 S3]. split.
  - intros D. apply S2, E, D.
  - intros D. apply S3. rewrite E. exact D.
Qed.

Lemma raster_loop illu :
  for_range 1 ny (fun y (il : raster number) => for_range 1 nx (fun x (il : raster number) =>
     b <- m y x ;;
     if num_eqb b 1 then v <- cellf y x ;; raster_set il y x (Some v : number) else Ok il) il) illu0 = Ok illu ->
  state (fun y x => (1 <= y < ny /\ 1 <= x < nx)%Z) illu.
Proof.
  unfold for_range. intros H.
  pose (I := fun (j : Z) (il : raster number) => state (fun y x => (1 <= y < j /\ 1 <= x < nx)%Z) il).
  assert (K: I (1 + Z.of_nat (Z.to_nat (ny - 1)))%Z illu).
  { eapply (for_loop_inv I); [|unfold I|exact H].
    2:{ intros y x Hy Hx. split; [intros; lia|reflexivity]. }
    intros j s s' Hj S1 B. unfold I in *.
    pose (I2 := fun (k : Z) (il : raster number) =>
      state (fun y x => ((1 <= y < j /\ 1 <= x < nx) \/ (y = j /\ 1 <= x < k))%Z) il).
    assert (K2: I2 (1 + Z.of_nat (Z.to_nat (nx - 1)))%Z s').
    { eapply (for_loop_inv I2); [|unfold I2|exact B].
      2:{ eapply state_ext; [|exact S1]. intros; lia. }
      intros k t t' Hk S2 B2. unfold I2 in *. apply bind_ok in B2 as (b & Eb & B2).
      destruct (num_eqb b 1) eqn:Nb.
      - apply bind_ok in B2 as (v & Ev & B2). rewrite raster_set_at in B2 by lia.
        destruct (cell_at t j k) as [old|] eqn:Eo; [|discriminate]. injection B2 as <-.
        intros y x Hy Hx. destruct (S2 y x Hy Hx) as [S3 S4].
        assert (P: cell_at (put j k (Some v : number) t) y x =
                   if ((y =? j) && (x =? k))%Z%bool then option_map (fun _ => Some v : number) (cell_at t y x)
                   else cell_at t y x) by (apply cell_at_put; lia).
        destruct (Z.eqb_spec y j) as [->|Ny]; [destruct (Z.eqb_spec x k) as [->|Nx]|]; cbn [andb] in P.
        + split; [|intros N; exfalso; apply N; lia]. intros _. exists b. split; [exact Eb|].
          split; [|congruence]. intros _. exists v. split; [exact Ev|]. rewrite P, Eo. reflexivity.
        + split.
          * intros D. destruct S3 as (b' & E1 & E2 & E3); [lia|].
            exists b'. rewrite P. auto.
          * intros D. rewrite P. apply S4. lia.
        + split.
          * intros D. destruct S3 as (b' & E1 & E2 & E3); [lia|].
            exists b'. rewrite P. auto.
          * intros D. rewrite P. apply S4. lia.
      - injection B2 as <-. intros y x Hy Hx. destruct (S2 y x Hy Hx) as [S3 S4].
        split.
        + intros D. destruct (Z.eq_dec y j) as [->|Ny]; [destruct (Z.eq_dec x k) as [->|Nx]|].
          * exists b. split; [exact Eb|]. split; [congruence|]. intros _. apply S4. lia.
          * apply S3. lia.
          * apply S3. lia.
        + intros D. apply S4. lia. }
    eapply state_ext; [|exact K2]. intros; cbv beta. lia. }
  eapply state_ext; [|exact K]. intros; cbv beta. lia.
Qed.
End Loop.

(** ** One cell *)

(** the largest angle of the profile *)
Definition horizon (dem : raster R) (lats lons : list R) (nums : Z) (dy dx : R)
  (ilat ilon : Z) : res R :=
  start0 <- py_get lats ilat ;;
  start1 <- py_get lons ilon ;;
  lat_list <- linspace start0 (start0 + dy) nums ;;
  lon_list <- linspace start1 (start1 + dx) nums ;;
  maxlat <- py_max lats ;; minlat <- py_min lats ;;
  let lat_short := filter (fun v => Rltb v maxlat && Rltb minlat v)%bool lat_list in
  maxlon <- py_max lons ;; minlon <- py_min lons ;;
  let lon_short := filter (fun v => Rltb v maxlon && Rltb minlon v)%bool lon_list in
  let lat_short := firstn (length lon_short) lat_short in
  let lon_short := firstn (length lat_short) lon_short in
  lat_end <- py_get lat_short (-1) ;;
  ey <- argmin (map (fun v => Rabs (v - lat_end)) lats) ;;
  lon_end <- py_get lon_short (-1) ;;
  ex <- argmin (map (fun v => Rabs (v - lon_end)) lons) ;;
  y_list <- linspace (IZR ilat) (IZR ey) (Z.of_nat (length lat_short)) ;;
  x_list <- linspace (IZR ilon) (IZR ex) (Z.of_nat (length lon_short)) ;;
  zi <- map_res (fun p => raster_get dem (py_round (fst p)) (py_round (snd p)))
                (combine y_list x_list) ;;
  distance <- map_res (fun p => haversine start0 start1 (fst p) (snd p))
                      (combine lat_short lon_short) ;;
  z0 <- py_get zi 0 ;;
  Hang <- map_res (fun p => q <- adiv (fst p - z0) (snd p) ;; Ok (degrees (atan q)))
                  (combine (tl zi) (tl distance)) ;;
  py_max Hang.

Lemma relshad_cell_horizon dem lats lons nums dy dx solh y x :
  relshad_cell dem lats lons nums dy dx solh y x =
  (m <- horizon dem lats lons nums dy dx y x ;; Ok (if Rltb solh m then 0 else 1)).
Proof.
  unfold relshad_cell, horizon. cbv zeta.
  repeat match goal with
  | |- bind ?a _ = bind (bind ?a _) _ => destruct a; cbn [bind]; [|reflexivity]
  end.
  reflexivity.
Qed.

(** ** relshad *)

Lemma num_eqb_spec m v : num_eqb m v = true <-> m = Some v.
Proof.
  destruct m as [x|]; cbn [num_eqb]; [|split; discriminate].
  destruct (Reqb_spec x v) as [->|N]; split; congruence.
Qed.

Lemma relshad_inv dem mask lats lons solh sdirfn illu :
  relshad dem mask lats lons solh sdirfn = Ok illu ->
  exists rmax first last, shad_radius lats lons = Ok rmax /\ py_get lats 0 = Ok first /\
    py_get lats (-1) = Ok last /\ first - last <> 0 /\
    let nums := py_int (rmax * INR (length lats) / (first - last)) in
    let dy := sin (radians (90 - sdirfn)) * rmax in
    let dx := cos (radians (90 - sdirfn)) * rmax in
    forall y x, (0 <= y)%Z -> (0 <= x)%Z ->
      ((1 <= y < Z.of_nat (length lats) - 1 /\ 1 <= x < Z.of_nat (length lons) - 1)%Z ->
         (cell_at mask y x = Some (Some 1) -> exists m,
            horizon dem lats lons nums dy dx y x = Ok m /\
            cell_at illu y x = Some (Some (if Rltb solh m then 0 else 1))) /\
         (cell_at mask y x <> Some (Some 1) ->
            cell_at illu y x = option_map (fun _ => None) (cell_at dem y x))) /\
      (~ (1 <= y < Z.of_nat (length lats) - 1 /\ 1 <= x < Z.of_nat (length lons) - 1)%Z ->
         cell_at illu y x = option_map (fun _ => None) (cell_at dem y x)).
Proof.
  unfold relshad. cbv zeta. intros H.
  apply bind_ok in H as (rmax & E1 & H). apply bind_ok in H as (fi & E2 & H).
  apply bind_ok in H as (la & E3 & H). apply bind_ok in H as (q & E4 & H).
  exists rmax, fi, la. do 3 (split; [assumption|]). unfold adiv in E4.
  destruct (Req_EM_T (fi - la) 0) as [|N]; [discriminate|]. injection E4 as <-.
  split; [exact N|]. intros y x Hy Hx.
  apply raster_loop in H. destruct (H y x Hy Hx) as [H1 H2]. split.
  - intros D. destruct (H1 D) as (b & Eb & G1 & G2). rewrite raster_get_ok in Eb by lia.
    split.
    + intros M. rewrite M in Eb. injection Eb as <-.
      destruct G1 as (v & Ev & C). { apply num_eqb_spec; reflexivity. }
      rewrite relshad_cell_horizon in Ev. apply bind_ok in Ev as (h & Eh & Ev). injection Ev as <-.
      exists h. auto.
    + intros M. rewrite G2; [apply cell_at_mapmap|].
      destruct (num_eqb b 1) eqn:Nb; [|reflexivity]. apply num_eqb_spec in Nb. exfalso; apply M. rewrite Eb, Nb. reflexivity.
  - intros D. rewrite (H2 D). apply cell_at_mapmap.
Qed.

(** ** Comparing two runs *)

Lemma put_rel {A} (P : A -> A -> Prop) (a b : raster A) y x v w : P v w ->
  Forall2 (Forall2 P) a b -> res_rel (Forall2 (Forall2 P)) (raster_set a y x v) (raster_set b y x w).
Proof.
  intros Hv F. unfold raster_set. eapply bind_rel; [apply py_get_rel; exact F|].
  intros r r' Fr. eapply bind_rel. { apply (py_update_rel P); [|exact Fr]. intros; exact Hv. }
  intros s s' Fs. apply (py_update_rel (Forall2 P)); [|exact F]. intros; exact Fs.
Qed.

Lemma relshad_rel (P : number -> number -> Prop) dem dem' mask lats lons solh solh' sdirfn :
  (forall n dy dx y x, res_rel eq (horizon dem lats lons n dy dx y x) (horizon dem' lats lons n dy dx y x)) ->
  Forall2 (Forall2 (fun _ _ => True)) dem dem' -> P None None ->
  (forall m, P (Some (if Rltb solh m then 0 else 1)) (Some (if Rltb solh' m then 0 else 1))) ->
  res_rel (Forall2 (Forall2 P)) (relshad dem mask lats lons solh sdirfn) (relshad dem' mask lats lons solh' sdirfn).
Proof.
  intros Hh Hd HN HP. unfold relshad. cbv zeta.
  eapply bind_rel; [apply res_refl|]. intros rmax ? <-.
  eapply bind_rel; [apply res_refl|]. intros fi ? <-.
  eapply bind_rel; [apply res_refl|]. intros la ? <-.
  eapply bind_rel; [apply res_refl|]. intros q ? <-.
  apply for_rel.
  - intros j t t' F. apply for_rel; [|exact F]. intros k s s' F'.
    eapply bind_rel; [apply res_refl|]. intros m ? <-. destruct (num_eqb m 1); [|exact F'].
    rewrite !relshad_cell_horizon.
    eapply (bind_rel (fun v w => P (Some v) (Some w))).
    + eapply bind_rel; [apply Hh|]. intros h ? <-. cbn. apply HP.
    + intros v w Hvw. apply put_rel; assumption.
  - clear - Hd HN. induction Hd as [|r r' d d' Hr Hd IH]; cbn; constructor; [|exact IH].
    induction Hr; cbn; constructor; auto.
Qed.

Lemma Forall2_nth {A B} (P : A -> B -> Prop) l l' : Forall2 P l l' -> forall k,
  match nth_error l k, nth_error l' k with
  | Some a, Some b => P a b | None, None => True | _, _ => False end.
Proof. intros F; induction F; intros [|k]; cbn; auto. apply IHF. Qed.

Lemma raster_rel_at {A} (P : A -> A -> Prop) (a b : raster A) y x : Forall2 (Forall2 P) a b ->
  match cell_at a y x, cell_at b y x with
  | Some v, Some w => P v w | None, None => True | _, _ => False end.
Proof.
  intros F. unfold cell_at. destruct ((0 <=? y) && (0 <=? x))%Z%bool; [|exact I].
  pose proof (Forall2_nth _ _ _ F (Z.to_nat y)) as H.
  destruct (nth_error a (Z.to_nat y)), (nth_error b (Z.to_nat y)); try contradiction; [|exact I].
  apply (Forall2_nth _ _ _ H).
Qed.

Lemma Forall2_true {A} (l : list A) : Forall2 (fun _ _ => True) l l.
Proof. induction l; constructor; auto. Qed.
Lemma raster_true {A} (l : raster A) : Forall2 (Forall2 (fun _ _ => True)) l l.
Proof. induction l; constructor; auto using Forall2_true. Qed.

(** shifted terrain *)
Definition shifted (k : R) (dem : raster R) : raster R := map (map (fun z => z + k)) dem.

Lemma py_get_map {A B} (f : A -> B) l i : py_get (map f l) i = match py_get l i with Ok v => Ok (f v) | Err e => Err e end.
Proof.
  unfold py_get. rewrite map_length. destruct (py_index (length l) i) as [k|]; [|reflexivity].
  rewrite nth_error_map. destruct (nth_error l k); reflexivity.
Qed.

Lemma raster_get_shifted k dem y x : raster_get (shifted k dem) y x =
  match raster_get dem y x with Ok v => Ok (v + k) | Err e => Err e end.
Proof.
  unfold raster_get, shifted. rewrite py_get_map. destruct (py_get dem y); cbn [bind]; [|reflexivity].
  apply py_get_map.
Qed.

Lemma map_res_shift {A} (f : A -> res R) (k : R) l :
  map_res (fun p => match f p with Ok v => Ok (v + k) | Err e => Err e end) l
  = match map_res f l with Ok vs => Ok (map (fun v => v + k) vs) | Err e => Err e end.
Proof.
  induction l as [|a l IH]; cbn; [reflexivity|]. rewrite IH. destruct (f a); cbn; [|reflexivity].
  destruct (map_res f l); reflexivity.
Qed.

Lemma map_tl {A B} (f : A -> B) l : tl (map f l) = map f (tl l).
Proof. destruct l; reflexivity. Qed.

Lemma combine_map_l {A B C} (f : A -> C) (l : list A) (m : list B) :
  combine (map f l) m = map (fun p => (f (fst p), snd p)) (combine l m).
Proof. revert m; induction l as [|a l IH]; intros [|b m]; cbn; congruence. Qed.

Lemma map_res_map {A B C} (g : A -> B) (f : B -> res C) l : map_res f (map g l) = map_res (fun x => f (g x)) l.
Proof. induction l as [|a l IH]; cbn; [reflexivity|]. rewrite IH. reflexivity. Qed.

Lemma horizon_shifted k dem lats lons n dy dx y x :
  horizon (shifted k dem) lats lons n dy dx y x = horizon dem lats lons n dy dx y x.
Proof.
  unfold horizon. cbv zeta.
  repeat match goal with
  | |- bind ?a _ = bind ?a _ => destruct a; cbn [bind]; [|reflexivity]
  end.
  rewrite (map_res_ext _ _ _ (fun p => raster_get_shifted k dem (py_round (fst p)) (py_round (snd p)))).
  rewrite map_res_shift.
  destruct (map_res (fun p => raster_get dem (py_round (fst p)) (py_round (snd p))) _) as [zi|]; cbn [bind]; [|reflexivity].
  match goal with |- bind ?a _ = bind ?a _ => destruct a as [ds|]; cbn [bind]; [|reflexivity] end.
  rewrite py_get_map. destruct (py_get zi 0) as [z0|]; cbn [bind]; [|reflexivity].
  rewrite map_tl, combine_map_l, map_res_map. f_equal.
  apply map_res_ext. intros p. cbn [fst snd]. replace (fst p + k - (z0 + k)) with (fst p - z0) by ring.
  reflexivity.
Qed.

(** maxima *)
Lemma fold_max_spec l : forall x, let m := fold_left Rmax l x in
  (m = x \/ In m l) /\ x <= m /\ Forall (fun y => y <= m) l.
Proof.
  induction l as [|a l IH]; intros x; cbn [fold_left]; [cbn; repeat split; auto; lra|].
  destruct (IH (Rmax x a)) as (H1 & H2 & H3). cbv zeta. pose proof (Rmax_l x a). pose proof (Rmax_r x a).
  split; [|split; [lra|constructor; [lra|exact H3]]].
  destruct H1 as [H1|H1]; [|right; right; exact H1].
  rewrite H1. destruct (Rmax_case_strong x a (fun m => m = x \/ a = m \/ In m l)) as [H'|H']; auto.
Qed.

Lemma py_max_spec l m : py_max l = Ok m -> In m l /\ Forall (fun x => x <= m) l.
Proof.
  destruct l as [|x t]; [discriminate|]. cbn [py_max]. intros H; injection H as <-.
  destruct (fold_max_spec t x) as (H1 & H2 & H3). split; [|constructor; assumption].
  destruct H1 as [H1|H1]; [left; congruence|right; exact H1].
Qed.

Lemma py_max_lt l m k : py_max l = Ok m -> (k < m <-> Exists (fun x => k < x) l).
Proof.
  intros H. apply py_max_spec in H as [I F]. rewrite Exists_exists. split.
  - intros L. exists m. auto.
  - intros (x & Ix & L). rewrite Forall_forall in F. specialize (F x Ix). lra.
Qed.
