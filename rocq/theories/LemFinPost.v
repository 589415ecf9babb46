(** * Plots of profiles *)
From Verif Require Import ModelPy ModelConstants ModelNode ModelGrid ModelHeat ModelSurface ModelInit
  ModelCore ModelConfig ModelIO ModelMain ModelRadCor ModelAws ModelSetup ModelPost SpecPost.
From Verif Require Import LemPy LemSurface LemIO5 LemAws2 LemAws4 LemShad LemShad2 LemPost.

(*@ C98 The search for a value answers the first position whose number is next to it, and fails exactly if there is no number. *)
Lemma nearest_value_found_lem :
  forall array v,
  (forall i x, find_nearest array v = Ok (i, x) <-> exists a, x = Some a /\ first_nearest array v i a) /\
  (forall e, find_nearest array v = Err e <-> e = ValueError /\ forall j b, ~ is_number array j b).
Proof.
  intros array v. split; intros; [apply find_nearest_ok|apply find_nearest_err].
Qed.

Lemma number_at_nth l i : (i < length l)%nat -> number_at l i = Ok (nth i l None).
Proof. intros H. unfold number_at. rewrite (nth_error_nth' l None H). reflexivity. Qed.

Lemma stored_length h n : length (stored h n) = (length h + n)%nat.
Proof. unfold stored. rewrite app_length, map_length, repeat_length. reflexivity. Qed.

Lemma number_cumsum_length l : forall a, length (number_cumsum_from a l) = length l.
Proof. induction l as [|x t IH]; intros a; cbn; [reflexivity|]. rewrite IH. reflexivity. Qed.

Lemma nth_pred_cons (l : list number) m : l <> [] -> nth m (nth 0 l None :: l) None = nth (pred m) l None.
Proof. intros. destruct m; reflexivity. Qed.

(*@ C98 For a cell with layers, every depth from the surface down gets a line. It shows the boundary next to the depth, and the values of the layer above this boundary, which are those of the layer that holds the depth only if the depth is in its lower half or in the top layer. The density curve has the layers at their lower boundaries. *)
Lemma profile_printed_lem :
  forall lats lons la lo data p h missing ds,
  sel_nearest lats lons la lo data = Ok p -> pf_height p = stored h missing ->
  length (pf_rho p) = length (pf_height p) -> length (pf_t p) = length (pf_height p) ->
  Forall (fun x => 0 < x) h -> h <> [] -> Forall (fun d => 0 <= d) ds ->
  exists printed curve,
    plot_profile_1D lats lons (Some la) (Some lo) data (Some ds) = Ok (printed, curve) /\
    length printed = length ds /\
    (forall n d k, nth_error ds n = Some d -> holds_depth h k d ->
       let m := if Rle_dec (d - layer_top h k) (layer_top h (S k) - d) then k else S k in
       nth_error printed n = Some (Some (layer_top h m), nth (pred m) (pf_rho p) None, nth (pred m) (pf_t p) None)) /\
    nth_error curve 0 = Some (nth 0 (pf_rho p) None, Some 0) /\
    (forall k, (k < length h)%nat -> nth_error curve (S k) = Some (nth k (pf_rho p) None, Some (layer_top h (S k)))).
Proof.
  intros lats lons la lo data p h missing ds SEL HH HR HT POS NE DS.
  assert (LH : (0 < length h)%nat) by (destruct h; [congruence|cbn; lia]).
  rewrite HH, stored_length in HR, HT.
  unfold plot_profile_1D. rewrite SEL. cbn [bind concat map app]. rewrite !app_nil_r.
  cbn [map_res bind]. rewrite !number_at_nth by lia. cbn [bind app]. rewrite HH.
  set (line := fun d => let k := if Rle_dec 0 d then d else d in k). clear line.
  assert (LINES : exists printed, map_res (fun dmeas =>
      n <- find_nearest (Some 0 :: number_cumsum (stored h missing)) dmeas ;;
      r <- number_at (nth 0 (pf_rho p) None :: pf_rho p) (fst n) ;;
      tt <- number_at (nth 0 (pf_t p) None :: pf_t p) (fst n) ;;
      Ok (snd n, r, tt)) ds = Ok printed /\ length printed = length ds /\
      (forall n d k, nth_error ds n = Some d -> holds_depth h k d ->
       let m := if Rle_dec (d - layer_top h k) (layer_top h (S k) - d) then k else S k in
       nth_error printed n = Some (Some (layer_top h m), nth (pred m) (pf_rho p) None, nth (pred m) (pf_t p) None))).
  { assert (ONE : forall d k, holds_depth h k d ->
      let m := if Rle_dec (d - layer_top h k) (layer_top h (S k) - d) then k else S k in
      (n <- find_nearest (Some 0 :: number_cumsum (stored h missing)) d ;;
      r <- number_at (nth 0 (pf_rho p) None :: pf_rho p) (fst n) ;;
      tt <- number_at (nth 0 (pf_t p) None :: pf_t p) (fst n) ;;
      Ok (snd n, r, tt)) = Ok (Some (layer_top h m), nth (pred m) (pf_rho p) None, nth (pred m) (pf_t p) None)).
    { intros d k K m. rewrite (find_nearest_depth h missing d k POS K). fold m. cbn [bind fst snd].
      assert (M : (m <= length h)%nat) by (apply interface_in_range; apply K).
      rewrite !number_at_nth by (cbn [length]; lia). cbn [bind].
      rewrite !nth_pred_cons by (intros E; rewrite E in *; cbn in *; lia). reflexivity. }
    induction ds as [|d t IH].
    - exists []. split; [reflexivity|]. split; [reflexivity|]. intros [|n] d k H; discriminate.
    - inversion DS as [|? ? D0 DT]; subst. destruct (IH DT) as (pr & E & L & H).
      destruct (holds_exists h d POS NE D0) as [k K].
      eexists. cbn [map_res]. rewrite (ONE d k K). cbn [bind]. rewrite E. cbn [bind]. split; [reflexivity|].
      split; [cbn; rewrite L; reflexivity|]. intros [|n] d' k' N K'.
      + injection N as <-. rewrite (holds_unique h d k' k POS K' K). reflexivity.
      + apply (H n d' k' N K'). }
  destruct LINES as (printed & E & L & H). rewrite E. cbn [bind length].
  unfold number_cumsum. rewrite number_cumsum_length, stored_length, HR, HT, !Nat.eqb_refl. cbn [andb].
  eexists. eexists. split; [reflexivity|]. split; [exact L|]. split; [exact H|]. split; [reflexivity|].
  intros k K. cbn [combine nth_error]. rewrite cumsum_stored.
  assert (NC : forall (a : list number) (b : list number) i, (i < length a)%nat -> (i < length b)%nat ->
    nth_error (combine a b) i = Some (nth i a None, nth i b None)).
  { induction a as [|x t IHa]; intros [|y b] [|i] HA HB; cbn in HA, HB |- *; try lia; [reflexivity|]. apply IHa; lia. }
  rewrite NC; [|lia|rewrite stored_length, cumsum_from_length; lia].
  do 2 f_equal. assert (IN : is_number (stored (cumsum_from 0 h) missing) k (layer_top h (S k))).
  { apply is_number_stored. rewrite cumsum_from_length. split; [exact K|]. symmetry. apply cumsum_top. exact K. }
  exact (nth_error_nth _ _ _ IN).
Qed.

(*@ C98 Two layers of one metre: at a depth of 1.2 m the density of the upper layer is printed. *)
Lemma profile_layer_refuted_lem :
  exists p h d k printed curve,
    pf_height p = stored h 0 /\ holds_depth h k d /\ nth k (pf_rho p) None = Some 600 /\
    plot_profile_1D [0] [0] (Some 0) (Some 0) [[p]] (Some [d]) = Ok (printed, curve) /\
    printed = [(Some 1, Some 300, Some 270)].
Proof.
  pose (p := mkProfile [Some 1; Some 1] [Some 300; Some 600] [Some 270; Some 260]).
  assert (K : holds_depth [1; 1] 1 1.2). { split; [cbn; lia|]. unfold layer_top, sum_list. cbn. split; [lra|right; reflexivity]. }
  destruct (profile_printed_lem [0] [0] 0 0 [[p]] p [1; 1] 0 [1.2]) as (pr & cu & E & L & H & _); try reflexivity;
    [repeat constructor; lra|discriminate|repeat constructor; lra|].
  exists p, [1; 1], 1.2, 1%nat, pr, cu. split; [reflexivity|]. split; [exact K|]. split; [reflexivity|]. split; [exact E|].
  specialize (H 0%nat 1.2 1%nat eq_refl K). cbv zeta in H.
  destruct (Rle_dec _ _) as [C|C]; [|exfalso; apply C; unfold layer_top, sum_list; cbn; lra].
  destruct pr as [|x [|? ?]]; try discriminate. injection H as ->. cbn. unfold layer_top, sum_list. cbn.
  repeat f_equal. lra.
Qed.

(*@ C98 A profile is plotted only for a cell chosen by both coordinates, or for a file with one cell; with only one coordinate, a cell of several layers cannot be plotted either. *)
Lemma profile_needs_cell_lem :
  forall lats lons lat lon data d r,
  plot_profile_1D lats lons lat lon data d = Ok r ->
  (exists la lo p, lat = Some la /\ lon = Some lo /\ sel_nearest lats lons la lo data = Ok p) \/
  (exists p, concat data = [p] /\
     (data = [[p]] -> (lat = None /\ lon = None) \/
        (length (pf_rho p) + length (pf_rho p) = S (length (pf_height p)))%nat)).
Proof.
  intros lats lons lat lon data d r H. unfold plot_profile_1D in H.
  assert (ONE : forall row data', data = row :: data' ->
    (r0 <- Ok (concat (map pf_rho row) ++ concat (map pf_rho (concat data))) ;;
     t <- Ok (concat (map pf_t row) ++ concat (map pf_t (concat data))) ;;
     match concat data with [_] => Ok tt | _ => Err TypeError end ;;
     printed <- map_res (fun dmeas =>
       n <- find_nearest (Some 0 :: number_cumsum (concat (map pf_height (concat data)))) dmeas ;;
       r <- number_at r0 (fst n) ;; tt <- number_at t (fst n) ;; Ok (snd n, r, tt)) (match d with Some l => l | None => [] end) ;;
     if (length r0 =? length (Some 0%R :: number_cumsum (concat (map pf_height (concat data)))))%nat &&
        (length t =? length (Some 0%R :: number_cumsum (concat (map pf_height (concat data)))))%nat
     then Ok (printed, combine r0 (Some 0 :: number_cumsum (concat (map pf_height (concat data))))) else Err ValueError) = Ok r ->
    exists p, concat data = [p] /\ (data = [[p]] -> (length (pf_rho p) + length (pf_rho p) = S (length (pf_height p)))%nat)).
  { intros row data' D G. cbn [bind] in G.
    destruct (concat data) as [|p [|? ?]] eqn:E; cbn [bind] in G; try discriminate.
    exists p. split; [reflexivity|]. intros D1. rewrite D1 in D. injection D as <- _.
    destruct (map_res _ _); cbn [bind] in G; [|discriminate].
    destruct (Nat.eqb _ _ && _) eqn:B in G; [|discriminate]. apply andb_prop in B. destruct B as [B _]. apply Nat.eqb_eq in B.
    cbn [concat map length] in B. rewrite !app_nil_r, app_length in B. unfold number_cumsum in B. rewrite number_cumsum_length in B.
    exact B. }
  destruct lat as [la|]; [destruct lon as [lo|]|destruct lon as [lo|]].
  - left. destruct (sel_nearest lats lons la lo data) as [p|] eqn:E; [|discriminate]. eauto 8.
  - right. cbn [bind] in H. destruct data as [|row data']; [discriminate|].
    destruct (ONE row data' eq_refl H) as (p & E & F). exists p. split; [exact E|]. intros D; right; apply F, D.
  - right. cbn [bind] in H. destruct data as [|row data']; [discriminate|].
    destruct (ONE row data' eq_refl H) as (p & E & F). exists p. split; [exact E|]. intros D; right; apply F, D.
  - right. cbn [bind] in H. destruct (map_res _ (concat data)); cbn [bind] in H; [|discriminate].
    destruct (map_res _ (concat data)); cbn [bind] in H; [|discriminate].
    destruct (concat data) as [|p [|? ?]]; cbn [bind] in H; try discriminate. exists p. auto.
Qed.

(*@ C98 In the image of a profile over time nothing is drawn from the snow surface upwards. A point below it shows the layer whose lower boundary is next to it: this is the layer that holds the point if the point is in its lower half or in the top layer, and otherwise the layer above. Points below the column show the last layer. *)
Lemma image_pixel_lem :
  forall yi s h missing V,
  Forall (fun x => 0 < x) h -> h <> [] -> length V = (length h + missing)%nat ->
  exists column,
    image_column yi (Some s) (stored h missing) V = Ok column /\ length column = length yi /\
    forall n y, nth_error yi n = Some y ->
      (s <= y -> nth_error column n = Some None) /\
      (forall k, y < s -> holds_depth h k (s - y) ->
         nth_error column n =
           Some (nth (if Rle_dec (s - y - layer_top h k) (layer_top h (S k) - (s - y)) then pred k else k) V None)).
Proof.
  intros yi s h missing V POS NE LV.
  assert (ONE : forall y, exists v,
    (if Rltb y s then n <- find_nearest (map (above_base (Some s)) (number_cumsum (stored h missing))) y ;; number_at V (fst n) else Ok None) = Ok v /\
    (s <= y -> v = None) /\
    (forall k, y < s -> holds_depth h k (s - y) ->
      v = nth (if Rle_dec (s - y - layer_top h k) (layer_top h (S k) - (s - y)) then pred k else k) V None)).
  { intros y. destruct (Rltb_cases y s) as [[E L]|[E L]]; rewrite E.
    - destruct (holds_exists h (s - y) POS NE ltac:(lra)) as [k K].
      destruct (find_nearest_height h missing s y k POS K L) as [v F]. rewrite F. cbn [bind fst].
      assert (M : ((if Rle_dec (s - y - layer_top h k) (layer_top h (S k) - (s - y)) then k else S k) <= length h)%nat)
        by (apply interface_in_range; apply K).
      rewrite number_at_nth by (destruct h; [congruence|cbn [length] in *; lia]).
      eexists. split; [reflexivity|]. split; [intros; lra|]. intros k' _ K'.
      rewrite (holds_unique h (s - y) k' k POS K' K). destruct (Rle_dec _ _); reflexivity.
    - exists None. split; [reflexivity|]. split; [reflexivity|]. intros; lra. }
  unfold image_column. induction yi as [|y t IH].
  - exists []. split; [reflexivity|]. split; [reflexivity|]. intros [|n] y H; discriminate.
  - destruct IH as (c & E & L & H). destruct (ONE y) as (v & EV & V1 & V2).
    exists (v :: c). cbn [map_res]. rewrite EV. cbn [bind]. rewrite E. cbn [bind]. split; [reflexivity|].
    split; [cbn; rewrite L; reflexivity|]. intros [|n] y' N.
    + injection N as <-. split; [intros; cbn; f_equal; auto|]. intros k Y K. cbn. f_equal. apply V2; auto.
    + apply H. exact N.
Qed.

(*@ C98 Two layers of one metre over the base: the point at 0.8 m, in the lower layer, shows the upper one. *)
Lemma image_pixel_refuted_lem :
  exists h s y k V, holds_depth h k (s - y) /\ image_column [y] (Some s) (stored h 0) V = Ok [Some 300] /\ nth k V None = Some 600.
Proof.
  exists [1; 1], 2, 0.8, 1%nat, [Some 300; Some 600].
  assert (K : holds_depth [1; 1] 1 (2 - 0.8)). { split; [cbn; lia|]. unfold layer_top, sum_list. cbn. split; [lra|right; reflexivity]. }
  split; [exact K|]. split; [|reflexivity].
  destruct (image_pixel_lem [0.8] 2 [1; 1] 0 [Some 300; Some 600]) as (c & E & L & H); [repeat constructor; lra|discriminate|reflexivity|].
  rewrite E. f_equal. destruct (H 0%nat 0.8 eq_refl) as [_ H2]. specialize (H2 1%nat ltac:(lra) K).
  destruct (Rle_dec _ _) as [C|C]; [|exfalso; apply C; unfold layer_top, sum_list; cbn; lra].
  destruct c as [|x [|? ?]]; try discriminate. injection H2 as ->. reflexivity.
Qed.

(*@ C98 With the required version of numpy the image of a profile over time is never drawn. *)
Lemma image_never_drawn_lem :
  forall var fl domainy snow_all steps, profile_image false var fl domainy snow_all steps = Err AttributeError.
Proof. reflexivity. Qed.

Lemma zseq_length n : forall lo, length (zseq lo n) = n.
Proof. induction n; intros lo; cbn; [reflexivity|]. rewrite IHn. reflexivity. Qed.
Lemma zseq_nth n : forall lo k, (k < n)%nat -> nth_error (zseq lo n) k = Some (lo + Z.of_nat k)%Z.
Proof.
  induction n as [|n IH]; intros lo [|k] H; cbn [zseq nth_error]; try lia; [f_equal; lia|].
  rewrite IH by lia. f_equal. lia.
Qed.

Lemma ceiling_spec x k : (k < ceiling x)%Z <-> IZR k < x.
Proof.
  unfold ceiling. destruct (base_Int_part (- x)) as [B1 B2]. split; intros H.
  - assert (k + 1 <= - Int_part (- x))%Z as H1 by lia. apply IZR_le in H1. rewrite plus_IZR, opp_IZR in H1. lra.
  - apply lt_IZR. rewrite opp_IZR. lra.
Qed.

Lemma np_arange_spec start stop step yi : np_arange start stop step = Ok yi -> 0 < step ->
  forall n y, nth_error yi n = Some y <-> y = start + INR n * step /\ y < stop.
Proof.
  unfold np_arange. destruct (Req_EM_T step 0); [discriminate|]. intros [= <-] SP n' y.
  rewrite nth_error_map. unfold zrange. rewrite Z.sub_0_r. set (N := Z.to_nat (ceiling ((stop - start) / step))).
  assert (IFF : (n' < N)%nat <-> start + INR n' * step < stop).
  { assert (A : (n' < N)%nat <-> (Z.of_nat n' < ceiling ((stop - start) / step))%Z) by (unfold N; lia).
    rewrite A, ceiling_spec, <- INR_IZR_INZ. unfold Rdiv. split; intros H.
    - apply (Rmult_lt_compat_r step) in H; [|exact SP]. rewrite Rmult_assoc, Rinv_l in H by lra. lra.
    - apply (Rmult_lt_reg_r step); [exact SP|]. rewrite Rmult_assoc, Rinv_l by lra. lra. }
  destruct (Nat.lt_ge_cases n' N) as [L|L].
  - rewrite zseq_nth by exact L. cbn [option_map]. rewrite Z.add_0_l, <- INR_IZR_INZ.
    split; [intros [= <-]; split; [reflexivity|apply IFF, L]|intros [-> _]; reflexivity].
  - rewrite (proj2 (nth_error_None (zseq 0 N) n')) by (rewrite zseq_length; exact L). cbn [option_map].
    split; [discriminate|]. intros [-> H]. apply IFF in H. lia.
Qed.

Lemma number_max_spec l m : number_max l = Some m -> forall s, In (Some s) l -> s <= m.
Proof.
  unfold number_max.
  assert (G : forall l acc, (forall a, acc = Some a -> exists m, fold_left (fun m x => match m, x with
                        | Some a, Some b => Some (Rmax a b) | None, v => v | m, None => m end) l acc = Some m /\ a <= m) /\
     forall m, fold_left (fun m x => match m, x with
                        | Some a, Some b => Some (Rmax a b) | None, v => v | m, None => m end) l acc = Some m -> forall s, In (Some s) l -> s <= m).
  { induction l0 as [|x t IH]; intros acc; cbn [fold_left].
    - split; [intros a ->; exists a; split; [reflexivity|lra]|intros ? ? ? []].
    - split.
      + intros a ->. destruct x as [x|].
        * destruct (proj1 (IH (Some (Rmax a x))) _ eq_refl) as (m' & E & H). exists m'. split; [exact E|]. pose proof (Rmax_l a x). lra.
        * apply (proj1 (IH (Some a)) _ eq_refl).
      + intros m' E s [->|IN].
        * destruct acc as [a|].
          -- destruct (proj1 (IH (Some (Rmax a s))) _ eq_refl) as (m2 & E2 & H). rewrite E in E2. injection E2 as <-. pose proof (Rmax_r a s). lra.
          -- destruct (proj1 (IH (Some s)) _ eq_refl) as (m2 & E2 & H). rewrite E in E2. injection E2 as <-. exact H.
        * eapply (proj2 (IH _)); eassumption. }
  intros E. apply (proj2 (G l None) m E).
Qed.

(*@ C98 With an older numpy, the image has one column per time, on heights in steps of the first layer's height, from the given start (or 0) to beyond the highest snow surface of all cells. *)
Lemma image_axes_lem :
  forall var fl domainy snow_all steps columns,
  profile_image true var fl domainy snow_all steps = Ok columns -> 0 < fl ->
  exists yi top,
    (forall n y, nth_error yi n = Some y <-> y = match domainy with Some y0 => y0 | None => 0 end + INR n * fl /\ y < top) /\
    (forall s, In (Some s) snow_all -> s < top) /\
    Forall2 (fun step column => exists V, profile_variable var (snd step) = Some V /\
       image_column yi (fst step) (lv_height (snd step)) V = Ok column) steps columns.
Proof.
  intros var fl domainy snow_all steps columns H FL. unfold profile_image in H. cbn [negb] in H.
  destruct (number_max snow_all) as [m|] eqn:EM; [|discriminate].
  destruct (np_arange _ _ fl) as [yi|] eqn:EY; cbn [bind] in H; [|discriminate].
  exists yi, (IZR (Int_part m + 1)). split; [apply (np_arange_spec _ _ _ _ EY FL)|]. split.
  - intros s IN. pose proof (number_max_spec _ _ EM s IN). destruct (base_Int_part m). rewrite plus_IZR. lra.
  - apply map_res_forall2 in H. induction H as [|st col ? ? E _ IH]; constructor; [|exact IH].
    destruct (profile_variable var (snd st)) as [V|]; [|discriminate]. exists V. auto.
Qed.

(** ** The cell next to a position *)
Lemma first_nan_none l : forall i, (forall j, (j < length l)%nat -> exists a, is_number l j a) -> first_nan i l = None.
Proof.
  induction l as [|x t IH]; intros i H; [reflexivity|]. destruct (H 0%nat ltac:(cbn; lia)) as [a A]. cbn in A. injection A as ->.
  cbn. apply IH. intros j L. destruct (H (S j) ltac:(cbn; lia)) as [b B]. exists b. exact B.
Qed.

Lemma concat_nth {A} (a : raster A) ny nx : rectangular a ny nx -> forall y x, (x < nx)%nat ->
  nth_error (concat a) (y * nx + x) = match nth_error a y with Some row => nth_error row x | None => None end.
Proof.
  intros [L F]. clear L ny. induction F as [|row t HR F IH]; intros y x X.
  - cbn [concat]. replace (nth_error (@nil (list A)) y) with (@None (list A)) by (destruct y; reflexivity). destruct (y * nx + x)%nat; reflexivity.
  - destruct y as [|y]; cbn [concat nth_error].
    + rewrite Nat.mul_0_l, Nat.add_0_l. apply nth_error_app1. lia.
    + rewrite nth_error_app2 by lia. rewrite <- IH by exact X. f_equal. nia.
Qed.

Lemma concat_length {A} (a : raster A) ny nx : rectangular a ny nx -> length (concat a) = (ny * nx)%nat.
Proof.
  intros [<- F]. induction F as [|row t HR F IH]; [reflexivity|]. cbn [concat length]. rewrite app_length, IH, HR. lia.
Qed.

Lemma rectangular_map {A B} (f : A -> B) a ny nx : rectangular a ny nx -> rectangular (map (map f) a) ny nx.
Proof.
  intros [L F]. split; [rewrite map_length; exact L|]. apply Forall_map. eapply Forall_impl; [|exact F].
  intros row H. rewrite map_length. exact H.
Qed.

Lemma nth_error_map2 {A B C} (f : A -> B -> C) a : forall b i, nth_error (map2 f a b) i =
  match nth_error a i, nth_error b i with Some x, Some y => Some (f x y) | _, _ => None end.
Proof.
  induction a as [|x a IH]; intros [|y b] [|i]; cbn; try reflexivity.
  - destruct (nth_error a i); reflexivity.
  - apply IH.
Qed.

(*@ C98 For coordinates without NaN the search for a cell answers one with the smallest distance. *)
Lemma nearest_cell_found_lem :
  forall lat lon ny nx lat0 lon0,
  rectangular lat ny nx -> rectangular lon ny nx -> (0 < ny)%nat -> (0 < nx)%nat ->
  exists iy ix,
    naive_fast (map (map Some) lat) (map (map Some) lon) lat0 lon0 = Ok (iy, ix) /\ (iy < ny)%nat /\ (ix < nx)%nat /\
    forall jy jx, (jy < ny)%nat -> (jx < nx)%nat ->
      let at_ (a : raster R) y x := nth x (nth y a []) 0 in
      (at_ lat iy ix - lat0) ^ 2 + (at_ lon iy ix - lon0) ^ 2 <=
      (at_ lat jy jx - lat0) ^ 2 + (at_ lon jy jx - lon0) ^ 2.
Proof.
  intros lat lon ny nx lat0 lon0 RA RO PY PX.
  set (dist := fun y x => (nth x (nth y lat []) 0 - lat0) * (nth x (nth y lat []) 0 - lat0) +
                          (nth x (nth y lon []) 0 - lon0) * (nth x (nth y lon []) 0 - lon0)).
  unfold naive_fast.
  set (dl := map2 _ _ _).
  assert (RA' := rectangular_map Some lat ny nx RA). assert (RO' := rectangular_map Some lon ny nx RO).
  assert (NTH : forall (a : raster R), rectangular a ny nx -> forall y x, (y < ny)%nat -> (x < nx)%nat ->
     nth_error (concat (map (map Some) a)) (y * nx + x) = Some (Some (nth x (nth y a []) 0))).
  { intros a R y x Y X. rewrite (concat_nth _ ny nx (rectangular_map _ _ _ _ R) y x X). rewrite nth_error_map.
    destruct R as [L F]. assert (HY : (y < length a)%nat) by lia. rewrite (nth_error_nth' a [] HY). cbn [option_map]. rewrite nth_error_map.
    assert (length (nth y a []) = nx) by (rewrite Forall_forall in F; apply F; apply nth_In; lia).
    rewrite (nth_error_nth' _ 0) by lia. reflexivity. }
  assert (DN : forall y x, (y < ny)%nat -> (x < nx)%nat -> is_number dl (y * nx + x) (dist y x)).
  { intros y x Y X. unfold is_number, dl. rewrite nth_error_map2.
    assert (E1 := NTH lat RA y x Y X). assert (E2 := NTH lon RO y x Y X). unfold number in *. rewrite E1, E2. reflexivity. }
  assert (DL : length dl = (ny * nx)%nat).
  { assert (forall i, nth_error dl i = None <-> (ny * nx <= i)%nat).
    { intros i. unfold dl. rewrite nth_error_map2.
      assert (L1 := concat_length _ _ _ RA'). assert (L2 := concat_length _ _ _ RO').
      split; intros H.
      - destruct (Nat.lt_ge_cases i (ny * nx)) as [X|X]; [exfalso|exact X].
        destruct (nth_error (concat (map (map Some) lat)) i) eqn:E1; [|apply nth_error_None in E1; lia].
        destruct (nth_error (concat (map (map Some) lon)) i) eqn:E2; [|apply nth_error_None in E2; lia].
        unfold number in *. rewrite E1, E2 in H. discriminate.
      - assert (HL : (length (concat (map (map Some) lat)) <= i)%nat) by lia.
        assert (E1 := proj2 (nth_error_None _ i) HL). unfold number in *. rewrite E1. reflexivity. }
    pose proof (proj1 (H (length dl)) (proj2 (nth_error_None dl (length dl)) (le_n _))).
    pose proof (proj1 (nth_error_None dl (ny * nx)) (proj2 (H (ny * nx)%nat) (le_n _))). lia. }
  assert (SPLIT : forall i, (i < ny * nx)%nat -> (i = (i / nx) * nx + i mod nx /\ i / nx < ny /\ i mod nx < nx)%nat).
  { intros i L. split; [rewrite (Nat.div_mod i nx) at 1 by lia; lia|]. split; [apply Nat.div_lt_upper_bound; lia|apply Nat.mod_upper_bound; lia]. }
  assert (NUM : forall j, (j < length dl)%nat -> exists a, is_number dl j a).
  { intros j L. rewrite DL in L. destruct (SPLIT j L) as (E & Y & X). exists (dist (j / nx)%nat (j mod nx)%nat).
    pose proof (DN _ _ Y X) as D. rewrite <- E in D. exact D. }
  unfold number_argmin. rewrite first_nan_none by exact NUM.
  destruct (nanargmin dl) as [k|e] eqn:EK.
  - apply nanargmin_ok in EK. destruct EK as (a & NA & MIN). cbn [bind].
    assert (W : length (hd [] (map (map Some) lat)) = nx).
    { destruct RA as [L F]. destruct lat as [|row t]; [cbn in L; lia|]. inversion F; subst. cbn. rewrite map_length. reflexivity. }
    unfold number in W |- *. rewrite W.
    assert (KL : (k < ny * nx)%nat). { rewrite <- DL. apply nth_error_Some. unfold is_number in NA. intros NN. unfold number in *. rewrite NN in NA. discriminate. }
    destruct (SPLIT k KL) as (E & Y & X). exists (k / nx)%nat, (k mod nx)%nat.
    split; [reflexivity|]. split; [exact Y|]. split; [exact X|]. intros jy jx JY JX. cbv zeta beta.
    pose proof (DN _ _ Y X) as D. rewrite <- E in D. unfold is_number in NA, D. rewrite NA in D. injection D as D.
    destruct (MIN _ _ (DN jy jx JY JX)) as [M _]. rewrite D in M. unfold dist in M. lra.
  - apply nanargmin_err in EK. destruct EK as [_ F]. destruct (F _ _ (DN 0%nat 0%nat PY PX)).
Qed.

(*@ C98 If the coordinates hold a NaN, its cell is taken, however near another one is. *)
Lemma nearest_cell_refuted_lem :
  exists lat lon, naive_fast lat lon 46 10 = Ok (0%nat, 1%nat) /\ lat = [[Some 46; None]] /\ lon = [[Some 10; Some 11]].
Proof. exists [[Some 46; None]], [[Some 10; Some 11]]. split; [reflexivity|]. split; reflexivity. Qed.

(*@ex C98 A column of two layers of 0.1 m and 0.4 m with two missing layers meets the hypotheses of the theorems on printed values and on the image; the depth of 0.2 m is in the second layer. *)
Lemma profile_case_lem :
  let p := mkProfile (stored [0.1; 0.4] 2) [Some 300; Some 450; None; None] [Some 270; Some 268; None; None] in
  sel_nearest [46] [10] 46.1 10.1 [[p]] = Ok p /\ Forall (fun x => 0 < x) [0.1; 0.4] /\
  length (pf_rho p) = length (pf_height p) /\ holds_depth [0.1; 0.4] 1 0.2.
Proof.
  split; [reflexivity|]. split; [repeat constructor; lra|]. split; [reflexivity|].
  split; [cbn; lia|]. unfold layer_top, sum_list. cbn. split; [lra|right; reflexivity].
Qed.
