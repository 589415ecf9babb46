(** * Surface plots *)
From Verif Require Import ModelPy ModelConstants ModelNode ModelGrid ModelHeat ModelSurface ModelInit
  ModelCore ModelConfig ModelIO ModelMain ModelFiles ModelRadCor ModelAws ModelSetup ModelPost SpecIO SpecPost.
From Verif Require Import LemPy LemIO LemSurface LemIO5 LemAws2 LemAws4 LemShad LemShad2 LemPost LemFinPost.

Lemma product_nth n m i j : (i < n)%nat -> (j < m)%nat ->
  nth_error (product_range (Z.of_nat n) (Z.of_nat m)) (i * m + j) = Some (Z.of_nat i, Z.of_nat j).
Proof.
  intros I J. unfold product_range. rewrite flat_map_concat_map.
  rewrite (concat_nth _ n m); [| |exact J].
  - unfold zrange. rewrite nth_error_map, zseq_nth by lia. cbn [option_map]. rewrite nth_error_map, zseq_nth by lia. reflexivity.
  - split.
    + unfold zrange. rewrite map_length, zseq_length. lia.
    + apply Forall_map. apply Forall_forall. intros y _. unfold zrange. rewrite map_length, zseq_length. lia.
Qed.

Lemma product_length n m : length (product_range (Z.of_nat n) (Z.of_nat m)) = (n * m)%nat.
Proof.
  unfold product_range. rewrite flat_map_concat_map. apply concat_length. split.
  - unfold zrange. rewrite map_length, zseq_length. lia.
  - apply Forall_map. apply Forall_forall. intros y _. unfold zrange. rewrite map_length, zseq_length. lia.
Qed.

Lemma rect_get {A} (a : raster A) ny nx j i : rectangular a ny nx -> (j < ny)%nat -> (i < nx)%nat ->
  exists row v, nth_error a j = Some row /\ nth_error row i = Some v /\ raster_get a (Z.of_nat j) (Z.of_nat i) = Ok v.
Proof.
  intros [L F] J I. destruct (nth_error a j) as [row|] eqn:E1; [|apply nth_error_None in E1; lia].
  assert (length row = nx). { rewrite Forall_forall in F. apply F. eapply nth_error_In, E1. }
  destruct (nth_error row i) as [v|] eqn:E2; [|apply nth_error_None in E2; lia].
  exists row, v. repeat split; auto. unfold raster_get. rewrite (py_get_nth _ _ _ E1). cbn [bind]. apply py_get_nth, E2.
Qed.

Lemma grid_point_some lats lons HGT j i : rectangular HGT (length lats) (length lons) ->
  (j < length lats)%nat -> (i < length lons)%nat ->
  exists p, grid_point lats lons HGT j i = Some p /\
    forall B (k : point3 -> res B),
    (h <- raster_get HGT (Z.of_nat j) (Z.of_nat i) ;;
     lo <- py_get lons (Z.of_nat i) ;; la <- py_get lats (Z.of_nat j) ;;
     k (lo, la, option_map (fun e => e / 6370000) h)) = k p.
Proof.
  intros R J I. destruct (rect_get _ _ _ _ _ R J I) as (row & h & E1 & E2 & E3).
  destruct (nth_error lons i) as [lo|] eqn:E4; [|apply nth_error_None in E4; lia].
  destruct (nth_error lats j) as [la|] eqn:E5; [|apply nth_error_None in E5; lia].
  exists (lo, la, option_map (fun e => e / 6370000) h). split.
  - unfold grid_point. rewrite E4, E5, E1, E2. reflexivity.
  - intros B k. rewrite E3. cbn [bind]. rewrite (py_get_nth _ _ _ E4), (py_get_nth _ _ _ E5). reflexivity.
Qed.

Lemma map_res_at {A B} (f : A -> res B) l r : map_res f l = Ok r -> forall k a, nth_error l k = Some a ->
  exists b, f a = Ok b /\ nth_error r k = Some b.
Proof.
  revert r; induction l as [|x l IH]; intros r H [|k] a E; cbn in *; try discriminate.
  - injection E as ->. destruct (f a) as [b|]; cbn [bind] in H; [|discriminate].
    destruct (map_res f l); cbn [bind] in H; [|discriminate]. injection H as <-. eauto.
  - destruct (f x) as [b|]; cbn [bind] in H; [|discriminate].
    destruct (map_res f l) as [r'|]; cbn [bind] in H; [|discriminate]. injection H as <-. cbn. eapply IH; eauto.
Qed.

Lemma in_product_nat n m yx : In yx (product_range (Z.of_nat n) (Z.of_nat m)) ->
  exists i j, yx = (Z.of_nat i, Z.of_nat j) /\ (i < n)%nat /\ (j < m)%nat.
Proof.
  destruct yx as [y x]. intros I. apply in_product in I. exists (Z.to_nat y), (Z.to_nat x).
  split; [|lia]. f_equal; lia.
Qed.

(*@ C100 The points of a surface are those of the grid, numbered column by column; no other points exist. *)
Lemma surface_points_lem :
  forall lats lons HGT,
  rectangular HGT (length lats) (length lons) ->
  exists points, create_points lats lons HGT = Ok points /\
    length points = (length lons * length lats)%nat /\
    forall i j, (i < length lons)%nat -> (j < length lats)%nat ->
      nth_error points (i * length lats + j) = grid_point lats lons HGT j i /\ grid_point lats lons HGT j i <> None.
Proof.
  intros lats lons HGT R. unfold create_points.
  destruct (map_res_progress (B := point3) (fun ij : Z * Z => let '(i, j) := ij in
      h <- raster_get HGT j i ;; lo <- py_get lons i ;; la <- py_get lats j ;;
      Ok (lo, la, option_map (fun v => v / 6370000) h)) (product_range (Z.of_nat (length lons)) (Z.of_nat (length lats)))) as [ps E].
  { intros yx I. apply in_product_nat in I. destruct I as (i & j & -> & I & J).
    destruct (grid_point_some lats lons HGT j i R J I) as (p & _ & K). exists p. apply (K _ (@Ok _)). }
  exists ps. split; [exact E|]. split; [transitivity (length (product_range (Z.of_nat (length lons)) (Z.of_nat (length lats)))); [eapply map_res_length, E|apply product_length]|].
  intros i j I J. destruct (map_res_at _ _ _ E _ _ (product_nth _ _ i j I J)) as (b & B1 & B2).
  destruct (grid_point_some lats lons HGT j i R J I) as (p & P & K).
  rewrite B2, P. pose proof (K _ (@Ok _)) as K'. assert (X : Ok p = Ok b) by (rewrite <- K'; exact B1). injection X as <-. split; congruence.
Qed.

(*@ C100 The cells of the older surface: a cell at each point but those of the last column and those of the first row. *)
Lemma surface_cells_lem :
  forall nlat nlon quad, (0 < nlat)%Z -> (0 <= nlon)%Z ->
  In quad (dem_quads (nlon * nlat) nlat) <->
  exists i j, (0 <= i < nlon - 1)%Z /\ (1 <= j < nlat)%Z /\ quad = grid_cell nlat i j.
Proof.
  intros nlat nlon quad P Q. unfold dem_quads, grid_cell. rewrite in_map_iff. split.
  - intros (p & <- & I). apply filter_In in I. destruct I as [I N]. apply in_zrange in I.
    apply negb_true_iff, Z.eqb_neq in N. pose proof (Z.div_mod p nlat ltac:(lia)) as D.
    pose proof (Z.mod_pos_bound p nlat P) as M.
    exists (p / nlat)%Z, (p mod nlat)%Z. split; [|split; [lia|]].
    + split; [apply Z.div_pos; lia|]. apply Z.div_lt_upper_bound; [lia|]. nia.
    + replace (p / nlat * nlat + p mod nlat)%Z with p by lia. reflexivity.
  - intros (i & j & I & J & ->). exists (i * nlat + j)%Z. split; [reflexivity|]. apply filter_In. split.
    + apply in_zrange. nia.
    + apply negb_true_iff, Z.eqb_neq. rewrite Z.add_comm, Z.mod_add, Z.mod_small by lia. lia.
Qed.

(*@ C100 In every grid of at least two rows and two columns the cells of the older surface are wrong: one has a corner at a point that does not exist, each column has one that joins its last row with the first row of the next column, and those of the first row are missing. *)
Lemma surface_cells_refuted_lem :
  forall lats lons HGT dims points quads,
  (2 <= length lats)%nat -> (2 <= length lons)%nat -> rectangular HGT (length lats) (length lons) ->
  createDEM_v2 dims lats lons HGT = Ok (points, quads) ->
  let nlat := Z.of_nat (length lats) in
  (exists a b c d, In (a, b, c, d) quads /\ (Z.of_nat (length points) <= c)%Z) /\
  (forall i, (0 <= i < Z.of_nat (length lons) - 1)%Z -> In (grid_cell nlat i (nlat - 1)) quads) /\
  (forall i, ~ In (grid_cell nlat i 0) quads).
Proof.
  intros lats lons HGT dims points quads HA HO R H nlat. unfold createDEM_v2 in H.
  destruct (check_2d dims); cbn [bind] in H; [|discriminate].
  destruct (surface_points_lem lats lons HGT R) as (ps & E & L & _). rewrite E in H. cbn [bind] in H. injection H as <- <-.
  rewrite L, Nat2Z.inj_mul. fold nlat. assert (2 <= nlat)%Z by lia.
  set (nlon := Z.of_nat (length lons)). assert (2 <= nlon)%Z by lia.
  split; [|split].
  - eexists _, _, _, _. split; [apply surface_cells_lem; [lia|lia|]; exists (nlon - 2)%Z, (nlat - 1)%Z; split; [lia|split; [lia|reflexivity]]|]. nia.
  - intros i I. apply surface_cells_lem; [lia|lia|]. exists i, (nlat - 1)%Z. repeat split; lia.
  - intros i I. apply surface_cells_lem in I; [|lia|lia]. destruct I as (i' & j & I & J & X).
    unfold grid_cell in X. injection X as X. assert ((i - i') * nlat = j)%Z by lia. 
    assert (i - i' <= 0 \/ 1 <= i - i')%Z as [Y|Y] by lia; nia.
Qed.

(** ** Values on the points *)
Lemma add_scalar_fold lats lons HGT closest ids n : rectangular HGT (length lats) (length lons) ->
  (forall j i p, grid_point lats lons HGT j i = Some p -> closest p = Z.of_nat (ids j i)) ->
  forall L scalar,
  length scalar = n ->
  (forall j i v, In (Z.of_nat j, Z.of_nat i, v) L -> (j < length lats)%nat /\ (i < length lons)%nat /\ (ids j i < n)%nat) ->
  (forall jiv, In jiv L -> exists j i v, jiv = (Z.of_nat j, Z.of_nat i, v)) ->
  (forall j i j' i' v v', In (Z.of_nat j, Z.of_nat i, v) L -> In (Z.of_nat j', Z.of_nat i', v') L -> ids j i = ids j' i' -> j = j' /\ i = i') ->
  NoDup (map fst L) ->
  exists s, fold_left (fun acc (jiv : Z * Z * number) =>
      scalar <- acc ;;
      let '(j, i, v) := jiv in
      match v with
      | None => Ok scalar
      | Some x =>
          h <- raster_get HGT j i ;;
          lo <- py_get lons i ;;
          la <- py_get lats j ;;
          let id := closest (lo, la, option_map (fun e => e / 6370000) h) in
          if (id <? 0)%Z then Ok scalar else py_update scalar id (fun _ => Some x)
      end) L (Ok scalar) = Ok s /\ length s = n /\
   (forall j i v, In (Z.of_nat j, Z.of_nat i, v) L ->
      nth_error s (ids j i) = match v with Some x => Some (Some x) | None => nth_error scalar (ids j i) end) /\
   (forall k, (forall j i v, In (Z.of_nat j, Z.of_nat i, v) L -> k <> ids j i) -> nth_error s k = nth_error scalar k).
Proof.
  intros R CL. induction L as [|jiv L IH]; intros scalar LEN B FORM INJ ND.
  - exists scalar. split; [reflexivity|]. split; [exact LEN|]. split; [intros ? ? ? []|reflexivity].
  - destruct (FORM jiv (or_introl eq_refl)) as (j & i & v & ->).
    destruct (B j i v (or_introl eq_refl)) as (BJ & BI & BN).
    cbn [map fst] in ND. inversion ND as [|? ? NI ND']; subst.
    destruct (grid_point_some lats lons HGT j i R BJ BI) as (p & P & K). specialize (CL j i p P) as CLP.
    set (s1 := match v with Some x => list_update (ids j i) (fun _ => Some x) scalar | None => scalar end).
    assert (L1 : length s1 = length scalar) by (unfold s1; destruct v; [apply list_update_length|reflexivity]).
    destruct (IH s1) as (s & E & LS & S1 & S2).
    + exact L1.
    + intros. apply (B j0 i0 v0). right. assumption.
    + intros. apply FORM. right. assumption.
    + intros j0 i0 j' i' v0 v' I0 I1. eapply INJ; right; eassumption.
    + exact ND'.
    + exists s. split; [|split; [exact LS|]].
      * cbn [fold_left]. rewrite <- E. f_equal. cbn [bind]. unfold s1. destruct v as [x|]; [|reflexivity].
        etransitivity; [exact (K _ (fun p => let id := closest p in if (id <? 0)%Z then Ok scalar else py_update scalar id (fun _ => Some x)))|].
        cbv zeta beta. rewrite CLP. destruct (Z.ltb_spec (Z.of_nat (ids j i)) 0); [lia|].
        unfold py_update. rewrite py_index_nat by lia. reflexivity.
      * assert (NOT : forall j0 i0 v0, In (Z.of_nat j0, Z.of_nat i0, v0) L -> ids j i <> ids j0 i0).
        { intros j0 i0 v0 I0 EQ. destruct (INJ j i j0 i0 v v0 (or_introl eq_refl) (or_intror I0) EQ) as [-> ->].
          apply NI. apply in_map_iff. exists (Z.of_nat j0, Z.of_nat i0, v0). auto. }
        assert (OTHER : forall k, k <> ids j i -> nth_error s1 k = nth_error scalar k).
        { intros k NK. unfold s1. destruct v as [x|]; [|reflexivity]. rewrite nth_error_update.
          destruct (Nat.eqb_spec k (ids j i)); [congruence|]. reflexivity. }
        split.
        { intros j0 i0 v0 [X|X].
          - injection X as X1 X2 X3. apply Nat2Z.inj in X1, X2. subst j0 i0 v0.
            rewrite S2 by exact NOT. unfold s1. destruct v as [x|]; [|reflexivity]. rewrite nth_error_update, Nat.eqb_refl.
            destruct (nth_error scalar (ids j i)) eqn:Q; [reflexivity|]. apply nth_error_None in Q. lia.
          - rewrite (S1 _ _ _ X). destruct v0 as [x|]; [reflexivity|]. apply OTHER. intros EQ. apply (NOT _ _ _ X). congruence. }
        { intros k NK. rewrite S2; [|intros; apply (NK j0 i0 v0); right; assumption]. apply OTHER. apply (NK j i v). left. reflexivity. }
Qed.

(*@ C100 If the search for the closest point gives each point of the grid its own number, every value of the field is on its own point, and all other points, and those without value, have no value. *)
Lemma surface_values_lem :
  forall closest number_of lats lons HGT data num_points,
  rectangular HGT (length lats) (length lons) -> rectangular data (length lats) (length lons) ->
  (forall j i p, grid_point lats lons HGT j i = Some p -> closest p = Z.of_nat (number_of j i)) ->
  (forall j i, (j < length lats)%nat -> (i < length lons)%nat -> (number_of j i < num_points)%nat) ->
  (forall j i j' i', (j < length lats)%nat -> (i < length lons)%nat -> (j' < length lats)%nat -> (i' < length lons)%nat ->
     number_of j i = number_of j' i' -> j = j' /\ i = i') ->
  exists scalar, add_scalar closest (Z.of_nat num_points) lats lons HGT data = Ok scalar /\
    length scalar = num_points /\
    (forall j i row v, nth_error data j = Some row -> nth_error row i = Some v ->
       nth_error scalar (number_of j i) = Some v) /\
    (forall k, (k < num_points)%nat -> (forall j i, (j < length lats)%nat -> (i < length lons)%nat -> k <> number_of j i) ->
       nth_error scalar k = Some None).
Proof.
  intros closest ids lats lons HGT data n RH RD CL BN INJ. unfold add_scalar.
  set (f := fun ji : Z * Z => let '(j, i) := ji in v <- raster_get data j i ;; Ok (j, i, v)).
  destruct (map_res_progress f (product_range (Z.of_nat (length lats)) (Z.of_nat (length lons)))) as [L E].
  { intros yx I. apply in_product_nat in I. destruct I as (j & i & -> & J & I).
    destruct (rect_get _ _ _ _ _ RD J I) as (row & v & _ & _ & G). exists (Z.of_nat j, Z.of_nat i, v). unfold f. rewrite G. reflexivity. }
  rewrite E. cbn [bind].
  assert (INL : forall jiv, In jiv L -> exists j i row v, jiv = (Z.of_nat j, Z.of_nat i, v) /\ (j < length lats)%nat /\ (i < length lons)%nat /\
     nth_error data j = Some row /\ nth_error row i = Some v).
  { intros jiv I. apply In_nth_error in I. destruct I as [k K]. destruct (map_res_nth _ _ _ _ _ E K) as (yx & Y & F).
    apply nth_error_In in Y. apply in_product_nat in Y. destruct Y as (j & i & -> & J & I).
    destruct (rect_get _ _ _ _ _ RD J I) as (row & v & G1 & G2 & G). unfold f in F. rewrite G in F. injection F as <-.
    exists j, i, row, v. auto. }
  assert (FST : map fst L = product_range (Z.of_nat (length lats)) (Z.of_nat (length lons))).
  { clear -E. revert L E. generalize (product_range (Z.of_nat (length lats)) (Z.of_nat (length lons))) as P.
    induction P as [|[j i] P IH]; intros L E; cbn in E; [injection E as <-; reflexivity|].
    destruct (raster_get data j i) as [v|]; cbn [bind] in E; [|discriminate].
    destruct (map_res f P) as [r|]; cbn [bind] in E; [|discriminate]. injection E as <-. cbn [map fst]. f_equal. apply IH. reflexivity. }
  destruct (add_scalar_fold lats lons HGT closest ids n RH CL L (repeat None (Z.to_nat (Z.of_nat n)))) as (s & F & LS & S1 & S2).
  - rewrite repeat_length. lia.
  - intros j i v I. apply INL in I. destruct I as (j' & i' & row & v' & X & J & I & _). injection X as X1 X2 _.
    apply Nat2Z.inj in X1, X2. subst. auto.
  - intros jiv I. apply INL in I. destruct I as (j' & i' & row & v' & -> & _). eauto.
  - intros j i j' i' v v' I1 I2. apply INL in I1, I2. destruct I1 as (a & b & ? & ? & X & J & I & _). destruct I2 as (a' & b' & ? & ? & X' & J' & I' & _).
    injection X as X1 X2 _. injection X' as X1' X2' _. apply Nat2Z.inj in X1, X2, X1', X2'. subst. apply INJ; assumption.
  - rewrite FST. apply nodup_product.
  - exists s. split; [exact F|]. split; [exact LS|]. split.
    + intros j i row v H1 H2.
      assert (J : (j < length lats)%nat). { destruct RD as [<- _]. apply nth_error_Some. congruence. }
      assert (I : (i < length lons)%nat). { destruct RD as [_ FR]. rewrite Forall_forall in FR. rewrite <- (FR row) by (eapply nth_error_In, H1). apply nth_error_Some. congruence. }
      assert (IN : In (Z.of_nat j, Z.of_nat i, v) L).
      { destruct (map_res_at _ _ _ E _ _ (product_nth _ _ j i J I)) as (b & B1 & B2). apply nth_error_In in B2.
        destruct (rect_get _ _ _ _ _ RD J I) as (row' & v' & G1 & G2 & G). unfold f in B1. rewrite G in B1. injection B1 as <-.
        rewrite H1 in G1. injection G1 as <-. rewrite H2 in G2. injection G2 as <-. exact B2. }
      etransitivity; [exact (S1 _ _ _ IN)|]. destruct v; [reflexivity|]. rewrite Nat2Z.id.
      apply nth_error_repeat. apply BN; assumption.
    + intros k K NK. etransitivity; [apply S2|].
      2:{ rewrite Nat2Z.id. apply nth_error_repeat. exact K. }
      intros j i v I. apply INL in I. destruct I as (j' & i' & row & v' & X & J & I & _). injection X as X1 X2 _.
        apply Nat2Z.inj in X1, X2. subst. apply NK; assumption.
Qed.

(*@ex C100 A grid of two by two: the points of the first column come first; the one cell of the older surface refers to a fifth point. *)
Lemma surface_case_lem :
  exists points, createDEM_v2 [("time", 1%Z); ("lat", 2%Z); ("lon", 2%Z)]%string [30; 31] [90; 91]
      [[Some 6370000; None]; [Some 0; Some 637]] = Ok (points, [(1, 2, 4, 3)%Z]) /\
    nth_error points 1 = Some (90, 31, Some (0 / 6370000)) /\ nth_error points 2 = Some (91, 30, None) /\ nth_error points 4 = None.
Proof. eexists. split; [reflexivity|]. repeat split. Qed.
