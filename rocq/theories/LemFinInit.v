(** * Initial snow pack and restart (C44, C45) *)
From Verif Require Import ModelPy ModelConstants ModelNode ModelGrid ModelWater ModelHeat
  ModelDensification ModelRadiation ModelAlbedo ModelSurface ModelInit ModelCore Spec SpecCore
  SpecInit LemPy LemGridBase LemGridOps LemGridMore LemWater LemFinGrid LemCore LemSim LemFinCore
  LemFinAlbedo.

(** ** Initial column (C45) *)

Lemma py_int_spec x : 0 <= x -> (0 <= py_int x)%Z /\ IZR (py_int x) <= x < IZR (py_int x) + 1.
Proof.
  intros H. unfold py_int. destruct (Rleb_spec 0 x); [|lra]. destruct (base_Int_part x) as (A & B).
  assert (C : (-1 < Int_part x)%Z) by (apply lt_IZR; lra). split; [lia|lra].
Qed.

Lemma zseq_length lo n : length (zseq lo n) = n.
Proof. revert lo; induction n; intros; cbn; auto. Qed.

Lemma rows_of_app h1 d1 t1 w1 h2 d2 t2 w2 : length d1 = length h1 -> length t1 = length h1 ->
  length w1 = length h1 ->
  rows_of (h1 ++ h2) (d1 ++ d2) (t1 ++ t2) (w1 ++ w2) = rows_of h1 d1 t1 w1 ++ rows_of h2 d2 t2 w2.
Proof.
  revert d1 t1 w1. induction h1 as [|h h1 IH]; intros [|d d1] [|t t1] [|w w1]; cbn; intros; try discriminate; [reflexivity|].
  f_equal. apply IH; congruence.
Qed.

(** [k] layers of thickness [h], the [i]-th with density [d i] and temperature [t i] *)
Definition slab (c : Consts) (h : R) (d t : Z -> R) (lo : Z) (k : nat) : list Node :=
  map (fun i => new_node c h (d i) (t i) 0 None) (zseq lo k).

Lemma slab_rows c h d t lo k :
  map (node_of_layer c) (rows_of (repeat h k) (map d (zseq lo k)) (map t (zseq lo k)) (repeat 0 k))
  = slab c h d t lo k.
Proof. unfold slab. revert lo. induction k as [|k IH]; intros lo; cbn; [reflexivity|]. f_equal. apply IH. Qed.

Lemma repeat_map_const {A} (x : A) lo k : repeat x k = map (fun _ => x) (zseq lo k).
Proof. revert lo; induction k; intros; cbn; f_equal; auto. Qed.

Lemma rows_of_length hs ds ts ws : length ds = length hs -> length ts = length hs -> length ws = length hs ->
  length (rows_of hs ds ts ws) = length hs.
Proof.
  revert ds ts ws. induction hs as [|h hs IH]; intros [|d ds] [|t ts] [|w ws]; cbn; intros; try discriminate; auto.
Qed.

Lemma ramp_slab c h d start slope n : (0 <= n)%Z ->
  map (node_of_layer c) (rows_of (repeat h (Z.to_nat n)) (ramp d slope n) start (repeat 0 (Z.to_nat n)))
  = map (node_of_layer c) (rows_of (repeat h (Z.to_nat n)) (map (fun i => d - slope * IZR i) (zseq 1 (Z.to_nat n))) start (repeat 0 (Z.to_nat n))).
Proof. intros H. unfold ramp, zrange. replace (n + 1 - 1)%Z with n by lia. reflexivity. Qed.

Lemma slab_height c h d t lo k : column_height (slab c h d t lo k) = INR k * h.
Proof.
  unfold slab, column_height. revert lo. induction k as [|k IH]; intros lo; [cbn [zseq map]; rewrite total_nil; cbn; ring|].
  cbn [zseq map]. rewrite total_cons, IH, S_INR. cbn [n_height new_node]. ring.
Qed.

Lemma slab_follows c h d t f lo z k :
  (forall i, (lo <= i < lo + Z.of_nat k)%Z -> t i = f (z + (IZR (i - lo) + 1) * h)) ->
  follows f z (slab c h d t lo k).
Proof.
  unfold slab. revert lo z. induction k as [|k IH]; intros lo z H; cbn [zseq map follows]; [exact I|].
  cbn [n_temperature n_height new_node]. split.
  - rewrite H by lia. f_equal. replace (lo - lo)%Z with 0%Z by lia. ring.
  - apply IH. intros i Hi. rewrite H by lia. f_equal. replace (i - lo)%Z with ((i - (lo + 1)) + 1)%Z by lia.
    rewrite plus_IZR. ring.
Qed.

Lemma follows_between f z l top bottom D : 0 < D -> 0 <= z -> positive_heights l ->
  z + column_height l <= D -> f = linear_temperature top bottom D -> follows f z l ->
  Forall (fun n => between (n_temperature n) top bottom) l.
Proof.
  intros HD Hz Hp HD' -> . revert z Hz HD'. induction Hp as [|x l Hx Hp IH]; intros z Hz HD' F; constructor.
  - destruct F as (F & _). unfold column_height in HD'. rewrite total_cons in HD'.
    assert (A : 0 <= total n_height l) by (apply total_nonneg; eapply Forall_impl; [|exact Hp]; cbv beta; intros; lra).
    rewrite F. unfold linear_temperature, between.
    set (q := (z + n_height x) / D).
    assert (Hq : 0 <= q <= 1). { unfold q. split; [apply Rmult_le_pos; [lra|left; apply Rinv_0_lt_compat; lra]|].
      apply (Rmult_le_reg_r D); [lra|]. unfold Rdiv. rewrite Rmult_assoc, Rinv_l by lra. lra. }
    unfold Rmin, Rmax. destruct (Rle_dec top bottom); split; nra.
  - destruct F as (_ & F). unfold column_height in HD'. rewrite total_cons in HD'. 
    apply (IH (z + n_height x)); [lra|unfold column_height; lra|exact F].
Qed.

Lemma slab_last (t : Z -> R) k : (0 < k)%nat ->
  py_get (map t (zseq 1 k)) (-1) = Ok (t (Z.of_nat k)).
Proof.
  intros Hk. destruct k as [|k]; [lia|].
  assert (E : forall lo, zseq lo (S k) = zseq lo k ++ [(lo + Z.of_nat k)%Z]).
  { clear. induction k as [|k IH]; intros lo; [cbn; f_equal; lia|].
    change (zseq lo (S (S k))) with (lo :: zseq (lo + 1) (S k)). rewrite IH.
    change (zseq lo (S k)) with (lo :: zseq (lo + 1) k). rewrite <- app_comm_cons.
    do 3 f_equal. lia. }
  rewrite E, map_app. cbn [map]. unfold py_get. rewrite app_length. cbn [length].
  replace (py_index (length (map t (zseq 1 k)) + 1) (-1)) with (Some (length (map t (zseq 1 k)))).
  - rewrite nth_error_app2 by lia. rewrite Nat.sub_diag. cbn [nth_error]. do 2 f_equal. lia.
  - unfold py_index. set (m := length _). replace ((0 <=? -1)%Z && _) with false by reflexivity.
    replace ((- Z.of_nat (m + 1) <=? -1)%Z) with true by (symmetry; apply Z.leb_le; lia). cbn [andb].
    replace ((-1 <? 0)%Z) with true by reflexivity. f_equal. lia.
Qed.

(*@ C45 The initial column, for every snow height in the data (also missing or NaN), every air
    temperature and all constants with positive thicknesses and densities in range: at most
    five equal snow layers of the given total height (at least 10 cm each if there are more
    than one), ice layers of the configured thickness that fill the configured glacier height
    up to less than one layer, no liquid water, snow density between the configured top and
    bottom density (up to the density round-trip error), pure ice below, and temperatures
    on the straight line from the air temperature (at most melting) at the surface to the
    bottom temperature at the configured depth, taken at the lower boundary of each layer; a
    single snow layer thinner than 10 cm has the air temperature and the line starts below
    it. *)
Lemma initial_column_lem : forall c snowheight T2,
  0 < c_air_density c -> c_air_density c <= c_ice_density c ->
  0 < c_initial_glacier_height c -> 0 < c_initial_glacier_layer_heights c ->
  0 <= c_initial_top_density_snowpack c <= c_ice_density c ->
  0 <= c_initial_bottom_density_snowpack c <= c_ice_density c ->
  let h := start_height c snowheight in
  let top := Rmin T2 (c_zero_temperature c) in
  let line := linear_temperature top (c_temperature_bottom c) (Rmax 0 h + c_initial_glacier_height c) in
  exists g snow ice,
    init_snowpack c snowheight T2 = Ok g /\ g_nodes g = snow ++ ice /\ counted g /\
    get_fresh_snow_props g = (0, 0, 0) /\
    (* heights *)
    column_height snow = Rmax 0 h /\ (length snow <= 5)%nat /\
    Forall (fun n => n_height n = h / INR (length snow) /\ 0 < n_height n) snow /\
    (0.1 <= h -> Forall (fun n => 0.1 <= n_height n) snow) /\
    Forall (fun n => n_height n = c_initial_glacier_layer_heights c) ice /\
    c_initial_glacier_height c - c_initial_glacier_layer_heights c < column_height ice
      <= c_initial_glacier_height c /\
    (* contents *)
    Forall (fun n => n_lwc n = 0 /\ n_refreeze n = 0) (snow ++ ice) /\
    Forall (fun n => Rmin (c_initial_top_density_snowpack c) (c_initial_bottom_density_snowpack c)
                       <= layer_density c n
                     <= Rmax (c_initial_top_density_snowpack c) (c_initial_bottom_density_snowpack c)
                        + c_air_density c * c_air_density c / c_ice_density c) snow /\
    Forall (fun n => n_ice n = 1 /\ layer_density c n = c_ice_density c) ice /\
    (* temperatures *)
    (h < 0.1 -> Forall (fun n => n_temperature n = top) snow /\ follows line 0 ice) /\
    (0.1 <= h -> follows line 0 (snow ++ ice)) /\
    Forall (fun n => between (n_temperature n) top (c_temperature_bottom c)) (snow ++ ice).
Proof.
  intros c snowheight T2 Ha Hai Hg Hl Ht Hb h top line.
  assert (Hi : 0 < c_ice_density c) by lra.
  set (q := c_initial_glacier_height c / c_initial_glacier_layer_heights c).
  assert (Hq : 0 <= q) by (unfold q; apply Rmult_le_pos; [lra|left; apply Rinv_0_lt_compat; lra]).
  destruct (py_int_spec q Hq) as (Nn & N1 & N2). set (n := py_int q) in *.
  assert (Hgl : c_initial_glacier_height c = q * c_initial_glacier_layer_heights c) by (unfold q; field; lra).
  assert (HN : INR (Z.to_nat n) = IZR n) by (rewrite INR_IZR_INZ, Z2Nat.id by lia; reflexivity).
  set (lh := c_initial_glacier_layer_heights c) in *.
  set (gh := c_initial_glacier_height c) in *.
  assert (Ih : forall (t : Z -> R), column_height (slab c lh (fun _ => c_ice_density c) t 1 (Z.to_nat n)) = IZR n * lh).
  { intros t. rewrite slab_height, HN. reflexivity. }
  assert (Ice : forall t, Forall (fun x => n_height x = lh) (slab c lh (fun _ => c_ice_density c) t 1 (Z.to_nat n)) /\
     Forall (fun x => n_lwc x = 0 /\ n_refreeze x = 0) (slab c lh (fun _ => c_ice_density c) t 1 (Z.to_nat n)) /\
     Forall (fun x => n_ice x = 1 /\ layer_density c x = c_ice_density c) (slab c lh (fun _ => c_ice_density c) t 1 (Z.to_nat n))).
  { intros t. unfold slab. rewrite !Forall_map. repeat split; apply Forall_forall; intros i _; cbn; [reflexivity|auto|].
    assert (E : (c_ice_density c - (1 - c_ice_density c / c_ice_density c) * c_air_density c) / c_ice_density c = 1) by (field; lra).
    split; [exact E|]. unfold layer_density, layer_air_porosity, new_node. cbn [n_ice n_lwc]. rewrite E.
    rewrite Rmax_left by lra. ring. }
  assert (Irow : forall ts, length ts = Z.to_nat n ->
     length (rows_of (repeat lh (Z.to_nat n)) (repeat (c_ice_density c) (Z.to_nat n)) ts (repeat 0 (Z.to_nat n))) = Z.to_nat n).
  { intros ts L. rewrite rows_of_length; rewrite ?repeat_length; auto. }
  assert (Iramp : forall a b, ramp a b n = map (fun i => a - b * IZR i) (zseq 1 (Z.to_nat n))).
  { intros a b. unfold ramp, zrange. do 2 f_equal. lia. }
  assert (Islab : forall a b, map (node_of_layer c) (rows_of (repeat lh (Z.to_nat n)) (repeat (c_ice_density c) (Z.to_nat n)) (ramp a b n) (repeat 0 (Z.to_nat n)))
     = slab c lh (fun _ => c_ice_density c) (fun i => a - b * IZR i) 1 (Z.to_nat n)).
  { intros a b. rewrite Iramp. rewrite (repeat_map_const (c_ice_density c) 1) at 1. apply slab_rows. }
  unfold init_snowpack. fold (start_height c snowheight). fold h. cbv zeta. fold top. fold lh. fold gh.
  destruct (Rltb_spec 0 h) as [Hh|Hh].
  - rewrite (Rmax_right 0 h) in * by lra.
    assert (HD : 0 < h + gh) by lra.
    assert (Hx0 : 0 <= Rmin (h / 0.1) 5) by (unfold Rmin; destruct (Rle_dec (h / 0.1) 5); lra).
    destruct (py_int_spec _ Hx0) as (K0 & K1 & K2). set (k := py_int (Rmin (h / 0.1) 5)) in *.
    rewrite LemFinSecant.adiv_ok by lra. cbn [bind]. set (dT := (top - c_temperature_bottom c) / (h + gh)).
    assert (EL : line = linear_temperature top (c_temperature_bottom c) (h + gh)) by (unfold line; rewrite Rmax_right by lra; reflexivity).
    assert (Eline : forall z, line z = top - dT * z). { intros z. rewrite EL. unfold linear_temperature, dT. field. lra. }
    assert (Eq : fdiv gh lh = Ok q) by (rewrite fdiv_ok by lra; reflexivity).
    assert (Enp : forall v, np_const n v = Ok (repeat v (Z.to_nat n))).
    { intros v. unfold np_const. destruct (n <? 0)%Z eqn:E; [apply Z.ltb_lt in E; lia|reflexivity]. }
    destruct (k =? 0)%Z eqn:Ek.
    + apply Z.eqb_eq in Ek. cbn [bind]. rewrite Eq. cbn [bind]. fold n. rewrite !Enp. cbn [bind py_get].
      change (py_get [top] (-1)) with (@Ok R top). cbn [bind].
      assert (Hthin : h < 0.1). { rewrite Ek in K2. revert K2. unfold Rmin. destruct (Rle_dec (h / 0.1) 5); lra. }
      set (x0 := new_node c h (c_initial_top_density_snowpack c) top 0 None).
      set (ice := slab c lh (fun _ => c_ice_density c) (fun i => top - dT * lh * IZR i) 1 (Z.to_nat n)).
      destruct (Ice (fun i => top - dT * lh * IZR i)) as (I1 & I2 & I3). fold ice in I1, I2, I3.
      assert (Ff : follows line 0 ice).
      { apply slab_follows. intros i Hi'. rewrite Eline. rewrite minus_IZR. ring. }
      eexists _, [x0], ice. split; [reflexivity|].
      split. { unfold new_grid, init_grid. cbn [g_nodes with_nodes app rows_of map]. rewrite Islab. reflexivity. }
      split. { unfold counted, new_grid, init_grid. cbn [g_number_nodes g_nodes with_nodes]. rewrite app_length, map_length. reflexivity. }
      split; [reflexivity|].
      split; [unfold column_height; rewrite total_cons, total_nil; cbn; lra|].
      split; [cbn; lia|].
      split; [constructor; [cbn; split; [field|exact Hh]|constructor]|].
      split; [lra|]. split; [exact I1|].
      assert (Hih : column_height ice = IZR n * lh) by apply Ih.
      split; [rewrite Hih; split; nra|].
      split; [constructor; [cbn; auto|exact I2]|].
      split. { constructor; [|constructor].
        destruct (new_node_density_bounds c h (c_initial_top_density_snowpack c) top Hi Ha Ht Hai) as ((B1 & B2) & _).
        fold x0 in B1, B2. assert (M1 := Rmin_l (c_initial_top_density_snowpack c) (c_initial_bottom_density_snowpack c)).
        assert (M2 := Rmax_l (c_initial_top_density_snowpack c) (c_initial_bottom_density_snowpack c)). lra. }
      split; [exact I3|].
      split; [intros _; split; [constructor; [reflexivity|constructor]|exact Ff]|].
      split; [lra|].
      constructor.
      * cbn. unfold between. split; [apply Rmin_l|apply Rmax_l].
      * apply (follows_between line 0 ice top (c_temperature_bottom c) (h + gh)); [lra|lra| |rewrite Hih; nra|exact EL|exact Ff].
        eapply Forall_impl; [|exact I1]. cbv beta. intros y ->. exact Hl.
    + apply Z.eqb_neq in Ek.
      assert (Kp : (1 <= k)%Z) by lia. assert (Kr : 1 <= IZR k) by (apply (IZR_le 1); exact Kp).
      assert (K5 : (k <= 5)%Z). { apply le_IZR. revert K1. unfold Rmin. destruct (Rle_dec (h / 0.1) 5); lra. }
      assert (Hthick : IZR k * 0.1 <= h). { revert K1. unfold Rmin. destruct (Rle_dec (h / 0.1) 5); lra. }
      assert (KN : INR (Z.to_nat k) = IZR k) by (rewrite INR_IZR_INZ, Z2Nat.id by lia; reflexivity).
      assert (Enk : forall v, np_const k v = Ok (repeat v (Z.to_nat k))).
      { intros v. unfold np_const. destruct (k <? 0)%Z eqn:E; [apply Z.ltb_lt in E; lia|reflexivity]. }
      rewrite !Enk. cbn [bind]. rewrite Eq. cbn [bind]. fold n. rewrite !Enp. cbn [bind].
      set (st := h / IZR k). set (drho := (c_initial_top_density_snowpack c - c_initial_bottom_density_snowpack c) / h).
      assert (Hst : 0.1 <= st). { unfold st. apply (Rmult_le_reg_r (IZR k)); [lra|]. unfold Rdiv. rewrite Rmult_assoc, Rinv_l by lra. lra. }
      assert (Hkst : IZR k * st = h) by (unfold st; field; lra).
      assert (Kramp : forall a b, ramp a b k = map (fun i => a - b * IZR i) (zseq 1 (Z.to_nat k))).
      { intros a b. unfold ramp, zrange. do 2 f_equal. lia. }
      rewrite !Kramp. rewrite (slab_last (fun i => top - dT * st * IZR i)) by lia. cbn [bind].
      rewrite Z2Nat.id by lia.
      set (ds := fun i => c_initial_top_density_snowpack c - drho * st * IZR i).
      set (tl := top - dT * st * IZR k).
      set (snow := slab c st ds (fun i => top - dT * st * IZR i) 1 (Z.to_nat k)).
      set (ice := slab c lh (fun _ => c_ice_density c) (fun i => tl - dT * lh * IZR i) 1 (Z.to_nat n)).
      destruct (Ice (fun i => tl - dT * lh * IZR i)) as (I1 & I2 & I3). fold ice in I1, I2, I3.
      assert (Hih : column_height ice = IZR n * lh) by apply Ih.
      assert (Hsh : column_height snow = h) by (unfold snow; rewrite slab_height, KN; exact Hkst).
      assert (Ls : length snow = Z.to_nat k) by (unfold snow, slab; rewrite map_length, zseq_length; reflexivity).
      assert (Ff : follows line 0 (snow ++ ice)).
      { assert (F1 : follows line 0 snow).
        { apply slab_follows. intros i Hi'. rewrite Eline. rewrite minus_IZR. ring. }
        assert (F2 : follows line h ice).
        { apply slab_follows. intros i Hi'. rewrite Eline. unfold tl. rewrite minus_IZR, <- Hkst. ring. }
        assert (X : forall l z, follows line z l -> follows line (z + column_height l) ice -> follows line z (l ++ ice)).
        { clear. unfold column_height. induction l as [|x l IH]; intros z A B; [rewrite total_nil, Rplus_0_r in B; exact B|].
          destruct A as (A1 & A2). split; [exact A1|]. apply IH; [exact A2|]. rewrite total_cons in B.
          replace (z + n_height x + total n_height l) with (z + (n_height x + total n_height l)) by ring. exact B. }
        apply X; [exact F1|]. rewrite Hsh, Rplus_0_l. exact F2. }
      assert (Hs : Forall (fun x => n_height x = st) snow).
      { unfold snow, slab. rewrite Forall_map. apply Forall_forall. intros; reflexivity. }
      eexists _, snow, ice. split; [reflexivity|].
      split. { unfold new_grid, init_grid. cbn [g_nodes with_nodes app].
        rewrite rows_of_app by (rewrite ?map_length, ?zseq_length, ?repeat_length; reflexivity).
        rewrite map_app. f_equal; [apply slab_rows|]. apply Islab. }
      split. { unfold counted, new_grid, init_grid. cbn [g_number_nodes g_nodes with_nodes]. rewrite app_length, map_length. reflexivity. }
      split; [reflexivity|]. split; [exact Hsh|]. split; [lia|].
      split. { rewrite Ls, KN. eapply Forall_impl; [|exact Hs]. cbv beta. intros x ->. split; [reflexivity|lra]. }
      split. { intros _. eapply Forall_impl; [|exact Hs]. cbv beta. intros x ->. exact Hst. }
      split; [exact I1|]. split; [rewrite Hih; split; nra|].
      split. { apply Forall_app. split; [|exact I2]. unfold snow, slab. rewrite Forall_map. apply Forall_forall. intros; cbn; auto. }
      split.
      { unfold snow, slab. rewrite Forall_map. apply Forall_forall. intros i Hin.
        assert (Hin' : (1 <= i <= k)%Z).
        { assert (X : forall lo m j, In j (zseq lo m) -> (lo <= j < lo + Z.of_nat m)%Z).
          { clear. intros lo m. revert lo. induction m as [|m IH]; intros lo j; cbn; [tauto|]. intros [<-|H]; [lia|]. apply IH in H. lia. }
          apply X in Hin. lia. }
        assert (Hi1 : 1 <= IZR i <= IZR k) by (split; apply IZR_le; lia).
        assert (Ed : ds i = c_initial_top_density_snowpack c + (c_initial_bottom_density_snowpack c - c_initial_top_density_snowpack c) * (IZR i / IZR k)).
        { unfold ds, drho, st. field. split; lra. }
        set (u := IZR i / IZR k) in Ed. assert (Hu : 0 <= u <= 1).
        { unfold u. split; [apply Rmult_le_pos; [lra|left; apply Rinv_0_lt_compat; lra]|].
          apply (Rmult_le_reg_r (IZR k)); [lra|]. unfold Rdiv. rewrite Rmult_assoc, Rinv_l by lra. lra. }
        clearbody u.
        assert (Hbt : Rmin (c_initial_top_density_snowpack c) (c_initial_bottom_density_snowpack c) <= ds i
                   <= Rmax (c_initial_top_density_snowpack c) (c_initial_bottom_density_snowpack c)).
        { rewrite Ed. unfold Rmin, Rmax. destruct (Rle_dec _ _); split; nra. }
        assert (Hr : 0 <= ds i <= c_ice_density c) by (rewrite Ed; split; nra).
        destruct (new_node_density_bounds c st (ds i) (top - dT * st * IZR i) Hi Ha Hr Hai) as ((B1 & B2) & _). lra. }
      split; [exact I3|].
      split. { intros X. exfalso. nra. }
      split; [intros _; exact Ff|].
      apply (follows_between line 0 (snow ++ ice) top (c_temperature_bottom c) (h + gh)); [lra|lra| | |exact EL|exact Ff].
      * apply Forall_app. split; [eapply Forall_impl; [|exact Hs]|eapply Forall_impl; [|exact I1]]; cbv beta; intros y ->; lra.
      * unfold column_height in *. rewrite total_app. rewrite Hsh, Hih. nra.
  - rewrite (Rmax_left 0 h) in * by lra.
    assert (Eq : fdiv gh lh = Ok q) by (rewrite fdiv_ok by lra; reflexivity).
    assert (Enp : forall v, np_const n v = Ok (repeat v (Z.to_nat n))).
    { intros v. unfold np_const. destruct (n <? 0)%Z eqn:E; [apply Z.ltb_lt in E; lia|reflexivity]. }
    rewrite Eq. cbn [bind]. fold n. rewrite LemFinSecant.adiv_ok by lra.
    set (dT := (top - c_temperature_bottom c) / gh).
    assert (ED : exists d, (if (n =? 0)%Z then Ok 0 else Ok dT) = Ok d /\ ramp top (d * lh) n = ramp top (dT * lh) n).
    { destruct (n =? 0)%Z eqn:E; [|exists dT; split; reflexivity]. apply Z.eqb_eq in E. exists 0. split; [reflexivity|].
      rewrite E. reflexivity. }
    destruct ED as (d & -> & Ed). cbn [bind]. rewrite !Enp. cbn [bind]. rewrite Ed.
    assert (EL : line = linear_temperature top (c_temperature_bottom c) (0 + gh)) by (unfold line; rewrite Rmax_left by lra; reflexivity).
    assert (Eline : forall z, line z = top - dT * z). { intros z. rewrite EL. unfold linear_temperature, dT. field. lra. }
    set (ice := slab c lh (fun _ => c_ice_density c) (fun i => top - dT * lh * IZR i) 1 (Z.to_nat n)).
    destruct (Ice (fun i => top - dT * lh * IZR i)) as (I1 & I2 & I3). fold ice in I1, I2, I3.
    assert (Hih : column_height ice = IZR n * lh) by apply Ih.
    assert (Ff : follows line 0 ice).
    { apply slab_follows. intros i Hi'. rewrite Eline. rewrite minus_IZR. ring. }
    eexists _, [], ice. split; [reflexivity|].
    split. { unfold new_grid, init_grid. cbn [g_nodes with_nodes app]. apply Islab. }
    split. { unfold counted, new_grid, init_grid. cbn [g_number_nodes g_nodes with_nodes]. rewrite app_length, map_length. reflexivity. }
    split; [reflexivity|]. split; [unfold column_height; apply total_nil|]. split; [cbn; lia|].
    split; [constructor|]. split; [constructor|]. split; [exact I1|]. split; [rewrite Hih; split; nra|].
    split; [exact I2|]. split; [constructor|]. split; [exact I3|].
    split; [intros _; split; [constructor|exact Ff]|]. split; [lra|].
    apply (follows_between line 0 ice top (c_temperature_bottom c) (0 + gh)); [lra|lra| |rewrite Hih; nra|exact EL|exact Ff].
    eapply Forall_impl; [|exact I1]. cbv beta. intros y ->. exact Hl.
Qed.

(*@ex the shipped constants meet the hypotheses *)
Lemma initial_column_ex_lem :
  let c := default_constants in
  0 < c_air_density c /\ c_air_density c <= c_ice_density c /\
  0 < c_initial_glacier_height c /\ 0 < c_initial_glacier_layer_heights c /\
  0 <= c_initial_top_density_snowpack c <= c_ice_density c /\
  0 <= c_initial_bottom_density_snowpack c <= c_ice_density c.
Proof. cbn. lra. Qed.

(** ** Restart (C44) *)

Lemma map_res_some l : map_res (fun x : number => match x with Some r => Ok r | None => Err NotReal end) (map Some l) = Ok l.
Proof. induction l as [|x l IH]; cbn; [reflexivity|]. rewrite IH. reflexivity. Qed.

Lemma slice_filled (l : list R) k :
  map_res (fun x : number => match x with Some r => Ok r | None => Err NotReal end)
    (firstn (length l) (map Some l ++ repeat None k)) = Ok l.
Proof.
  rewrite firstn_app, map_length, Nat.sub_diag. cbn [firstn]. rewrite app_nil_r.
  rewrite <- (map_length (@Some R) l), firstn_all. apply map_res_some.
Qed.

Lemma fill_ok m v : (Z.of_nat (length v) <= m)%Z -> fill_nan m v = Ok (map Some v ++ repeat None (Z.to_nat m - length v)).
Proof. intros H. unfold fill_nan. destruct (Z.ltb_spec m (Z.of_nat (length v))); [lia|reflexivity]. Qed.

Lemma py_int_nat n : py_int (IZR (Z.of_nat n)) = Z.of_nat n.
Proof.
  destruct (py_int_spec (IZR (Z.of_nat n)) (IZR_le 0 _ (Nat2Z.is_nonneg n))) as (A & B & C).
  apply le_IZR in B. assert (D : IZR (Z.of_nat n) < IZR (py_int (IZR (Z.of_nat n)) + 1)) by (rewrite plus_IZR; exact C).
  apply lt_IZR in D. lia.
Qed.

Lemma rows_back c l :
  map (node_of_layer c) (rows_with_ice (map n_height l) (map (layer_density c) l) (map n_temperature l) (map n_lwc l) (map n_ice l))
  = map (set_layer_refreeze 0) l.
Proof. induction l as [|x l IH]; cbn; [reflexivity|]. rewrite IH. reflexivity. Qed.

Lemma rows_with_ice_len c l :
  length (rows_with_ice (map n_height l) (map (layer_density c) l) (map n_temperature l) (map n_lwc l) (map n_ice l)) = length l.
Proof. induction l as [|x l IH]; cbn; auto. Qed.

(*@ C44 Saving and resuming, for every grid with a correct counter: if it has at most
    max_layers layers it is written; the loader of the code then always raises, because it
    looks for other variable names; a loader that used the written names would return exactly
    the same layers, counter and snow clock, the refreezing diagnostic being zero.  A grid
    with more layers is not written. *)
Lemma restart_round_trip_lem : forall c g, counted g ->
  (g_number_nodes g <= c_max_layers c)%Z ->
  exists d, write_restart c g = Ok d /\
    load_snowpack c d = Err AttributeError /\
    exists g', load_snowpack_with written_names c d = Ok g' /\
      g_nodes g' = map (set_layer_refreeze 0) (g_nodes g) /\
      g_number_nodes g' = g_number_nodes g /\ same_clock g g'.
Proof.
  intros c g Hn Hm. set (l := g_nodes g).
  assert (Hm' : (Z.of_nat (length l) <= c_max_layers c)%Z) by (unfold counted in Hn; fold l in Hn; lia).
  set (k := (Z.to_nat (c_max_layers c) - length l)%nat).
  assert (F : forall f : Node -> R, fill_nan (c_max_layers c) (map f l) = Ok (map Some (map f l) ++ repeat None k)).
  { intros f. rewrite fill_ok by (rewrite map_length; exact Hm'). rewrite map_length. reflexivity. }
  assert (S0 : forall f : Node -> R, map_res (fun x : number => match x with Some r => Ok r | None => Err NotReal end)
     (firstn (Z.to_nat (Z.of_nat (length l))) (map Some (map f l) ++ repeat None k)) = Ok (map f l)).
  { intros f. rewrite Nat2Z.id. rewrite <- (map_length f l) at 1. apply slice_filled. }
  eexists. split.
  { unfold write_restart, get_fresh_snow_props. rewrite get_height_counted by exact Hn. fold l. cbn [bind]. rewrite F. cbn [bind].
    rewrite get_density_counted by exact Hn. fold l. cbn [bind]. rewrite F. cbn [bind].
    rewrite get_temperature_counted by exact Hn. fold l. cbn [bind]. rewrite F. cbn [bind].
    unfold get_liquid_water_content. rewrite (get_profile_map n_lwc) by exact Hn. fold l. cbn [bind]. rewrite F. cbn [bind].
    unfold get_ice_fraction. rewrite (get_profile_map n_ice) by exact Hn. fold l. cbn [bind]. rewrite F. cbn [bind].
    reflexivity. }
  unfold get_number_layers. rewrite Hn. fold l.
  split.
  { unfold load_snowpack, load_snowpack_with, ds_scalar, ds_slice. cbn [ds_get String.eqb Ascii.eqb Bool.eqb bind]. cbv zeta.
    rewrite py_int_nat. rewrite !S0. cbn [bind]. reflexivity. }
  eexists. split.
  { unfold written_names, load_snowpack_with, ds_scalar, ds_slice. cbn [ds_get String.eqb Ascii.eqb Bool.eqb bind]. cbv zeta.
    rewrite py_int_nat. rewrite !S0. cbn [bind]. reflexivity. }
  unfold new_grid, init_grid. cbn [g_nodes g_number_nodes with_nodes app same_clock g_new_snow_height g_new_snow_timestamp g_old_snow_timestamp].
  rewrite rows_back, rows_with_ice_len. split; [reflexivity|]. split; [reflexivity|]. repeat split.
Qed.

(*@ C44 With more than max_layers layers the restart file is not written: ValueError. *)
Lemma restart_too_many_layers_lem : forall c g, counted g ->
  (c_max_layers c < g_number_nodes g)%Z -> write_restart c g = Err ValueError.
Proof.
  intros c g Hn Hm. unfold write_restart, get_fresh_snow_props. rewrite get_height_counted by exact Hn. cbn [bind].
  unfold fill_nan. rewrite map_length. unfold counted in Hn.
  destruct (Z.ltb_spec (c_max_layers c) (Z.of_nat (length (g_nodes g)))); [reflexivity|lia].
Qed.

Lemma refreeze_reported c g g' wr : counted g -> refreezing c g = Ok (g', wr) ->
  Forall2 (fun x y => n_refreeze y = (n_lwc x - n_lwc y) * n_height x) (g_nodes g) (g_nodes g').
Proof.
  intros Hn H. unfold refreezing in H. apply bind_ok in H. destruct H as (ph & _ & H).
  unfold for_range in H. unfold counted in Hn. rewrite Hn in H.
  apply (for_loop_inv (fun i s => exists d0 d1 rest, g_nodes g = d0 ++ rest /\ g_nodes (fst s) = d1 ++ rest /\
     i = Z.of_nat (length d1) /\ Forall2 (fun x y => n_refreeze y = (n_lwc x - n_lwc y) * n_height x) d0 d1)) in H.
  - destruct H as (d0 & d1 & rest & E1 & E2 & E3 & F). cbn [fst] in E2.
    assert (L := Forall2_len _ _ _ F).
    assert (L2 : length (g_nodes g) = (length d0 + length rest)%nat) by (rewrite E1, app_length; reflexivity).
    destruct rest; [|cbn [length] in L2; lia]. rewrite app_nil_r in *. congruence.
  - intros j [g1 a1] [g2 a2] Hj (d0 & d1 & rest & E1 & E2 & E3 & F) B. cbn [fst snd] in *.
    unfold refreezing_body, get_node_temperature, get_node_lwc, get_node_height, get_node_ice_fraction in B.
    assert (L := Forall2_len _ _ _ F).
    assert (L2 : length (g_nodes g) = (length d0 + length rest)%nat) by (rewrite E1, app_length; reflexivity).
    destruct rest as [|x rest]; [cbn [length] in L2; lia|].
    assert (Ex : get_node g1 j = Ok x) by (rewrite E3; apply get_node_mid with (post := rest); exact E2).
    rewrite Ex in B. cbn [bind] in B.
    apply bind_ok in B. destruct B as ([g3 dth] & B3 & B).
    assert (K : exists y, g_nodes g3 = d1 ++ y :: rest /\ n_height y = n_height x /\ n_lwc y = n_lwc x - dth).
    { destruct (Rleb _ _ && Rltb _ _).
      - apply bind_ok in B3. destruct B3 as (dd & _ & B3).
        apply bind_ok in B3. destruct B3 as (ra & _ & B3). apply bind_ok in B3. destruct B3 as (u & _ & B3).
        unfold set_node_lwc, set_node_ice_fraction, set_node_temperature in B3. rewrite E3 in B3.
        rewrite (upd_node_mid g1 d1 x rest _ E2) in B3. cbn [bind] in B3.
        erewrite upd_node_mid in B3 by reflexivity. cbn [bind] in B3.
        erewrite get_node_mid in B3 by reflexivity. cbn [bind] in B3.
        apply bind_ok in B3. destruct B3 as (dT & _ & B3).
        erewrite upd_node_mid in B3 by reflexivity. cbn [bind] in B3.
        destruct (Rltb _ 0); [discriminate|]. injection B3 as <- <-.
        eexists. split; [reflexivity|]. cbn. split; reflexivity.
      - injection B3 as <- <-. exists x. split; [exact E2|]. split; [reflexivity|ring]. }
    destruct K as (y & E4 & Y1 & Y2).
    rewrite E3 in B. rewrite (get_node_mid g3 d1 y rest E4) in B. cbn [bind] in B.
    unfold set_node_refreeze in B. rewrite (upd_node_mid g3 d1 y rest _ E4) in B. cbn [bind] in B.
    injection B as <- <-. cbn [g_nodes with_nodes].
    exists (d0 ++ [x]), (d1 ++ [set_layer_refreeze (dth * n_height y) y]), rest.
    rewrite <- !app_assoc. cbn [app]. split; [exact E1|]. split; [reflexivity|].
    split; [rewrite app_length; cbn [length]; lia|]. apply Forall2_app; [exact F|].
    constructor; [|constructor]. cbn [n_refreeze n_lwc set_layer_refreeze]. rewrite Y1, Y2. ring.
  - exists [], [], (g_nodes g). repeat split; constructor.
Qed.

Definition anyR : R -> R -> Prop := fun _ _ => True.
Lemma anyR_refl x : anyR x x.
Proof. exact I. Qed.

Lemma gsim_eq g g' : gsim eq g g' -> g_nodes g' = g_nodes g.
Proof.
  intros (H & _). induction H as [|x y l l' (A & B & C & D & E) H IH]; [reflexivity|].
  f_equal; [|exact IH]. destruct x, y; cbn in *; congruence.
Qed.
Lemma gsim_of_eq g g' : g_nodes g' = g_nodes g -> g_number_nodes g' = g_number_nodes g -> gsim eq g g'.
Proof. intros H N. split; [|exact N]. rewrite H. apply Forall2_diag. apply nsim_refl. reflexivity. Qed.

Lemma refreezing_sim_eq c g g' : counted g -> gsim anyR g g' ->
  res_rel (prod_rel (gsim eq) eq) (refreezing c g) (refreezing c g').
Proof.
  intros Hn H. assert (W := refreezing_sim _ anyR_refl c _ _ H).
  assert (Hn' : counted g').
  { unfold counted in *. destruct H as (H & N). rewrite N, Hn. f_equal. symmetry. exact (Forall2_len _ _ _ H). }
  destruct (refreezing c g) as [[g1 r1]|] eqn:E1; destruct (refreezing c g') as [[g2 r2]|] eqn:E2; cbn in W |- *; try exact W.
  destruct W as ((W & N) & E). cbn in W, N, E. split; cbn; [|exact E]. split; [|exact N].
  assert (F1 := refreeze_reported _ _ _ _ Hn E1). assert (F2 := refreeze_reported _ _ _ _ Hn' E2).
  destruct H as (H & _). clear -W H F1 F2. revert H F1 F2. generalize (g_nodes g) (g_nodes g'). 
  induction W as [|x y l l' K W IH]; intros a b H F1 F2; [constructor|].
  inversion F1; subst. inversion F2; subst. inversion H; subst. constructor; [|eapply IH; eassumption].
  destruct K as (A & B & C & D & _). repeat split; try assumption.
  match goal with X : nsim _ ?u ?v |- _ => destruct X as (A1 & B1 & C1 & D1 & _) end. congruence.
Qed.

(** ** One step depends on the layers and the snow clock only *)

(** related grids with the same clock *)
Definition gsimc (Q : R -> R -> Prop) (g g' : Grid) : Prop := gsim Q g g' /\ same_clock g g'.

Lemma stage {A} Q (pr : A -> Grid) (rel : A -> A -> Prop) (m m' : res A) g g' :
  counted g -> same_clock g g' ->
  (forall x, m = Ok x -> evolves g (pr x)) -> (forall x, m' = Ok x -> evolves g' (pr x)) ->
  (forall x y, rel x y -> gsim Q (pr x) (pr y)) ->
  res_rel rel m m' -> res_rel (fun x y => rel x y /\ counted (pr x) /\ gsimc Q (pr x) (pr y)) m m'.
Proof.
  intros Hn (K1 & K2 & K3) H1 H2 HQ H. destruct m as [x|], m' as [y|]; cbn in *; try exact H.
  destruct (H1 _ eq_refl) as ((A1 & A2 & A3) & A4). destruct (H2 _ eq_refl) as ((B1 & B2 & B3) & _).
  split; [exact H|]. split; [auto|]. split; [apply HQ; exact H|].
  unfold same_clock. rewrite A1, A2, A3, B1, B2, B3. auto.
Qed.

Lemma lay_snow_simc (Q : R -> R -> Prop) c g g' s rho T dt : (forall x, Q x x) -> gsimc Q g g' ->
  gsimc Q (lay_snow c g s rho T dt) (lay_snow c g' s rho T dt).
Proof.
  intros Qr ((H & N) & K1 & K2 & K3). unfold lay_snow, add_fresh_snow.
  destruct (Rltb 0 s); [destruct (Rltb s (c_minimum_snowfall c))|].
  - split; [split|]; cbn; [apply py_insert_rel; [apply nsim_refl; exact Qr|exact H]|congruence|].
    unfold same_clock; cbn. rewrite K1, K2, K3. auto.
  - split; [split|]; cbn; [apply py_insert_rel; [apply nsim_refl; exact Qr|exact H]|congruence|].
    unfold same_clock; cbn. rewrite ?K1, ?K2, ?K3. auto.
  - split; [split|]; cbn; [exact H|exact N|]. unfold same_clock; cbn. rewrite K1, K2, K3. auto.
Qed.

Lemma surface_properties_simc Q c g g' : gsimc Q g g' ->
  gsimc Q (fst (get_surface_properties c g)) (fst (get_surface_properties c g')) /\
  snd (get_surface_properties c g') = snd (get_surface_properties c g).
Proof.
  intros ((H & N) & K1 & K2 & K3). unfold get_surface_properties, get_fresh_snow_props. rewrite K1, K2.
  destruct (_ && _); cbn.
  - split; [split; [split; [exact H|exact N]|]|]; unfold same_clock; cbn; rewrite ?K1, ?K2, ?K3; auto.
  - split; [split; [split; [exact H|exact N]|]|reflexivity]. unfold same_clock. auto.
Qed.

Lemma albedo_simc Q c g g' ts ts' al al' : gsimc Q g g' ->
  (c_albedo_method c = "Oerlemans98"%string \/ (ts' = ts /\ al' = al)) ->
  res_rel (fun x y => gsimc Q (fst (fst x)) (fst (fst y)) /\ snd (fst x) = snd (fst y) /\
             (c_albedo_method c = "Oerlemans98"%string \/ snd x = snd y))
    (updateAlbedo c g ts al) (updateAlbedo c g' ts' al').
Proof.
  intros H M. unfold updateAlbedo.
  destruct (surface_properties_simc Q c g g' H) as (S1 & S2).
  destruct (get_surface_properties c g) as [g1 [[h t] o]] eqn:E1. destruct (get_surface_properties c g') as [g1' [[h' t'] o']] eqn:E2.
  cbn [fst snd] in S1, S2. injection S2 as -> -> ->.
  assert (D : res_rel eq (get_node_density c g1 0) (get_node_density c g1' 0)) by (apply (get_density_sim Q); apply S1).
  assert (T : res_rel eq (get_total_snowheight c g1) (get_total_snowheight c g1')) by (apply (total_snow_sim Q); apply S1).
  apply eq_res in D. apply eq_res in T.
  destruct (String.eqb (c_albedo_method c) "Oerlemans98") eqn:EO.
  - apply String.eqb_eq in EO. unfold method_Oerlemans. rewrite E1, E2, <- D, <- T.
    destruct (get_node_density c g1 0) as [d|]; [|reflexivity]. cbn [bind]. destruct (Rleb d _).
    + destruct (get_total_snowheight c g1) as [x|]; [|reflexivity]. cbn [bind].
      destruct (get_simple_albedo c o) as [a|]; [|reflexivity]. cbn [bind].
      destruct (get_albedo_with_decay c a x) as [m|]; [|reflexivity]. cbn. auto.
    + cbn. auto.
  - destruct M as [M|(-> & ->)]; [rewrite M in EO; discriminate|].
    destruct (String.eqb (c_albedo_method c) "Bougamont05"); [|reflexivity].
    unfold method_Bougamont. rewrite E1, E2, <- D, <- T.
    destruct (get_node_density c g1 0) as [d|]; [|reflexivity]. cbn [bind]. destruct (Rleb d _).
    + destruct (get_total_snowheight c g1) as [x|]; [|reflexivity]. cbn [bind].
      destruct (fdiv _ _) as [q|]; [|reflexivity]. cbn [bind]. cbv zeta.
      destruct (get_albedo_with_decay c _ x) as [m|]; [|reflexivity]. cbn. auto.
    + cbn. auto.
Qed.

Lemma roughness_simc Q c g g' : gsimc Q g g' -> res_rel eq (updateRoughness c g) (updateRoughness c g').
Proof.
  intros ((H & N) & K1 & K2 & K3). unfold updateRoughness, method_Moelg, get_fresh_snow_props.
  destruct (String.eqb _ _); [|reflexivity]. rewrite K2.
  eapply bind_rel; [apply (get_density_sim Q); split; assumption|]. intros d ? <-. reflexivity.
Qed.

Lemma water_simc c fuel g g' melt m rain : counted g -> gsimc anyR g g' ->
  res_rel (fun x y => gsimc eq (fst (fst x)) (fst (fst y)) /\ snd (fst x) = snd (fst y) /\ snd x = snd y)
    (water_step fuel c g melt m rain) (water_step fuel c g' melt m rain).
Proof.
  intros Hn (H & K). unfold water_step.
  eapply (bind_rel (fun x y => (counted (fst x) /\ gsimc anyR (fst x) (fst y)) /\ snd x = snd y)).
  - assert (Hn2 : forall x, remove_melt_weq fuel c g (melt - m_sublimation m - m_deposition m) 0 = Ok x -> counted (fst x)).
    { intros [x1 x2] Ex. eapply remove_melt_counted; eassumption. }
    unfold remove_melt_weq in *.
    set (W := while_loop fuel _ (melt_body c 0) (g, _, 0)) in *. set (W' := while_loop fuel _ (melt_body c 0) (g', _, 0)).
    assert (HW : res_rel (prod_rel (prod_rel (gsim anyR) eq) eq) W W').
    { apply melt_loop_sim. exact H. }
    assert (C1 : forall x, W = Ok x -> evolves g (fst (fst x))).
    { intros x Ex. apply (while_ev (fun s => fst (fst s))) in Ex; [exact Ex|].
      clear. intros [[a b] l] [[a' b'] l'] E. unfold melt_body in E. cbn [fst]. crunch; repeat ev1; chain. }
    assert (C2 : forall x, W' = Ok x -> evolves g' (fst (fst x))).
    { intros x Ex. apply (while_ev (fun s => fst (fst s))) in Ex; [exact Ex|].
      clear. intros [[a b] l] [[a' b'] l'] E. unfold melt_body in E. cbn [fst]. crunch; repeat ev1; chain. }
    clearbody W W'. destruct W as [[[g1 m1] l1]|], W' as [[[g2 m2] l2]|]; cbn [res_rel] in HW |- *; try exact HW.
    destruct HW as ((S1 & E1) & E2). cbn [fst snd] in S1, E1, E2. subst m2 l2.
    cbn [bind]. specialize (Hn2 _ eq_refl). cbn [fst bind Z.eqb] in *.
    destruct (C1 _ eq_refl) as ((A1 & A2 & A3) & _). destruct (C2 _ eq_refl) as ((B1 & B2 & B3) & _). destruct K as (K1 & K2 & K3).
    cbn [fst] in *. split; [|reflexivity]. split; [exact Hn2|]. split; [exact S1|].
    unfold same_clock. cbn. rewrite A1, A2, A3, B1, B2, B3, K1, K2, K3. auto.
  - intros [g1 l1] [g1' l1'] ((N1 & S1 & C1) & E). cbn [fst snd] in *. subst l1'.
    eapply (bind_rel (fun x y => (counted (fst x) /\ gsimc anyR (fst x) (fst y)) /\ snd x = snd y)).
    + assert (P := percolation_sim _ g1 g1' (melt + m_condensation m + rain / 1000 + l1) S1).
      destruct (percolation g1 _) as [[g2 q]|] eqn:E1; destruct (percolation g1' _) as [[g2' q']|] eqn:E2; cbn [res_rel] in P |- *; try exact P.
      destruct P as (P & E). cbn [fst snd] in P, E |- *. split; [|exact E].
      destruct (percolation_ev _ _ _ _ E1) as ((A1 & A2 & A3) & A4). destruct (percolation_ev _ _ _ _ E2) as ((B1 & B2 & B3) & _).
      split; [auto|]. split; [exact P|]. destruct C1 as (K1 & K2 & K3). unfold same_clock. rewrite A1, A2, A3, B1, B2, B3. auto.
    + intros [g2 q] [g2' q'] ((N2 & S2 & C2) & E). cbn [fst snd] in *. subst q'.
      assert (P := refreezing_sim_eq c g2 g2' N2 S2).
      destruct (refreezing c g2) as [[g3 w]|] eqn:E1; destruct (refreezing c g2') as [[g3' w']|] eqn:E2; cbn [res_rel] in P |- *; try exact P.
      destruct P as (P & E). cbn [fst snd bind res_rel] in P, E |- *. subst w'.
      destruct (refreezing_ev _ _ _ _ E1) as ((A1 & A2 & A3) & A4). destruct (refreezing_ev _ _ _ _ E2) as ((B1 & B2 & B3) & _).
      split; [|auto]. split; [exact P|]. destruct C2 as (K1 & K2 & K3). unfold same_clock. rewrite A1, A2, A3, B1, B2, B3. auto.
Qed.

(*@ C44 What a step needs from the past: if two states agree in layers (up to the refreezing
    diagnostic), counter and snow clock, and in surface temperature and snow albedo unless
    the albedo is that of Oerlemans and Knap, then the step does the same on both: the same
    exception, or the same output and again states that agree.  The solvers are arbitrary. *)
Lemma resumed_step_lem : forall fuel c sw sv settings d inp t s s',
  counted (s_grid s) -> resumes c s s' ->
  match core_step fuel c sw sv settings d inp t s, core_step fuel c sw sv settings d inp t s' with
  | Ok (s1, o1), Ok (s1', o1') => o1' = o1 /\ counted (s_grid s1) /\ resumes c s1 s1'
  | Err e, Err e' => e' = e
  | _, _ => False
  end.
Proof.
  intros fuel c sw sv [[dt ml] z] d inp t s s' Hn (HL & HN & HK & HM).
  assert (HG : gsimc anyR (s_grid s) (s_grid s')).
  { split; [split; [|exact HN]|exact HK]. unfold same_layers in HL. clear -HL.
    induction HL as [|x y l l' (A & B & C & D) H IH]; constructor; [repeat split; assumption|exact IH]. }
  assert (X : res_rel (fun x y => snd y = snd x /\ counted (s_grid (fst x)) /\ resumes c (fst x) (fst y))
     (core_step fuel c sw sv (dt, ml, z) d inp t s) (core_step fuel c sw sv (dt, ml, z) d inp t s')).
  2:{ destruct (core_step fuel c sw sv (dt, ml, z) d inp t s) as [[s1 o1]|], (core_step fuel c sw sv (dt, ml, z) d inp t s') as [[s2 o2]|];
      cbn in X; try contradiction; try exact X; symmetry; exact X. }
  unfold core_step.
  do 6 (apply (bind_rel eq); [apply res_refl|intros ? ? <-]).
  apply (bind_rel eq); [apply res_refl|intros [SNOWFALL RAIN] ? <-].
  cbv zeta.
  assert (H1 := lay_snow_simc anyR c _ _ SNOWFALL a1 a dt anyR_refl HG).
  assert (N1 : counted (lay_snow c (s_grid s) SNOWFALL a1 a dt)).
  { clear -Hn. unfold lay_snow, add_fresh_snow, counted in *. destruct (Rltb 0 SNOWFALL); [destruct (Rltb _ _)|]; cbn [g_number_nodes g_nodes with_nodes with_number set_fresh_snow_props set_fresh_snow_props_update_time]; rewrite ?py_insert_length, ?Hn; lia. }
  set (g1 := lay_snow c (s_grid s) SNOWFALL a1 a dt) in *. set (g1' := lay_snow c (s_grid s') SNOWFALL a1 a dt) in *.
  clearbody g1 g1'.
  apply (bind_rel eq); [apply res_refl|intros Gt ? <-].
  eapply bind_rel.
  { apply (stage anyR (fun x => x) (gsim anyR) _ _ g1 g1' N1 (proj2 H1)).
    - intros x. apply update_grid_ev.
    - intros x. apply update_grid_ev.
    - auto.
    - apply update_grid_sim; first [exact (proj1 H1)|exact anyR_refl]. }
  clear H1 N1. intros g2 g2' (_ & N2 & H2).
  assert (P := albedo_simc anyR c g2 g2' (s_surface_temperature s) (s_surface_temperature s') (s_albedo_snow s) (s_albedo_snow s') H2 HM).
  destruct (updateAlbedo c g2 _ _) as [[[g3 al] as3]|] eqn:E1; destruct (updateAlbedo c g2' _ _) as [[[g3' al'] as3']|];
    cbn [res_rel] in P; try contradiction; cbn [bind]; [|exact P].
  assert (N3 : counted g3). { apply albedo_clock in E1. destruct E1 as (A & B & _). unfold counted in *. rewrite A, B. exact N2. }
  destruct P as (H3 & E & HA). cbn [fst snd] in H3, E, HA. subst al'. clear H2 N2 E1.
  apply (bind_rel eq); [apply (roughness_simc anyR); exact H3|intros z0 ? <-].
  eapply bind_rel.
  { apply (stage anyR (fun x => fst (fst x)) (prod_rel (prod_rel (gsim anyR) eq) eq) _ _ g3 g3' N3 (proj2 H3)).
    - intros [[x1 x2] x3]. apply shortwave_ev.
    - intros [[x1 x2] x3]. apply shortwave_ev.
    - intros x y ((X & _) & _). exact X.
    - apply shortwave_sim; first [exact (proj1 H3)|exact anyR_refl]. }
  clear H3 N3. intros [[g4 sm] Gp] [[g4' sm'] Gp'] (((_ & E1) & E2) & N4 & H4). cbn [fst snd] in E1, E2, N4, H4. subst sm' Gp'.
  do 4 (apply (bind_rel eq); [apply res_refl|intros ? ? <-]).
  eapply bind_rel.
  { apply (stage anyR (fun x => fst (fst (fst x))) (prod_rel (prod_rel (prod_rel (gsim anyR) eq) eq) eq) _ _ g4 g4' N4 (proj2 H4)).
    - intros [[[x1 x2] x3] x4]. apply update_surface_ev.
    - intros [[[x1 x2] x3] x4]. apply update_surface_ev.
    - intros x y (((X & _) & _) & _). exact X.
    - apply surface_sim; first [exact (proj1 H4)|exact anyR_refl]. }
  clear H4 N4. intros [[[g5 fn] Ts] f] [[[g5' fn'] Ts'] f'] ((((_ & E1) & E2) & E3) & N5 & H5).
  cbn [fst snd] in E1, E2, E3, N5, H5. subst fn' Ts' f'.
  apply (bind_rel eq); [apply res_refl|intros m ? <-].
  apply (bind_rel eq); [apply res_refl|intros melt ? <-].
  assert (P := water_simc c fuel g5 g5' melt m RAIN N5 H5).
  destruct (water_step fuel c g5 melt m RAIN) as [[[g8 Q] wr]|] eqn:E1; destruct (water_step fuel c g5' melt m RAIN) as [[[g8' Q'] wr']|];
    cbn [res_rel] in P; try contradiction; cbn [bind]; [|exact P].
  assert (N8 : counted g8) by exact (proj1 (water_clock _ _ _ _ _ _ _ _ _ N5 E1)).
  destruct P as (H8 & E2 & E3). cbn [fst snd] in H8, E2, E3. subst Q' wr'. clear H5 N5 E1.
  eapply bind_rel.
  { apply (stage eq (fun x => x) (gsim eq) _ _ g8 g8' N8 (proj2 H8)).
    - intros x. apply heat_ev.
    - intros x. apply heat_ev.
    - auto.
    - apply heat_sim; first [exact (proj1 H8)|reflexivity]. }
  clear H8 N8. intros g9 g9' (_ & N9 & H9).
  eapply bind_rel.
  { apply (stage eq (fun x => x) (gsim eq) _ _ g9 g9' N9 (proj2 H9)).
    - intros x. apply densification_ev.
    - intros x. apply densification_ev.
    - auto.
    - apply densification_sim; first [exact (proj1 H9)|reflexivity]. }
  clear H9 N9. intros g10 g10' (_ & N10 & H10).
  apply (bind_rel eq); [apply res_refl|intros ratio ? <-].
  destruct H10 as (S10 & K10). assert (En := gsim_eq _ _ S10). assert (Em := number_sim _ _ _ S10).
  apply (bind_rel eq); [apply (total_snow_sim eq); exact S10|intros sh ? <-].
  apply (bind_rel eq); [apply (total_height_sim eq); exact S10|intros th ? <-].
  assert (G : g10' = g10).
  { destruct K10 as (K1 & K2 & K3). clear -En Em K1 K2 K3. destruct g10, g10'; cbn in *. congruence. }
  clear S10 K10 En Em. subst g10'.
  destruct (get_fresh_snow_props g10) as [[nsh nst] ost].
  apply (bind_rel eq); [apply res_refl|intros pr ? <-].
  cbn [res_rel fst snd s_grid]. split; [reflexivity|]. split; [exact N10|].
  unfold resumes. cbn [s_grid s_surface_temperature s_albedo_snow].
  split; [apply Forall2_diag; repeat split|]. split; [reflexivity|]. split; [repeat split|].
  destruct HA as [HA|HA]; [left; exact HA|right; auto].
Qed.

Lemma core_step_counted fuel c sw sv st d inp t s s1 o : counted (s_grid s) ->
  core_step fuel c sw sv st d inp t s = Ok (s1, o) -> counted (s_grid s1).
Proof.
  intros Hn E. assert (H := resumed_step_lem fuel c sw sv st d inp t s s Hn).
  rewrite E in H. apply H. split; [apply Forall2_diag; repeat split|]. split; [reflexivity|]. split; [repeat split|]. right. auto.
Qed.

(*@ C44 The same for any number of steps. *)
Lemma resumed_run_lem : forall fuel c sw sv settings d inp count t s s',
  counted (s_grid s) -> resumes c s s' ->
  match core_loop fuel c sw sv settings d inp count t s,
        core_loop fuel c sw sv settings d inp count t s' with
  | Ok (s1, os1), Ok (s1', os1') => os1' = os1 /\ counted (s_grid s1) /\ resumes c s1 s1'
  | Err e, Err e' => e' = e
  | _, _ => False
  end.
Proof.
  intros fuel c sw sv settings d inp count. induction count as [|k IH]; intros t s s' Hn HR; cbn [core_loop]; [auto|].
  assert (H := resumed_step_lem fuel c sw sv settings d inp t s s' Hn HR).
  destruct (core_step fuel c sw sv settings d inp t s) as [[s1 o1]|e1], (core_step fuel c sw sv settings d inp t s') as [[s2 o2]|e2];
    try contradiction; cbn [bind]; [|exact H].
  destruct H as (-> & H1 & H2). assert (X := IH (t + 1)%Z s1 s2 H1 H2).
  destruct (core_loop fuel c sw sv settings d inp k (t + 1) s1) as [[s3 os3]|e3], (core_loop fuel c sw sv settings d inp k (t + 1) s2) as [[s4 os4]|e4];
    try contradiction; cbn [bind]; [|exact X].
  destruct X as (-> & X). auto.
Qed.

Lemma py_index_nonneg n i : (0 <= i)%Z -> py_index n i = if (i <? Z.of_nat n)%Z then Some (Z.to_nat i) else None.
Proof.
  intros H. unfold py_index. destruct (Z.leb_spec 0 i); [|lia]. cbn [andb].
  destruct (Z.ltb_spec i (Z.of_nat n)); [reflexivity|]. cbn.
  destruct (Z.ltb_spec i 0); [lia|]. rewrite ?andb_false_r. reflexivity.
Qed.

Lemma nth_error_skipn {A} n (l : list A) k : nth_error (skipn n l) k = nth_error l (n + k).
Proof. revert l. induction n as [|n IH]; intros [|x l]; cbn; auto. destruct k; reflexivity. Qed.

Lemma py_get_skipn {A} n (l : list A) t : (0 <= t)%Z -> py_get (skipn n l) t = py_get l (t + Z.of_nat n).
Proof.
  intros H. unfold py_get. rewrite !py_index_nonneg by lia. rewrite skipn_length.
  destruct (Z.ltb_spec t (Z.of_nat (length l - n))); destruct (Z.ltb_spec (t + Z.of_nat n) (Z.of_nat (length l))); try lia; [|reflexivity].
  rewrite nth_error_skipn. replace (Z.to_nat (t + Z.of_nat n)) with (n + Z.to_nat t)%nat by lia. reflexivity.
Qed.

Lemma opt_get_skipn n (l : option (list R)) t : (0 <= t)%Z -> opt_get (option_map (skipn n) l) t = opt_get l (t + Z.of_nat n).
Proof. intros H. destruct l as [l|]; cbn [option_map opt_get]; [rewrite py_get_skipn by exact H|]; reflexivity. Qed.

Lemma later_step n fuel c sw sv st d inp t s : (0 <= t)%Z ->
  core_step fuel c sw sv st (later_data n d) (later_inputs n inp) t s
  = core_step fuel c sw sv st d inp (t + Z.of_nat n) s.
Proof.
  intros H. unfold core_step. cbn [d_T2 d_U2 d_G d_RH2 d_PRES later_data later_inputs i_SNOWF i_RRR i_LWin i_N i_SLOPE].
  rewrite !py_get_skipn, !opt_get_skipn by exact H. reflexivity.
Qed.

Lemma later_loop n fuel c sw sv st d inp k : forall t s, (0 <= t)%Z ->
  core_loop fuel c sw sv st (later_data n d) (later_inputs n inp) k t s
  = core_loop fuel c sw sv st d inp k (t + Z.of_nat n) s.
Proof.
  induction k as [|k IH]; intros t s H; cbn [core_loop]; [reflexivity|].
  rewrite later_step by exact H. destruct (core_step _ _ _ _ _ _ _ _ s) as [[s1 o]|]; cbn [bind]; [|reflexivity]. rewrite IH by lia.
  replace (t + 1 + Z.of_nat n)%Z with (t + Z.of_nat n + 1)%Z by lia. reflexivity.
Qed.

Lemma loop_app fuel c sw sv st d inp n m : forall t s,
  core_loop fuel c sw sv st d inp (n + m) t s
  = '(s1, os1) <- core_loop fuel c sw sv st d inp n t s ;;
    '(s2, os2) <- core_loop fuel c sw sv st d inp m (t + Z.of_nat n) s1 ;; Ok (s2, os1 ++ os2).
Proof.
  induction n as [|n IH]; intros t s.
  - cbn [core_loop Nat.add bind Z.of_nat]. rewrite Z.add_0_r. destruct (core_loop _ _ _ _ _ _ _ m t s) as [[s2 os2]|]; reflexivity.
  - cbn [core_loop Nat.add]. destruct (core_step _ _ _ _ _ _ _ t s) as [[s1 o]|]; cbn [bind]; [|reflexivity].
    rewrite IH. destruct (core_loop _ _ _ _ _ _ _ n (t + 1) s1) as [[s2 os2]|]; cbn [bind]; [|reflexivity].
    replace (t + 1 + Z.of_nat n)%Z with (t + Z.of_nat (S n))%Z by lia.
    destruct (core_loop _ _ _ _ _ _ _ m _ s2) as [[s3 os3]|]; reflexivity.
Qed.

(*@ C44 Stopping and resuming a run with the albedo of Oerlemans and Knap, for every split
    of the time axis: if the restart is written after n steps and read back under the names it
    was written with, then continuing with the rest of the forcing gives the same outputs as
    the uninterrupted run, or the same exception.  The optional inputs are selected alike. *)
Lemma interrupted_run_lem : forall fuel c sw sv settings d inp n m s s1 os1,
  c_albedo_method c = "Oerlemans98"%string -> counted (s_grid s) ->
  select_inputs c sw d = Ok inp ->
  core_loop fuel c sw sv settings d inp n 0 s = Ok (s1, os1) ->
  (g_number_nodes (s_grid s1) <= c_max_layers c)%Z ->
  exists r g',
    write_restart c (s_grid s1) = Ok r /\
    load_snowpack_with written_names c r = Ok g' /\
    select_inputs c sw (later_data n d) = Ok (later_inputs n inp) /\
    match core_loop fuel c sw sv settings d inp (n + m) 0 s,
          core_loop fuel c sw sv settings (later_data n d) (later_inputs n inp) m 0
            (start_state c sw g') with
    | Ok (s2, os), Ok (s2', os2) => os = os1 ++ os2 /\ resumes c s2 s2'
    | Err e, Err e' => e' = e
    | _, _ => False
    end.
Proof.
  intros fuel c sw sv settings d inp n m s s1 os1 Hm Hn HI E HL.
  assert (Hn1 : counted (s_grid s1)).
  { assert (X := resumed_run_lem fuel c sw sv settings d inp n 0 s s Hn). rewrite E in X. apply X.
    split; [apply Forall2_diag; repeat split|]. split; [reflexivity|]. split; [repeat split|]. left. exact Hm. }
  destruct (restart_round_trip_lem c (s_grid s1) Hn1 HL) as (r & W & _ & g' & W' & A & B & K).
  exists r, g'. split; [exact W|]. split; [exact W'|]. split.
  { unfold select_inputs in *. cbn [later_data d_SNOWFALL d_RRR d_LWin d_N d_SLOPE].
    assert (X : forall l, map (fun x => x * c_mult_factor_RRR c) (skipn n l) = skipn n (map (fun x => x * c_mult_factor_RRR c) l)).
    { intros l. symmetry. apply skipn_map. }
    destruct (d_SNOWFALL d), (d_RRR d), (d_LWin d), (d_N d), (sw_force_use_TP sw), (sw_force_use_N sw); cbn [option_map bind] in *; inversion HI; subst inp;
      unfold later_inputs; cbn [option_map i_SNOWF i_RRR i_LWin i_N i_SLOPE]; rewrite ?X; reflexivity. }
  rewrite loop_app, E. cbn [bind]. rewrite later_loop by lia.
  assert (HR : resumes c s1 (start_state c sw g')).
  { unfold start_state, resumes. cbn [s_grid]. split; [|split; [exact B|split; [exact K|left; exact Hm]]].
    unfold same_layers. rewrite A. clear. induction (g_nodes (s_grid s1)) as [|x l IH]; cbn [map]; constructor; [repeat split|exact IH]. }
  assert (X := resumed_run_lem fuel c sw sv settings d inp m (0 + Z.of_nat n) s1 (start_state c sw g') Hn1 HR).
  destruct (core_loop fuel c sw sv settings d inp m (0 + Z.of_nat n) s1) as [[s2 os2]|],
    (core_loop fuel c sw sv settings d inp m (0 + Z.of_nat n) (start_state c sw g')) as [[s3 os3]|]; cbn [bind]; try contradiction; [|exact X].
  destruct X as (-> & _ & X). auto.
Qed.

Lemma loop_counted fuel c sw sv st d inp count : forall t s s1 os, counted (s_grid s) ->
  core_loop fuel c sw sv st d inp count t s = Ok (s1, os) -> counted (s_grid s1).
Proof.
  induction count as [|k IH]; intros t s s1 os Hn E; cbn [core_loop] in E; [inversion E; subst; exact Hn|].
  apply bind_ok in E. destruct E as ([s2 o] & E1 & E). apply bind_ok in E. destruct E as ([s3 os3] & E2 & E).
  inversion E; subst. eapply IH; [|exact E2]. eapply core_step_counted; eassumption.
Qed.

(*@ C44 No run of the code can be resumed: the restart data of every run that ends make the
    next run of that cell raise AttributeError, whatever its forcing and settings. *)
Lemma restart_never_resumes_lem : forall fuel c sw sv d restart s os r,
  cosipy_core fuel c sw sv d restart = Ok (s, os, Some r) ->
  forall fuel' sw' sv' d', cosipy_core fuel' c sw' sv' d' (Some r) = Err AttributeError.
Proof.
  intros fuel c sw sv d restart s os r H fuel' sw' sv' d'.
  unfold cosipy_core in H. apply bind_ok in H. destruct H as (st & _ & H).
  apply bind_ok in H. destruct H as (g & Eg & H). apply bind_ok in H. destruct H as (inp & _ & H).
  assert (Hn : counted g).
  { destruct restart as [r0|].
    - unfold load_snowpack, load_snowpack_with in Eg. repeat (apply bind_ok in Eg; destruct Eg as (? & _ & Eg)).
      inversion Eg. apply new_grid_counted.
    - apply bind_ok in Eg. destruct Eg as (T & _ & Eg). unfold init_snowpack in Eg. cbv zeta in Eg.
      apply bind_ok in Eg. destruct Eg as ([[[hs ds] ts] ws] & _ & Eg). inversion Eg. apply new_grid_counted. }
  destruct (sw_WRF_X_CSPY sw).
  - apply bind_ok in H. destruct H as ([s1 os1] & _ & H). discriminate.
  - apply bind_ok in H. destruct H as ([s1 os1] & E & H). destruct (nt d =? 0)%nat; [discriminate|].
    apply bind_ok in H. destruct H as (r' & W & H). inversion H; subst s1 os1 r'.
    assert (Hn1 : counted (s_grid s)) by (eapply loop_counted; [|exact E]; exact Hn).
    assert (HL : (g_number_nodes (s_grid s) <= c_max_layers c)%Z).
    { destruct (Z.le_gt_cases (g_number_nodes (s_grid s)) (c_max_layers c)) as [Hle|Hgt]; [exact Hle|].
      rewrite restart_too_many_layers_lem in W by (assumption || lia). discriminate. }
    destruct (restart_round_trip_lem c (s_grid s) Hn1 HL) as (r' & W' & L & _). assert (r' = r) by congruence. subst r'.
    unfold cosipy_core, run_settings. rewrite L.
    destruct (sw_WRF_X_CSPY sw'); [destruct (d_coupled d') as [[[? ?] ?]|]|]; reflexivity.
Qed.

(** ** What a restart loses *)

(*@ C44 With Bougamont's albedo the snow albedo and the surface temperature are not part of
    the restart: over snow without new snowfall the first resumed step continues the snow
    albedo of the interrupted run exactly if the decay from the stored values happens to
    equal the decay from the start values (270 K, fresh snow). *)
Lemma bougamont_restart_lem : forall c sw g Ts a m (top : Node) (below : list Node) g1 al1 a1 g2 al2 a2,
  c_albedo_method c = "Bougamont05"%string -> sw_WRF_X_CSPY sw = false ->
  constants_ok c -> surface_constants_ok c -> counted g -> g_nodes g = top :: below ->
  0 < decay_timescale c Ts -> 0 < decay_timescale c 270 ->
  layer_density c top <= c_snow_ice_threshold c -> albedo_age c g <> 0 ->
  let s := mkState g Ts a m in
  let s' := start_state c sw g in
  updateAlbedo c (s_grid s) (s_surface_temperature s) (s_albedo_snow s) = Ok (g1, al1, a1) ->
  updateAlbedo c (s_grid s') (s_surface_temperature s') (s_albedo_snow s') = Ok (g2, al2, a2) ->
  (a1 = a2 <->
   (1 - 86400 / (decay_timescale c Ts * c_dt c)) * (a - c_albedo_firn c)
   = (1 - 86400 / (decay_timescale c 270 * c_dt c)) * (c_albedo_fresh_snow c - c_albedo_firn c)).
Proof.
  intros c sw g Ts a m top below g1 al1 a1 g2 al2 a2 HM HS Hc Hs Hn E H1 H2 Hd Ha s s'.
  unfold s, s', start_state, updateAlbedo. cbn [s_grid s_surface_temperature s_albedo_snow]. rewrite HM, HS.
  cbn [String.eqb Ascii.eqb Bool.eqb].
  destruct (bougamont_exact_lem c g Ts a top below Hc Hs Hn E H1 Hd) as (x1 & x2 & x3 & W & _ & _ & A & _).
  destruct (bougamont_exact_lem c g 270 (c_albedo_fresh_snow c) top below Hc Hs Hn E H2 Hd) as (y1 & y2 & y3 & W' & _ & _ & A' & _).
  rewrite W, W'. intros I1 I2. inversion I1; inversion I2; subst. specialize (A Ha). specialize (A' Ha).
  unfold bougamont_factor in A, A'. rewrite <- A, <- A'. split; intros; lra.
Qed.
