(** * Albedo and roughness (C28-C31) *)
From Verif Require Import ModelPy ModelConstants ModelNode ModelGrid ModelAlbedo Spec LemPy
  LemGridBase LemDensification.

Definition ex_a1 : Node := mkNode 0.1 270 0 0.4 0.
Definition ex_a2 : Node := mkNode 1 270 0 1 0.
Definition ex_albedo_grid : Grid := mkGrid [ex_a1; ex_a2] 2 0.1 7200 86400.

(** only the snow clock may differ *)
Definition same_column (g g' : Grid) : Prop :=
  g_nodes g' = g_nodes g /\ g_number_nodes g' = g_number_nodes g /\
  g_new_snow_height g' = g_new_snow_height g /\ g_old_snow_timestamp g' = g_old_snow_timestamp g.

Lemma surface_props c g : exists g' h t,
  get_surface_properties c g = (g', (h, t, albedo_age c g)) /\ same_column g g' /\
  g_new_snow_timestamp g' / 3600 = albedo_age c g.
Proof.
  unfold get_surface_properties, albedo_age, get_fresh_snow_props, Rltb, Rleb.
  destruct (Rlt_dec _ _); destruct (Rle_dec _ _); cbn [andb];
    (do 3 eexists; split; [reflexivity|split; [repeat split|reflexivity]]).
Qed.

Lemma exp_arg c h : c_albedo_mod_snow_depth c <> 0 ->
  -1 * h / (c_albedo_mod_snow_depth c / 100) = - (100 * h / c_albedo_mod_snow_depth c).
Proof. intros H. field. exact H. Qed.

Lemma snow_density c g top below : g_nodes g = top :: below -> get_node_density c g 0 = Ok (layer_density c top).
Proof. intros E. unfold get_node_density. rewrite (get_node_mid g [] top below E : get_node g 0 = _). reflexivity. Qed.

(*@ C28,C29 What Oerlemans' method computes, exactly: the published formula with the depth
    of all snow layers and the age of the fresh snow, or of the older snow if the fresh
    snow is gone; the ice albedo if the top layer is heavier than the threshold.  Nothing
    but the age of the fresh snow changes in the grid. *)
Lemma oerlemans_exact_lem : forall (c : Consts) (g : Grid) (top : Node) (below : list Node),
  surface_constants_ok c -> counted g -> g_nodes g = top :: below ->
  exists g' a, method_Oerlemans c g = Ok (g', a) /\ same_column g g' /\
    g_new_snow_timestamp g' / 3600 = albedo_age c g /\
    (layer_density c top <= c_snow_ice_threshold c ->
       a = snow_albedo_formula c (albedo_age c g) (reported_snow c (g_nodes g))) /\
    (c_snow_ice_threshold c < layer_density c top -> a = c_albedo_ice c).
Proof.
  intros c g top below Hc Hn E. destruct (surface_props c g) as (g' & h & t & W & SC & Et).
  unfold method_Oerlemans. rewrite W. assert (SC' := SC). destruct SC as (E1 & E2 & _).
  rewrite (snow_density c g' top below) by congruence. cbn [bind].
  assert (Hn' : counted g') by (unfold counted in *; congruence).
  destruct (Rleb_spec (layer_density c top) (c_snow_ice_threshold c)) as [H|H].
  - rewrite get_total_snowheight_counted by exact Hn'. cbn [bind].
    unfold get_simple_albedo, get_albedo_with_decay. destruct Hc.
    rewrite fdiv_ok by lra. cbn [bind]. rewrite fdiv_ok by lra. cbn [bind].
    eexists _, _. split; [reflexivity|]. split; [exact SC'|]. split; [exact Et|]. split; [intros _|intros; lra].
    unfold snow_albedo_formula. rewrite exp_arg by lra. rewrite E1.
    rewrite (Rmult_comm (c_albedo_mod_snow_aging c) 24). reflexivity.
  - eexists _, _. split; [reflexivity|]. split; [exact SC'|]. split; [exact Et|]. split; [intros; lra|reflexivity].
Qed.

Lemma reported_snow_nonneg c l : layers_ok l -> 0 <= reported_snow c l.
Proof.
  intros H. unfold reported_snow. apply total_nonneg.
  rewrite <- (firstn_skipn (nsnow c l) l) in H. apply Forall_app in H. destruct H as [H _].
  eapply Forall_impl; [|exact H]. cbv beta. intros; lra.
Qed.

Lemma formula_between c hours h : surface_constants_ok c -> 0 <= hours -> 0 <= h ->
  c_albedo_ice c <= snow_albedo_formula c hours h <= c_albedo_fresh_snow c.
Proof.
  intros [] Ht Hh. unfold snow_albedo_formula.
  assert (A1 : exp (- hours / (24 * c_albedo_mod_snow_aging c)) <= 1).
  { apply exp_le_1. assert (0 <= hours / (24 * c_albedo_mod_snow_aging c)) by (apply Rle_mult_inv_pos; lra).
    unfold Rdiv in *. lra. }
  assert (A2 : exp (- (100 * h / c_albedo_mod_snow_depth c)) <= 1).
  { apply exp_le_1. assert (0 <= 100 * h / c_albedo_mod_snow_depth c) by (apply Rle_mult_inv_pos; lra). lra. }
  assert (P1 := exp_pos (- hours / (24 * c_albedo_mod_snow_aging c))).
  assert (P2 := exp_pos (- (100 * h / c_albedo_mod_snow_depth c))).
  set (e1 := exp (- hours / _)) in *. set (e2 := exp (- (100 * h / _))) in *.
  set (a := c_albedo_firn c + (c_albedo_fresh_snow c - c_albedo_firn c) * e1).
  assert (c_albedo_firn c <= a <= c_albedo_fresh_snow c) by (unfold a; split; nra).
  cbv zeta. fold a. split; nra.
Qed.

(*@ C28 The Oerlemans albedo lies between the ice and the fresh snow albedo. *)
Lemma oerlemans_range_lem : forall (c : Consts) (g : Grid),
  surface_constants_ok c -> counted g -> layers_ok (g_nodes g) -> g_nodes g <> [] ->
  0 <= g_new_snow_timestamp g -> 0 <= g_old_snow_timestamp g ->
  exists g' a, method_Oerlemans c g = Ok (g', a) /\
    c_albedo_ice c <= a <= c_albedo_fresh_snow c /\ g_nodes g' = g_nodes g.
Proof.
  intros c g Hc Hn HL Hne Ht Ho. destruct (g_nodes g) as [|top below] eqn:E; [congruence|]. rewrite <- E in *.
  destruct (oerlemans_exact_lem c g top below Hc Hn E) as (g' & a & W & SC & _ & H1 & H2).
  exists g', a. split; [exact W|]. split; [|apply SC].
  assert (Hage : 0 <= albedo_age c g).
  { unfold albedo_age. destruct (Rlt_dec _ _); [destruct (Rle_dec _ _)|]; lra. }
  destruct (Rle_lt_dec (layer_density c top) (c_snow_ice_threshold c)) as [L|L].
  - rewrite (H1 L). apply formula_between; [exact Hc|exact Hage|]. apply reported_snow_nonneg. exact HL.
  - rewrite (H2 L). destruct Hc. lra.
Qed.

(*@ C29 Older snow is never brighter, deeper snow is never darker. *)
Lemma oerlemans_monotone_lem : forall (c : Consts) (hours hours' h h' : R),
  surface_constants_ok c -> 0 <= hours <= hours' -> 0 <= h <= h' ->
  snow_albedo_formula c hours' h <= snow_albedo_formula c hours h /\
  snow_albedo_formula c hours h <= snow_albedo_formula c hours h'.
Proof.
  intros c hours hours' h h' Hc Ht Hh.
  assert (B1 := formula_between c hours h Hc ltac:(lra) ltac:(lra)).
  destruct Hc. unfold snow_albedo_formula in *.
  assert (A1 : exp (- hours' / (24 * c_albedo_mod_snow_aging c)) <= exp (- hours / (24 * c_albedo_mod_snow_aging c))).
  { destruct (Req_dec hours hours') as [->|]; [lra|]. left. apply exp_increasing.
    unfold Rdiv. apply Rmult_lt_compat_r; [apply Rinv_0_lt_compat; lra|lra]. }
  assert (A2 : exp (- (100 * h' / c_albedo_mod_snow_depth c)) <= exp (- (100 * h / c_albedo_mod_snow_depth c))).
  { destruct (Req_dec h h') as [->|]; [lra|]. left. apply exp_increasing. apply Ropp_lt_contravar.
    unfold Rdiv. apply Rmult_lt_compat_r; [apply Rinv_0_lt_compat; lra|lra]. }
  assert (A3 : exp (- hours / (24 * c_albedo_mod_snow_aging c)) <= 1).
  { apply exp_le_1. assert (0 <= hours / (24 * c_albedo_mod_snow_aging c)) by (apply Rle_mult_inv_pos; lra).
    unfold Rdiv in *. lra. }
  assert (A4 : exp (- (100 * h / c_albedo_mod_snow_depth c)) <= 1).
  { apply exp_le_1. assert (0 <= 100 * h / c_albedo_mod_snow_depth c) by (apply Rle_mult_inv_pos; lra). lra. }
  assert (P1 := exp_pos (- hours' / (24 * c_albedo_mod_snow_aging c))).
  assert (P2 := exp_pos (- (100 * h' / c_albedo_mod_snow_depth c))).
  set (e1 := exp (- hours / _)) in *. set (e1' := exp (- hours' / _)) in *.
  set (e2 := exp (- (100 * h / _))) in *. set (e2' := exp (- (100 * h' / _))) in *.
  cbv zeta in *. split.
  - assert (0 <= (c_albedo_fresh_snow c - c_albedo_firn c) * (e1 - e1') * (1 - e2))
      by (repeat apply Rmult_le_pos; lra). lra.
  - assert (0 <= (c_albedo_firn c + (c_albedo_fresh_snow c - c_albedo_firn c) * e1 - c_albedo_ice c) * (e2 - e2')).
    { apply Rmult_le_pos; [|lra]. assert (0 <= (c_albedo_fresh_snow c - c_albedo_firn c) * e1) by (apply Rmult_le_pos; lra). lra. }
    lra.
Qed.

(** ** Bougamont *)

(** the factor by which one step multiplies the distance from the firn albedo *)
Definition bougamont_factor (c : Consts) (Ts : R) : R := 1 - 86400 / (decay_timescale c Ts * c_dt c).

(*@ C30 What one step of Bougamont's method does to the snow albedo, exactly: unless it
    snowed (age 0), the distance from the firn albedo is multiplied by
    1 - 86400 s / (timescale * dt). *)
Lemma bougamont_exact_lem : forall (c : Consts) (g : Grid) (Ts a : R) (top : Node) (below : list Node),
  constants_ok c -> surface_constants_ok c -> counted g -> g_nodes g = top :: below ->
  0 < decay_timescale c Ts -> layer_density c top <= c_snow_ice_threshold c ->
  exists g' alb a', method_Bougamont c g Ts a = Ok (g', alb, a') /\ same_column g g' /\
    (albedo_age c g = 0 -> a' = c_albedo_fresh_snow c) /\
    (albedo_age c g <> 0 -> a' - c_albedo_firn c = bougamont_factor c Ts * (a - c_albedo_firn c)) /\
    alb = a' + (c_albedo_ice c - a') * exp (- (100 * reported_snow c (g_nodes g) / c_albedo_mod_snow_depth c)).
Proof.
  intros c g Ts a top below Hc Hs Hn E Ht Hd.
  destruct (surface_props c g) as (g' & h & t & W & SC & Et).
  unfold method_Bougamont. rewrite W. assert (SC' := SC). destruct SC as (E1 & E2 & _).
  rewrite (snow_density c g' top below) by congruence. cbn [bind].
  assert (Hn' : counted g') by (unfold counted in *; congruence).
  rewrite Rleb_true by exact Hd. rewrite get_total_snowheight_counted by exact Hn'. cbn [bind]. cbv zeta.
  assert (Hdt : 0 < c_dt c) by (destruct Hc; assumption).
  assert (Hp : 0 < decay_timescale c Ts * c_dt c) by (apply Rmult_lt_0_compat; assumption).
  rewrite fdiv_ok.
  2:{ apply Rgt_not_eq. apply Rmult_lt_0_compat; [exact Ht|]. apply Rdiv_lt_0_compat; lra. }
  cbn [bind]. unfold get_albedo_with_decay. destruct Hs. rewrite fdiv_ok by lra. cbn [bind].
  eexists _, _, _. split; [reflexivity|]. split; [exact SC'|]. split; [|split].
  - intros ->. rewrite Reqb_true by reflexivity. reflexivity.
  - intros Ha. rewrite Reqb_false by exact Ha. unfold bougamont_factor. field. lra.
  - rewrite exp_arg by lra. rewrite E1. reflexivity.
Qed.

(*@ C30 The time scale of the decay in days: that of wet snow on a melting surface, on a colder one that of dry
    snow and [t_star_K] days more for every kelvin below melting, down to the cutoff temperature. *)
Lemma bougamont_timescale_lem : forall (c : Consts) (Ts : R),
  c_t_star_cutoff c <= c_zero_temperature c ->
  (c_zero_temperature c <= Ts -> decay_timescale c Ts = c_t_star_wet c) /\
  (Ts < c_zero_temperature c ->
     decay_timescale c Ts =
       c_t_star_dry c + c_t_star_K c * (c_zero_temperature c - Rmax Ts (c_t_star_cutoff c))) /\
  (forall T, 0 <= c_t_star_K c -> T <= Ts < c_zero_temperature c ->
     decay_timescale c Ts <= decay_timescale c T <=
       c_t_star_dry c + c_t_star_K c * (c_zero_temperature c - c_t_star_cutoff c)).
Proof.
  intros c Ts Hc.
  assert (D : forall t, t < c_zero_temperature c -> decay_timescale c t =
    c_t_star_dry c + c_t_star_K c * (c_zero_temperature c - Rmax t (c_t_star_cutoff c))).
  { intros t Ht. unfold decay_timescale. rewrite Rleb_false by lra. unfold Rltb.
    destruct (Rlt_dec t (c_t_star_cutoff c)).
    - rewrite Rmax_right by lra. ring.
    - rewrite Rmax_left by lra. ring. }
  split; [|split].
  - intros H. unfold decay_timescale. rewrite Rleb_true by exact H. reflexivity.
  - apply D.
  - intros T HK HT. rewrite (D T), (D Ts) by lra.
    assert (Rmax T (c_t_star_cutoff c) <= Rmax Ts (c_t_star_cutoff c)) by (apply Rle_max_compat_r; lra).
    assert (c_t_star_cutoff c <= Rmax T (c_t_star_cutoff c)) by apply Rmax_r.
    split; apply Rplus_le_compat_l, Rmult_le_compat_l; lra.
Qed.

(*@ C30 The snow albedo stays between firn and fresh snow albedo in every step whose decay
    time scale in days times the step in days is at least one. *)
Lemma bougamont_stable_lem : forall (c : Consts) (g : Grid) (Ts a : R) (top : Node) (below : list Node),
  constants_ok c -> surface_constants_ok c -> counted g -> g_nodes g = top :: below ->
  layer_density c top <= c_snow_ice_threshold c ->
  86400 <= decay_timescale c Ts * c_dt c -> 0 < decay_timescale c Ts ->
  c_albedo_firn c <= a <= c_albedo_fresh_snow c ->
  exists g' alb a', method_Bougamont c g Ts a = Ok (g', alb, a') /\
    c_albedo_firn c <= a' <= c_albedo_fresh_snow c.
Proof.
  intros c g Ts a top below Hc Hs Hn E Hd H1 Ht Ha.
  destruct (bougamont_exact_lem c g Ts a top below Hc Hs Hn E Ht Hd) as (g' & alb & a' & W & _ & A1 & A2 & _).
  exists g', alb, a'. split; [exact W|]. destruct (Req_dec (albedo_age c g) 0) as [Z|Z].
  - rewrite (A1 Z). destruct Hs. lra.
  - specialize (A2 Z). assert (0 <= bougamont_factor c Ts <= 1).
    { unfold bougamont_factor. assert (Q : 0 <= 86400 / (decay_timescale c Ts * c_dt c)) by (apply Rle_mult_inv_pos; lra).
      assert (86400 / (decay_timescale c Ts * c_dt c) <= 1); [|lra].
      apply Rmult_le_reg_r with (decay_timescale c Ts * c_dt c); [lra|].
      unfold Rdiv. rewrite Rmult_assoc, Rinv_l by lra. lra. }
    split; nra.
Qed.

(** the snow albedo carried through a history of grids and surface temperatures *)
Fixpoint bougamont_run (c : Consts) (hist : list (Grid * R)) (a : R) : res R :=
  match hist with
  | [] => Ok a
  | (g, Ts) :: t => '(_, _, a') <- method_Bougamont c g Ts a ;; bougamont_run c t a'
  end.

(** snow cover, no snowfall in this step, melting surface *)
Definition melting_step (c : Consts) (p : Grid * R) : Prop :=
  counted (fst p) /\ (exists top below, g_nodes (fst p) = top :: below /\
    layer_density c top <= c_snow_ice_threshold c) /\
  albedo_age c (fst p) <> 0 /\ c_zero_temperature c <= snd p.

(*@ C30 With the shipped constants (hourly steps) every melting hour multiplies the distance
    from the firn albedo by -1.4, in every history. *)
Lemma bougamont_melting_history_lem : forall (hist : list (Grid * R)) (a : R),
  Forall (melting_step default_constants) hist ->
  bougamont_run default_constants hist a
  = Ok (c_albedo_firn default_constants
        + (-1.4) ^ length hist * (a - c_albedo_firn default_constants)).
Proof.
  assert (SO : surface_constants_ok default_constants) by (constructor; cbn; lra).
  induction hist as [|(g, Ts) hist IH]; intros a HF; cbn [bougamont_run].
  - f_equal. cbn [length pow]. ring.
  - destruct (Forall_inv HF) as (Hn & (top & below & E & Hd) & Ha & Ht). cbn [fst snd] in *.
    assert (Hts : decay_timescale default_constants Ts = 10).
    { unfold decay_timescale. rewrite Rleb_true by exact Ht. reflexivity. }
    destruct (bougamont_exact_lem default_constants g Ts a top below default_ok SO Hn E ltac:(rewrite Hts; lra) Hd)
      as (g' & alb & a' & W & _ & _ & A2 & _).
    rewrite W. cbn [bind]. rewrite (IH a' (Forall_inv_tail HF)). specialize (A2 Ha).
    unfold bougamont_factor in A2. rewrite Hts in A2. change (c_dt default_constants) with 3600 in A2.
    f_equal. rewrite A2. cbn [length pow]. replace (1 - 86400 / (10 * 3600)) with (-1.4) by lra. ring.
Qed.

(*@ C30 Starting from fresh snow the albedo is below the firn value after one melting hour,
    above one after two and negative after three: the stated range is refuted. *)
Lemma bougamont_diverges_refuted_lem :
  exists h1 h2 h3 : list (Grid * R),
    Forall (melting_step default_constants) (h1 ++ h2 ++ h3) /\
    exists a1 a2 a3, bougamont_run default_constants h1 (c_albedo_fresh_snow default_constants) = Ok a1 /\
      bougamont_run default_constants h2 a1 = Ok a2 /\ bougamont_run default_constants h3 a2 = Ok a3 /\
      a1 < c_albedo_firn default_constants /\ 1 < a2 /\ a3 < 0.
Proof.
  set (p := (ex_albedo_grid, 273.16)).
  assert (M : melting_step default_constants p).
  { split; [reflexivity|]. split; [|split].
    - exists ex_a1, [ex_a2]. split; [reflexivity|]. unfold layer_density, layer_air_porosity. cbn.
      rewrite Rmax_right by lra. lra.
    - unfold albedo_age. cbn. destruct (Rlt_dec _ _); [destruct (Rle_dec _ _)|]; lra.
    - cbn. lra. }
  assert (M1 : Forall (melting_step default_constants) [p]) by (constructor; [exact M|constructor]).
  exists [p], [p], [p]. split; [apply Forall_app; split; [exact M1|apply Forall_app; split; exact M1]|].
  eexists _, _, _. split; [apply bougamont_melting_history_lem; exact M1|].
  split; [apply bougamont_melting_history_lem; exact M1|].
  split; [apply bougamont_melting_history_lem; exact M1|].
  cbn [length pow]. change (c_albedo_firn default_constants) with 0.55. change (c_albedo_fresh_snow default_constants) with 0.85.
  lra.
Qed.

(*@ C31 The roughness length in metres lies between the fresh snow and the firn value over
    snow and is the ice value otherwise; it never decreases with the age of the snow. *)
Lemma roughness_range_lem : forall (c : Consts) (g : Grid) (top : Node) (below : list Node),
  surface_constants_ok c -> g_nodes g = top :: below -> 0 <= g_new_snow_timestamp g ->
  exists z, method_Moelg c g = Ok z /\
    (layer_density c top <= c_snow_ice_threshold c ->
      c_roughness_fresh_snow c / 1000 <= z <= c_roughness_firn c / 1000) /\
    (c_snow_ice_threshold c < layer_density c top -> z = c_roughness_ice c / 1000) /\
    0 < z.
Proof.
  intros c g top below Hc E Ht. unfold method_Moelg, get_fresh_snow_props.
  rewrite (snow_density c g top below E). cbn [bind].
  eexists. split; [reflexivity|]. destruct Hc.
  assert (0 <= c_aging_factor_roughness c * (g_new_snow_timestamp g / 3600)) by (apply Rmult_le_pos; lra).
  destruct (Rleb_spec (layer_density c top) (c_snow_ice_threshold c)) as [L|L].
  - set (s := c_roughness_fresh_snow c + _).
    assert (Rmin s (c_roughness_firn c) <= c_roughness_firn c) by apply Rmin_r.
    assert (c_roughness_fresh_snow c <= Rmin s (c_roughness_firn c)) by (apply Rmin_glb; unfold s; lra).
    repeat split; intros; lra.
  - repeat split; intros; lra.
Qed.

(*@ C31 *)
Lemma roughness_monotone_lem : forall (c : Consts) (g g' : Grid) (z z' : R),
  surface_constants_ok c -> hd_error (g_nodes g) = hd_error (g_nodes g') ->
  g_new_snow_timestamp g <= g_new_snow_timestamp g' ->
  method_Moelg c g = Ok z -> method_Moelg c g' = Ok z' -> z <= z'.
Proof.
  intros c g g' z z' Hc E Ht W W'. unfold method_Moelg, get_fresh_snow_props in W, W'.
  destruct (g_nodes g) as [|top below] eqn:Eg.
  { unfold get_node_density, get_node in W. rewrite Eg in W. discriminate. }
  destruct (g_nodes g') as [|top' below'] eqn:Eg'; [discriminate|]. cbn in E. injection E as ->.
  rewrite (snow_density c g top' below Eg) in W. rewrite (snow_density c g' top' below' Eg') in W'.
  cbn [bind] in *. injection W as <-. injection W' as <-.
  destruct (Rleb (layer_density c top') (c_snow_ice_threshold c)); [|lra].
  destruct Hc.
  assert (c_aging_factor_roughness c * (g_new_snow_timestamp g / 3600) <= c_aging_factor_roughness c * (g_new_snow_timestamp g' / 3600))
    by (apply Rmult_le_compat_l; lra).
  assert (Rmin (c_roughness_fresh_snow c + c_aging_factor_roughness c * (g_new_snow_timestamp g / 3600)) (c_roughness_firn c)
    <= Rmin (c_roughness_fresh_snow c + c_aging_factor_roughness c * (g_new_snow_timestamp g' / 3600)) (c_roughness_firn c)); [|lra].
  apply Rle_min_compat_r. lra.
Qed.

(*@ C28,C31 The dispatchers: unknown method names raise ValueError; the snow albedo is
    passed through by Oerlemans' method. *)
Lemma surface_dispatch_lem : forall (c : Consts) (g : Grid) (Ts a : R),
  (~ In (c_albedo_method c) ["Oerlemans98"; "Bougamont05"]%string -> updateAlbedo c g Ts a = Err ValueError) /\
  (c_albedo_method c = "Oerlemans98"%string ->
     forall g' alb, method_Oerlemans c g = Ok (g', alb) -> updateAlbedo c g Ts a = Ok (g', alb, a)) /\
  (c_albedo_method c = "Bougamont05"%string -> updateAlbedo c g Ts a = method_Bougamont c g Ts a) /\
  (c_roughness_method c <> "Moelg12"%string -> updateRoughness c g = Err ValueError) /\
  (c_roughness_method c = "Moelg12"%string -> updateRoughness c g = method_Moelg c g).
Proof.
  intros c g Ts a. unfold updateAlbedo, updateRoughness. repeat split.
  - intros H. cbn [In] in H.
    destruct (String.eqb_spec (c_albedo_method c) "Oerlemans98"); [exfalso; apply H; rewrite e; tauto|].
    destruct (String.eqb_spec (c_albedo_method c) "Bougamont05"); [exfalso; apply H; rewrite e; tauto|].
    reflexivity.
  - intros -> g' alb W. cbn. rewrite W. reflexivity.
  - intros ->. reflexivity.
  - intros H. destruct (String.eqb_spec (c_roughness_method c) "Moelg12"); [contradiction|reflexivity].
  - intros ->. reflexivity.
Qed.

(*@ex A snow-covered grid with fresh snow two hours old meets the hypotheses. *)
Lemma albedo_case_lem :
  constants_ok default_constants /\ surface_constants_ok default_constants /\
  counted ex_albedo_grid /\ layers_ok (g_nodes ex_albedo_grid) /\
  layer_density default_constants ex_a1 <= c_snow_ice_threshold default_constants /\
  albedo_age default_constants ex_albedo_grid = 2 /\
  melting_step default_constants (ex_albedo_grid, 273.16).
Proof.
  assert (A : albedo_age default_constants ex_albedo_grid = 2).
  { unfold albedo_age. cbn. destruct (Rlt_dec _ _); [destruct (Rle_dec _ _)|]; lra. }
  assert (D : layer_density default_constants ex_a1 <= c_snow_ice_threshold default_constants).
  { unfold layer_density, layer_air_porosity. cbn. rewrite Rmax_right by lra. lra. }
  split; [exact default_ok|]. split; [constructor; cbn; lra|]. split; [reflexivity|].
  split; [repeat constructor; cbn; lra|]. split; [exact D|]. split; [exact A|].
  split; [reflexivity|]. split; [exists ex_a1, [ex_a2]; split; [reflexivity|exact D]|].
  cbn [fst snd]. rewrite A. split; [lra|cbn; lra].
Qed.
