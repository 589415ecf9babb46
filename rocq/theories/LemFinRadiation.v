(** * Penetrating radiation (C26, C27) *)
From Verif Require Import ModelPy ModelConstants ModelNode ModelGrid ModelRadiation Spec LemPy
  LemGridBase LemGridMore LemHeat LemDensification LemRadiation.

(** snow, wet snow, ice *)
Definition ex_r1 : Node := mkNode 0.1 270 0 0.4 0.
Definition ex_r2 : Node := mkNode 0.2 273.16 0.01 0.5 0.
Definition ex_r3 : Node := mkNode 1 270 0 1 0.
Definition ex_rad_grid : Grid := mkGrid [ex_r1; ex_r2; ex_r3] 3 0.1 0 0.

(*@ C26,C27 What the scheme does, exactly: a tenth (snow) or a fifth (ice) of the net
    radiation penetrates; every layer but the last absorbs what is lost between the centre
    of the layer above and its own centre and warms, melts or vanishes accordingly; the
    last layer stays.  On such columns it never fails. *)
Lemma bintanja_exact_lem : forall (c : Consts) (g : Grid) (SWnet dt : R) (top z : Node) (l : list Node),
  constants_ok c -> counted g -> layers_ok (g_nodes g) -> g_nodes g = l ++ [z] ->
  hd_error (g_nodes g) = Some top ->
  exists g' l' melt,
    method_Bintanja c g SWnet dt = Ok (g', melt, SWnet * penetrating_share c top) /\
    sunlit_column c dt
      (map (fun i => SWnet * penetrating_share c top * absorbed_share (extinction c top) l i)
           (seq 0 (length l))) l l' melt /\
    g_nodes g' = l' ++ [z] /\ counted g' /\ same_clock g g'.
Proof.
  intros c g SWnet dt top z l Hc Hn HL E Ht.
  destruct (bintanja_spec c g SWnet dt top l z Hc Hn HL E Ht) as (g' & l' & m & W & S1 & R1).
  exists g', l', m. split; [exact W|]. split; [|exact R1]. rewrite <- fluxes_are_absorbed. exact S1.
Qed.

Lemma layers_ok_app l1 l2 : layers_ok (l1 ++ l2) -> layers_ok l1 /\ layers_ok l2.
Proof. apply Forall_app. Qed.

Lemma extinction_pos c top : 0 < extinction c top.
Proof. unfold extinction. destruct (Rle_dec _ _); lra. Qed.

Lemma share_bounds c top : 0 < penetrating_share c top <= 0.2.
Proof. unfold penetrating_share. destruct (Rle_dec _ _); lra. Qed.

(*@ C26 The layers' shares of the penetrating radiation are not negative and add up to less
    than one; the penetrating part is a tenth or a fifth of the net radiation. *)
Lemma bintanja_shares_lem : forall (c : Consts) (top : Node) (l : list Node),
  layers_ok l ->
  Forall (fun i => 0 <= absorbed_share (extinction c top) l i) (seq 0 (length l)) /\
  fold_right Rplus 0 (map (absorbed_share (extinction c top) l) (seq 0 (length l))) < 1 /\
  0 < penetrating_share c top <= 0.2.
Proof.
  intros c top l HL. assert (K := extinction_pos c top). set (k := extinction c top) in *.
  assert (E := fluxes_are_absorbed k 1 l).
  assert (E' : map (fun i => 1 * absorbed_share k l i) (seq 0 (length l)) = map (absorbed_share k l) (seq 0 (length l)))
    by (apply map_ext; intros; ring).
  rewrite E' in E. rewrite <- E.
  assert (Hh : Forall (fun h => 0 < h) (map n_height l)).
  { apply Forall_map. eapply Forall_impl; [|exact HL]. cbv beta. tauto. }
  assert (HA : ascending 0 (midpoints 0 (map n_height l))).
  { apply midpoints_ascending; [exact Hh|]. destruct (map n_height l) as [|h t]; [exact I|].
    assert (A := Forall_inv Hh). cbv beta in A. lra. }
  split; [|split; [|apply share_bounds]].
  - assert (F := fluxes_nonneg k 1 _ (Rlt_le _ _ K) Rle_0_1 0 HA). rewrite E in F. apply (Forall_map (absorbed_share k l) (fun e => 0 <= e)) in F. exact F.
  - rewrite fluxes_sum. replace (- (k * 0)) with 0 by ring. rewrite exp_0.
    assert (P := exp_pos (- (k * last (midpoints 0 (map n_height l)) 0))). lra.
Qed.

Lemma sunlit_energy c dt e x y m : constants_ok c -> 0 < n_height x -> 0 < n_ice x -> 0 <= n_lwc x ->
  0 <= e * dt -> sunlit c dt e x y m ->
  Forall (fun x' => n_temperature x <= c_zero_temperature c ->
    layer_density c x * c_spec_heat_ice c * n_height x * (n_temperature x' - n_temperature x)
    + c_lat_heat_melting c * c_ice_density c * (n_ice x * n_height x - n_ice x' * n_height x')
    <= e * dt) y.
Proof.
  intros Hc Hh Hi Hw He HS.
  assert (Hd := density_positive c x Hc Hi Hw).
  assert (Hci : 0 < c_spec_heat_ice c) by (destruct Hc; lra).
  assert (Hri : 0 < c_ice_density c) by (destruct Hc; lra).
  assert (HL : 0 < c_lat_heat_melting c) by (destruct Hc; lra).
  assert (Hm : 0 < layer_density c x * c_spec_heat_ice c * n_height x)
    by (repeat apply Rmult_lt_0_compat; assumption).
  assert (EH : layer_density c x * c_spec_heat_ice c * n_height x * (heated c dt e x - n_temperature x) = e * dt).
  { unfold heated. field. lra. }
  inversion HS as [HT|s x' HT Es Hs E1 E2 E3 E4 E5|s HT Es Hs]; subst; [| |constructor]; (constructor; [|constructor]); intros Ht; cbn [n_temperature n_height n_ice].
  - lra.
  - rewrite E1, E2, E3. set (s := melted_share c dt e x) in *.
    assert (Es : c_lat_heat_melting c * s = c_spec_heat_ice c * (heated c dt e x - c_zero_temperature c)).
    { unfold s, melted_share. field. lra. }
    replace (c_lat_heat_melting c * c_ice_density c * (n_ice x * n_height x - n_ice x * ((1 - s) * n_height x)))
      with ((c_lat_heat_melting c * s) * (c_ice_density c * n_ice x * n_height x)) by ring.
    rewrite Es.
    assert (D : c_ice_density c * n_ice x <= layer_density c x).
    { unfold layer_density, layer_air_porosity.
      assert (0 <= Rmax 0 (1 - n_lwc x - n_ice x) * c_air_density c) by (apply Rmult_le_pos; [apply Rmax_l|destruct Hc; lra]).
      assert (0 <= n_lwc x * c_water_density c) by (apply Rmult_le_pos; [lra|destruct Hc; lra]). lra. }
    assert (0 <= (layer_density c x - c_ice_density c * n_ice x) * (c_spec_heat_ice c * n_height x * (heated c dt e x - c_zero_temperature c))).
    { apply Rmult_le_pos; [lra|]. apply Rmult_le_pos; [|lra]. apply Rmult_le_pos; lra. }
    lra.
Qed.

(*@ C26 No layer uses more energy, for warming and melting together, than the radiation it
    absorbs; what the water and the air of a melting layer would have taken is dropped. *)
Lemma bintanja_energy_lem : forall (c : Consts) (dt e : R) (x : Node) (y : list Node) (m : R),
  constants_ok c -> 0 < n_height x -> 0 < n_ice x -> 0 <= n_lwc x -> 0 <= e * dt ->
  n_temperature x <= c_zero_temperature c -> sunlit c dt e x y m ->
  Forall (fun x' =>
    layer_density c x * c_spec_heat_ice c * n_height x * (n_temperature x' - n_temperature x)
    + c_lat_heat_melting c * c_ice_density c * (n_ice x * n_height x - n_ice x' * n_height x')
    <= e * dt) y.
Proof.
  intros c dt e x y m Hc Hh Hi Hw He Ht HS. eapply Forall_impl; [|eapply sunlit_energy; eassumption].
  cbv beta. auto.
Qed.

Lemma sunlit_column_cold c dt es l l' m : sunlit_column c dt es l l' m ->
  Forall (fun n => n_temperature n <= c_zero_temperature c) l'.
Proof.
  induction 1 as [|e es x l y l' m m' H HS IH]; [constructor|]. apply Forall_app. split; [|exact IH].
  inversion H as [HT|s x' HT Es Hs E1 E2 E3 E4 E5|s HT Es Hs]; subst; [| |constructor]; (constructor; [|constructor]); cbn; lra.
Qed.

(*@ C27 After the call every layer but the last is at or below melting temperature, however
    warm it was before, and the last layer is as it was. *)
Lemma bintanja_cold_lem : forall (c : Consts) (g : Grid) (SWnet dt : R) (z : Node) (l : list Node),
  constants_ok c -> counted g -> layers_ok (g_nodes g) -> g_nodes g = l ++ [z] ->
  exists g' l' melt Si, method_Bintanja c g SWnet dt = Ok (g', melt, Si) /\
    g_nodes g' = l' ++ [z] /\ (length l' <= length l)%nat /\
    Forall (fun n => n_temperature n <= c_zero_temperature c) l' /\ layers_ok (g_nodes g') /\
    counted g' /\ same_clock g g'.
Proof.
  intros c g SWnet dt z l Hc Hn HL E.
  assert (Ht : exists top, hd_error (g_nodes g) = Some top) by (rewrite E; destruct l; cbn; eauto).
  destruct Ht as (top & Ht).
  destruct (bintanja_spec c g SWnet dt top l z Hc Hn HL E Ht) as (g' & l' & m & W & S1 & E' & R1).
  exists g', l', m, (SWnet * penetrating_share c top). split; [exact W|]. split; [exact E'|].
  rewrite E in HL. apply layers_ok_app in HL. destruct HL as [HL Hz].
  split; [|split; [eapply sunlit_column_cold; eassumption|split; [|exact R1]]].
  - clear - S1. induction S1 as [|e es x l y l' m m' H HS IH]; [cbn; lia|]. rewrite app_length.
    assert (length y <= 1)%nat by (inversion H; cbn; lia). cbn [length]. lia.
  - rewrite E'. apply Forall_app. split; [|exact Hz].
    clear - S1 HL Hc. induction S1 as [|e es x l y l' m m' H HS IH]; [constructor|]. apply Forall_app.
    split; [|apply IH; exact (Forall_inv_tail HL)].
    destruct (Forall_inv HL) as (Hh & Hi & Hw).
    assert (Hci : 0 < c_spec_heat_ice c) by (destruct Hc; lra).
    assert (Hri : 0 < c_ice_density c) by (destruct Hc; lra).
    assert (Hrw : 0 < c_water_density c) by (destruct Hc; lra).
    assert (HLm : 0 < c_lat_heat_melting c) by (destruct Hc; lra).
    inversion H as [HT|s x' HT Es Hs E1 E2 E3 E4 E5|s HT Es Hs]; subst; [| |constructor]; (constructor; [|constructor]); cbn; [tauto|].
    split; [|rewrite E3; split; [exact Hi|]].
    + set (s := melted_share c dt e x) in *. rewrite E2. apply Rmult_lt_0_compat; lra.
    + set (s := melted_share c dt e x) in *.
      assert (0 < s). { unfold s, melted_share. apply Rdiv_lt_0_compat; [apply Rmult_lt_0_compat; lra|exact HLm]. }
      assert (Hh' : 0 < n_height x') by (rewrite E2; apply Rmult_lt_0_compat; lra).
      assert (0 <= n_lwc x' * n_height x').
      { rewrite E5. assert (0 <= n_lwc x * n_height x) by (apply Rmult_le_pos; lra).
        assert (0 <= s * n_ice x * n_height x * c_ice_density c / c_water_density c); [|lra].
        apply Rle_mult_inv_pos; [|exact Hrw]. clearbody s; repeat apply Rmult_le_pos; lra. }
      destruct (Rle_lt_dec 0 (n_lwc x')) as [|Hneg]; [assumption|exfalso]. nra.
Qed.

Lemma sunlit_mass c dt e x y m : constants_ok c -> sunlit c dt e x y m ->
  melted_share c dt e x < 1 -> column_mass c y = layer_mass c x.
Proof.
  intros Hc HS H1. assert (Hrw : 0 < c_water_density c) by (destruct Hc; lra).
  inversion HS as [HT|s x' HT Es Hs E1 E2 E3 E4 E5|s HT Es Hs]; subst; [| |lra];
    rewrite column_mass_total, total_cons, total_nil; unfold layer_mass; cbn [n_height n_ice n_lwc]; [ring|].
  set (s := melted_share c dt e x) in *.
  rewrite Rplus_0_r, Rmult_plus_distr_r, !Rmult_assoc, E5, E2, E3. unfold Rdiv. field. lra.
Qed.

(*@ C27 Ice plus water of the column is conserved as long as no layer is melted away. *)
Lemma bintanja_conserves_mass_lem : forall (c : Consts) (dt : R) (es : list R) (l l' : list Node) (m : R),
  constants_ok c -> sunlit_column c dt es l l' m ->
  Forall2 (fun e x => melted_share c dt e x < 1) es l ->
  column_mass c l' = column_mass c l /\ length l' = length l.
Proof.
  intros c dt es l l' m Hc HS. induction HS as [|e es x l y l' m m' H HS IH]; intros F; [split; reflexivity|].
  inversion F as [|? ? ? ? F1 F2]; subst. destruct (IH F2) as [IH1 IH2]. split.
  - rewrite !column_mass_total in *. rewrite total_app, total_cons, IH1. f_equal.
    rewrite <- column_mass_total. eapply sunlit_mass; eassumption.
  - rewrite app_length, IH2. inversion H; subst; cbn; [reflexivity|reflexivity|lra].
Qed.

(*@ C27 The reported subsurface melt is too small whenever a layer melts partly: it is
    taken over the height after melting. *)
Lemma bintanja_underreports_lem : forall (c : Consts) (dt : R) (es : list R) (l l' : list Node) (m : R),
  constants_ok c -> layers_ok l -> sunlit_column c dt es l l' m ->
  Forall2 (fun e x => melted_share c dt e x < 1) es l ->
  m * c_water_density c <= c_ice_density c * (column_ice l - column_ice l') /\
  (Exists (fun p => c_zero_temperature c < heated c dt (fst p) (snd p)) (combine es l) ->
   m * c_water_density c < c_ice_density c * (column_ice l - column_ice l')).
Proof.
  intros c dt es l l' m Hc HL HS. 
  assert (Hci : 0 < c_spec_heat_ice c) by (destruct Hc; lra).
  assert (Hri : 0 < c_ice_density c) by (destruct Hc; lra).
  assert (Hrw : 0 < c_water_density c) by (destruct Hc; lra).
  assert (HLm : 0 < c_lat_heat_melting c) by (destruct Hc; lra).
  induction HS as [|e es x l y l' m m' H HS IH]; intros F.
  - split; [unfold column_ice; rewrite !total_nil; lra|]. intros Ex; inversion Ex.
  - inversion F as [|? ? ? ? F1 F2]; subst. destruct (IH (Forall_inv_tail HL) F2) as [IH1 IH2].
    destruct (Forall_inv HL) as (Hh & Hi & Hw).
    assert (A : m * c_water_density c <= c_ice_density c * (n_ice x * n_height x - column_ice y) /\
      (c_zero_temperature c < heated c dt e x -> m * c_water_density c < c_ice_density c * (n_ice x * n_height x - column_ice y))).
    { inversion H as [HT|s x' HT Es Hs E1 E2 E3 E4 E5|s HT Es Hs]; subst; [| |lra]; unfold column_ice;
        rewrite total_cons, total_nil; cbn [n_height n_ice]; [split; intros; lra|].
      set (s := melted_share c dt e x) in *.
      assert (Hs0 : 0 < s). { unfold s, melted_share. apply Rdiv_lt_0_compat; [apply Rmult_lt_0_compat; lra|exact HLm]. }
      rewrite E2, E3.
      replace ((1 - s) * (s * n_ice x * n_height x * c_ice_density c / c_water_density c) * c_water_density c)
        with ((1 - s) * s * (n_ice x * n_height x * c_ice_density c)) by (field; lra).
      assert (P : 0 < n_ice x * n_height x * c_ice_density c) by (repeat apply Rmult_lt_0_compat; assumption).
      assert (0 < s * s * (n_ice x * n_height x * c_ice_density c)) by (apply Rmult_lt_0_compat; nra).
      split; intros; nra. }
    unfold column_ice in *. rewrite total_cons, total_app. destruct A as [A1 A2]. split; [nra|].
    cbn [combine]. intros Ex. inversion Ex as [? ? B|? ? B]; subst; cbn [fst snd] in B.
    + specialize (A2 B). nra.
    + specialize (IH2 B). nra.
Qed.

(*@ C27 A thin layer below a thick one receives the radiation absorbed in the lower half of
    the thick layer; with an hour of 800 W/m2 it is melted away and its mass is lost to the
    column without being handed to percolation. *)
Lemma bintanja_loses_layer_refuted_lem :
  exists (g g' : Grid) (SWnet dt melt Si : R), counted g /\ layers_ok (g_nodes g) /\ SWnet = 800 /\ dt = 3600 /\
    Forall (fun n => n_temperature n <= c_zero_temperature default_constants) (g_nodes g) /\
    method_Bintanja default_constants g SWnet dt = Ok (g', melt, Si) /\
    (length (g_nodes g') < length (g_nodes g))%nat /\
    column_mass default_constants (g_nodes g') < column_mass default_constants (g_nodes g).
Proof.
  set (x := mkNode 0.1 260 0 0.3 0). set (y := mkNode 0.0005 273 0 0.3 0). set (z := mkNode 1 270 0 1 0).
  set (g := mkGrid [x; y; z] 3 0 0 0).
  assert (Hn : counted g) by reflexivity.
  assert (HL : layers_ok (g_nodes g)) by (repeat constructor; cbn; lra).
  assert (Dx : layer_density default_constants x = 275.87).
  { unfold layer_density, layer_air_porosity. cbn. rewrite Rmax_right by lra. lra. }
  assert (Dy : layer_density default_constants y = 275.87).
  { unfold layer_density, layer_air_porosity. cbn. rewrite Rmax_right by lra. lra. }
  destruct (bintanja_spec default_constants g 800 3600 x [x; y] z default_ok Hn HL eq_refl eq_refl)
    as (g' & l' & melt & W & HS & E' & _).
  assert (Esh : penetrating_share default_constants x = 0.1).
  { unfold penetrating_share. rewrite Dx. destruct (Rle_dec _ _) as [|C]; [reflexivity|cbn in C; lra]. }
  assert (Eex : extinction default_constants x = 17.1).
  { unfold extinction. rewrite Dx. destruct (Rle_dec _ _) as [|C]; [reflexivity|cbn in C; lra]. }
  rewrite Esh, Eex in *. cbn [map midpoints fluxes x y n_height] in HS. fold x in HS. fold y in HS.
  replace (- (17.1 * 0)) with 0 in HS by ring. rewrite exp_0 in HS.
  replace (- (17.1 * (0 + 0.1 / 2))) with (- (0.855)) in HS by lra.
  set (u := exp (- (0.855))) in HS.
  set (v := exp (- (17.1 * (0 + 0.1 + 0.0005 / 2)))) in HS.
  assert (Hu : 0 < u) by apply exp_pos.
  assert (Hu1 : u <= 0.54).
  { unfold u. rewrite exp_Ropp. assert (A := exp_ineq1 0.855 ltac:(lra)).
    apply Rle_trans with (/ 1.855); [apply Rinv_le_contravar; lra|lra]. }
  assert (Hu2 : 1 / 3 <= u).
  { unfold u. rewrite exp_Ropp. assert (A : exp 0.855 <= 3).
    { apply Rle_trans with (exp 1); [apply exp_le; lra|exact exp_le_3]. }
    assert (P := exp_pos 0.855). replace (1 / 3) with (/ 3) by lra. apply Rinv_le_contravar; lra. }
  assert (Hv : v <= u * u).
  { unfold v, u. rewrite <- exp_plus. apply exp_le. lra. }
  assert (Huv : 0.2222 <= u - v) by nra.
  inversion HS as [|e es x0 l0 y0 l0' m0 m0' H1 HS1]; subst.
  inversion HS1 as [|e es x1 l1 y1 l1' m1 m1' H2 HS2]; subst.
  inversion HS2; subst.
  assert (Hy : 1 <= melted_share default_constants 3600 (800 * 0.1 * (u - v)) y).
  { unfold melted_share, heated. rewrite Dy. 
    change (n_temperature y) with 273. change (n_height y) with 0.0005.
    change (c_spec_heat_ice default_constants) with 2050. change (c_zero_temperature default_constants) with 273.16.
    change (c_lat_heat_melting default_constants) with 334000. lra. }
  assert (Ey : y1 = []) by (inversion H2; subst; [exfalso|exfalso; lra|reflexivity];
    unfold melted_share in Hy; match goal with H : _ <= _ |- _ => idtac end;
    change (c_spec_heat_ice default_constants) with 2050 in Hy; change (c_lat_heat_melting default_constants) with 334000 in Hy; lra).
  subst y1.
  assert (Hx : heated default_constants 3600 (800 * 0.1 * (1 - u)) x <= 273.16).
  { unfold heated. rewrite Dx.
    change (n_temperature x) with 260. change (n_height x) with 0.1.
    change (c_spec_heat_ice default_constants) with 2050. lra. }
  exists g, g', 800, 3600. eexists _, _. split; [exact Hn|]. split; [exact HL|].
  split; [reflexivity|]. split; [reflexivity|]. split; [repeat constructor; cbn; lra|]. split; [exact W|].
  rewrite E'. cbn [app]. rewrite app_nil_r.
  assert (M1 : column_mass default_constants y0 = layer_mass default_constants x).
  { eapply sunlit_mass; [exact default_ok|exact H1|]. unfold melted_share.
    change (c_spec_heat_ice default_constants) with 2050. change (c_lat_heat_melting default_constants) with 334000.
    change (c_zero_temperature default_constants) with 273.16. lra. }
  assert (L1 : (length y0 <= 1)%nat) by (inversion H1; cbn; lia).
  split; [rewrite app_length; cbn; lia|].
  rewrite !column_mass_total in *. rewrite total_app, M1. cbn [g g_nodes]. rewrite !total_cons, total_nil.
  assert (P := layer_mass_pos default_constants y default_ok ltac:(cbn; lra)). lra.
Qed.

(*@ C26 Any other method name raises ValueError. *)
Lemma penetrating_dispatch_lem : forall (c : Consts) (g : Grid) (SWnet dt : R),
  (c_penetrating_method c = "Bintanja95"%string ->
   penetrating_radiation c g SWnet dt = method_Bintanja c g SWnet dt) /\
  (c_penetrating_method c <> "Bintanja95"%string ->
   penetrating_radiation c g SWnet dt = Err ValueError).
Proof.
  intros c g SWnet dt. unfold penetrating_radiation. split; intros H.
  - rewrite H. reflexivity.
  - destruct (String.eqb_spec (c_penetrating_method c) "Bintanja95"); [contradiction|reflexivity].
Qed.

(*@ex The hypotheses hold for snow over wet snow over ice. *)
Lemma radiation_case_lem : constants_ok default_constants /\
  counted ex_rad_grid /\ layers_ok (g_nodes ex_rad_grid) /\
  g_nodes ex_rad_grid = [ex_r1; ex_r2] ++ [ex_r3] /\ hd_error (g_nodes ex_rad_grid) = Some ex_r1.
Proof.
  split; [exact default_ok|]. split; [reflexivity|]. split; [repeat constructor; cbn; lra|]. split; reflexivity.
Qed.
