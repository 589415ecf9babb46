(** * Penetrating radiation: lemmas *)
From Verif Require Import ModelPy ModelConstants ModelNode ModelGrid ModelRadiation Spec LemPy
  LemGridBase LemGridMore LemHeat LemDensification.

Definition conv (c : Consts) : R :=
  (c_spec_heat_ice c * c_ice_density c) / (c_water_density c * c_lat_heat_melting c).

(** one pass on a node in the middle *)
Lemma bintanja_body_ok c E dt pre x post e g ids m :
  constants_ok c -> g_nodes g = pre ++ x :: post -> py_get E (Z.of_nat (length pre)) = Ok e ->
  0 < n_height x -> 0 < n_ice x -> 0 <= n_lwc x ->
  exists (keep : bool) x' a,
    bintanja_body c E (conv c) dt (Z.of_nat (length pre)) (g, ids, m)
    = Ok (with_nodes g (pre ++ x' :: post), ids ++ (if keep then [] else [Z.of_nat (length pre)]), m + a) /\
    sunlit c dt e x (if keep then [x'] else []) a.
Proof.
  intros Hc Eg Ee Hh Hi Hw. assert (Hd := density_positive c x Hc Hi Hw).
  assert (Hci : 0 < c_spec_heat_ice c) by (destruct Hc; lra).
  assert (Hri : 0 < c_ice_density c) by (destruct Hc; lra).
  assert (Hrw : 0 < c_water_density c) by (destruct Hc; lra).
  assert (HL : 0 < c_lat_heat_melting c) by (destruct Hc; lra).
  unfold bintanja_body, get_node_temperature, get_node_density, get_node_height, get_node_ice_fraction, get_node_lwc.
  rewrite (get_node_mid g pre x post Eg). cbn [bind]. rewrite Ee. cbn [bind].
  rewrite fdiv_ok by (apply Rgt_not_eq; apply Rmult_lt_0_compat; assumption). cbn [bind].
  rewrite fdiv_ok by lra. cbn [bind].
  assert (ET : n_temperature x + e / (layer_density c x * c_spec_heat_ice c) * (dt / n_height x) = heated c dt e x).
  { unfold heated. field. lra. }
  cbv zeta. rewrite ET. set (T := heated c dt e x) in *.
  destruct (Rltb_spec (c_zero_temperature c) T) as [HT|HT].
  - rewrite fdiv_ok by lra. cbn [bind]. rewrite fdiv_ok by lra. cbn [bind].
    set (dw := conv c * (T - c_zero_temperature c) * n_ice x).
    assert (Edh : - (c_water_density c / c_ice_density c * - dw) / n_ice x = melted_share c dt e x).
    { unfold melted_share, dw, conv. fold T. field. lra. }
    rewrite Edh. set (s := melted_share c dt e x).
    assert (Edw : dw = s * n_ice x * c_ice_density c / c_water_density c).
    { unfold s, melted_share, dw, conv. fold T. field. lra. }
    destruct (Rleb_spec 1 s) as [Hs|Hs].
    + exists false, x, (dw * n_height x). rewrite <- Eg, with_nodes_same. split; [reflexivity|].
      replace (dw * n_height x) with (s * n_ice x * n_height x * c_ice_density c / c_water_density c)
        by (rewrite Edw; unfold Rdiv; ring).
      apply sunlit_lost; auto.
    + assert (Hs1 : 0 < 1 - s) by lra.
      assert (Hh' : 0 < (1 - s) * n_height x) by (apply Rmult_lt_0_compat; lra).
      unfold set_node_lwc, set_node_temperature, set_node_height.
      rewrite (upd_node_mid g pre x post _ Eg). cbn [bind].
      set (x1 := set_layer_lwc (n_lwc x + dw) x). set (g1 := with_nodes g (pre ++ x1 :: post)).
      rewrite !(get_node_mid g1 pre x1 post eq_refl). cbn [bind].
      rewrite (upd_node_mid g1 pre x1 post _ eq_refl). cbn [bind].
      set (x2 := set_layer_temperature (c_zero_temperature c) x1). set (g2 := with_nodes g1 (pre ++ x2 :: post)).
      rewrite !(get_node_mid g2 pre x2 post eq_refl). cbn [bind].
      rewrite (upd_node_mid g2 pre x2 post _ eq_refl). cbn [bind].
      set (x3 := set_layer_height ((1 - s) * n_height x2) x2). set (g3 := with_nodes g2 (pre ++ x3 :: post)).
      rewrite !(get_node_mid g3 pre x3 post eq_refl). cbn [bind].
      change (n_height x3) with ((1 - s) * n_height x).
      rewrite fdiv_ok by lra. cbn [bind].
      rewrite (upd_node_mid g3 pre x3 post _ eq_refl). cbn [bind].
      set (x4 := set_layer_lwc _ x3). set (g4 := with_nodes g3 (pre ++ x4 :: post)).
      rewrite !(get_node_mid g4 pre x4 post eq_refl). cbn [bind].
      change (n_height x4) with ((1 - s) * n_height x).
      exists true, x4, (dw * ((1 - s) * n_height x)). rewrite app_nil_r. split; [reflexivity|].
      replace (dw * ((1 - s) * n_height x))
        with ((1 - s) * (s * n_ice x * n_height x * c_ice_density c / c_water_density c))
        by (rewrite Edw; unfold Rdiv; ring).
      apply sunlit_melt; try reflexivity; try assumption; try lra.
      change (n_lwc x4) with ((n_lwc x + dw) * n_height x / ((1 - s) * n_height x)).
      change (n_height x4) with ((1 - s) * n_height x).
      rewrite Edw. field. repeat split; lra.
  - unfold set_node_temperature. rewrite (upd_node_mid g pre x post _ Eg). cbn [bind].
    exists true, (set_layer_temperature T x), 0. rewrite app_nil_r, Rplus_0_r. split; [reflexivity|].
    apply sunlit_warm. fold T. lra.
Qed.

(** indices of the marked positions, counted from [i] *)
Fixpoint dropped (i : Z) (bs : list bool) : list Z :=
  match bs with
  | [] => []
  | b :: t => (if b then [] else [i]) ++ dropped (i + 1) t
  end.
Fixpoint keeps {A} (bs : list bool) (l : list A) : list A :=
  match bs, l with
  | b :: bs, x :: l => (if b then [x] else []) ++ keeps bs l
  | _, _ => []
  end.

Lemma bintanja_loop c E dt post : constants_ok c -> forall l es pre g ids m,
  g_nodes g = pre ++ l ++ post -> length es = length l ->
  (forall k, (k < length l)%nat -> py_get E (Z.of_nat (length pre + k)) = Ok (nth k es 0)) ->
  layers_ok l ->
  exists bs l1 a, for_loop (length l) (Z.of_nat (length pre)) (bintanja_body c E (conv c) dt) (g, ids, m)
    = Ok (with_nodes g (pre ++ l1 ++ post), ids ++ dropped (Z.of_nat (length pre)) bs, m + a) /\
    length l1 = length l /\ length bs = length l /\ sunlit_column c dt es l (keeps bs l1) a.
Proof.
  intros Hc. induction l as [|x l IH]; intros es pre g ids m Eg Le HE HL.
  - destruct es; [|discriminate]. exists [], [], 0. cbn [length for_loop app dropped keeps].
    cbn [app] in Eg. rewrite <- Eg, with_nodes_same, app_nil_r, Rplus_0_r. repeat split; constructor.
  - destruct es as [|e es]; [discriminate|]. cbn [length for_loop].
    destruct (Forall_inv HL) as (Hh & Hi & Hw).
    assert (Ee : py_get E (Z.of_nat (length pre)) = Ok e).
    { specialize (HE 0%nat ltac:(cbn; lia)). rewrite Nat.add_0_r in HE. exact HE. }
    destruct (bintanja_body_ok c E dt pre x (l ++ post) e g ids m Hc Eg Ee Hh Hi Hw) as (b & x' & a & W & HS).
    rewrite W. cbn [bind]. set (g1 := with_nodes g (pre ++ x' :: l ++ post)).
    set (ids1 := ids ++ _).
    destruct (IH es (pre ++ [x']) g1 ids1 (m + a)) as (bs & l1 & a2 & W2 & L1 & L2 & Sc).
    + cbn. rewrite <- app_assoc. reflexivity.
    + cbn in Le. lia.
    + intros k Hk. rewrite app_length. cbn [length].
      replace (length pre + 1 + k)%nat with (length pre + S k)%nat by lia.
      rewrite HE by (cbn; lia). reflexivity.
    + exact (Forall_inv_tail HL).
    + exists (b :: bs), (x' :: l1), (a + a2).
      replace (Z.of_nat (length pre) + 1)%Z with (Z.of_nat (length (pre ++ [x'])))
        by (rewrite app_length; cbn [length]; lia).
      rewrite W2. split; [|split; [cbn; lia|split; [cbn; lia|]]].
      * unfold g1, ids1. rewrite with_nodes_nodes, <- !app_assoc. cbn [app dropped].
        rewrite app_length. cbn [length].
        replace (Z.of_nat (length pre + 1)) with (Z.of_nat (length pre) + 1)%Z by lia.
        rewrite Rplus_assoc. reflexivity.
      * cbn [keeps]. constructor; assumption.
Qed.

Lemma dropped_ge bs : forall i, Forall (fun j => (i <= j < i + Z.of_nat (length bs))%Z) (dropped i bs).
Proof.
  induction bs as [|b bs IH]; intros i; cbn [dropped length]; [constructor|].
  apply Forall_app. split.
  - destruct b; constructor; [lia|constructor].
  - eapply Forall_impl; [|apply IH]. cbv beta. intros; lia.
Qed.

Lemma dropped_nodup bs : forall i, NoDup (dropped i bs).
Proof.
  induction bs as [|b bs IH]; intros i; cbn [dropped]; [constructor|].
  destruct b; cbn [app]; [apply IH|]. constructor; [|apply IH].
  intros H. assert (G := dropped_ge bs (i + 1)). rewrite Forall_forall in G. apply G in H. lia.
Qed.

Lemma without_dropped {A} bs : forall i (l : list A) post extra,
  length l = length bs -> Forall (fun j => (j < i)%Z) extra ->
  without_from i (extra ++ dropped i bs) (l ++ post) = keeps bs l ++ post.
Proof.
  induction bs as [|b bs IH]; intros i l post extra L HX.
  - destruct l; [|discriminate]. cbn [dropped keeps app]. rewrite app_nil_r. apply without_beyond. exact HX.
  - destruct l as [|x l]; [discriminate|]. cbn [length] in L. cbn [app without_from].
    assert (NE : existsb (Z.eqb i) extra = false).
    { apply Bool.not_true_is_false. intros H. apply existsb_exists in H. destruct H as (j & Hj & Ej).
      rewrite Forall_forall in HX. apply HX in Hj. apply Z.eqb_eq in Ej. lia. }
    assert (ND : existsb (Z.eqb i) (dropped (i + 1) bs) = false).
    { apply Bool.not_true_is_false. intros H. apply existsb_exists in H. destruct H as (j & Hj & Ej).
      assert (G := dropped_ge bs (i + 1)). rewrite Forall_forall in G. apply G in Hj. apply Z.eqb_eq in Ej. lia. }
    rewrite existsb_app, NE. cbn [orb dropped keeps].
    assert (HX1 : Forall (fun j => (j < i + 1)%Z) (extra ++ (if b then [] else [i]))).
    { apply Forall_app. split; [eapply Forall_impl; [|exact HX]; cbv beta; intros; lia|].
      destruct b; constructor; [lia|constructor]. }
    rewrite app_assoc. rewrite IH by (auto; lia).
    rewrite existsb_app, ND. destruct b; cbn [existsb orb app]; [reflexivity|].
    rewrite Z.eqb_refl. reflexivity.
Qed.

(** ** the absorbed fluxes *)
Fixpoint fluxes (k Si z0 : R) (zs : list R) : list R :=
  match zs with [] => [] | z :: t => (Si * (exp (- (k * z0)) - exp (- (k * z)))) :: fluxes k Si z t end.

Lemma exp_le a b : a <= b -> exp a <= exp b.
Proof. intros H. destruct (Req_dec a b) as [->|]; [lra|]. left. apply exp_increasing. lra. Qed.

Inductive ascending : R -> list R -> Prop :=
| asc_nil a : ascending a []
| asc_cons a b l : a <= b -> ascending b l -> ascending a (b :: l).

Lemma flux_list k Si zs : 0 <= k -> forall z0, ascending z0 zs ->
  map (fun d => Si * Rabs d) (np_diff (map (fun z => exp (k * - z)) (z0 :: zs))) = fluxes k Si z0 zs.
Proof.
  intros Hk. induction zs as [|z t IH]; intros z0 H; [reflexivity|].
  inversion H as [|? ? ? H1 H2]; subst. cbn [fluxes]. rewrite <- (IH z H2).
  unfold np_diff. cbn [map tl map2]. f_equal.
  assert (exp (k * - z) <= exp (k * - z0)) by (apply exp_le; nra).
  rewrite Rabs_left1 by lra. replace (- (k * z0)) with (k * - z0) by ring. replace (- (k * z)) with (k * - z) by ring. ring.
Qed.

Lemma midpoints_ascending l : forall acc z0 , Forall (fun h => 0 < h) l ->
  (match l with [] => True | h :: _ => z0 <= acc + h / 2 end) ->
  ascending z0 (midpoints acc l).
Proof.
  induction l as [|h t IH]; intros acc z0 HF H0; cbn [midpoints]; constructor.
  - exact H0.
  - assert (A := Forall_inv HF). cbv beta in A. apply IH; [exact (Forall_inv_tail HF)|].
    destruct t as [|h2 t]; [exact I|]. assert (B := Forall_inv (Forall_inv_tail HF)). cbv beta in B. lra.
Qed.

Lemma last_cons {A} (t : list A) : forall z z0, last (z :: t) z0 = last t z.
Proof.
  induction t as [|y t IH]; intros z z0; [reflexivity|].
  change (last (z :: y :: t) z0) with (last (y :: t) z0). rewrite (IH y z0), (IH y z). reflexivity.
Qed.

Lemma fluxes_length k Si zs : forall z0, length (fluxes k Si z0 zs) = length zs.
Proof. induction zs; intros; cbn; auto. Qed.

Lemma fluxes_nonneg k Si zs : 0 <= k -> 0 <= Si -> forall z0, ascending z0 zs ->
  Forall (fun e => 0 <= e) (fluxes k Si z0 zs).
Proof.
  intros Hk HS. induction zs as [|z t IH]; intros z0 H; cbn [fluxes]; constructor;
    inversion H as [|? ? ? H1 H2]; subst.
  - assert (exp (- (k * z)) <= exp (- (k * z0))) by (apply exp_le; nra). nra.
  - apply IH. exact H2.
Qed.

Lemma fluxes_sum k Si zs : forall z0,
  fold_right Rplus 0 (fluxes k Si z0 zs) = Si * (exp (- (k * z0)) - exp (- (k * last zs z0))).
Proof.
  induction zs as [|z t IH]; intros z0; [cbn; ring|]. cbn [fluxes fold_right]. rewrite (IH z).
  rewrite last_cons. ring.
Qed.

Lemma midpoints_app l1 l2 : forall acc,
  midpoints acc (map n_height (l1 ++ l2))
  = midpoints acc (map n_height l1) ++ midpoints (acc + column_height l1) (map n_height l2).
Proof.
  induction l1 as [|x l1 IH]; intros acc; cbn [app map midpoints].
  - unfold column_height. rewrite total_nil. f_equal. ring.
  - rewrite IH. unfold column_height. rewrite total_cons. rewrite Rplus_assoc. reflexivity.
Qed.

Lemma fluxes_app k Si a b : forall z0, fluxes k Si z0 (a ++ b) = fluxes k Si z0 a ++ fluxes k Si (last a z0) b.
Proof.
  induction a as [|z a IH]; intros z0; [reflexivity|]. cbn [app fluxes]. rewrite IH.
  rewrite last_cons. reflexivity.
Qed.

Lemma bintanja_spec c g SWnet dt top l z :
  constants_ok c -> counted g -> layers_ok (g_nodes g) -> g_nodes g = l ++ [z] ->
  hd_error (g_nodes g) = Some top ->
  exists g' l' melt,
    method_Bintanja c g SWnet dt = Ok (g', melt, SWnet * penetrating_share c top) /\
    sunlit_column c dt (fluxes (extinction c top) (SWnet * penetrating_share c top) 0 (midpoints 0 (map n_height l)))
      l l' melt /\
    g_nodes g' = l' ++ [z] /\ counted g' /\ same_clock g g'.
Proof.
  intros Hc Hn HL E Ht. unfold method_Bintanja.
  assert (Hne : g_nodes g <> []) by (rewrite E; destruct l; discriminate).
  rewrite (get_depth_spec g Hn Hne). cbn [bind].
  assert (E0 : get_node_density c g 0 = Ok (layer_density c top)).
  { destruct (g_nodes g) as [|y t] eqn:Eg; [congruence|]. cbn in Ht. injection Ht as ->.
    unfold get_node_density. rewrite (get_node_mid g [] top t Eg : get_node g 0 = _). reflexivity. }
  rewrite E0. cbn [bind]. unfold absorbed_flux, Rleb, extinction, penetrating_share.
  set (k := if Rle_dec (layer_density c top) (c_snow_ice_threshold c) then 17.1 else 2.5).
  set (sh := if Rle_dec (layer_density c top) (c_snow_ice_threshold c) then 0.1 else 0.2).
  assert (Ek : (if if Rle_dec (layer_density c top) (c_snow_ice_threshold c) then true else false then 17.1 else 2.5) = k)
    by (unfold k; destruct (Rle_dec _ _); reflexivity).
  assert (Es : (if if Rle_dec (layer_density c top) (c_snow_ice_threshold c) then true else false then 0.1 else 0.2) = sh)
    by (unfold sh; destruct (Rle_dec _ _); reflexivity).
  assert (Hk : 0 <= k) by (unfold k; destruct (Rle_dec _ _); lra).
  rewrite Ek, Es. clearbody k sh. clear Ek Es. cbn [map]. cbv zeta.
  set (zs := midpoints 0 (map n_height (g_nodes g))).
  assert (Hh : Forall (fun h => 0 < h) (map n_height (g_nodes g))).
  { apply Forall_map. eapply Forall_impl; [|exact HL]. cbv beta. tauto. }
  assert (EF := flux_list k (SWnet * sh) zs Hk 0). cbn [map] in EF. rewrite EF; clear EF.
  2:{ apply midpoints_ascending; [exact Hh|]. destruct (map n_height (g_nodes g)) as [|h t]; [exact I|].
      assert (A := Forall_inv Hh). cbv beta in A. lra. }
  rewrite fdiv_ok by (apply Rgt_not_eq; destruct Hc; apply Rmult_lt_0_compat; lra). cbn [bind]. fold (conv c).
  set (E1 := fluxes k (SWnet * sh) 0 zs). set (es := fluxes k (SWnet * sh) 0 (midpoints 0 (map n_height l))).
  assert (EE : exists e2, E1 = es ++ e2).
  { unfold E1, es, zs. rewrite E, midpoints_app, fluxes_app. eauto. }
  destruct EE as (e2 & EE).
  assert (Les : length es = length l) by (unfold es; rewrite fluxes_length, midpoints_length; apply map_length).
  assert (HLl : layers_ok l) by (unfold layers_ok in *; rewrite E in HL; apply Forall_app in HL; apply HL).
  destruct (bintanja_loop c E1 dt [z] Hc l es [] g [] 0) as (bs & l1 & a & W & L1 & L2 & Sc).
  - exact E.
  - exact Les.
  - intros j Hj. cbn [length Nat.add]. rewrite EE.
    replace (nth j es 0) with (nth j (es ++ e2) 0) by (apply app_nth1; lia).
    apply py_get_nth. apply nth_error_nth'. rewrite app_length. lia.
  - exact HLl.
  - unfold for_range. replace (Z.to_nat (g_number_nodes g - 1 - 0)) with (length l)
      by (unfold counted in Hn; rewrite Hn, E, app_length; cbn [length]; lia).
    change (Z.of_nat (length (@nil Node))) with 0%Z in W. rewrite W. cbn [bind app].
    rewrite Rplus_0_l.
    set (g1 := with_nodes g (l1 ++ [z])).
    assert (Hkeep : forall bs (l1 : list Node), length l1 = length bs -> dropped 0 bs = [] -> keeps bs l1 = l1).
    { clear. intros bs. generalize 0%Z. induction bs as [|b bs IH]; intros i [|x l1] L D; try discriminate; [reflexivity|].
      cbn [dropped] in D. destruct b; [|discriminate]. cbn [app] in D. cbn [keeps app]. f_equal. eapply IH; [cbn in L; lia|exact D]. }
    assert (Len : Z.of_nat (length (dropped 0 bs)) = (Z.of_nat (length l1) - Z.of_nat (length (keeps bs l1)))%Z).
    { assert (L : length l1 = length bs) by lia. clear - L. revert l1 L. generalize 0%Z.
      induction bs as [|b bs IH]; intros i [|x l1] L; try discriminate; [reflexivity|].
      cbn [dropped keeps]. rewrite !app_length. cbn [length] in *. specialize (IH (i + 1)%Z l1 ltac:(lia)).
      destruct b; cbn [length]; lia. }
    destruct (dropped 0 bs) as [|j ids] eqn:Ed.
    + cbn [bind]. exists g1, (keeps bs l1), a. split; [reflexivity|]. split; [exact Sc|].
      rewrite (Hkeep bs l1 ltac:(lia) Ed). split; [reflexivity|]. split; [|repeat split].
      unfold counted in *. cbn. rewrite Hn, E, !app_length. lia.
    + rewrite <- Ed in *.
      rewrite remove_node_exact.
      2: apply dropped_nodup. 2: congruence.
      2:{ eapply Forall_impl; [|apply dropped_ge]. cbv beta. intros q Hq. cbn [g1 g_nodes with_nodes]. rewrite app_length. lia. }
      cbn [bind g1 g_nodes with_nodes]. eexists _, (keeps bs l1), a. split; [reflexivity|]. split; [exact Sc|].
      cbn [g_nodes with_number with_nodes].
      assert (EW := without_dropped bs 0 l1 [z] [] ltac:(lia) (Forall_nil _)). cbn [app] in EW.
      unfold without. rewrite EW. split; [reflexivity|]. split; [|repeat split].
      unfold counted in *. cbn [g_nodes g_number_nodes with_number with_nodes]. change (g_number_nodes g1) with (g_number_nodes g). rewrite Hn, Len, E, !app_length. cbn [length]. lia.
Qed.

Lemma fluxes_nth k Si zs : forall i z0, (i < length zs)%nat ->
  nth i (fluxes k Si z0 zs) 0 = Si * (exp (- (k * nth i (z0 :: zs) 0)) - exp (- (k * nth i zs 0))).
Proof.
  induction zs as [|z t IH]; intros i z0 Hi; [cbn in Hi; lia|].
  destruct i as [|i]; [reflexivity|]. cbn [fluxes nth length] in *. rewrite IH by lia. reflexivity.
Qed.

Lemma midpoints_centre l i : (i < length l)%nat -> nth i (midpoints 0 (map n_height l)) 0 = centre_depth l i.
Proof.
  intros Hi. unfold centre_depth. destruct (nth_error l i) as [x|] eqn:E; [|apply nth_error_None in E; lia].
  destruct (nth_error_split l i E) as (pre & post & -> & <-).
  assert (H := midpoints_nth pre x post 0). apply (nth_error_nth _ _ 0) in H. rewrite H.
  rewrite firstn_app, Nat.sub_diag, firstn_all. cbn [firstn]. rewrite app_nil_r. ring.
Qed.

Lemma fluxes_are_absorbed k Si l :
  fluxes k Si 0 (midpoints 0 (map n_height l)) = map (fun i => Si * absorbed_share k l i) (seq 0 (length l)).
Proof.
  assert (LM : length (midpoints 0 (map n_height l)) = length l) by (rewrite midpoints_length; apply map_length).
  apply (nth_ext _ _ 0 (Si * absorbed_share k l 0)).
  - rewrite fluxes_length, map_length, seq_length. exact LM.
  - intros i Hi. rewrite fluxes_length, LM in Hi. rewrite fluxes_nth by lia.
    rewrite (map_nth (fun i => Si * absorbed_share k l i)). rewrite seq_nth by exact Hi. cbn [Nat.add].
    unfold absorbed_share. rewrite midpoints_centre by exact Hi.
    destruct i as [|i]; [reflexivity|]. cbn [nth]. rewrite midpoints_centre by lia. reflexivity.
Qed.
