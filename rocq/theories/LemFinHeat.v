(** * Heat conduction (C22, C23, C57) *)
From Verif Require Import ModelPy ModelConstants ModelNode ModelGrid ModelHeat Spec LemPy
  LemGridBase LemHeat.

(** snow over firn over ice *)
Definition ex_h1 : Node := mkNode 0.1 263 0 0.4 0.
Definition ex_h2 : Node := mkNode 0.2 268 0.01 0.5 0.
Definition ex_h3 : Node := mkNode 1 270 0 1 0.
Definition ex_heat_grid : Grid := mkGrid [ex_h1; ex_h2; ex_h3] 3 0.1 0 0.

Lemma stable_taus h K d taus : (forall tau, 0 <= tau <= d -> stable_step h K tau) ->
  Forall (fun tau => 0 < tau <= d) taus -> Forall (fun tau => 0 <= tau /\ stable_step h K tau) taus.
Proof. intros H HF. eapply Forall_impl; [|exact HF]. cbv beta. intros a Ha. split; [lra|apply H; lra]. Qed.

Lemma at_map {A} (f : A -> R) l i d : (i < length l)%nat -> at_layer (map f l) i = f (nth i l d).
Proof.
  intros Hi. unfold at_layer. rewrite nth_indep with (d' := f d) by (rewrite map_length; exact Hi).
  apply map_nth.
Qed.

(*@ C22 With at least three layers heat conduction always finishes, changes nothing but
    temperatures, leaves the first and the last temperature as they are, and keeps all
    temperatures within any bounds that hold before. *)
Lemma heat_maximum_principle_lem : forall (c : Consts) (g : Grid) (dt : R),
  constants_ok c -> counted g -> conductive c (g_nodes g) -> (3 <= length (g_nodes g))%nat ->
  exists (g' : Grid) (N : nat),
    (forall fuel, (N <= fuel)%nat -> solveHeatEquation fuel c g dt = Ok g') /\
    Forall2 only_temperature (g_nodes g) (g_nodes g') /\
    (forall lo hi, Forall (fun n => lo <= n_temperature n <= hi) (g_nodes g) ->
       Forall (fun n => lo <= n_temperature n <= hi) (g_nodes g')) /\
    hd_error (temperatures (g_nodes g')) = hd_error (temperatures (g_nodes g)) /\
    last (temperatures (g_nodes g')) 0 = last (temperatures (g_nodes g)) 0 /\
    counted g' /\ g_number_nodes g' = g_number_nodes g /\ same_clock g g'.
Proof.
  intros c g dt Hc Hn Hk H3.
  destruct (solve_spec c g dt Hc Hn Hk H3) as (K & d & N & EK & LK & HK & Hd & Hst & _ & taus & T' & HS & HF & _ & _ & W).
  exists (with_nodes g (map2 set_layer_temperature T' (g_nodes g))), N.
  assert (Lh : length (heights (g_nodes g)) = length (g_nodes g)) by (unfold heights; apply map_length).
  assert (Lt : length (temperatures (g_nodes g)) = length (g_nodes g)) by (unfold temperatures; apply map_length).
  assert (LT : length T' = length (g_nodes g)) by (rewrite (steps_length _ _ _ _ _ HS); exact Lt).
  cbn [g_nodes with_nodes]. fold (g_nodes g).
  assert (ET : temperatures (map2 set_layer_temperature T' (g_nodes g)) = T') by (apply temperatures_set; exact LT).
  split; [exact W|]. split; [apply only_temperature_set; exact LT|]. split; [|split; [|split; [|split; [|split]]]].
  - intros lo hi HB.
    assert (HB' : Forall (fun t => lo <= t <= hi) T').
    { apply (steps_bounds _ K (heights_positive c _ Hk) HK ltac:(fold (heights (g_nodes g)); lia) taus
        (temperatures (g_nodes g)) T' lo hi); try (fold (heights (g_nodes g)); lia).
      - exact HS.
      - eapply stable_taus; eassumption.
      - unfold temperatures. apply Forall_map. exact HB. }
    rewrite <- ET in HB'. unfold temperatures in HB'. apply Forall_map in HB'. exact HB'.
  - rewrite ET. destruct (steps_ends _ _ _ _ _ HS) as [E0 _]. unfold at_layer in E0.
    destruct T' as [|t T']; [cbn in LT; lia|]. destruct (temperatures (g_nodes g)) as [|u U]; [cbn in Lt; lia|].
    cbn in E0 |- *. congruence.
  - rewrite ET. destruct (steps_ends _ _ _ _ _ HS) as [_ E1]. rewrite Lt in E1. unfold at_layer in E1.
    assert (NL : forall l : list R, last l 0 = nth (length l - 1) l 0).
    { clear. induction l as [|x l IH]; [reflexivity|]. destruct l as [|y l]; [reflexivity|].
      change (last (x :: y :: l) 0) with (last (y :: l) 0). rewrite IH. cbn [length].
      replace (S (S (length l)) - 1)%nat with (S (S (length l) - 1)) by lia. reflexivity. }
    rewrite !NL, LT, Lt. exact E1.
  - unfold counted in *. cbn. rewrite Hn. f_equal. symmetry. eapply Forall2_len.
    apply only_temperature_set. exact LT.
  - reflexivity.
  - repeat split.
Qed.

(*@ C22 A column of one temperature does not change. *)
Lemma heat_isothermal_unchanged_lem : forall (c : Consts) (g : Grid) (dt t : R),
  constants_ok c -> counted g -> conductive c (g_nodes g) -> (3 <= length (g_nodes g))%nat ->
  Forall (fun n => n_temperature n = t) (g_nodes g) ->
  exists N, forall fuel, (N <= fuel)%nat -> solveHeatEquation fuel c g dt = Ok g.
Proof.
  intros c g dt t Hc Hn Hk H3 Ht.
  destruct (heat_maximum_principle_lem c g dt Hc Hn Hk H3) as (g' & N & W & F & B & _ & _ & _ & Nn & (C1 & C2 & C3)).
  exists N. intros fuel Hf. rewrite (W fuel Hf). f_equal.
  assert (Ht' : Forall (fun n => n_temperature n = t) (g_nodes g')).
  { assert (Hb := B t t). eapply Forall_impl; [|apply Hb]. { cbv beta. intros; lra. }
    eapply Forall_impl; [|exact Ht]. cbv beta. intros; lra. }
  assert (E : g_nodes g' = g_nodes g).
  { clear - F Ht Ht'. induction F as [|x x' l l' (H1 & H2 & H3 & H4) F IH]; [reflexivity|].
    rewrite IH by (eapply Forall_inv_tail; eassumption). f_equal.
    assert (A := Forall_inv Ht). assert (A' := Forall_inv Ht'). cbv beta in A, A'.
    destruct x, x'; cbn in *; subst; reflexivity. }
  destruct g, g'; cbn in *; subst; reflexivity.
Qed.

(*@ C22 The warmer of two columns that differ only in temperature stays the warmer one. *)
Lemma heat_comparison_lem : forall (c : Consts) (g1 g2 : Grid) (dt : R),
  constants_ok c -> counted g1 -> counted g2 -> conductive c (g_nodes g1) ->
  (3 <= length (g_nodes g1))%nat ->
  Forall2 (fun x y => only_temperature x y /\ n_temperature x <= n_temperature y)
    (g_nodes g1) (g_nodes g2) ->
  exists g1' g2' N,
    (forall fuel, (N <= fuel)%nat ->
       solveHeatEquation fuel c g1 dt = Ok g1' /\ solveHeatEquation fuel c g2 dt = Ok g2') /\
    Forall2 (fun x y => only_temperature x y /\ n_temperature x <= n_temperature y)
      (g_nodes g1') (g_nodes g2').
Proof.
  intros c g1 g2 dt Hc Hn1 Hn2 Hk1 H3 F.
  assert (Lg := Forall2_len _ _ _ F).
  assert (Eh : heights (g_nodes g2) = heights (g_nodes g1)).
  { clear - F. unfold heights. induction F as [|x y l l' ((H1 & _) & _) F IH]; cbn; congruence. }
  assert (Hk2 : conductive c (g_nodes g2)).
  { destruct Hk1 as [Hk Hm]. split; [|exact Hm]. clear - F Hk.
    induction F as [|x y l l' ((H1 & H2 & H3 & H4) & _) F IH]; constructor.
    - rewrite H1, H2, H3. exact (Forall_inv Hk).
    - apply IH. exact (Forall_inv_tail Hk). }
  assert (Ek : map_res (layer_thermal_diffusivity c) (g_nodes g2) = map_res (layer_thermal_diffusivity c) (g_nodes g1)).
  { clear - F. induction F as [|x y l l' ((H1 & H2 & H3 & H4) & _) F IH]; [reflexivity|].
    cbn [map_res]. rewrite IH.
    assert (layer_thermal_diffusivity c y = layer_thermal_diffusivity c x) as ->; [|reflexivity].
    unfold layer_thermal_diffusivity, layer_thermal_conductivity, layer_density, layer_specific_heat, layer_air_porosity.
    rewrite H2, H3. reflexivity. }
  destruct (diffusivities c (g_nodes g1) Hc Hk1) as (K & EK & LK & HK).
  assert (Hh := heights_positive c _ Hk1).
  set (h := heights (g_nodes g1)) in *. fold (heights (g_nodes g1)) in Hh. fold h in Hh.
  assert (Lh : length h = length (g_nodes g1)) by (unfold h, heights; apply map_length).
  destruct (dt_stab_ok h K Hh HK ltac:(lia) ltac:(lia)) as (d & Ed & Hd & Hst & _).
  set (T1 := temperatures (g_nodes g1)). set (T2 := temperatures (g_nodes g2)).
  assert (L1 : length T1 = length h) by (unfold T1, temperatures; rewrite map_length; lia).
  assert (L2 : length T2 = length h) by (unfold T2, temperatures; rewrite map_length; lia).
  destruct (nat_above (Rmax dt 0 / d)) as [N HN].
  assert (HN' : Rmax dt 0 <= INR N * d).
  { apply Rmult_le_compat_r with (r := d) in HN; [|lra]. unfold Rdiv in HN.
    rewrite Rmult_assoc, Rinv_l, Rmult_1_r in HN by lra. exact HN. }
  assert (HT12 : Forall2 Rle T1 T2).
  { clear - F. unfold T1, T2, temperatures. induction F as [|x y l l' (_ & H) F IH]; cbn; constructor; assumption. }
  (* both loops run in step *)
  assert (Loop : forall n (t : R) A B, length A = length h -> length B = length h -> Forall2 Rle A B ->
     dt - t <= INR n * d ->
     exists A' B' tt, length A' = length h /\ length B' = length h /\ Forall2 Rle A' B' /\
       while_loop (S n) (fun s => Ok (Rltb (fst s) dt))
         (fun s => let dt_use := Rmin d (dt - fst s) in
              Ok (fst s + dt_use, heat_step h K dt_use (snd s))) (t, A) = Ok (tt, A') /\
       while_loop (S n) (fun s => Ok (Rltb (fst s) dt))
         (fun s => let dt_use := Rmin d (dt - fst s) in
              Ok (fst s + dt_use, heat_step h K dt_use (snd s))) (t, B) = Ok (tt, B')).
  { induction n as [|n IH]; intros t A B LA LB HAB Hnd.
    - exists A, B, t. cbn in Hnd. cbn [while_loop bind fst snd]. rewrite Rltb_false by lra. auto.
    - remember (S n) as m. cbn [while_loop bind fst snd]. destruct (Rltb_spec t dt) as [Q|Q].
      + cbv zeta. set (u := Rmin d (dt - t)). cbn [bind].
        assert (U : 0 < u <= d) by (unfold u; split; [apply Rmin_glb_lt; lra|apply Rmin_l]).
        apply IH.
        * rewrite heat_step_length; exact LA.
        * rewrite heat_step_length; exact LB.
        * apply (advance_monotone h K Hh HK ltac:(lia) u A _ B _ LA LB ltac:(lia)).
          -- apply heat_step_advance; try assumption; lia.
          -- apply heat_step_advance; try assumption; lia.
          -- lra.
          -- apply Hst; lra.
          -- exact HAB.
        * subst m. rewrite S_INR in Hnd. unfold u, Rmin. destruct (Rle_dec d (dt - t)); [lra|].
          replace (dt - (t + (dt - t))) with 0 by ring. apply Rmult_le_pos; [apply pos_INR|lra].
      + exists A, B, t. auto. }
  assert (Hdt0 : dt - 0 <= INR N * d) by (assert (dt <= Rmax dt 0) by apply Rmax_l; lra).
  destruct (Loop N 0 T1 T2 L1 L2 HT12 Hdt0) as (A' & B' & tt & LA & LB & HAB & WA & WB).
  assert (P : forall g T T' fuel, counted g -> heights (g_nodes g) = h -> temperatures (g_nodes g) = T ->
     map_res (layer_thermal_diffusivity c) (g_nodes g) = Ok K -> length (g_nodes g) = length h ->
     length T' = length h -> (S N <= fuel)%nat ->
     while_loop (S N) (fun s => Ok (Rltb (fst s) dt))
         (fun s => let dt_use := Rmin d (dt - fst s) in
              Ok (fst s + dt_use, heat_step h K dt_use (snd s))) (0, T) = Ok (tt, T') ->
     solveHeatEquation fuel c g dt = Ok (with_nodes g (map2 set_layer_temperature T' (g_nodes g)))).
  { intros g T T' fuel Hn Eh' ET EKg Lg' LT' Hf W. unfold solveHeatEquation.
    rewrite get_height_counted by exact Hn. cbn [bind].
    unfold get_thermal_diffusivity. rewrite get_profile_counted by exact Hn. rewrite EKg. cbn [bind].
    rewrite get_temperature_counted by exact Hn. cbn [bind].
    unfold get_number_layers. rewrite Hn, Nat2Z.id. fold (heights (g_nodes g)). rewrite Eh', Lg', Ed. cbn [bind].
    fold (temperatures (g_nodes g)). rewrite ET. unfold heat_loop. cbv zeta in W |- *.
    rewrite (while_mono (S N) fuel); [|exact Hf|rewrite W; discriminate|intros; discriminate|intros; discriminate].
    rewrite W. cbn [bind snd]. unfold set_temperature. apply set_profile_counted; [exact Hn|lia]. }
  exists (with_nodes g1 (map2 set_layer_temperature A' (g_nodes g1))),
         (with_nodes g2 (map2 set_layer_temperature B' (g_nodes g2))), (S N).
  split.
  - intros fuel Hf. split.
    + apply (P g1 T1 A' fuel); auto.
    + apply (P g2 T2 B' fuel); auto; try lia. rewrite Ek. exact EK.
  - cbn [g_nodes with_nodes]. clear - F HAB LA LB Lh Lg.
    assert (L1 : length A' = length (g_nodes g1)) by lia.
    revert L1 HAB. generalize A' B'. clear - F.
    induction F as [|x y l l' ((H1 & H2 & H3 & H4) & _) F IH]; intros A B LA HAB.
    + destruct A; [|discriminate]. inversion HAB; subst. constructor.
    + destruct A as [|a A]; [discriminate|]. inversion HAB as [|? b ? B0 Hab HAB']; subst.
      cbn [map2]. constructor.
      * split; [repeat split; assumption|exact Hab].
      * apply IH; [cbn in LA; lia|exact HAB'].
Qed.

(*@ C23 The solver advances the discrete heat equation in sub-steps that are positive, sum up
    exactly to the time step, never exceed the stability limit (0.8 times half the
    squared distance over the diffusivity, for every pair of neighbours), and are all as
    long as the limit of the tightest pair allows, except the last. *)
Lemma heat_substeps_cover_time_step_lem : forall (c : Consts) (g : Grid) (dt : R),
  constants_ok c -> counted g -> conductive c (g_nodes g) -> (3 <= length (g_nodes g))%nat ->
  exists (g' : Grid) (N : nat) (K taus : list R) (d : R),
    (forall fuel, (N <= fuel)%nat -> solveHeatEquation fuel c g dt = Ok g') /\
    get_thermal_diffusivity c g = Ok K /\
    heat_steps (heights (g_nodes g)) K taus (temperatures (g_nodes g)) (temperatures (g_nodes g')) /\
    sum_list taus = Rmax dt 0 /\
    Forall (fun tau => 0 < tau <= d /\ stable_step (heights (g_nodes g)) K tau) taus /\
    (forall front back, taus = front ++ [back] -> Forall (fun tau => tau = d) front) /\
    (exists i, (i + 1 < length (g_nodes g))%nat /\
       d * (at_layer K i + at_layer K (i + 1)) / 2
       = 0.8 * (((at_layer (heights (g_nodes g)) i + at_layer (heights (g_nodes g)) (i + 1)) / 2) ^ 2 / 2)).
Proof.
  intros c g dt Hc Hn Hk H3.
  destruct (solve_spec c g dt Hc Hn Hk H3) as (K & d & N & EK & LK & HK & Hd & Hst & Hb & taus & T' & HS & HF & HSum & Hl & W).
  exists (with_nodes g (map2 set_layer_temperature T' (g_nodes g))), N, K, taus, d.
  assert (Lt : length (temperatures (g_nodes g)) = length (g_nodes g)) by (unfold temperatures; apply map_length).
  assert (LT : length T' = length (g_nodes g)) by (rewrite (steps_length _ _ _ _ _ HS); exact Lt).
  split; [exact W|]. split.
  { unfold get_thermal_diffusivity. rewrite get_profile_counted by exact Hn. exact EK. }
  split.
  { cbn [g_nodes with_nodes]. fold (g_nodes g).
    replace (temperatures (map2 set_layer_temperature T' (g_nodes g))) with T'
      by (symmetry; apply temperatures_set; exact LT). exact HS. }
  split; [exact HSum|]. split; [|split; [exact Hl|exact Hb]].
  eapply Forall_impl; [|exact HF]. cbv beta. intros a Ha. split; [exact Ha|]. apply Hst. lra.
Qed.

(*@ C23 With fewer than three layers the solver raises: there is no distance to take the
    minimum of. *)
Lemma heat_needs_three_layers_lem : forall (c : Consts) (g : Grid) (dt : R) (fuel : nat),
  constants_ok c -> counted g -> conductive c (g_nodes g) -> (length (g_nodes g) < 3)%nat ->
  solveHeatEquation fuel c g dt = Err ValueError.
Proof.
  intros c g dt fuel Hc Hn Hk H3.
  destruct (diffusivities c (g_nodes g) Hc Hk) as (K & EK & LK & HK).
  unfold solveHeatEquation. rewrite get_height_counted by exact Hn. cbn [bind].
  unfold get_thermal_diffusivity. rewrite get_profile_counted by exact Hn. rewrite EK. cbn [bind].
  rewrite get_temperature_counted by exact Hn. cbn [bind].
  unfold get_number_layers. rewrite Hn, Nat2Z.id. unfold heat_dt_stab, centre_points.
  replace (length (g_nodes g) - 2)%nat with 0%nat by lia. reflexivity.
Qed.

(*@ C57 One sub-step exchanges heat between neighbours without loss if every layer's heat is
    counted over the distance between the midpoints of its two gaps: the sum over the
    layers 1 .. n changes by the fluxes through the two outer gaps. *)
Lemma heat_flux_balance_lem : forall (h K T T' : list R) (tau : R) (n : nat),
  heat_advance h K tau T T' -> (n + 1 < length T)%nat ->
  sum_upto (fun i => control_length h (i + 1) * (at_layer T' (i + 1) - at_layer T (i + 1))) n
  = tau * (conductive_flux h K T n - conductive_flux h K T 0).
Proof.
  intros h K T T' tau n HA Hn. rewrite <- (Nat.sub_0_r n) at 1.
  apply advance_balance; assumption.
Qed.

(** four layers of pure ice of different thickness, a temperature step in the middle *)
Definition ex_s1 : Node := mkNode 1 260 0 1 0.
Definition ex_s2 : Node := mkNode 2 261 0 1 0.
Definition ex_s3 : Node := mkNode 1 261 0 1 0.
Definition ex_step_grid : Grid := mkGrid [ex_s1; ex_s1; ex_s2; ex_s3] 4 0 0 0.

Lemma pure_ice_diffusivity n : n_ice n = 1 -> n_lwc n = 0 ->
  layer_thermal_diffusivity default_constants n = Ok (2.22 / (917 * 2050)).
Proof.
  intros Hi Hw. unfold layer_thermal_diffusivity, layer_thermal_conductivity, layer_density,
    layer_specific_heat, layer_air_porosity. rewrite Hi, Hw.
  rewrite Rmax_left by lra. cbn. rewrite fdiv_ok by lra. f_equal. field.
Qed.

(*@ C57 Counted over the layers' own thickness, heat is not conserved: in a column of pure ice
    (equal heat capacity everywhere) without temperature gradient at either end, one
    hour of conduction changes the sum of thickness times temperature. *)
Lemma heat_content_conserved_refuted_lem :
  exists (g g' : Grid),
    counted g /\ conductive default_constants (g_nodes g) /\ length (g_nodes g) = 4%nat /\
    Forall (fun n => n_ice n = 1 /\ n_lwc n = 0) (g_nodes g) /\
    at_layer (temperatures (g_nodes g)) 0 = at_layer (temperatures (g_nodes g)) 1 /\
    at_layer (temperatures (g_nodes g)) 2 = at_layer (temperatures (g_nodes g)) 3 /\
    (exists N, forall fuel, (N <= fuel)%nat ->
       solveHeatEquation fuel default_constants g 3600 = Ok g') /\
    column_heat (g_nodes g') < column_heat (g_nodes g).
Proof.
  set (g := ex_step_grid).
  assert (Hk : conductive default_constants (g_nodes g)).
  { split; [repeat constructor; cbn; lra|left; reflexivity]. }
  destruct (heat_substeps_cover_time_step_lem default_constants g 3600 default_ok eq_refl Hk ltac:(cbn; lia))
    as (g' & N & K & taus & d & W & EK & HS & HSum & HF & Hl & (i & Hi & Hd)).
  destruct (heat_maximum_principle_lem default_constants g 3600 default_ok eq_refl Hk ltac:(cbn; lia))
    as (g2 & N2 & W2 & HO & _).
  assert (g2 = g').
  { assert (A := W (N + N2)%nat ltac:(lia)). rewrite (W2 (N + N2)%nat ltac:(lia)) in A. congruence. }
  subst g2.
  set (k := 2.22 / (917 * 2050)) in *.
  assert (EK' : K = [k; k; k; k]).
  { unfold get_thermal_diffusivity in EK. rewrite get_profile_counted in EK by reflexivity.
    cbn [g_nodes g ex_step_grid map_res] in EK.
    rewrite !pure_ice_diffusivity in EK by reflexivity. cbn [bind] in EK. fold k in EK. congruence. }
  subst K.
  assert (Hdk : 300000 < d).
  { assert (Hkk : 0 < k < 1.19e-6) by (unfold k; split; lra).
    cbn [length g_nodes g ex_step_grid] in Hi.
    assert (d * k >= 0.4).
    { destruct i as [|[|[|i]]]; [| | |lia]; cbn in Hd; lra. }
    apply Rnot_le_lt. intros L.
    assert (d * k <= 300000 * k) by (apply Rmult_le_compat_r; lra). lra. }
  (* a single step *)
  assert (E1 : taus = [3600]).
  { rewrite Rmax_left in HSum by lra.
    destruct (@exists_last _ taus) as (front & back & E).
    { intros ->. rewrite sum_list_fold in HSum. cbn in HSum. lra. }
    assert (Hfr := Hl front back E). rewrite E in HF, HSum.
    apply Forall_app in HF. destruct HF as [_ HF2]. assert (Hb := Forall_inv HF2). cbv beta in Hb.
    destruct front as [|f front].
    - rewrite E. cbn [app] in *. rewrite sum_list_fold in HSum. cbn in HSum. f_equal. lra.
    - exfalso. assert (Hf0 := Forall_inv Hfr). cbv beta in Hf0.
      assert (0 <= sum_list front).
      { assert (Ht := Forall_inv_tail Hfr). clear - Ht Hdk. induction Ht as [|x l Hx F IH];
          [rewrite sum_list_fold; cbn; lra|]. rewrite sum_list_cons. lra. }
      cbn [app] in HSum. rewrite sum_list_cons, sum_list_app, sum_list_cons in HSum.
      assert (sum_list [] = 0) by (rewrite sum_list_fold; reflexivity). lra. }
  subst taus. inversion HS as [|? ? ? T1 ? HA HR E2 E3]; subst. inversion HR; subst.
  destruct HA as (LT & A0 & A3 & HA).
  assert (B1 := HA 1%nat ltac:(cbn; lia)). assert (B2 := HA 2%nat ltac:(cbn; lia)).
  exists g, g'. split; [reflexivity|]. split; [exact Hk|]. split; [reflexivity|].
  split; [repeat constructor|]. split; [reflexivity|]. split; [reflexivity|].
  split; [exists N; exact W|].
  (* unfold everything *)
  inversion HO as [|? y1 ? l1 O1 HO1]; subst. inversion HO1 as [|? y2 ? l2 O2 HO2]; subst.
  inversion HO2 as [|? y3 ? l3 O3 HO3]; subst. inversion HO3 as [|? y4 ? l4 O4 HO4]; subst.
  inversion HO4; subst.
  destruct O1 as (O1 & _), O2 as (O2 & _), O3 as (O3 & _), O4 as (O4 & _).
  match goal with H : [y1; y2; y3; y4] = g_nodes g' |- _ => rewrite <- H in A0, A3, B1, B2 end.
  unfold control_length, conductive_flux in B1, B2. cbn in A0, A3, B1, B2, O1, O2, O3, O4.
  unfold column_heat. rewrite !total_cons, !total_nil. rewrite O1, O2, O3, O4. cbn.
  assert (0 < k) by (unfold k; lra).
  assert (B1' : n_temperature y2 - 260 = 3600 * k / 1.5 / 1.25) by lra.
  assert (B2' : n_temperature y3 - 261 = - (3600 * k / 1.5 / 1.5)) by lra.
  lra.
Qed.

(*@ex the example column meets the hypotheses *)
Lemma heat_example_lem :
  constants_ok default_constants /\ counted ex_heat_grid /\
  conductive default_constants (g_nodes ex_heat_grid) /\ (3 <= length (g_nodes ex_heat_grid))%nat /\
  Forall (fun n => 263 <= n_temperature n <= 270) (g_nodes ex_heat_grid).
Proof.
  split; [exact default_ok|]. split; [reflexivity|]. split; [|split; [cbn; lia|repeat constructor; cbn; lra]].
  split; [repeat constructor; cbn; lra|left; reflexivity].
Qed.
