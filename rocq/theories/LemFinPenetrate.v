(** * Penetrating radiation in portions (C131) *)
From Verif Require Import ModelPy ModelConstants ModelNode ModelGrid ModelRadiation Spec LemPy LemGridBase LemRadiation LemFinRadiation.

Lemma heated_product c dt e dt' e' x : e * dt = e' * dt' -> heated c dt e x = heated c dt' e' x.
Proof. intros E. unfold heated. rewrite E. reflexivity. Qed.

Lemma sunlit_unique c dt e dt' e' x y m y' m' : e * dt = e' * dt' -> 0 < n_height x ->
  sunlit c dt e x y m -> sunlit c dt' e' x y' m' -> y = y' /\ m = m'.
Proof.
  intros E P A B. assert (H := heated_product c dt e dt' e' x E).
  assert (M : melted_share c dt e x = melted_share c dt' e' x) by (unfold melted_share; rewrite H; reflexivity).
  inversion A as [A1|s x1 A1 A2 A3 A4 A5 A6 A7 A8|s A1 A2 A3]; inversion B as [B1|s' x2 B1 B2 B3 B4 B5 B6 B7 B8|s' B1 B2 B3]; subst; try lra.
  - rewrite H. auto.
  - rewrite M in *. split; [|reflexivity]. f_equal. destruct x1 as [h1 t1 w1 f1 r1], x2 as [h2 t2 w2 f2 r2]; cbn in *. subst.
    f_equal. assert (Q : 0 < (1 - melted_share c dt' e' x) * n_height x) by (apply Rmult_lt_0_compat; lra).
    apply Rmult_eq_reg_r with ((1 - melted_share c dt' e' x) * n_height x); lra.
  - rewrite M. auto.
Qed.

Lemma column_unique c dt es l l1 m1 : sunlit_column c dt es l l1 m1 -> forall dt' es' l2 m2,
  map (fun e => e * dt) es = map (fun e => e * dt') es' -> layers_ok l ->
  sunlit_column c dt' es' l l2 m2 -> l1 = l2 /\ m1 = m2.
Proof.
  induction 1 as [|e es x l y l' m m' H _ IH]; intros dt' es' l2 m2 E P S; inversion S as [|e2 es2 x2 l2' y2 l2'' m2' m2'' H2 S2]; subst; [auto|].
  cbn in E. injection E as E0 E. destruct (sunlit_unique c dt e dt' e2 x y m y2 m2' E0 (proj1 (Forall_inv P)) H H2) as (-> & ->).
  destruct (IH dt' es2 l2'' m2'' E (Forall_inv_tail P) S2) as (-> & ->). auto.
Qed.

(*@ C131 The effect of the penetrating radiation depends only on the radiation per area, net radiation times time: the same amount in a shorter time gives the same column and the same reported melt. *)
Lemma radiation_amount_lem :
  forall (c : Consts) (g g1 g2 : Grid) (SW1 dt1 SW2 dt2 melt1 Si1 melt2 Si2 : R),
    constants_ok c -> counted g -> layers_ok (g_nodes g) -> g_nodes g <> [] ->
    SW1 * dt1 = SW2 * dt2 ->
    method_Bintanja c g SW1 dt1 = Ok (g1, melt1, Si1) -> method_Bintanja c g SW2 dt2 = Ok (g2, melt2, Si2) ->
    g1 = g2 /\ melt1 = melt2.
Proof.
  intros c g g1 g2 SW1 dt1 SW2 dt2 m1 S1 m2 S2 Hc Hn HL NE E A B.
  destruct (exists_last NE) as (l & z & Ez).
  assert (Ht : exists top, hd_error (g_nodes g) = Some top) by (destruct (g_nodes g); [congruence|eexists; reflexivity]).
  destruct Ht as (top & Ht).
  destruct (bintanja_exact_lem c g SW1 dt1 top z l Hc Hn HL Ez Ht) as (h1 & l1 & n1 & A1 & A2 & A3 & A4 & A5 & A6 & A7).
  destruct (bintanja_exact_lem c g SW2 dt2 top z l Hc Hn HL Ez Ht) as (h2 & l2 & n2 & B1 & B2 & B3 & B4 & B5 & B6 & B7).
  rewrite A in A1. injection A1 as -> -> _. rewrite B in B1. injection B1 as -> -> _.
  assert (PL : layers_ok l) by (unfold layers_ok in *; rewrite Ez in HL; apply Forall_app in HL; apply HL).
  assert (U : l1 = l2 /\ n1 = n2); [|destruct U as (-> & ->)].
  - refine (column_unique c dt1 _ l l1 n1 A2 dt2 _ l2 n2 _ PL B2). rewrite !map_map. apply map_ext. intros i.
    replace (SW1 * penetrating_share c top * absorbed_share (extinction c top) l i * dt1)
      with (SW1 * dt1 * (penetrating_share c top * absorbed_share (extinction c top) l i)) by ring.
    rewrite E. ring.
  - split; [|reflexivity]. unfold counted in *. destruct h1, h2; cbn in *. subst. f_equal; congruence.
Qed.

Lemma sunlit_none c dt e x y m : constants_ok c -> 0 < n_height x -> 0 < n_ice x -> sunlit c dt e x y m ->
  0 <= m /\ (m = 0 -> heated c dt e x <= c_zero_temperature c).
Proof.
  intros Hc P I A. destruct Hc. inversion A as [A1|s x1 A1 A2 A3 A4 A5 A6 A7 A8|s A1 A2 A3]; subst.
  - split; [lra|auto].
  - assert (S0 : 0 < melted_share c dt e x).
    { unfold melted_share. apply Rdiv_lt_0_compat.
      - apply Rmult_lt_0_compat; lra.
      - lra. }
    assert (Q : 0 < (1 - melted_share c dt e x) * (melted_share c dt e x * n_ice x * n_height x * c_ice_density c / c_water_density c)).
    { apply Rmult_lt_0_compat; [lra|]. apply Rdiv_lt_0_compat; [|lra]. apply Rmult_lt_0_compat; [|lra]. apply Rmult_lt_0_compat; [|lra]. apply Rmult_lt_0_compat; lra. }
    split; lra.
  - assert (S0 : 0 < melted_share c dt e x) by lra.
    assert (Q : 0 < melted_share c dt e x * n_ice x * n_height x * c_ice_density c / c_water_density c).
    { apply Rdiv_lt_0_compat; [|lra]. apply Rmult_lt_0_compat; [|lra]. apply Rmult_lt_0_compat; [|lra]. apply Rmult_lt_0_compat; lra. }
    split; lra.
Qed.

(** nothing melts *)
Definition warmed (c : Consts) (dt e : R) (x : Node) : Node :=
  mkNode (n_height x) (heated c dt e x) (n_lwc x) (n_ice x) (n_refreeze x).

Lemma column_none c dt es l l' m : constants_ok c -> layers_ok l -> sunlit_column c dt es l l' m -> 0 <= m /\
  (m = 0 -> Forall2 (fun e x => heated c dt e x <= c_zero_temperature c) es l /\ l' = map2 (warmed c dt) es l).
Proof.
  intros Hc HL S. induction S as [|e es x l y l' m m' H S IH]; [split; [lra|intros _; split; [constructor|reflexivity]]|].
  destruct (Forall_inv HL) as (P1 & P2 & P3). destruct (sunlit_none c dt e x y m Hc P1 P2 H) as (M0 & M1).
  destruct (IH (Forall_inv_tail HL)) as (M2 & M3). split; [lra|]. intros E.
  assert (m = 0 /\ m' = 0) by lra. destruct (M3 ltac:(tauto)) as (F & ->). specialize (M1 ltac:(tauto)).
  split; [constructor; assumption|]. inversion H; subst; [|lra|lra]. reflexivity.
Qed.

Lemma column_warm c dt es l : Forall2 (fun e x => heated c dt e x <= c_zero_temperature c) es l ->
  sunlit_column c dt es l (map2 (warmed c dt) es l) 0.
Proof.
  induction 1 as [|e x es l H F IH]; [constructor|]. cbn [map2].
  replace 0 with (0 + 0) by ring. apply (sunlit_cons c dt e es x l [warmed c dt e x] _ 0 0); [constructor; exact H|exact IH].
Qed.

Lemma warmed_length c dt l : forall es, length es = length l -> length (map2 (warmed c dt) es l) = length l.
Proof. induction l as [|x l IH]; intros [|e es] L; cbn in L; try lia; [reflexivity|]. cbn. rewrite IH by lia. reflexivity. Qed.

Lemma warmed_density c dt e x : layer_density c (warmed c dt e x) = layer_density c x.
Proof. reflexivity. Qed.

Lemma heated_twice c dt e e' x : constants_ok c -> 0 < n_height x -> 0 < layer_density c x ->
  heated c dt e' (warmed c dt e x) = heated c dt (e + e') x.
Proof.
  intros Hc P D. destruct Hc. unfold heated. cbn [warmed n_temperature n_height]. rewrite warmed_density. unfold heated. field. repeat split; lra.
Qed.

Lemma warmed_shares k c dt es l i : length es = length l -> absorbed_share k (map2 (warmed c dt) es l) i = absorbed_share k l i.
Proof.
  intros L. assert (N : forall j, centre_depth (map2 (warmed c dt) es l) j = centre_depth l j).
  { intros j. unfold centre_depth. revert es L. assert (G : forall l es, length es = length l -> forall j,
      option_map n_height (nth_error (map2 (warmed c dt) es l) j) = option_map n_height (nth_error l j) /\
      column_height (firstn j (map2 (warmed c dt) es l)) = column_height (firstn j l)).
    { clear. induction l as [|x l IH]; intros [|e es] L j; cbn in L; try lia; [destruct j; split; reflexivity|].
      destruct j; [split; reflexivity|]. cbn [map2 nth_error firstn]. destruct (IH es ltac:(lia) j) as (A & B). split; [exact A|].
      unfold column_height, total in *. cbn. rewrite B. reflexivity. }
    intros es L. destruct (G l es L j) as (A & B). rewrite B.
    destruct (nth_error (map2 (warmed c dt) es l) j), (nth_error l j); cbn in A; try discriminate; [|reflexivity].
    injection A as ->. reflexivity. }
  unfold absorbed_share. destruct i; rewrite ?N; reflexivity.
Qed.

(*@ C131 Radiation that melts nothing may be given in portions: if the column reports no melt for the whole, then the parts, one after the other, report none either and leave the same column, and what penetrates adds up. *)
Lemma radiation_in_portions_lem :
  forall (c : Consts) (g g' : Grid) (first second dt Si : R),
    constants_ok c -> counted g -> layers_ok (g_nodes g) -> g_nodes g <> [] ->
    0 <= first -> 0 <= second -> 0 <= dt ->
    method_Bintanja c g (first + second) dt = Ok (g', 0, Si) ->
    exists g1 Si1 Si2, method_Bintanja c g first dt = Ok (g1, 0, Si1) /\
      method_Bintanja c g1 second dt = Ok (g', 0, Si2) /\ Si1 + Si2 = Si.
Proof.
  intros c g g' a b dt Si Hc Hn HL NE Ha Hb Hd E.
  destruct (exists_last NE) as (l & z & Ez).
  assert (Ht : exists top, hd_error (g_nodes g) = Some top) by (destruct (g_nodes g); [congruence|eexists; reflexivity]).
  destruct Ht as (top & Ht).
  assert (PL : layers_ok l) by (unfold layers_ok in *; rewrite Ez in HL; apply Forall_app in HL; apply HL).
  destruct (bintanja_exact_lem c g (a + b) dt top z l Hc Hn HL Ez Ht) as (h0 & l0 & m0 & A1 & A2 & A3 & A4 & A5).
  rewrite E in A1. injection A1 as <- <- ->.
  destruct (column_none c dt _ l l0 0 Hc PL A2) as (_ & W). destruct (W eq_refl) as (W1 & ->). clear W.
  destruct (bintanja_exact_lem c g a dt top z l Hc Hn HL Ez Ht) as (g1 & l1 & m1 & B1 & B2 & B3 & B4 & B5).
  set (E0 := fun SW => map (fun i => SW * penetrating_share c top * absorbed_share (extinction c top) l i) (seq 0 (length l))) in *.
  change (map _ _) with (E0 (a + b)) in A2. change (map _ _) with (E0 (a + b)) in W1. change (map _ _) with (E0 a) in B2.
  assert (LE : forall SW, length (E0 SW) = length l) by (intros; unfold E0; rewrite map_length, seq_length; reflexivity).
  destruct (bintanja_shares_lem c top l PL) as (SH & _ & SP).
  assert (DN : forall x, In x l -> 0 < n_height x /\ 0 < layer_density c x).
  { intros x Hx. unfold layers_ok in PL. rewrite Forall_forall in PL. destruct (PL x Hx) as (Q1 & Q2 & Q3). split; [exact Q1|].
    apply LemHeat.density_positive; assumption. }
  (* the parts heat each layer less *)
  assert (Q : Forall2 (fun e x => heated c dt e x <= c_zero_temperature c) (E0 a) l /\
     map2 (warmed c dt) (E0 b) (map2 (warmed c dt) (E0 a) l) = map2 (warmed c dt) (E0 (a + b)) l /\
     Forall2 (fun e x => heated c dt e x <= c_zero_temperature c) (E0 b) (map2 (warmed c dt) (E0 a) l)).
  { unfold E0 in W1 |- *. revert W1 SH. generalize (seq 0 (length l)) as is.
    generalize (absorbed_share (extinction c top) l) as sh. clear - DN Hc Ha Hb Hd SP. 
    induction l as [|x l IH]; intros sh [|i is] W1 SH; cbn [map] in W1 |- *.
    - repeat split; constructor.
    - exfalso. inversion W1.
    - exfalso. inversion W1.
    - assert (W0 : heated c dt ((a + b) * penetrating_share c top * sh i) x <= c_zero_temperature c /\
        Forall2 (fun e x => heated c dt e x <= c_zero_temperature c) (map (fun i => (a + b) * penetrating_share c top * sh i) is) l)
        by (inversion W1; auto).
      destruct W0 as (H0 & W2).
      destruct (IH ltac:(intros y Hy; apply DN; right; exact Hy) sh is W2 (Forall_inv_tail SH)) as (I1 & I2 & I3).
      destruct (DN x ltac:(left; reflexivity)) as (D1 & D2). assert (S0 := Forall_inv SH). cbv beta in S0.
      set (p := penetrating_share c top) in *.
      assert (HX : heated c dt (b * p * sh i) (warmed c dt (a * p * sh i) x) = heated c dt ((a + b) * p * sh i) x).
      { rewrite heated_twice by assumption. f_equal. ring. }
      assert (LE : heated c dt (a * p * sh i) x <= heated c dt ((a + b) * p * sh i) x).
      { unfold heated. apply Rplus_le_compat_l. destruct Hc. apply Rmult_le_compat_r.
        - apply Rlt_le, Rinv_0_lt_compat. repeat apply Rmult_lt_0_compat; lra.
        - apply Rmult_le_compat_r; [exact Hd|]. apply Rmult_le_compat_r; [exact S0|]. apply Rmult_le_compat_r; lra. }
      cbn [map2]. split; [constructor; [lra|exact I1]|]. split; [|constructor; [rewrite HX; exact H0|exact I3]].
      f_equal; [|exact I2]. unfold warmed at 1 3. rewrite HX. reflexivity. }
  destruct Q as (Q1 & Q2 & Q3).
  destruct (column_unique c dt _ l l1 m1 B2 dt (E0 a) (map2 (warmed c dt) (E0 a) l) 0 eq_refl PL (column_warm _ _ _ _ Q1)) as (-> & ->).
  exists g1, (a * penetrating_share c top), (b * penetrating_share c top). split; [exact B1|].
  set (l1 := map2 (warmed c dt) (E0 a) l) in *.
  assert (LL : length l1 = length l) by (apply warmed_length, LE).
  assert (HL1 : layers_ok (g_nodes g1)).
  { unfold layers_ok in *. rewrite B3. rewrite Ez in HL. apply Forall_app in HL. apply Forall_app. split; [|apply HL].
    unfold l1. clear - PL LE. specialize (LE a). revert LE. generalize (E0 a). induction l as [|x l IH]; intros [|e es] L; cbn in L; try lia; constructor.
    - exact (Forall_inv PL).
    - apply IH; [exact (Forall_inv_tail PL)|lia]. }
  assert (Ht1 : exists top1, hd_error (g_nodes g1) = Some top1 /\ layer_density c top1 = layer_density c top).
  { rewrite B3. rewrite Ez in Ht. unfold l1. specialize (LE a). destruct l as [|x l].
    - cbn in *. exists top. split; [destruct (E0 a); exact Ht|reflexivity].
    - destruct (E0 a) as [|e es]; [discriminate|]. cbn in *. injection Ht as ->. eexists. split; [reflexivity|reflexivity]. }
  destruct Ht1 as (top1 & Ht1 & Dt).
  destruct (bintanja_exact_lem c g1 b dt top1 z l1 Hc B4 HL1 B3 Ht1) as (g2 & l2 & m2 & C1 & C2 & C3 & C4 & C5).
  assert (PS : penetrating_share c top1 = penetrating_share c top) by (unfold penetrating_share; rewrite Dt; reflexivity).
  assert (EX : extinction c top1 = extinction c top) by (unfold extinction; rewrite Dt; reflexivity).
  assert (EB : map (fun i => b * penetrating_share c top1 * absorbed_share (extinction c top1) l1 i) (seq 0 (length l1)) = E0 b).
  { unfold E0. rewrite LL, PS, EX. apply map_ext. intros i. unfold l1. rewrite warmed_shares by apply LE. reflexivity. }
  rewrite EB in C2.
  assert (PL1 : layers_ok l1) by (unfold layers_ok in *; rewrite B3 in HL1; apply Forall_app in HL1; apply HL1).
  destruct (column_unique c dt _ l1 l2 m2 C2 dt (E0 b) (map2 (warmed c dt) (E0 b) l1) 0 eq_refl PL1 (column_warm _ _ _ _ Q3)) as (-> & ->).
  rewrite Q2 in C3. split.
  - assert (EG : g2 = g').
    { destruct A5 as (X1 & X2 & X3), B5 as (Y1 & Y2 & Y3), C5 as (Z1 & Z2 & Z3). unfold counted in *. destruct g2, g'; cbn in *. subst. f_equal; congruence. }
    rewrite <- EG, <- PS. exact C1.
  - ring.
Qed.

(*@ex C131 Two layers ten degrees below the melting point under weak radiation report no melt. *)
Lemma portions_example_lem :
  exists (g g' : Grid) (Si : R),
    constants_ok default_constants /\ counted g /\ layers_ok (g_nodes g) /\ g_nodes g <> [] /\
    method_Bintanja default_constants g (1 + 1) 1 = Ok (g', 0, Si) /\ 0 < Si.
Proof.
  set (x := mkNode (1/10) (27316/100 - 10) 0 (4/10) 0). set (g := mkGrid [x; x] 2 0 0 0).
  assert (HL : layers_ok (g_nodes g)) by (repeat constructor; unfold x; cbn; lra).
  assert (HL1 : layers_ok [x]) by (repeat constructor; unfold x; cbn; lra).
  destruct (bintanja_exact_lem default_constants g (1 + 1) 1 x x [x] default_ok eq_refl HL eq_refl eq_refl) as (g' & l' & m & A1 & A2 & _).
  destruct (bintanja_shares_lem default_constants x [x] HL1) as (S1 & S2 & S3).
  cbn [length seq map] in A2, S1, S2. apply Forall_inv in S1. cbn in S2.
  set (sh := absorbed_share (extinction default_constants x) [x] 0) in *.
  set (p := penetrating_share default_constants x) in *.
  assert (D : 366 < layer_density default_constants x).
  { unfold layer_density. unfold layer_air_porosity. unfold x. cbn. rewrite Rmax_right by lra. lra. }
  assert (W : heated default_constants 1 ((1 + 1) * p * sh) x <= c_zero_temperature default_constants).
  { unfold heated. set (rho := layer_density default_constants x) in *.
    assert (Q : (1 + 1) * p * sh * 1 / (rho * c_spec_heat_ice default_constants * n_height x) <= 1).
    { assert (0 <= p * sh <= 1) by (split; [apply Rmult_le_pos; lra|]; rewrite <- (Rmult_1_r 1); apply Rmult_le_compat; lra).
      assert (N : 10 < rho * c_spec_heat_ice default_constants * n_height x) by (unfold x; cbn; lra).
      set (v := rho * c_spec_heat_ice default_constants * n_height x) in *.
      apply Rmult_le_reg_r with v; [lra|]. unfold Rdiv. rewrite Rmult_assoc, Rinv_l by lra. lra. }
    unfold x at 1. cbn [n_temperature]. cbn [c_zero_temperature default_constants]. lra. }
  assert (F : Forall2 (fun e x => heated default_constants 1 e x <= c_zero_temperature default_constants) [(1 + 1) * p * sh] [x]) by (constructor; [exact W|constructor]).
  destruct (column_unique default_constants 1 _ [x] l' m A2 1 _ _ _ eq_refl HL1 (column_warm default_constants 1 _ [x] F)) as (_ & ->).
  exists g, g', ((1 + 1) * p). split; [exact default_ok|]. split; [reflexivity|]. split; [exact HL|]. split; [discriminate|].
  split; [exact A1|]. apply Rmult_lt_0_compat; lra.
Qed.
