(** * Layer heights after log_profile *)
From Verif Require Import ModelPy ModelConstants ModelNode ModelGrid Spec SpecRemesh LemPy LemGridBase
  LemMerge LemCorrect LemLog LemGridOps LemGridMore.

Definition cls (c : Consts) (b : bool) (n : Node) : Prop := dry n /\ snowb c n = b.

Lemma dry_density c n : dry n -> layer_density c n = n_ice n * c_ice_density c + (1 - n_ice n) * c_air_density c.
Proof.
  intros (_ & [A B] & W). unfold layer_density, layer_air_porosity. rewrite W. rewrite Rmax_right by lra. ring.
Qed.

Lemma merger_dry a b m : dry a -> dry b -> merger a b m -> dry m.
Proof.
  intros (Ha & [Ia Ja] & Wa) (Hb & [Ib Jb] & Wb) (E1 & E2 & E3 & _). split; [lra|]. rewrite Wa, Wb in E3. split.
  - split; nra.
  - assert (P : 0 < n_height m) by lra. assert (Q : n_lwc m * n_height m = 0) by lra. apply Rmult_integral in Q. lra.
Qed.

Lemma merger_cls c b x y m : cls c b x -> cls c b y -> merger x y m -> cls c b m.
Proof.
  intros [Dx Sx] [Dy Sy] M. pose proof (merger_dry _ _ _ Dx Dy M) as Dm. split; [exact Dm|]. unfold snowb in *.
  rewrite (dry_density c _ Dm). rewrite (dry_density c _ Dx) in Sx. rewrite (dry_density c _ Dy) in Sy.
  destruct M as (E1 & E2 & _). destruct Dx as (Hx & _), Dy as (Hy & _), Dm as (Hm & _).
  set (r := c_ice_density c) in *. set (q := c_air_density c) in *. set (t := c_snow_ice_threshold c) in *.
  assert (E : (n_ice m * r + (1 - n_ice m) * q - t) * n_height m =
              (n_ice x * r + (1 - n_ice x) * q - t) * n_height x + (n_ice y * r + (1 - n_ice y) * q - t) * n_height y).
  { replace ((n_ice m * r + (1 - n_ice m) * q - t) * n_height m) with ((n_ice m * n_height m) * (r - q) + n_height m * (q - t)) by ring.
    rewrite E2, E1. ring. }
  revert E. generalize (n_ice m * r + (1 - n_ice m) * q) as dm. intros dm E.
  destruct b.
  - destruct (Rltb_spec (n_ice x * r + (1 - n_ice x) * q) t) as [L1|L1]; [|discriminate].
    destruct (Rltb_spec (n_ice y * r + (1 - n_ice y) * q) t) as [L2|L2]; [|discriminate].
    apply Rltb_true. nra.
  - destruct (Rltb_spec (n_ice x * r + (1 - n_ice x) * q) t) as [L1|L1]; [discriminate|].
    destruct (Rltb_spec (n_ice y * r + (1 - n_ice y) * q) t) as [L2|L2]; [discriminate|].
    apply Rltb_false. nra.
Qed.

Lemma parts_cls c b h m x0 x1 : cls c b m -> 0 < h < n_height m -> parts h m x0 x1 -> cls c b x0 /\ cls c b x1.
Proof.
  intros [D Sb] Hh (H0 & H1 & I0 & I1 & _ & _ & W & W0 & _). destruct D as (Hm & [Ia Ib] & Wm).
  rewrite Wm, (Rmin_left 0) in W0 by (apply irreducible_nonneg; lra).
  assert (Z0 : n_lwc x0 = 0). { assert (Q : n_lwc x0 * n_height x0 = 0) by lra. apply Rmult_integral in Q. lra. }
  assert (Z1 : n_lwc x1 = 0). { assert (Q : n_lwc x1 * n_height x1 = 0) by (rewrite Wm, Z0 in W; lra). apply Rmult_integral in Q. lra. }
  assert (D0 : dry x0) by (repeat split; lra). assert (D1 : dry x1) by (repeat split; lra).
  assert (Dm : dry m) by (repeat split; lra).
  unfold cls, snowb in *. rewrite (dry_density c _ D0), (dry_density c _ D1), I0, I1. rewrite (dry_density c _ Dm) in Sb. auto.
Qed.

Lemma absorbs_cls c b h : forall l a m, absorbs c h a l m -> cls c b a -> Forall (fun n => dry n) l ->
  cls c b m /\ Forall (cls c b) l /\ n_height m = n_height a + column_height l.
Proof.
  intros l a m A. induction A as [a|a x l m1 m L SC M A IH]; intros Ca D.
  - split; [exact Ca|]. split; [constructor|]. unfold column_height. rewrite total_nil. lra.
  - pose proof (Forall_inv D) as Dx. pose proof (Forall_inv_tail D) as Dl. cbn beta in Dx.
    assert (Cx : cls c b x).
    { split; [exact Dx|]. destruct Ca as [_ Sa]. revert Sa. destruct (snowb_spec c a), (snowb_spec c x); intros <-; try reflexivity; unfold same_class in SC; tauto. }
    destruct (IH (merger_cls c b a x m1 Ca Cx M) Dl) as (C1 & C2 & C3). split; [exact C1|]. split; [constructor; auto|].
    destruct M as (E1 & _). unfold column_height in *. rewrite total_cons. lra.
Qed.

Lemma cls_forall_dry c b l : Forall (cls c b) l -> Forall (fun n => dry n) l.
Proof. intros H. eapply Forall_impl; [|exact H]. intros n [D _]. exact D. Qed.

Lemma cls_positive c b l : Forall (cls c b) l -> positive_heights l.
Proof. intros H. eapply Forall_impl; [|exact H]. intros n [(D & _) _]. exact D. Qed.

(** resizing the first layer of a homogeneous dry pack that is thick enough *)
Lemma correct_cls fuel c g pre a l suf h b :
  g_nodes g = pre ++ (a :: l) ++ suf -> counted g -> Forall (cls c b) (a :: l) -> Forall (cls c (negb b)) suf ->
  0 < h <= column_height (a :: l) -> (S (length (l ++ suf)) < fuel)%nat ->
  exists g' x l', correct_layer fuel c g (Z.of_nat (length pre)) h = Ok g' /\
    g_nodes g' = pre ++ x :: l' ++ suf /\ n_height x = h /\ Forall (cls c b) (x :: l') /\
    column_height l' = column_height (a :: l) - h.
Proof.
  intros Hg Hc HC HS Hh Hf.
  assert (Dl : Forall (fun n => dry n) (l ++ suf)).
  { apply Forall_app. split; [apply (cls_forall_dry c b); inversion HC; auto|apply (cls_forall_dry c (negb b)); auto]. }
  assert (Ca : cls c b a) by (inversion HC; auto).
  destruct (correct_layer_spec fuel c g pre a (l ++ suf) h) as (g' & m & taken & rest & out & W & C & K & E & A & G & F); auto; try lra.
  { constructor; [destruct Ca as [(? & ? & _) _]; lra|]. eapply Forall_impl; [|exact Dl]. intros n (? & ? & _); lra. }
  assert (Dt : Forall (fun n => dry n) taken) by (rewrite E in Dl; apply Forall_app in Dl; tauto).
  destruct (absorbs_cls c b h taken a m A Ca Dt) as (Cm & Ct & Hm).
  (* what is taken is part of l *)
  assert (T : exists l2, l = taken ++ l2 /\ rest = l2 ++ suf).
  { clear - E Ct HS. revert taken rest E Ct. induction l as [|y l IH]; intros [|t taken] rest E Ct; cbn in E.
    - exists []. auto.
    - exfalso. destruct suf as [|z suf]; [discriminate|]. injection E as -> _. pose proof (Forall_inv Ct) as [_ X]. pose proof (Forall_inv HS) as [_ Y].
      rewrite X in Y. destruct b; discriminate.
    - exists (y :: l). auto.
    - injection E as <- E. destruct (IH taken rest E) as (l2 & -> & ->); [exact (Forall_inv_tail Ct)|]. exists l2. auto. }
  destruct T as (l2 & -> & ->).
  assert (C2 : Forall (cls c b) l2) by (pose proof (Forall_inv_tail HC) as X; apply Forall_app in X; tauto).
  assert (HT : column_height (a :: taken ++ l2) = n_height m + column_height l2).
  { unfold column_height in *. rewrite total_cons, total_app. lra. }
  rewrite HT in Hh |- *.
  destruct F as [(L & x0 & x1 & -> & P)|[(L & ->)|(L & -> & R)]].
  - destruct (parts_cls c b h m x0 x1 Cm ltac:(lra) P) as [P0 P1]. exists g', x0, (x1 :: l2). split; [exact W|]. split; [rewrite G; reflexivity|].
    destruct P as (H0 & H1 & _). split; [exact H0|]. split; [constructor; [exact P0|]; constructor; [exact P1|exact C2]|]. unfold column_height in *. rewrite total_cons. lra.
  - exists g', m, l2. split; [exact W|]. split; [rewrite G; reflexivity|]. split; [exact L|]. split; [constructor; [exact Cm|exact C2]|]. lra.
  - exfalso. destruct l2 as [|y l2].
    + unfold column_height in Hh. rewrite total_nil in Hh. lra.
    + destruct R as [R|(y' & t & R & NS)]; [discriminate|]. injection R as <- _. apply NS.
      pose proof (Forall_inv C2) as [_ Y]. destruct Cm as [_ X]. unfold same_class. destruct (snowb_spec c m), (snowb_spec c y); try tauto; congruence.
Qed.

Section Heights.
Variable c : Consts.
Variable g0 : Grid.
Variable b : bool.
Variables pre suf : list Node.
Variables f H : R.
Notation s := (c_layer_stretching c).
Hypothesis Hf : 0 < f.
Hypothesis Hfirst : 0 < c_first_layer_height c.
Hypothesis Hs : 1 <= s.
Hypothesis Hsuf : Forall (cls c (negb b)) suf.

Definition phase_a (idx : Z) (hrest last : R) (top rest : list Node) (k : nat) : Prop :=
  idx = Z.of_nat (length pre + k) /\ last = target f s k /\ map n_height top = map (target f s) (seq 0 k) /\
  hrest = column_height rest.

Definition phase_b (idx : Z) (hrest last : R) (top rest : list Node) (k : nat) : Prop :=
  (Z.of_nat (length pre + k) < idx)%Z /\ last = target f s k /\ map n_height top = map (target f s) (seq 0 (k - 1)) /\
  reach f s k < H /\ hrest = H - reach f s k /\ hrest < last /\
  exists x more, rest = x :: more /\ ((0 < k)%nat -> target f s (k - 1) < n_height x).

Definition hinv (t : log_state) : Prop :=
  let '(g, idx, hrest, last) := t in
  exists top rest k, g_nodes g = pre ++ (top ++ rest) ++ suf /\ Forall (cls c b) (top ++ rest) /\
    column_height (top ++ rest) = H /\ (phase_a idx hrest last top rest k \/ phase_b idx hrest last top rest k).

Lemma target_pos k : 0 < target f s k.
Proof. unfold target. apply Rmult_lt_0_compat; [exact Hf|]. apply pow_lt. lra. Qed.

Lemma targets_reach top k : map n_height top = map (target f s) (seq 0 k) -> column_height top = reach f s k.
Proof.
  revert top. unfold reach, column_height. induction k as [|k IH]; intros top E.
  - destruct top; [reflexivity|discriminate].
  - rewrite seq_S, map_app in E. cbn [map sum_upto] in *. rewrite Nat.add_0_l in E.
    destruct (exists_last (l := top)) as (t & x & ->).
    { intros ->. cbn in E. symmetry in E. apply app_eq_nil in E. destruct E; discriminate. }
    rewrite map_app in E. cbn [map] in E. apply app_inj_tail in E. destruct E as [E1 E2].
    rewrite total_app, total_cons, total_nil, (IH t E1), E2. lra.
Qed.

Lemma targets_length top k : map n_height top = map (target f s) (seq 0 k) -> length top = k.
Proof. intros E. apply (f_equal (@length R)) in E. rewrite !map_length, seq_length in E. exact E. Qed.

Lemma phase_a_correct fuel g idx hrest last top rest k :
  counted g -> (length (g_nodes g) < fuel)%nat ->
  g_nodes g = pre ++ (top ++ rest) ++ suf -> Forall (cls c b) (top ++ rest) -> column_height (top ++ rest) = H ->
  phase_a idx hrest last top rest k -> rest <> [] -> last <= hrest ->
  forall g1, correct_layer fuel c g idx last = Ok g1 -> hinv (g1, (idx + 1)%Z, hrest - last, s * last).
Proof.
  intros Hc HF Hg HC HH (Ei & El & Et & Eh) Hne Hl g1 Hg1. destruct rest as [|a l]; [congruence|].
  pose proof (targets_length _ _ Et) as Lt. apply Forall_app in HC. destruct HC as [HC1 HC2].
  destruct (correct_cls fuel c g (pre ++ top) a l suf last b) as (g' & x & l' & W & G & Hx & C' & H'); auto.
  { rewrite Hg, <- !app_assoc. reflexivity. }
  { rewrite <- Eh. pose proof (target_pos k). lra. }
  { rewrite Hg, !app_length in HF. cbn [length] in HF. rewrite app_length. lia. }
  replace (Z.of_nat (length (pre ++ top))) with idx in W by (rewrite app_length; lia). rewrite W in Hg1. injection Hg1 as <-.
  exists (top ++ [x]), l', (S k). split; [rewrite G, <- !app_assoc; reflexivity|]. pose proof (Forall_inv C') as Cx. pose proof (Forall_inv_tail C') as Cl.
  split; [repeat (apply Forall_app; split); auto|]. split.
  { unfold column_height in *. rewrite !total_app, !total_cons, total_nil in *. lra. }
  left. split; [lia|]. split; [rewrite El; unfold target; cbn [pow]; ring|]. split.
  { rewrite seq_S, !map_app, Et. cbn [map]. rewrite Nat.add_0_l, Hx, El. reflexivity. }
  lra.
Qed.

(** merging layer [idx - 1] with layer [idx] inside the pack *)
Lemma merge_inside g idx l u x y v g1 :
  g_nodes g = pre ++ l ++ suf -> l = u ++ x :: y :: v -> idx = Z.of_nat (length pre + length u + 1) -> Forall (cls c b) l ->
  merge_nodes g (idx - 1) = Ok g1 ->
  exists m, g_nodes g1 = pre ++ (u ++ m :: v) ++ suf /\ Forall (cls c b) (u ++ m :: v) /\ n_height m = n_height x + n_height y.
Proof.
  intros Hg -> -> HC Hm. apply Forall_app in HC. destruct HC as [Cu C2]. pose proof (Forall_inv C2) as Cx. pose proof (Forall_inv_tail C2) as C3. pose proof (Forall_inv C3) as Cy. pose proof (Forall_inv_tail C3) as C4.
  assert (Hh : n_height x + n_height y <> 0) by (destruct Cx as [(? & _) _], Cy as [(? & _) _]; lra).
  replace (Z.of_nat (length pre + length u + 1) - 1)%Z with (Z.of_nat (length (pre ++ u))) in Hm by (rewrite app_length; lia).
  rewrite (merge_nodes_mid g (pre ++ u) x y (v ++ suf)) in Hm; [|rewrite Hg, <- !app_assoc; reflexivity|exact Hh].
  injection Hm as <-. cbn [g_nodes with_nodes with_number]. pose proof (merged_merger x y Hh) as M. exists (merged x y).
  split; [rewrite <- !app_assoc; reflexivity|]. split; [|exact (proj1 M)]. apply Forall_app. split; [exact Cu|]. constructor; [exact (merger_cls c b x y _ Cx Cy M)|exact C4].
Qed.

Lemma phase_merge g idx hrest last top rest k :
  g_nodes g = pre ++ (top ++ rest) ++ suf -> Forall (cls c b) (top ++ rest) -> column_height (top ++ rest) = H ->
  (phase_a idx hrest last top rest k /\ (0 < k)%nat \/ phase_b idx hrest last top rest k) ->
  (idx < Z.of_nat (length pre + length (top ++ rest)))%Z -> hrest < last ->
  forall g1, merge_nodes g (idx - 1) = Ok g1 -> hinv (g1, (idx + 1)%Z, hrest, last).
Proof.
  intros Hg HC HH P Hi Hl g1 Hm. destruct P as [[(Ei & El & Et & Eh) Hk]|(Ei & El & Et & Er & Eh & _ & x & more & -> & Hx)].
  - pose proof (targets_length _ _ Et) as Lt. destruct rest as [|y v]; [exfalso; rewrite app_nil_r in Hi; lia|].
    destruct (exists_last (l := top)) as (u & x & ->); [intros ->; cbn in Lt; lia|].
    rewrite app_length in Lt. cbn [length] in Lt.
    destruct (merge_inside g idx ((u ++ [x]) ++ y :: v) u x y v g1) as (m & G1 & C1 & Hmm); auto.
    { rewrite <- app_assoc. reflexivity. }
    { lia. }
    destruct k as [|k]; [lia|]. rewrite seq_S, !map_app in Et. cbn [map] in Et. apply app_inj_tail in Et. destruct Et as [Eu Ex]. rewrite Nat.add_0_l in Ex.
    assert (Py : 0 < n_height y /\ 0 <= column_height v).
    { apply Forall_app in HC. destruct HC as [_ HC]. pose proof (Forall_inv HC) as [(P & _) _]. pose proof (Forall_inv_tail HC) as Q. split; [exact P|]. apply column_height_nonneg. eapply cls_positive; eauto. }
    assert (EH : H = reach f s (S k) + hrest).
    { rewrite <- HH, Eh. unfold column_height. rewrite !total_app. pose proof (targets_reach u k Eu) as R. unfold column_height in R. rewrite R.
      rewrite total_cons, total_nil, Ex. unfold reach. cbn [sum_upto]. fold (reach f s k). lra. }
    assert (Hr : 0 < hrest) by (rewrite Eh; unfold column_height in *; rewrite total_cons; lra).
    exists u, (m :: v), (S k). split; [exact G1|]. split; [exact C1|]. split.
    { rewrite <- HH. unfold column_height. rewrite !total_app, !total_cons, total_nil. lra. }
    right. split; [lia|]. split; [exact El|]. cbn [Nat.sub]. rewrite Nat.sub_0_r. split; [exact Eu|]. split; [lra|]. split; [lra|]. split; [exact Hl|].
    exists m, v. split; [reflexivity|]. intros _. lra.
  - pose proof (targets_length _ _ Et) as Lt. rewrite app_length in Hi. cbn [length] in Hi.
    (* both layers lie in [x :: more] *)
    destruct (split_at (x :: more) (Z.to_nat idx - 1 - length pre - length top)) as (u & p & q & Eu & Lu).
    { cbn [length]. lia. }
    destruct q as [|q v].
    { exfalso. apply (f_equal (@length Node)) in Eu. rewrite app_length in Eu. cbn [length] in Eu. lia. }
    destruct (merge_inside g idx (top ++ x :: more) (top ++ u) p q v g1) as (m & G1 & C1 & Hmm); auto.
    { rewrite Eu, <- app_assoc. reflexivity. }
    { rewrite app_length. lia. }
    assert (Pq : 0 < n_height q).
    { rewrite Eu in HC. rewrite !Forall_app in HC. destruct HC as [_ [_ HC]]. pose proof (Forall_inv (Forall_inv_tail HC)) as [(P & _) _]. exact P. }
    exists top, (u ++ m :: v), k. split; [rewrite G1, <- !app_assoc; reflexivity|]. split; [rewrite app_assoc; exact C1|]. split.
    { rewrite <- HH, Eu. unfold column_height. rewrite !total_app, !total_cons. lra. }
    right. split; [lia|]. split; [exact El|]. split; [exact Et|]. split; [exact Er|]. split; [exact Eh|]. split; [exact Hl|].
    destruct u as [|u0 u].
    + exists m, v. split; [reflexivity|]. intros Hk. cbn [app] in Eu. injection Eu as -> _. specialize (Hx Hk). lra.
    + exists u0, (u ++ m :: v). split; [reflexivity|]. intros Hk. cbn [app] in Eu. injection Eu as -> _. auto.
Qed.

Lemma phase_skip g idx hrest last top rest :
  g_nodes g = pre ++ (top ++ rest) ++ suf -> Forall (cls c b) (top ++ rest) -> column_height (top ++ rest) = H ->
  phase_a idx hrest last top rest 0 -> rest <> [] -> hrest < last -> hinv (g, (idx + 1)%Z, hrest, last).
Proof.
  intros Hg HC HH (Ei & El & Et & Eh) Hne Hl. pose proof (targets_length _ _ Et) as Lt. destruct top; [|discriminate]. destruct rest as [|x more]; [congruence|].
  exists [], (x :: more), O. split; [exact Hg|]. split; [exact HC|]. split; [exact HH|]. right.
  assert (0 < hrest).
  { rewrite Eh. cbn [app] in HC. pose proof (Forall_inv HC) as [(P & _) _]. pose proof (Forall_inv_tail HC) as Q. pose proof (column_height_nonneg more (cls_positive _ _ _ Q)). unfold column_height in *. rewrite total_cons. lra. }
  cbn [app] in HH. rewrite HH in Eh. split; [lia|]. split; [exact El|]. split; [reflexivity|]. unfold reach; cbn [sum_upto]. split; [lra|]. split; [lra|]. split; [exact Hl|].
  exists x, more. split; [reflexivity|lia].
Qed.

(** at the end *)
Lemma hinv_done g idx hrest last :
  hinv (g, idx, hrest, last) ->
  (forall l, g_nodes g = pre ++ l ++ suf -> (Z.of_nat (length pre + length l) <= idx)%Z) ->
  exists l k, g_nodes g = pre ++ l ++ suf /\ Forall (cls c b) l /\ last = target f s k /\ log_profiled f s H k l.
Proof.
  intros (top & rest & k & Hg & HC & HH & P) Hi. specialize (Hi _ Hg). rewrite app_length in Hi.
  exists (top ++ rest), k. split; [exact Hg|]. split; [exact HC|]. destruct P as [(Ei & El & Et & Eh)|(Ei & El & Et & Er & Eh & Hl & x & more & -> & Hx)]; (split; [exact El|]).
  - pose proof (targets_length _ _ Et) as Lt. destruct rest as [|y rest]; [|exfalso; cbn [length] in Hi; lia]. rewrite app_nil_r in *.
    pose proof (targets_reach _ _ Et) as R. rewrite HH in R. split; [|split; [exact HH|left; auto]].
    unfold reach at 2. cbn [sum_upto]. fold (reach f s k). pose proof (target_pos k). lra.
  - split; [|split; [exact HH|right; split; [exact Er|eauto 8]]]. unfold reach at 2. cbn [sum_upto]. fold (reach f s k). lra.
Qed.
End Heights.

Lemma cls_snow c l : Forall dry l -> Forall (is_snow c) l -> Forall (cls c true) l.
Proof.
  intros D S. rewrite Forall_forall in *. intros n I. split; [auto|]. destruct (snowb_spec c n) as [_|N]; [reflexivity|]. exfalso. apply N. auto.
Qed.
Lemma cls_ice c l : Forall dry l -> Forall (fun n => ~ is_snow c n) l -> Forall (cls c false) l.
Proof.
  intros D S. rewrite Forall_forall in *. intros n I. split; [auto|]. destruct (snowb_spec c n) as [N|_]; [|reflexivity]. exfalso. apply (S n I N).
Qed.
Lemma cls_nsnow c s i : Forall (cls c true) s -> Forall (cls c false) i -> nsnow c (s ++ i) = length s.
Proof.
  intros A B. unfold nsnow. rewrite filter_app, app_length.
  assert (E1 : filter (snowb c) s = s) by (clear -A; induction A as [|n l [_ E] _ IH]; cbn; [reflexivity|]; rewrite E, IH; reflexivity).
  assert (E2 : filter (snowb c) i = []) by (clear -B; induction B as [|n l [_ E] _ IH]; cbn; [reflexivity|]; rewrite E, IH; reflexivity).
  rewrite E1, E2. cbn. lia.
Qed.

Lemma log_snow_keeps c g0 bound fuel ice H :
  0 < c_first_layer_height c -> 1 <= c_layer_stretching c -> Forall (cls c false) ice -> (2 * bound < fuel)%nat ->
  forall t t', log_inv c g0 bound t /\ hinv c true [] ice (c_first_layer_height c) H t ->
    log_snow_cond c t = Ok true -> log_snow_body fuel c t = Ok t' ->
    log_inv c g0 bound t' /\ hinv c true [] ice (c_first_layer_height c) H t'.
Proof.
  intros Hf Hs Hice HF [[[g idx] hrest] last] t' [I V] Hc Hb.
  pose proof (li_counted _ _ _ _ I) as Cg. cbn [fst] in Cg. pose proof (li_bound _ _ _ _ I) as Bd. cbn [fst snd] in Bd. pose proof (li_idx _ _ _ _ I) as Ii. cbn [fst snd] in Ii.
  cbn [log_snow_cond] in Hc. rewrite get_number_snow_layers_counted in Hc by exact Cg. cbn [bind] in Hc. injection Hc as Hc. apply Z.ltb_lt in Hc.
  pose proof V as V0. destruct V as (top & rest & k & Hg & HC & HH & P). cbn [app] in Hg. rewrite Hg, cls_nsnow in Hc by auto.
  assert (HL : (idx < Z.of_nat (length (g_nodes g)))%Z) by (rewrite Hg, app_length; lia).
  cbn [log_snow_body] in Hb. destruct (Rleb_spec last hrest) as [L|L].
  - destruct (log_correct_step c g0 Hf Hs bound fuel g idx hrest last I) as (g1 & E1 & I1 & _); [lia|exact HL|exact L|].
    rewrite E1 in Hb. cbn [bind] in Hb. injection Hb as <-. split; [exact I1|].
    destruct P as [P|(_ & _ & _ & _ & _ & X & _)]; [|lra].
    refine (phase_a_correct c true [] ice (c_first_layer_height c) H Hf Hs Hice fuel g idx hrest last top rest k Cg _ Hg HC HH P _ L g1 E1); [lia|].
    intros ->. destruct P as (Ei & _ & Et & _). pose proof (targets_length c (c_first_layer_height c) top k Et) as Lt. rewrite app_nil_r in Hc. cbn [length] in Ei. lia.
  - rewrite Rltb_true in Hb by lra. cbn [andb] in Hb. destruct (0 <? idx)%Z eqn:E0.
    + apply Z.ltb_lt in E0. destruct (merge_nodes g (idx - 1)) as [g1|e] eqn:Hm; [|discriminate]. cbn [bind] in Hb.
      injection Hb as <-. destruct (log_merge_step c g0 bound g idx hrest last g1 I HL) as [I1 _]; [assumption|]. split; [exact I1|].
      refine (phase_merge c true [] ice (c_first_layer_height c) H g idx hrest last top rest k Hg HC HH _ _ _ g1 _); [|cbn [length]; lia|lra|assumption].
      destruct P as [P|P]; [left|right; exact P]. split; [exact P|]. destruct P as (Ei & _). cbn [length] in Ei. lia.
    + injection Hb as <-. apply Z.ltb_ge in E0. destruct (log_skip_step c g0 bound g idx hrest last I HL) as [I1 _]. split; [exact I1|].
      destruct P as [P|(Ei & _)]; [|cbn [length] in Ei; lia]. assert (k = O) by (destruct P as (Ei & _); cbn [length] in Ei; lia). subst k.
      refine (phase_skip c true [] ice (c_first_layer_height c) H g idx hrest last top rest Hg HC HH P _ _); [|lra].
      intros ->. destruct P as (Ei & _ & Et & _). pose proof (targets_length c (c_first_layer_height c) top 0 Et) as Lt. rewrite app_nil_r in Hc. lia.
Qed.

Lemma log_ice_keeps c g0 bound fuel snow f H :
  0 < c_first_layer_height c -> 0 < f -> 1 <= c_layer_stretching c -> (2 * bound < fuel)%nat -> f <= H ->
  forall t t', log_inv c g0 bound t /\ hinv c false snow [] f H t ->
    log_ice_cond t = Ok true -> log_ice_body fuel c t = Ok t' ->
    log_inv c g0 bound t' /\ hinv c false snow [] f H t'.
Proof.
  intros Hf Hf0 Hs HF HfH [[[g idx] hrest] last] t' [I V] Hc Hb.
  pose proof (li_counted _ _ _ _ I) as Cg. cbn [fst] in Cg. pose proof (li_bound _ _ _ _ I) as Bd. cbn [fst snd] in Bd. pose proof (li_idx _ _ _ _ I) as Ii. cbn [fst snd] in Ii.
  cbn [log_ice_cond] in Hc. injection Hc as Hc. apply Z.ltb_lt in Hc. unfold get_number_layers in Hc. rewrite Cg in Hc.
  destruct V as (top & rest & k & Hg & HC & HH & P). pose proof Hc as HL. rewrite Hg, !app_nil_r, !app_length in Hc.
  cbn [log_ice_body] in Hb. destruct (Rleb_spec last hrest) as [L|L].
  - destruct (log_correct_step c g0 Hf Hs bound fuel g idx hrest last I) as (g1 & E1 & I1 & _); [lia|exact HL|exact L|].
    rewrite E1 in Hb. cbn [bind] in Hb. injection Hb as <-. split; [exact I1|].
    destruct P as [P|(_ & _ & _ & _ & _ & X & _)]; [|lra].
    refine (phase_a_correct c false snow [] f H Hf0 Hs (Forall_nil _) fuel g idx hrest last top rest k Cg _ Hg HC HH P _ L g1 E1); [lia|].
    intros ->. destruct P as (Ei & _ & Et & _). pose proof (targets_length c f top k Et) as Lt. cbn [length] in Hc. lia.
  - rewrite Rltb_true in Hb by lra. destruct (merge_nodes g (idx - 1)) as [g1|e] eqn:Hm; [|discriminate]. cbn [bind] in Hb.
    injection Hb as <-. destruct (log_merge_step c g0 bound g idx hrest last g1 I HL) as [I1 _]; [assumption|]. split; [exact I1|].
    refine (phase_merge c false snow [] f H g idx hrest last top rest k Hg HC HH _ _ _ g1 _); [|rewrite app_length; lia|lra|assumption].
    destruct P as [P|P]; [left|right; exact P]. split; [exact P|]. destruct k as [|k]; [|lia]. exfalso.
    destruct P as (Ei & El & Et & Eh). pose proof (targets_length c f top 0 Et) as Lt. destruct top; [|discriminate]. cbn [app] in HH.
    unfold target in El. cbn [pow] in El. lra.
Qed.

Lemma log_profile_heights c g snow ice :
  0 < c_first_layer_height c -> 1 <= c_layer_stretching c -> counted g ->
  g_nodes g = snow ++ ice -> Forall dry (snow ++ ice) -> snow_over_ice c snow ice ->
  c_first_layer_height c <= column_height ice -> c_layer_stretching c * column_height snow <= column_height ice ->
  exists N, forall fuel, (N <= fuel)%nat -> exists g' snow' ice' k j,
    log_profile fuel c g = Ok g' /\ g_nodes g' = snow' ++ ice' /\ snow_over_ice c snow' ice' /\ Forall dry (snow' ++ ice') /\
    log_profiled (c_first_layer_height c) (c_layer_stretching c) (column_height snow) k snow' /\
    log_profiled (target (c_first_layer_height c) (c_layer_stretching c) k) (c_layer_stretching c) (column_height ice) j ice' /\
    (0 < j)%nat.
Proof.
  intros Hf Hs Hc Hg HD [Sn Ic] H1 H2. apply Forall_app in HD. destruct HD as [Ds Di].
  pose proof (cls_snow c snow Ds Sn) as Cs. pose proof (cls_ice c ice Di Ic) as Ci.
  assert (Hok : column_ok (g_nodes g)).
  { rewrite Hg. apply Forall_app. split; [apply (Forall_impl _ (P := dry))|apply (Forall_impl _ (P := dry))]; auto; intros n (? & ? & _); lra. }
  set (H0 := column_height snow).
  assert (Eh0 : reported_snow c (g_nodes g) = H0).
  { unfold reported_snow. rewrite Hg, cls_nsnow by auto. rewrite firstn_app, firstn_all, Nat.sub_diag. cbn [firstn]. rewrite app_nil_r. reflexivity. }
  set (B0 := (length (g_nodes g) + steps (c_first_layer_height c) H0)%nat).
  set (B := (B0 + steps (c_first_layer_height c) (column_height (g_nodes g)))%nat).
  exists (2 * B + 1)%nat. intros fuel Hfuel.
  unfold log_profile. rewrite get_total_snowheight_counted by exact Hc. cbn [bind].
  fold (reported_snow c (g_nodes g)). rewrite Eh0.
  assert (I0 : log_inv c g B0 (g, 0%Z, H0, c_first_layer_height c)).
  { constructor; cbn [fst snd]; auto; [apply same_clock_refl | intros _; apply conserved_refl | lia | lra]. }
  assert (T0 : log_hts c H0 (g, 0%Z, H0, c_first_layer_height c)).
  { split; cbn [fst snd]; [lra|apply Rmax_l]. }
  assert (V0 : hinv c true [] ice (c_first_layer_height c) H0 (g, 0%Z, H0, c_first_layer_height c)).
  { exists [], snow, O. split; [exact Hg|]. split; [exact Cs|]. split; [reflexivity|]. left. repeat split; try reflexivity. unfold target. cbn [pow]. ring. }
  destruct (log_snow_loop c g Hf Hs H0 B0 fuel _ ltac:(lia) I0 T0) as ([[[g1 i1] h1] last1] & W1 & I1 & T1 & Ne1).
  destruct (while_inv _ fuel _ _ _ _ (log_snow_keeps c g B0 fuel ice H0 Hf Hs Ci ltac:(lia)) (conj I0 V0) W1) as [[_ V1] Q1].
  rewrite W1. cbn [bind]. clear W1.
  destruct I1 as [C1 K1 O1 Co1 Hi1 L1 Bd1]. cbn [fst snd] in *.
  cbn [log_snow_cond] in Q1. rewrite get_number_snow_layers_counted in Q1 by exact C1. cbn [bind] in Q1. injection Q1 as Q1. apply Z.ltb_ge in Q1.
  destruct (hinv_done c true [] ice (c_first_layer_height c) H0 Hf Hs g1 i1 h1 last1 V1) as (s1 & k & G1 & Cs1 & El & LP).
  { intros l E. cbn [app length] in *. destruct V1 as (top & rest & k & G1 & HC & _). cbn [app] in G1.
    rewrite G1 in E. apply app_inv_tail in E. subst l. rewrite G1, cls_nsnow in Q1 by auto. lia. }
  cbn [app] in G1.
  rewrite get_total_height_counted by exact C1. cbn [bind].
  rewrite get_total_snowheight_counted by exact C1. cbn [bind].
  rewrite get_number_snow_layers_counted by exact C1. cbn [bind].
  rewrite G1, cls_nsnow by auto. rewrite firstn_app, firstn_all, Nat.sub_diag. cbn [firstn]. rewrite app_nil_r.
  replace (column_height (s1 ++ ice) - column_height s1) with (column_height ice) by (unfold column_height; rewrite total_app; lra).
  assert (I2 : log_inv c g B (g1, Z.of_nat (length s1), column_height ice, last1)).
  { constructor; cbn [fst snd]; auto; [lia|].
    assert (steps (c_first_layer_height c) (column_height ice) <= steps (c_first_layer_height c) (column_height (g_nodes g)))%nat.
    { apply steps_mono; [exact Hf|]. rewrite Hg. unfold column_height. rewrite total_app. pose proof (column_height_nonneg snow (cls_positive _ _ _ Cs)). unfold column_height in *. lra. }
    lia. }
  assert (LI : last1 <= column_height ice).
  { destruct T1 as [_ T1]. cbn [fst snd] in T1. assert (Rmax (c_first_layer_height c) (c_layer_stretching c * H0) <= column_height ice) by (apply Rmax_lub; assumption). lra. }
  assert (V2 : hinv c false s1 [] last1 (column_height ice) (g1, Z.of_nat (length s1), column_height ice, last1)).
  { exists [], ice, O. split; [rewrite app_nil_r; exact G1|]. split; [exact Ci|]. split; [reflexivity|]. left. repeat split; try reflexivity; [lia|]. unfold target. cbn [pow]. ring. }
  destruct (log_ice_loop c g Hf Hs B fuel _ ltac:(lia) I2) as ([[[g2 i2] h2] last2] & W2 & I3 & Ne2).
  assert (HL1 : 0 < last1) by lra.
  destruct (while_inv _ fuel _ _ _ _ (log_ice_keeps c g B fuel s1 last1 (column_height ice) Hf HL1 Hs ltac:(lia) LI) (conj I2 V2) W2) as [[_ V3] Q2].
  rewrite W2. cbn [bind]. destruct I3 as [C2 K2 O2 Co2 _ _ _]. cbn [fst snd] in *.
  cbn [log_ice_cond] in Q2. injection Q2 as Q2. apply Z.ltb_ge in Q2. unfold get_number_layers in Q2. rewrite C2 in Q2.
  destruct (hinv_done c false s1 [] last1 (column_height ice) HL1 Hs g2 i2 h2 last2 V3) as (s2 & j & G2 & Cs2 & _ & LP2).
  { intros l E. rewrite E, app_nil_r, app_length in Q2. lia. }
  rewrite app_nil_r in G2. exists g2, s1, s2, k, j. split; [reflexivity|]. split; [exact G2|]. split; [split|].
  - eapply Forall_impl; [|exact Cs1]. intros n [_ E]. destruct (snowb_spec c n); [assumption|discriminate].
  - eapply Forall_impl; [|exact Cs2]. intros n [_ E]. destruct (snowb_spec c n); [discriminate|assumption].
  - split; [apply Forall_app; split; [exact (cls_forall_dry _ _ _ Cs1)|exact (cls_forall_dry _ _ _ Cs2)]|]. split; [exact LP|]. rewrite <- El. split; [exact LP2|].
    destruct j as [|j]; [exfalso|lia]. destruct LP2 as [[_ X] _]. unfold reach, target in X. cbn [sum_upto pow] in X. lra.
Qed.
