(** * Which layers adaptive remeshing changes *)
From Verif Require Import ModelPy ModelConstants ModelNode ModelGrid Spec SpecRemesh.
From Verif Require Import LemPy LemGridBase LemMerge LemCorrect LemLog LemGridOps LemGridMore LemAdapt LemFinSettled.

(** a layer that is to be merged with the next one: temperatures and densities differ by no more
    than the thresholds, and the layer is at most 10 cm thick *)
Definition alike (c : Consts) (x y : Node) : Prop :=
  Rabs (n_temperature x - n_temperature y) <= c_temperature_threshold_merging c /\
  Rabs (layer_density c x - layer_density c y) <= c_density_threshold_merging c /\
  n_height x <= 0.1.

(** the walk through the snow from the top: [done] is above the present layer, [n] layers were
    merged so far *)
Inductive walk (c : Consts) : Z -> list Node -> list Node -> list Node -> Prop :=
| walk_end n done rest : (nsnow c (done ++ rest) <= length done + 1)%nat -> walk c n done rest (done ++ rest)
| walk_merge n done x y m rest out :
    (length done + 1 < nsnow c (done ++ x :: y :: rest))%nat -> alike c x y -> (n <= c_merge_max c)%Z ->
    merger x y m -> walk c (n + 1) done (m :: rest) out -> walk c n done (x :: y :: rest) out
| walk_remove n done x y rest out :
    (length done + 1 < nsnow c (done ++ x :: y :: rest))%nat -> ~ (alike c x y /\ (n <= c_merge_max c)%Z) ->
    n_height x <= c_minimum_snow_layer_height c -> walk c n done (y :: rest) out -> walk c n done (x :: y :: rest) out
| walk_keep n done x y rest out :
    (length done + 1 < nsnow c (done ++ x :: y :: rest))%nat -> ~ (alike c x y /\ (n <= c_merge_max c)%Z) ->
    c_minimum_snow_layer_height c < n_height x -> walk c n (done ++ [x]) (y :: rest) out -> walk c n done (x :: y :: rest) out.

Definition alikeb (c : Consts) (x y : Node) : bool :=
  Rleb (Rabs (n_temperature x - n_temperature y)) (c_temperature_threshold_merging c)
  && Rleb (Rabs (layer_density c x - layer_density c y)) (c_density_threshold_merging c)
  && Rleb (n_height x) 0.1.

Lemma alikeb_spec c x y : reflect (alike c x y) (alikeb c x y).
Proof.
  unfold alikeb, alike. destruct (Rleb_spec (Rabs (n_temperature x - n_temperature y)) (c_temperature_threshold_merging c)); cbn [andb]; [|constructor; lra].
  destruct (Rleb_spec (Rabs (layer_density c x - layer_density c y)) (c_density_threshold_merging c)); cbn [andb]; [|constructor; lra].
  destruct (Rleb_spec (n_height x) 0.1); constructor; lra.
Qed.

Lemma adapt_body_at c g pre x y post n :
  g_nodes g = pre ++ x :: y :: post ->
  adapt_body c (g, Z.of_nat (length pre), n) =
  (if alikeb c x y && (n <=? c_merge_max c)%Z then g1 <- merge_nodes g (Z.of_nat (length pre)) ;; Ok (g1, Z.of_nat (length pre), (n + 1)%Z)
   else if Rleb (n_height x) (c_minimum_snow_layer_height c) then g1 <- remove_node g (Some [Z.of_nat (length pre)]) ;; Ok (g1, Z.of_nat (length pre), n)
   else Ok (g, (Z.of_nat (length pre) + 1)%Z, n)).
Proof.
  intros E. cbn [adapt_body]. unfold get_node_temperature, get_node_density, get_node_height.
  rewrite (get_node_mid g pre x _ E), (get_node_mid1 g pre x y post E). cbn [bind]. reflexivity.
Qed.

Lemma adapt_walk c : forall fuel g done rest n, counted g -> positive_heights (g_nodes g) -> g_nodes g = done ++ rest ->
  (length rest < fuel)%nat ->
  exists g' i n', while_loop fuel (adapt_cond c) (adapt_body c) (g, Z.of_nat (length done), n) = Ok (g', i, n') /\
    counted g' /\ same_clock g g' /\ walk c n done rest (g_nodes g').
Proof.
  induction fuel as [|fuel IH]; intros g done rest n C P E HF; [lia|].
  cbn [while_loop adapt_cond]. rewrite get_number_snow_layers_counted by exact C. cbn [bind].
  destruct (Z.ltb_spec (Z.of_nat (length done)) (Z.of_nat (nsnow c (g_nodes g)) - 1)) as [L|L].
  - assert (Hle := nsnow_le c (g_nodes g)). rewrite E in Hle at 2. rewrite app_length in Hle.
    destruct rest as [|x [|y rest]]; cbn [length] in *; try lia.
    assert (L' : (length done + 1 < nsnow c (done ++ x :: y :: rest))%nat) by (rewrite <- E; lia).
    rewrite (adapt_body_at c g done x y rest n E).
    assert (PE := P). rewrite E in PE. apply Forall_app in PE. destruct PE as [Pd PE]. pose proof (Forall_inv PE) as Px. pose proof (Forall_inv (Forall_inv_tail PE)) as Py. pose proof (Forall_inv_tail (Forall_inv_tail PE)) as Pr. cbn beta in Px, Py.
    destruct (alikeb_spec c x y) as [A|A]; [destruct (Z.leb_spec n (c_merge_max c)) as [M|M]|]; cbn [andb].
    + rewrite (merge_nodes_mid g done x y rest E) by lra. cbn [bind].
      set (g1 := with_number _ _). assert (E1 : g_nodes g1 = done ++ merged x y :: rest) by reflexivity.
      destruct (IH g1 done (merged x y :: rest) (n + 1)%Z) as (g' & i & n' & W & C' & K' & Wk); auto.
      { unfold counted in *. rewrite E1, app_length. cbn [g1 with_number with_nodes g_number_nodes length]. rewrite C, E, app_length. cbn [length]. lia. }
      { rewrite E1. apply Forall_app. split; [exact Pd|]. constructor; [cbn; lra|exact Pr]. }
      { cbn [length]. lia. }
      exists g', i, n'. split; [exact W|]. split; [exact C'|]. split; [exact K'|]. eapply walk_merge; eauto. apply merged_merger. lra.
    + destruct (Rleb_spec (n_height x) (c_minimum_snow_layer_height c)) as [Hh|Hh].
      * rewrite (remove_one_mid g done x (y :: rest) E). cbn [bind]. set (g1 := with_number _ _). assert (E1 : g_nodes g1 = done ++ y :: rest) by reflexivity.
        destruct (IH g1 done (y :: rest) n) as (g' & i & n' & W & C' & K' & Wk); auto.
        { unfold counted in *. rewrite E1, app_length. cbn [g1 with_number with_nodes g_number_nodes length]. rewrite C, E, app_length. cbn [length]. lia. }
        { rewrite E1. apply Forall_app. split; [exact Pd|exact (Forall_inv_tail PE)]. }
        { cbn [length]. lia. }
        exists g', i, n'. split; [exact W|]. split; [exact C'|]. split; [exact K'|]. apply walk_remove; auto. intros [_ X]. lia.
      * cbn [bind]. replace (Z.of_nat (length done) + 1)%Z with (Z.of_nat (length (done ++ [x]))) by (rewrite app_length; cbn [length]; lia).
        destruct (IH g (done ++ [x]) (y :: rest) n) as (g' & i & n' & W & C' & K' & Wk); auto.
        { rewrite <- app_assoc. exact E. }
        { cbn [length]. lia. }
        exists g', i, n'. split; [exact W|]. split; [exact C'|]. split; [exact K'|]. apply walk_keep; auto; [intros [_ X]; lia|lra].
    + destruct (Rleb_spec (n_height x) (c_minimum_snow_layer_height c)) as [Hh|Hh].
      * rewrite (remove_one_mid g done x (y :: rest) E). cbn [bind]. set (g1 := with_number _ _). assert (E1 : g_nodes g1 = done ++ y :: rest) by reflexivity.
        destruct (IH g1 done (y :: rest) n) as (g' & i & n' & W & C' & K' & Wk); auto.
        { unfold counted in *. rewrite E1, app_length. cbn [g1 with_number with_nodes g_number_nodes length]. rewrite C, E, app_length. cbn [length]. lia. }
        { rewrite E1. apply Forall_app. split; [exact Pd|exact (Forall_inv_tail PE)]. }
        { cbn [length]. lia. }
        exists g', i, n'. split; [exact W|]. split; [exact C'|]. split; [exact K'|]. apply walk_remove; auto. tauto.
      * cbn [bind]. replace (Z.of_nat (length done) + 1)%Z with (Z.of_nat (length (done ++ [x]))) by (rewrite app_length; cbn [length]; lia).
        destruct (IH g (done ++ [x]) (y :: rest) n) as (g' & i & n' & W & C' & K' & Wk); auto.
        { rewrite <- app_assoc. exact E. }
        { cbn [length]. lia. }
        exists g', i, n'. split; [exact W|]. split; [exact C'|]. split; [exact K'|]. apply walk_keep; auto; [tauto|lra].
  - exists g, (Z.of_nat (length done)), n. split; [reflexivity|]. split; [exact C|]. split; [apply same_clock_refl|]. rewrite E. apply walk_end. rewrite <- E. lia.
Qed.

(*@ C133 The snow part of adaptive remeshing walks through the snow from the top: a layer of at most 10 cm that is like the next in temperature and density is merged with it, as long as no more than merge_max layers were merged before; otherwise a layer no thicker than the minimum is deleted; otherwise the walk goes on with the next layer, up to the last but one layer of snow. *)
Lemma adaptive_snow_walk_lem :
  forall c g fuel,
    counted g -> positive_heights (g_nodes g) -> (length (g_nodes g) < fuel)%nat ->
    exists g' i merges, adaptive_snow fuel c g = Ok (g', i, merges) /\ counted g' /\ same_clock g g' /\
      walk c 0 [] (g_nodes g) (g_nodes g').
Proof. intros c g fuel C P HF. exact (adapt_walk c fuel g [] (g_nodes g) 0%Z C P eq_refl HF). Qed.

Lemma walk_length c n done rest out : walk c n done rest out -> (length out <= length done + length rest)%nat.
Proof. induction 1; rewrite ?app_length in *; cbn [length] in *; lia. Qed.

Lemma walk_same c n done rest out : walk c n done rest out -> (n <= c_merge_max c)%Z -> out = done ++ rest ->
  forall pre x y post, rest = pre ++ x :: y :: post -> (length done + length pre + 1 < nsnow c (done ++ rest))%nat ->
    c_minimum_snow_layer_height c < n_height x /\ ~ alike c x y.
Proof.
  induction 1 as [n done rest L|n done x y m rest out L A M Mg W IH|n done x y rest out L A H W IH|n done x y rest out L A H W IH]; intros Hn Eo pre x' y' post E Li.
  - lia.
  - exfalso. apply walk_length in W. subst out. rewrite !app_length in W. cbn [length] in W. lia.
  - exfalso. apply walk_length in W. subst out. rewrite !app_length in W. cbn [length] in W. lia.
  - destruct pre as [|p pre]; cbn [app length] in *.
    + injection E as <- <- <-. split; [exact H|]. intros Al. apply A. auto.
    + injection E as <- E. rewrite <- app_assoc in IH. cbn [app] in IH. apply (IH Hn Eo pre x' y' post E). rewrite app_length. cbn [length]. lia.
Qed.

Lemma walk_quiet c n done rest out : walk c n done rest out ->
  (forall pre x y post, rest = pre ++ x :: y :: post -> (length done + length pre + 1 < nsnow c (done ++ rest))%nat ->
    c_minimum_snow_layer_height c < n_height x /\ ~ alike c x y) -> out = done ++ rest.
Proof.
  induction 1 as [n done rest L|n done x y m rest out L A M Mg W IH|n done x y rest out L A H W IH|n done x y rest out L A H W IH]; intros Q.
  - reflexivity.
  - exfalso. destruct (Q [] x y rest eq_refl) as [_ N]; [cbn [length]; lia|auto].
  - exfalso. destruct (Q [] x y rest eq_refl) as [N _]; [cbn [length]; lia|lra].
  - rewrite <- app_assoc in IH. cbn [app] in IH. apply IH. intros pre x' y' post E Li. apply (Q (x :: pre) x' y' post); [rewrite E; reflexivity|].
    rewrite app_length in Li. cbn [length] in *. lia.
Qed.

(** no layer of snow, but the last, is thin or like the next one *)
Definition quiet_snow (c : Consts) (l : list Node) : Prop :=
  forall pre x y post, l = pre ++ x :: y :: post -> (length pre + 1 < nsnow c l)%nat ->
    c_minimum_snow_layer_height c < n_height x /\ ~ alike c x y.

(*@ C133 It leaves the column unchanged exactly if no layer of snow but the last is thin or like the next. *)
Lemma adaptive_snow_unchanged_lem :
  forall c g fuel,
    counted g -> positive_heights (g_nodes g) -> (0 <= c_merge_max c)%Z -> (length (g_nodes g) < fuel)%nat ->
    ((exists i merges, adaptive_snow fuel c g = Ok (g, i, merges)) <-> quiet_snow c (g_nodes g)).
Proof.
  intros c g fuel C P HM HF. destruct (adaptive_snow_walk_lem c g fuel C P HF) as (g' & i & n & W & C' & K & Wk). rewrite W. split.
  - intros (i' & n' & E). injection E as -> _ _. intros pre x y post E L. exact (walk_same c 0 [] _ _ Wk HM eq_refl pre x y post E L).
  - intros Q. apply walk_quiet in Wk; [|exact Q]. cbn [app] in Wk. exists i, n. rewrite (grid_eq g g' Wk C C' K). reflexivity.
Qed.

(** [correct_layer] on the first layer of [l]: layers below of the same kind are taken in until it
    is thick enough; what is too much is cut off *)
Definition resized (c : Consts) (h : R) (l l' : list Node) : Prop :=
  exists a taken rest m out, l = a :: taken ++ rest /\ absorbs c h a taken m /\ l' = out ++ rest /\
    ((h < n_height m /\ exists x0 x1, out = [x0; x1] /\ parts h m x0 x1)
     \/ (n_height m = h /\ out = [m])
     \/ (n_height m < h /\ out = [m] /\ (rest = [] \/ exists y t, rest = y :: t /\ ~ same_class c m y))).

(** layers thinner than the minimum are merged with the next one, down to the last but one *)
Inductive thickened (c : Consts) : list Node -> list Node -> Prop :=
| thickened_end l : (length l <= 1)%nat -> thickened c l l
| thickened_merge x y m l l' : n_height x < c_minimum_snow_layer_height c -> merger x y m ->
    thickened c (m :: l) l' -> thickened c (x :: y :: l) l'
| thickened_keep x y l l' : c_minimum_snow_layer_height c <= n_height x ->
    thickened c (y :: l) l' -> thickened c (x :: y :: l) (x :: l').

Lemma ice_thickened c : forall fuel g done rest, counted g -> positive_heights (g_nodes g) -> g_nodes g = done ++ rest ->
  (length rest < fuel)%nat ->
  exists g' i out, while_loop fuel adapt_ice_cond (adapt_ice_body c) (g, Z.of_nat (length done)) = Ok (g', i) /\
    g_nodes g' = done ++ out /\ thickened c rest out.
Proof.
  induction fuel as [|fuel IH]; intros g done rest C P E HF; [lia|].
  cbn [while_loop adapt_ice_cond]. unfold get_number_layers. rewrite C, E, app_length. cbn [bind].
  destruct (Z.ltb_spec (Z.of_nat (length done)) (Z.of_nat (length done + length rest) - 1)) as [L|L].
  - destruct rest as [|x [|y rest]]; cbn [length] in *; try lia.
    cbn [adapt_ice_body]. unfold get_node_height. rewrite (get_node_mid g done x _ E). cbn [bind].
    assert (PE := P). rewrite E in PE. apply Forall_app in PE. destruct PE as [Pd PE]. pose proof (Forall_inv PE) as Px. pose proof (Forall_inv (Forall_inv_tail PE)) as Py. pose proof (Forall_inv_tail (Forall_inv_tail PE)) as Pr. cbn beta in Px, Py.
    destruct (Rltb_spec (n_height x) (c_minimum_snow_layer_height c)) as [Hh|Hh].
    + rewrite (merge_nodes_mid g done x y rest E) by lra. cbn [bind]. set (g1 := with_number _ _). assert (E1 : g_nodes g1 = done ++ merged x y :: rest) by reflexivity.
      destruct (IH g1 done (merged x y :: rest)) as (g' & i & out & W & G & T); auto.
      { unfold counted in *. rewrite E1, app_length. cbn [g1 with_number with_nodes g_number_nodes length]. rewrite C, E, app_length. cbn [length]. lia. }
      { rewrite E1. apply Forall_app. split; [exact Pd|]. constructor; [cbn; lra|exact Pr]. }
      { cbn [length]. lia. }
      exists g', i, out. split; [exact W|]. split; [exact G|]. eapply thickened_merge; eauto. apply merged_merger. lra.
    + cbn [bind]. replace (Z.of_nat (length done) + 1)%Z with (Z.of_nat (length (done ++ [x]))) by (rewrite app_length; cbn [length]; lia).
      destruct (IH g (done ++ [x]) (y :: rest)) as (g' & i & out & W & G & T); auto.
      { rewrite <- app_assoc. exact E. }
      { cbn [length]. lia. }
      exists g', i, (x :: out). split; [exact W|]. split; [rewrite G, <- app_assoc; reflexivity|]. apply thickened_keep; [lra|exact T].
  - exists g, (Z.of_nat (length done)), rest. split; [reflexivity|]. split; [exact E|]. apply thickened_end. lia.
Qed.

(*@ C133 The whole of adaptive remeshing: the walk through the snow; then, from the first layer below the snow, but not from the top layer, ice layers thinner than the minimum are merged with the next; then the top layer is brought to the defined height.  If at most one layer of snow is left and the top layer is thinner than the defined height, the layer below is brought to that height first; without such a layer this is an IndexError. *)
Lemma adaptive_profile_steps_lem :
  forall c g fuel,
    0 < c_first_layer_height c -> counted g -> column_ok (g_nodes g) -> g_nodes g <> [] ->
    (length (g_nodes g) + 2 < fuel)%nat ->
    exists x l, walk c 0 [] (g_nodes g) (x :: l) /\
      let thin_top := (nsnow c (x :: l) <= 1)%nat /\ n_height x < c_first_layer_height c in
      (thin_top -> l = [] -> adaptive_profile fuel c g = Err IndexError) /\
      (thin_top -> l <> [] -> exists g' y l1 l2, adaptive_profile fuel c g = Ok g' /\
         resized c (c_first_layer_height c) l (y :: l1) /\ thickened c l1 l2 /\
         resized c (c_first_layer_height c) (x :: y :: l2) (g_nodes g')) /\
      (~ thin_top -> exists g' snow ice ice', adaptive_profile fuel c g = Ok g' /\
         x :: l = snow ++ ice /\ length snow = Nat.max 1 (nsnow c (x :: l)) /\ thickened c ice ice' /\
         resized c (c_first_layer_height c) (snow ++ ice') (g_nodes g')).
Proof.
  intros c g fuel Hf C O Ne HF.
  destruct (adaptive_snow_walk_lem c g fuel C (column_ok_positive _ O) ltac:(lia)) as (g1 & i1 & n1 & W1 & C1 & K1 & Wk).
  destruct (adaptive_snow_spec c g fuel C O Ne ltac:(lia)) as (g1' & i1' & n1' & W1' & I1 & L1). rewrite W1 in W1'. injection W1' as <- <- <-.
  pose proof (ai_ne _ _ _ I1) as N1. destruct (g_nodes g1) as [|x l] eqn:E1; [congruence|]. exists x, l. split; [exact Wk|]. cbv zeta.
  assert (Final : forall g3, adapt_inv c g g3 -> (length (g_nodes g3) <= S (length (g_nodes g)))%nat -> exists g', correct_layer fuel c g3 0 (c_first_layer_height c) = Ok g' /\ resized c (c_first_layer_height c) (g_nodes g3) (g_nodes g')).
  { intros g3 I3 L3. pose proof (ai_ne _ _ _ I3) as N3. destruct (g_nodes g3) as [|a post] eqn:E3; [congruence|]. pose proof (ai_ok _ _ _ I3) as O3. rewrite E3 in O3.
    destruct (correct_layer_spec fuel c g3 [] a post (c_first_layer_height c) E3 (ai_counted _ _ _ I3) O3 Hf) as (g4 & m & taken & rest & out & W & _ & _ & Ep & A & G & F).
    { cbn [length] in L3. lia. }
    exists g4. split; [exact W|]. exists a, taken, rest, m, out. rewrite Ep. auto. }
  unfold adaptive_profile. rewrite W1. cbn [bind]. rewrite get_number_snow_layers_counted by exact C1. cbn [bind]. rewrite E1.
  unfold get_node_height at 1 2 3. rewrite (get_node_mid g1 [] x l E1 : get_node g1 0 = Ok x). cbn [bind].
  set (mi := Z.max 1 (Z.of_nat (nsnow c (x :: l)))). pose proof (ai_ok _ _ _ I1) as O1.
  split; [|split].
  - intros [T1 T2] ->. replace (mi =? 1)%Z with true by (symmetry; apply Z.eqb_eq; unfold mi; lia). rewrite Rltb_true by exact T2. cbn [andb].
    replace mi with 1%Z by (unfold mi; lia). unfold correct_layer, get_node_height.
    destruct (get_node g1 1) as [z|e] eqn:Eg.
    + apply get_node_pos_inv in Eg; [|lia]. destruct Eg as (pre & post & Eg & Lg). rewrite E1 in Eg. apply (f_equal (@length Node)) in Eg. rewrite app_length in Eg. cbn [length] in Eg. lia.
    + unfold get_node in Eg. rewrite E1 in Eg. cbn in Eg. injection Eg as <-. reflexivity.
  - intros [T1 T2] Hl. replace (mi =? 1)%Z with true by (symmetry; apply Z.eqb_eq; unfold mi; lia). rewrite Rltb_true by exact T2. cbn [andb].
    replace mi with 1%Z by (unfold mi; lia). destruct l as [|a post]; [congruence|].
    destruct (adapt_correct c g g1 fuel 1 (c_first_layer_height c) I1) as (g2' & W2' & I2 & L2 & _); [rewrite E1; cbn [length]; lia|exact Hf|rewrite E1; cbn [length] in *; lia|].
    assert (Oa : column_ok (a :: post)) by (rewrite E1 in O1; exact (Forall_inv_tail O1)).
    destruct (correct_layer_spec fuel c g1 [x] a post (c_first_layer_height c) E1 C1 Oa Hf) as (g2 & m & taken & rest & out & W2 & C2 & _ & Ep & A & G & F).
    { rewrite ?E1 in L1. cbn [length] in L1. lia. }
    change (Z.of_nat (length [x])) with 1%Z in W2. rewrite W2 in W2'. injection W2' as <-. rewrite W2. cbn [bind].
    assert (Eo : exists y o, out = y :: o). { destruct F as [(_ & x0 & x1 & -> & _)|[(_ & ->)|(_ & -> & _)]]; eauto. }
    destruct Eo as (y & o & Eo).
    assert (R1 : resized c (c_first_layer_height c) (a :: post) (y :: o ++ rest)).
    { exists a, taken, rest, m, out. rewrite Ep, Eo. cbn [app]. rewrite Eo in F. auto. }
    assert (G' : g_nodes g2 = [x; y] ++ (o ++ rest)) by (rewrite G, Eo; reflexivity).
    destruct (adapt_ice_loop c g g2 2 fuel I2 ltac:(lia)) as (g3' & j3' & W3' & I3 & L3); [rewrite ?E1 in L2; cbn [length] in *; lia|].
    destruct (ice_thickened c fuel g2 [x; y] (o ++ rest) C2 (column_ok_positive _ (ai_ok _ _ _ I2)) G') as (g3 & j3 & l2 & W3 & G3 & T3).
    { rewrite G' in L2. cbn [app length] in L2. rewrite ?E1 in L2. cbn [length] in L2. rewrite ?E1 in L1. cbn [length] in L1. lia. }
    change (Z.of_nat (length [x; y])) with 2%Z in W3. rewrite W3 in W3'. injection W3' as <- <-.
    change (1 + 1)%Z with 2%Z. rewrite W3. cbn [bind].
    rewrite E1 in L2. destruct (Final g3 I3 ltac:(lia)) as (g' & W4 & R4). rewrite G3 in R4. exists g', y, (o ++ rest), l2. auto.
  - intros NT. assert (Ec : ((mi =? 1)%Z && Rltb (n_height x) (c_first_layer_height c))%bool = false).
    { destruct (Z.eqb_spec mi 1) as [Em|Em]; [|reflexivity]. cbn [andb]. destruct (Rltb_spec (n_height x) (c_first_layer_height c)) as [T|T]; [|reflexivity]. exfalso. apply NT. split; [unfold mi in Em; lia|exact T]. }
    rewrite Ec. cbn [bind].
    pose proof (nsnow_le c (x :: l)) as Hle. set (k := Nat.max 1 (nsnow c (x :: l))). assert (Lk : (k <= length (x :: l))%nat) by (unfold k; cbn [length] in *; lia).
    assert (Es : x :: l = firstn k (x :: l) ++ skipn k (x :: l)) by (symmetry; apply firstn_skipn).
    assert (Ls : length (firstn k (x :: l)) = k) by (rewrite firstn_length; lia).
    destruct (adapt_ice_loop c g g1 mi fuel I1 ltac:(unfold mi; lia)) as (g3' & j3' & W3' & I3 & L3); [rewrite E1; lia|].
    rewrite Es in E1. destruct (ice_thickened c fuel g1 _ _ C1 (column_ok_positive _ O1) E1) as (g3 & j3 & l2 & W3 & G3 & T3).
    { rewrite skipn_length. lia. }
    rewrite Ls in W3. replace (Z.of_nat k) with mi in W3 by (unfold mi, k; lia). rewrite W3 in W3'. injection W3' as <- <-. rewrite W3. cbn [bind].
    destruct (Final g3 I3) as (g' & W4 & R4). { rewrite E1, <- Es in L3. lia. }
    rewrite G3 in R4. exists g', (firstn k (x :: l)), (skipn k (x :: l)), l2. auto.
Qed.

(*@ C133 Bare ice whose top layer is at least as thick as defined: afterwards the top layer has the defined height and, the two top layers and the last layer excepted, every layer has the minimum height. *)
Lemma adaptive_bare_ice_lem :
  forall c g fuel top l,
    0 < c_first_layer_height c -> counted g -> column_ok (g_nodes g) -> g_nodes g = top :: l ->
    Forall (fun n => ~ is_snow c n) (g_nodes g) -> c_first_layer_height c <= n_height top -> (length (g_nodes g) + 2 < fuel)%nat ->
    exists g' first second rest, adaptive_profile fuel c g = Ok g' /\ g_nodes g' = first :: second ++ rest /\
      n_height first = c_first_layer_height c /\ (length second <= 1)%nat /\
      Forall (fun n => c_minimum_snow_layer_height c <= n_height n) (removelast rest).
Proof.
  intros c g fuel top l Hf C O E B Ht HF.
  assert (N0 : nsnow c (g_nodes g) = 0%nat).
  { clear -B. unfold nsnow. induction B as [|n t H _ IH]; [reflexivity|]. cbn [filter]. destruct (snowb_spec c n); [contradiction|exact IH]. }
  destruct (adaptive_profile_steps_lem c g fuel Hf C O) as (x & l1 & Wk & _ & _ & H); [rewrite E; discriminate|exact HF|].
  assert (El : x :: l1 = top :: l).
  { apply walk_quiet in Wk; [cbn [app] in Wk; congruence|]. intros pre a b post _ L. cbn [app length] in L. lia. }
  injection El as -> ->. destruct H as (g' & s1 & ice & ice' & W & Es & Ls & T & Rz); [intros [_ X]; lra|].
  rewrite <- E, N0 in Ls. cbn in Ls. destruct s1 as [|s1 [|? ?]]; try discriminate. cbn [app] in Es. injection Es as <- <-.
  assert (Th : Forall (fun n => c_minimum_snow_layer_height c <= n_height n) (removelast ice')).
  { clear -T. induction T as [l L|x y m l l' Hx M T IH|x y l l' Hx T IH]; [destruct l as [|a [|]]; cbn in *; try constructor; lia|exact IH|].
    cbn [removelast]. destruct l' as [|z l']; [constructor|]. constructor; [exact Hx|exact IH]. }
  destruct Rz as (a & taken & rest & m & out & Ea & A & Eg & F). cbn [app] in Ea. injection Ea as <- Ei.
  assert (taken = [] /\ m = top) as [-> ->]. { inversion A as [|? ? ? ? ? Hlt]; subst; [auto|lra]. }
  cbn [app] in Ei. subst rest. destruct F as [(L & x0 & x1 & -> & P)|[(L & ->)|(L & _)]]; [| |lra].
  - exists g', x0, [x1], ice'. split; [exact W|]. split; [exact Eg|]. split; [exact (proj1 P)|]. split; [cbn; lia|exact Th].
  - exists g', top, [], ice'. split; [exact W|]. split; [exact Eg|]. split; [exact L|]. split; [cbn; lia|exact Th].
Qed.

(*@ex C133 Example with the shipped constants: the first two layers are alike and are merged, the third is thin and is deleted, the fourth is the last layer of snow. *)
Lemma adaptive_walk_example_lem :
  let c := default_constants in
  let a := mkNode 0.02 268 0 0.3 0 in let b := mkNode 0.02 268.005 0 0.302 0 in
  let thin := mkNode 0.0005 260 0 0.4 0 in let d := mkNode 0.2 265 0 0.45 0 in let ice := mkNode 1 265 0 1 0 in
  exists m, merger a b m /\ walk c 0 [] [a; b; thin; d; ice] [m; d; ice] /\ quiet_snow c [m; d; ice] /\ ~ quiet_snow c [a; b; thin; d; ice].
Proof.
  cbv zeta. set (c := default_constants). set (a := mkNode 0.02 268 0 0.3 0). set (b := mkNode 0.02 268.005 0 0.302 0).
  set (t := mkNode 0.0005 260 0 0.4 0). set (d := mkNode 0.2 265 0 0.45 0). set (ice := mkNode 1 265 0 1 0).
  set (m := mkNode 0.04 268.0025 0 0.301 0).
  assert (DE : forall h T f r, 0 < f <= 1 -> layer_density c (mkNode h T 0 f r) = f * 917 + (1 - f) * c_air_density c).
  { intros h T f r Hf. unfold layer_density, layer_air_porosity. cbn [n_lwc n_ice]. rewrite Rmax_right by lra. cbn. lra. }
  assert (AD : 0 < c_air_density c < 2) by (cbn; lra).
  assert (ST : c_snow_ice_threshold c = 900) by reflexivity.
  assert (SB : forall h T f r, 0 < f <= 0.5 -> snowb c (mkNode h T 0 f r) = true).
  { intros h T f r Hf. unfold snowb. rewrite DE by lra. apply Rltb_true. rewrite ST. nra. }
  assert (SI : snowb c ice = false).
  { unfold snowb, ice. rewrite DE by lra. apply Rltb_false. rewrite ST. lra. }
  assert (Sa : snowb c a = true) by (apply SB; lra). assert (Sb : snowb c b = true) by (apply SB; lra). assert (Sm : snowb c m = true) by (apply SB; lra).
  assert (St : snowb c t = true) by (apply SB; lra). assert (Sd : snowb c d = true) by (apply SB; lra).
  assert (MH : c_minimum_snow_layer_height c = 0.001) by reflexivity.
  assert (AB : alike c a b).
  { unfold alike, a, b. rewrite !DE by lra. cbn [n_temperature n_height]. change (c_temperature_threshold_merging c) with 0.01. change (c_density_threshold_merging c) with 5.
    repeat split; try lra; apply Rabs_le; split; nra. }
  assert (NMT : ~ alike c m t).
  { intros [X _]. cbn [m t n_temperature] in X. change (c_temperature_threshold_merging c) with 0.01 in X. rewrite Rabs_right in X by lra. lra. }
  assert (NTD : ~ alike c t d).
  { intros [X _]. cbn [d t n_temperature] in X. change (c_temperature_threshold_merging c) with 0.01 in X. rewrite Rabs_left in X by lra. lra. }
  assert (NMD : ~ alike c m d).
  { intros [X _]. cbn [m d n_temperature] in X. change (c_temperature_threshold_merging c) with 0.01 in X. rewrite Rabs_right in X by lra. lra. }
  assert (Mg : merger a b m) by (unfold merger, a, b, m; cbn; repeat split; lra).
  exists m. split; [exact Mg|]. split; [|split].
  - eapply walk_merge with (m := m); [unfold nsnow; cbn [app filter]; rewrite Sa, Sb, St, Sd, SI; cbn; lia|exact AB|cbn; lia|exact Mg|].
    apply walk_keep; [unfold nsnow; cbn [app filter]; rewrite Sm, St, Sd, SI; cbn; lia|tauto|rewrite MH; cbn; lra|].
    apply walk_remove; [unfold nsnow; cbn [app filter]; rewrite Sm, St, Sd, SI; cbn; lia|tauto|rewrite MH; cbn; lra|].
    apply (walk_end c _ [m] [d; ice]). unfold nsnow; cbn [app filter]; rewrite Sm, Sd, SI; cbn; lia.
  - intros pre x y post E L. unfold nsnow in L. cbn [filter] in L. rewrite Sm, Sd, SI in L. cbn [length] in L. destruct pre as [|p pre]; [|cbn [length] in L; lia].
    cbn [app] in E. injection E as <- <- _. split; [rewrite MH; cbn; lra|exact NMD].
  - intros Q. apply (Q [] a b [t; d; ice] eq_refl); [|exact AB]. unfold nsnow. cbn [filter]. rewrite Sa, Sb, St, Sd, SI. cbn. lia.
Qed.

Lemma thickened_same c l l' : thickened c l l' -> Forall (fun n => c_minimum_snow_layer_height c <= n_height n) (removelast l) -> l' = l.
Proof.
  induction 1 as [l L|x y m l l' Hx M T IH|x y l l' Hx T IH]; intros F; [reflexivity| |]; cbn [removelast] in F.
  - exfalso. pose proof (Forall_inv F) as X. cbn beta in X. lra.
  - f_equal. apply IH. exact (Forall_inv_tail F).
Qed.

Lemma resized_same c h a l l' : resized c h (a :: l) l' -> n_height a = h -> l' = a :: l.
Proof.
  intros (a' & taken & rest & m & out & E & A & -> & F) Ha. injection E as <- ->.
  assert (taken = [] /\ m = a) as [-> ->]. { inversion A as [|? ? ? ? ? Hlt]; subst; [auto|lra]. }
  destruct F as [(L & _)|[(_ & ->)|(L & _)]]; [lra|reflexivity|lra].
Qed.

(*@ C133 A column whose snow needs no change, whose layers below have the minimum height, and whose top layer has the defined height, comes back unchanged, also from update_grid. *)
Lemma adaptive_profile_leaves_lem :
  forall c g fuel top l above below,
    0 < c_first_layer_height c -> counted g -> column_ok (g_nodes g) -> (length (g_nodes g) + 2 < fuel)%nat ->
    g_nodes g = top :: l -> n_height top = c_first_layer_height c -> quiet_snow c (g_nodes g) ->
    g_nodes g = above ++ below -> length above = Nat.max 1 (nsnow c (g_nodes g)) ->
    Forall (fun n => c_minimum_snow_layer_height c <= n_height n) (removelast below) ->
    adaptive_profile fuel c g = Ok g /\
    (c_remesh_method c = "adaptive_profile"%string -> c_minimum_snow_layer_height c <= c_first_layer_height c -> update_grid fuel c g = Ok g).
Proof.
  intros c g fuel top l above below Hf C O HF E Ht Q Eab La Fb.
  assert (W : adaptive_profile fuel c g = Ok g).
  { assert (Ne : g_nodes g <> []) by (rewrite E; discriminate).
    destruct (adaptive_profile_steps_lem c g fuel Hf C O Ne HF) as (x & l1 & Wk & _ & _ & H).
    apply walk_quiet in Wk; [|exact Q]. cbn [app] in Wk. rewrite E in Wk. injection Wk as -> ->.
    destruct H as (g' & s1 & ice & ice' & W & Es & Ls & T & Rz); [intros [_ X]; lra|].
    rewrite <- E in Es, Ls. rewrite Eab in Es. rewrite <- La in Ls. destruct (app_len_inj above below s1 ice) as [<- <-]; auto.
    apply thickened_same in T; [|exact Fb]. subst ice'. rewrite <- Eab, E in Rz. apply resized_same in Rz; [|exact Ht].
    destruct (adaptive_profile_spec c g fuel Hf C O Ne HF) as [(g2 & W2 & I2)|(W2 & _)]; [|congruence].
    rewrite W in W2. injection W2 as <-. rewrite W. f_equal. apply grid_eq; [congruence|exact C|exact (ai_counted _ _ _ I2)|exact (ai_clock _ _ _ I2)]. }
  split; [exact W|]. intros Hm Hle. unfold update_grid. rewrite Hm. cbn [String.eqb Ascii.eqb Bool.eqb]. rewrite W. cbn [bind].
  unfold get_node_height. rewrite (get_node_mid g [] top l E : get_node g 0 = Ok top). cbn [bind]. rewrite Rltb_false by lra. reflexivity.
Qed.
