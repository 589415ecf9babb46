(** * Snow densification (C24, C25, C58, C59, C60) *)
From Verif Require Import ModelPy ModelConstants ModelNode ModelGrid ModelDensification Spec LemPy
  LemGridBase LemHeat LemDensification.

(** wet fresh snow, dry snow, ice *)
Definition ex_d1 : Node := mkNode 0.1 273.16 0.05 0.2 0.
Definition ex_d2 : Node := mkNode 0.2 268 0 0.35 0.
Definition ex_d3 : Node := mkNode 1 270 0 1 0.
Definition ex_dens_grid : Grid := mkGrid [ex_d1; ex_d2; ex_d3] 3 0.1 0 0.

(** what happens to one layer during compaction by [d] *)
Definition compacted_by (d : R) (x x' : Node) : Prop :=
  (n_lwc x = 0 -> squeezed d 0 d x x') /\ (n_lwc x <> 0 -> squeezed (d / 2) (d / 2) d x x').

Lemma compacted_mass c d x x' : compacted_by d x x' ->
  (n_lwc x = 0 -> layer_mass c x' = (1 - d * d) * layer_mass c x) /\
  (n_lwc x <> 0 -> layer_mass c x' = (1 + d / 2) * (1 - d) * layer_mass c x).
Proof.
  intros [H1 H2]. split; intros E.
  - apply squeezed_dry_mass; auto.
  - apply squeezed_wet_mass; auto.
Qed.

Lemma compacted_keeps d x x' : compacted_by d x x' ->
  n_height x' = (1 - d) * n_height x /\ n_temperature x' = n_temperature x /\ n_refreeze x' = n_refreeze x.
Proof.
  intros [H1 H2]. destruct (Req_dec (n_lwc x) 0) as [E|E];
    [destruct (H1 E) as (_ & _ & A & B & C)|destruct (H2 E) as (_ & _ & A & B & C)]; auto.
Qed.

Definition above_ok (c : Consts) (p : option Node) : Prop :=
  match p with None => True | Some y => 0 < layer_weight c y end.

Lemma added_nonneg c p x : above_ok c p -> 0 < layer_weight c x -> 0 <= added_load c p x.
Proof. destruct p; cbn; lra. Qed.

(** per layer of the snow pack *)
Lemma boone_layers c dt l l' M : constants_ok c -> 0 < dt -> layers_ok l ->
  swept (boone_step c dt) None 0 l l' M ->
  Forall2 (fun x x' => (~ compactable c x /\ x' = x) \/
                       (compactable c x /\ exists d, 0 < d /\ compacted_by d x x')) l l'.
Proof.
  intros Hc Hdt HL HS.
  refine (proj2 (swept_inv (boone_step c dt) (fun M => 0 <= M) (above_ok c)
    (fun x => 0 < n_height x /\ 0 < n_ice x /\ 0 <= n_lwc x) _ _ _ _ _ _ _ HS I (Rle_refl 0) HL)).
  intros p a x x' a' Hp Ha Hx [(C & E & d & Ed & D1 & D2)|(C & -> & ->)].
  - assert (W := layer_weight_pos c x Hc Hx). assert (A := added_nonneg c p x Hp W).
    split; [lra|]. split; [|exact W]. right. split; [exact C|]. exists d. split; [|split; assumption].
    rewrite Ed. apply Rmult_lt_0_compat; [|exact Hdt]. apply boone_rate_pos. lra.
  - assert (W := layer_weight_pos c x Hc Hx). split; [exact Ha|]. split; [|exact W]. left. auto.
Qed.

Lemma layers_ok_firstn k l : layers_ok l -> layers_ok (firstn k l).
Proof.
  unfold layers_ok. intros H. rewrite <- (firstn_skipn k l) in H. apply Forall_app in H. apply H.
Qed.

Lemma boone_mass_le c x x' : constants_ok c -> 0 < n_height x /\ 0 < n_ice x /\ 0 <= n_lwc x ->
  (~ compactable c x /\ x' = x) \/ (compactable c x /\ exists d, 0 < d /\ compacted_by d x x') ->
  layer_mass c x' <= layer_mass c x /\ (compactable c x -> layer_mass c x' < layer_mass c x).
Proof.
  intros Hc Hx [[N ->]|[C (d & Hd & D)]].
  - split; [lra|]. intros; contradiction.
  - assert (P := layer_mass_pos c x Hc Hx). destruct (compacted_mass c d x x' D) as [M1 M2].
    assert (layer_mass c x' < layer_mass c x); [|split; [lra|auto]].
    destruct (Req_dec (n_lwc x) 0) as [E|E].
    + rewrite (M1 E). assert (0 < d * d * layer_mass c x) by (apply Rmult_lt_0_compat; nra). lra.
    + rewrite (M2 E). assert (0 < (d / 2 + d * d / 2) * layer_mass c x) by (apply Rmult_lt_0_compat; nra). nra.
Qed.

(*@ C24,C25 What Boone compaction does, exactly: going down through the snow layers
    with the load accumulated so far, every snow layer above the minimum thickness is
    compacted by the rate of Essery et al. times the time step, all other layers and the
    clock stay.  It never fails. *)
Lemma boone_exact_lem : forall (c : Consts) (g : Grid) (dt : R), counted g ->
  exists top load,
    method_Boone c g dt = Ok (with_nodes g (top ++ skipn (nsnow c (g_nodes g)) (g_nodes g))) /\
    swept (boone_step c dt) None 0 (firstn (nsnow c (g_nodes g)) (g_nodes g)) top load.
Proof. exact boone_spec. Qed.

(*@ C24 The exact change of mass: a dry layer compacted by d keeps the fraction 1-d^2 of its
    mass, a wet layer only (1+d/2)(1-d). *)
Lemma boone_layer_mass_lem : forall (c : Consts) (g : Grid) (dt : R),
  constants_ok c -> counted g -> layers_ok (g_nodes g) -> 0 < dt ->
  exists g', method_Boone c g dt = Ok g' /\
    Forall2 (fun x x' => x' = x \/
      exists d, 0 < d /\ n_height x' = (1 - d) * n_height x /\
        (n_lwc x = 0 -> layer_mass c x' = (1 - d * d) * layer_mass c x) /\
        (n_lwc x <> 0 -> layer_mass c x' = (1 + d / 2) * (1 - d) * layer_mass c x))
      (g_nodes g) (g_nodes g').
Proof.
  intros c g dt Hc Hn HL Hdt. destruct (boone_spec c g dt Hn) as (top & M & W & S).
  exists (with_nodes g (top ++ skipn (nsnow c (g_nodes g)) (g_nodes g))). split; [exact W|]. cbn [g_nodes with_nodes].
  rewrite <- (firstn_skipn (nsnow c (g_nodes g)) (g_nodes g)) at 1. apply Forall2_app.
  - eapply Forall2_weaken; [|eapply boone_layers; try eassumption; apply layers_ok_firstn; exact HL].
    cbv beta. intros x x' [[_ ->]|[_ (d & Hd & D)]]; [left; reflexivity|right].
    exists d. split; [exact Hd|]. split; [apply (compacted_keeps d x x' D)|]. apply compacted_mass. exact D.
  - clear. induction (skipn _ _); constructor; auto.
Qed.

(*@ C24 Boone compaction never adds mass to the column, and it loses mass in every column
    with at least one layer to compact. *)
Lemma boone_loses_mass_lem : forall (c : Consts) (g : Grid) (dt : R),
  constants_ok c -> counted g -> layers_ok (g_nodes g) -> 0 < dt ->
  exists g', method_Boone c g dt = Ok g' /\
    column_mass c (g_nodes g') <= column_mass c (g_nodes g) /\
    (Exists (compactable c) (firstn (nsnow c (g_nodes g)) (g_nodes g)) ->
     column_mass c (g_nodes g') < column_mass c (g_nodes g)).
Proof.
  intros c g dt Hc Hn HL Hdt. destruct (boone_spec c g dt Hn) as (top & M & W & S).
  exists (with_nodes g (top ++ skipn (nsnow c (g_nodes g)) (g_nodes g))). split; [exact W|]. cbn [g_nodes with_nodes].
  set (k := nsnow c (g_nodes g)) in *.
  assert (HLk := layers_ok_firstn k _ HL).
  assert (F := boone_layers c dt _ _ M Hc Hdt HLk S).
  assert (F1 : Forall2 (fun x x' => layer_mass c x' <= layer_mass c x) (firstn k (g_nodes g)) top).
  { clear - F HLk Hc. induction F as [|x x' l l' H F IH]; constructor.
    - apply (boone_mass_le c x x' Hc (Forall_inv HLk) H).
    - apply IH. exact (Forall_inv_tail HLk). }
  rewrite !column_mass_total.
  assert (E0 : total (layer_mass c) (g_nodes g)
    = total (layer_mass c) (firstn k (g_nodes g)) + total (layer_mass c) (skipn k (g_nodes g)))
    by (rewrite <- total_app, firstn_skipn; reflexivity).
  rewrite E0, total_app. split.
  - assert (T := total_Forall2_le _ _ _ F1). lra.
  - intros Ex. assert (total (layer_mass c) top < total (layer_mass c) (firstn k (g_nodes g))); [|lra].
    apply total_Forall2_lt; [exact F1|].
    clear - F HLk Hc Ex. induction F as [|x x' l l' H F IH]; [inversion Ex|].
    inversion Ex as [? ? C|? ? C]; subst.
    + exists 0%nat, x, x'. split; [reflexivity|]. split; [reflexivity|].
      apply (boone_mass_le c x x' Hc (Forall_inv HLk) H). exact C.
    + destruct (IH (Forall_inv_tail HLk) C) as (i & y & y' & A). exists (S i), y, y'. exact A.
Qed.

(*@ C25 Boone compaction makes no layer thicker, and every compacted layer strictly
    thinner; temperatures, refrozen amounts, the number of layers, the clock and every
    layer that is not snow or not thicker than the minimum stay as they are. *)
Lemma boone_only_thins_lem : forall (c : Consts) (g : Grid) (dt : R),
  constants_ok c -> counted g -> layers_ok (g_nodes g) -> 0 < dt ->
  exists g', method_Boone c g dt = Ok g' /\
    Forall2 (fun x x' => n_height x' <= n_height x /\ n_temperature x' = n_temperature x /\
                         n_refreeze x' = n_refreeze x /\ n_ice x <= n_ice x' /\ n_lwc x <= n_lwc x' /\
                         (~ compactable c x -> x' = x))
      (g_nodes g) (g_nodes g') /\
    Forall2 (fun x x' => compactable c x -> n_height x' < n_height x)
      (firstn (nsnow c (g_nodes g)) (g_nodes g)) (firstn (nsnow c (g_nodes g)) (g_nodes g')) /\
    column_height (g_nodes g') <= column_height (g_nodes g) /\
    counted g' /\ g_number_nodes g' = g_number_nodes g /\ same_clock g g'.
Proof.
  intros c g dt Hc Hn HL Hdt. destruct (boone_spec c g dt Hn) as (top & M & W & S).
  exists (with_nodes g (top ++ skipn (nsnow c (g_nodes g)) (g_nodes g))). split; [exact W|]. cbn [g_nodes with_nodes].
  set (k := nsnow c (g_nodes g)) in *.
  assert (HLk := layers_ok_firstn k _ HL).
  assert (F := boone_layers c dt _ _ M Hc Hdt HLk S).
  match goal with |- Forall2 ?Q _ _ /\ _ => assert (FA : Forall2 Q (g_nodes g) (top ++ skipn k (g_nodes g))) end.
  { rewrite <- (firstn_skipn k (g_nodes g)) at 1. apply Forall2_app.
    - clear - F HLk. induction F as [|x x' l l' H F IH]; constructor.
      + destruct (Forall_inv HLk) as (Hh & Hi & Hw). destruct H as [[C ->]|[C (d & Hd & D)]].
        * repeat split; try lra; try contradiction.
        * destruct (compacted_keeps d x x' D) as (E1 & E2 & E3).
          assert (n_height x' < n_height x) by (rewrite E1; nra).
          assert (n_ice x <= n_ice x' /\ n_lwc x <= n_lwc x').
          { destruct D as [D1 D2]. destruct (Req_dec (n_lwc x) 0) as [E|E];
            [destruct (D1 E) as (A & B & _)|destruct (D2 E) as (A & B & _)]; rewrite A, B; nra. }
          repeat split; try lra; try tauto.
      + apply IH. exact (Forall_inv_tail HLk).
    - clear. induction (skipn _ _); constructor; auto. repeat split; try lra; auto. }
  split; [exact FA|]. split; [|split; [|split; [|split]]].
  - rewrite firstn_app. rewrite (swept_length _ _ _ _ _ _ S), firstn_length_le by (apply nsnow_le).
    rewrite Nat.sub_diag. cbn [firstn]. rewrite app_nil_r.
    rewrite (firstn_all2 (n := k) top) by (rewrite (swept_length _ _ _ _ _ _ S), firstn_length_le by (apply nsnow_le); lia).
    eapply Forall2_mono; [|exact HLk|exact F]. cbv beta.
    intros x x' Hx [[C _]|[_ (d & Hd & D)]] C'; [contradiction|].
    rewrite (proj1 (compacted_keeps d x x' D)). nra.
  - apply total_Forall2_le. eapply Forall2_weaken; [|exact FA]. cbv beta. tauto.
  - unfold counted in *. cbn. rewrite Hn. f_equal. symmetry. exact (Forall2_len _ _ _ FA).
  - reflexivity.
  - repeat split.
Qed.

(** the load never exceeds one and a half times the weight of the snow above *)
Lemma boone_load_bound c dt B : constants_ok c -> forall p M l l' M',
  swept (boone_step c dt) p M l l' M' -> layers_ok l -> above_ok c p -> 0 <= M ->
  M + (match p with Some y => layer_weight c y | None => match l with x :: _ => layer_weight c x / 2 | [] => 0 end end)
    + column_weight c l <= B ->
  Forall2 (fun x x' => x' = x \/ exists m, 0 <= m <= B /\ compacted_by (boone_rate c m x * dt) x x') l l'.
Proof.
  intros Hc p M l l' M' HS. induction HS as [|p M x x' M1 t t' M2 S Sw IH]; intros HL Hp HM HB.
  - constructor.
  - assert (Hx := Forall_inv HL). cbv beta in Hx. assert (W := layer_weight_pos c x Hc Hx).
    assert (HLt := Forall_inv_tail HL).
    assert (Wt : 0 <= column_weight c t).
    { apply total_nonneg. eapply Forall_impl; [|exact HLt]. cbv beta. intros n Hn'. left. apply layer_weight_pos; assumption. }
    unfold column_weight in HB. rewrite total_cons in HB. fold (column_weight c t) in HB.
    assert (A := added_nonneg c p x Hp W).
    assert (EA : added_load c p x = match p with Some y => layer_weight c y | None => layer_weight c x / 2 end)
      by (destruct p; reflexivity). rewrite <- EA in HB.
    constructor.
    + destruct S as [(C & E & d & Ed & D1 & D2)|(C & -> & ->)]; [right|left; reflexivity].
      exists M1. split; [lra|]. rewrite <- Ed. split; assumption.
    + apply IH; [exact HLt|exact W| |].
      * destruct S as [(_ & -> & _)|(_ & -> & _)]; lra.
      * destruct S as [(_ & -> & _)|(_ & -> & _)]; lra.
Qed.

(*@ C25 Heights stay positive when the time step is small for the weight of the snow
    pack: the sufficient bound uses one and a half times that weight. *)
Lemma boone_heights_positive_lem : forall (c : Consts) (g : Grid) (dt : R),
  constants_ok c -> counted g -> layers_ok (g_nodes g) -> 0 < dt ->
  Forall (fun n => n_temperature n <= c_zero_temperature c) (g_nodes g) ->
  (1.5 * column_weight c (firstn (nsnow c (g_nodes g)) (g_nodes g)) * 9.81 / 3.7e7 + 2.8e-6) * dt < 1 ->
  exists g', method_Boone c g dt = Ok g' /\ layers_ok (g_nodes g').
Proof.
  intros c g dt Hc Hn HL Hdt HT Hs. destruct (boone_spec c g dt Hn) as (top & M & W & S).
  exists (with_nodes g (top ++ skipn (nsnow c (g_nodes g)) (g_nodes g))). split; [exact W|]. cbn [g_nodes with_nodes].
  set (k := nsnow c (g_nodes g)) in *.
  assert (HLk := layers_ok_firstn k _ HL).
  assert (HTk : Forall (fun n => n_temperature n <= c_zero_temperature c) (firstn k (g_nodes g))).
  { rewrite <- (firstn_skipn k (g_nodes g)) in HT. apply Forall_app in HT. apply HT. }
  set (B := 1.5 * column_weight c (firstn k (g_nodes g))) in *.
  assert (F : Forall2 (fun x x' => x' = x \/ exists m, 0 <= m <= B /\ compacted_by (boone_rate c m x * dt) x x')
    (firstn k (g_nodes g)) top).
  { refine (boone_load_bound c dt B Hc None 0 _ _ M S HLk I (Rle_refl 0) _).
    destruct (firstn k (g_nodes g)) as [|x t] eqn:Et.
    - unfold B, column_weight. rewrite total_nil. lra.
    - unfold B, column_weight. rewrite total_cons.
      assert (Hw := layer_weight_pos c x Hc (Forall_inv HLk)).
      assert (0 <= total (layer_weight c) t); [|lra].
      apply total_nonneg. eapply Forall_impl; [|exact (Forall_inv_tail HLk)]. cbv beta.
      intros n Hn'. left. apply layer_weight_pos; assumption. }
  apply Forall_app. split.
  - clearbody B. clear - F HLk HTk Hs Hc Hdt. induction F as [|x x' l l' H F IH]; constructor.
    + destruct (Forall_inv HLk) as (Hh & Hi & Hw). assert (Ht := Forall_inv HTk). cbv beta in Ht.
      destruct H as [->|(m & Hm & D)]; [auto|].
      assert (Hd := density_positive c x Hc Hi Hw).
      assert (R1 := boone_rate_bound c m x (proj1 Hm) (Rlt_le _ _ Hd) Ht).
      assert (R2 := boone_rate_pos c m x (proj1 Hm)).
      set (d := boone_rate c m x * dt) in *.
      assert (d < 1).
      { eapply Rle_lt_trans; [|exact Hs]. apply Rmult_le_compat_r; [lra|].
        eapply Rle_trans; [exact R1|]. lra. }
      assert (0 < d) by (apply Rmult_lt_0_compat; assumption).
      destruct (compacted_keeps d x x' D) as (E1 & _).
      assert (0 < n_height x') by (rewrite E1; nra).
      destruct D as [D1 D2]. destruct (Req_dec (n_lwc x) 0) as [E|E];
        [destruct (D1 E) as (A & B' & _)|destruct (D2 E) as (A & B' & _)]; rewrite A, B'; repeat split; nra.
    + apply IH; [exact (Forall_inv_tail HLk)|exact (Forall_inv_tail HTk)].
  - unfold layers_ok in HL. rewrite <- (firstn_skipn k (g_nodes g)) in HL. apply Forall_app in HL. apply HL.
Qed.

Lemma compacted_height_nth c dt l : forall p M l' M', swept (boone_step c dt) p M l l' M' ->
  Forall (compactable c) l ->
  forall i x, nth_error l i = Some x -> exists x', nth_error l' i = Some x' /\
    compacted_by (boone_rate c (M + match l with y :: _ => added_load c p y | [] => 0 end
                                + column_weight c (firstn i l)) x * dt) x x'.
Proof.
  induction l as [|y t IH]; intros p M l' M' HS HC i x E; [destruct i; discriminate|].
  inversion HS as [|? ? ? y' M1 ? t' ? S Sw]; subst.
  destruct S as [(C & EM & d & Ed & D1 & D2)|(C & _)]; [|exfalso; apply C; exact (Forall_inv HC)].
  destruct i as [|i]; cbn [nth_error firstn] in *.
  - injection E as <-. exists y'. split; [reflexivity|]. unfold column_weight. rewrite total_nil, Rplus_0_r.
    rewrite <- EM, <- Ed. split; assumption.
  - destruct (IH _ _ _ _ Sw (Forall_inv_tail HC) i x E) as (x' & E' & D). exists x'. split; [exact E'|].
    replace (M + added_load c p y + column_weight c (y :: firstn i t)) with
      (M1 + match t with z :: _ => added_load c (Some y) z | [] => 0 end + column_weight c (firstn i t)); [exact D|].
    unfold column_weight. rewrite total_cons, EM. destruct t as [|z t]; [destruct i; discriminate|]. cbn [added_load]. ring.
Qed.

(*@ C58 The load used for the layer at position i of a snow pack of thick layers is the
    weight of all layers above it plus half the weight of the top layer: from the second
    layer on the top layer counts one and a half times. *)
Lemma boone_overburden_lem : forall (c : Consts) (g : Grid) (dt : R) (top x : Node) (i : nat),
  counted g -> Forall (compactable c) (firstn (nsnow c (g_nodes g)) (g_nodes g)) ->
  hd_error (g_nodes g) = Some top -> nth_error (firstn (nsnow c (g_nodes g)) (g_nodes g)) i = Some x ->
  exists g' x', method_Boone c g dt = Ok g' /\ nth_error (g_nodes g') i = Some x' /\
    n_height x' = (1 - boone_rate c (column_weight c (firstn i (g_nodes g)) + layer_weight c top / 2) x * dt)
                  * n_height x.
Proof.
  intros c g dt top x i Hn HC Ht Hx. destruct (boone_spec c g dt Hn) as (l' & M & W & S).
  set (k := nsnow c (g_nodes g)) in *.
  destruct (compacted_height_nth c dt _ _ _ _ _ S HC i x Hx) as (x' & E' & D).
  exists (with_nodes g (l' ++ skipn k (g_nodes g))), x'. split; [exact W|]. split.
  - cbn [g_nodes with_nodes]. rewrite nth_error_app1; [exact E'|]. apply nth_error_Some. congruence.
  - assert (Hi : (i < k)%nat).
    { assert (i < length (firstn k (g_nodes g)))%nat by (apply nth_error_Some; congruence).
      rewrite firstn_length_le in H by apply nsnow_le. exact H. }
    rewrite firstn_firstn in D. replace (Nat.min i k) with i in D by lia.
    assert (E1 : exists t, firstn k (g_nodes g) = top :: t).
    { destruct (g_nodes g) as [|y l]; [discriminate|]. cbn in Ht. injection Ht as ->.
      destruct k; [lia|]. cbn. eauto. }
    destruct E1 as (t & E1). rewrite E1 in D. cbn [added_load] in D.
    replace (column_weight c (firstn i (g_nodes g)) + layer_weight c top / 2)
      with (0 + layer_weight c top / 2 + column_weight c (firstn i (g_nodes g))) by ring.
    apply (compacted_keeps _ x x' D).
Qed.

(*@ C58 A thin snow layer hides load: below a layer that is not thicker than the minimum,
    half the weight of the layer on top of it is missing. *)
Lemma boone_thin_layer_hides_load_lem : forall (c : Consts) (g : Grid) (dt : R) (a b x : Node) (rest : list Node),
  counted g -> g_nodes g = a :: b :: x :: rest -> is_snow c a -> is_snow c b -> is_snow c x ->
  c_minimum_snow_layer_height c < n_height a -> n_height b <= c_minimum_snow_layer_height c ->
  c_minimum_snow_layer_height c < n_height x ->
  exists g' a' x' rest', method_Boone c g dt = Ok g' /\ g_nodes g' = a' :: b :: x' :: rest' /\
    n_height x' = (1 - boone_rate c (column_weight c [a; b] - layer_weight c a / 2) x * dt) * n_height x.
Proof.
  intros c g dt a b x rest Hn E Sa Sb Sx Ha Hb Hx. destruct (boone_spec c g dt Hn) as (l' & M & W & HS0).
  assert (K : exists k, nsnow c (g_nodes g) = S (S (S k))).
  { rewrite E. unfold nsnow, snowb. cbn [filter]. rewrite !Rltb_true by assumption. cbn [length]. eauto. }
  destruct K as (k & K). rewrite K in *. rewrite E in HS0. cbn [firstn] in HS0.
  inversion HS0 as [|? ? ? a' M1 ? t1 ? S1 Sw1]; subst.
  inversion Sw1 as [|? ? ? b' M2 ? t2 ? S2 Sw2]; subst.
  inversion Sw2 as [|? ? ? x' M3 ? t3 ? S3 Sw3]; subst.
  destruct S1 as [(_ & E1 & _)|(C & _)]; [|exfalso; apply C; split; assumption].
  destruct S2 as [((_ & C) & _)|(_ & E2 & ->)]; [exfalso; lra|].
  destruct S3 as [(_ & E3 & d & Ed & D1 & D2)|(C & _)]; [|exfalso; apply C; split; assumption].
  exists (with_nodes g ((a' :: b :: x' :: t3) ++ skipn (S (S (S k))) (g_nodes g))), a', x', (t3 ++ skipn (S (S (S k))) (g_nodes g)).
  split; [exact W|]. split; [reflexivity|].
  assert (EM : M3 = column_weight c [a; b] - layer_weight c a / 2).
  { rewrite E3, E2, E1. cbn [added_load]. unfold column_weight. rewrite !total_cons, total_nil. lra. }
  rewrite <- EM, <- Ed. apply (compacted_keeps d x x'). split; assumption.
Qed.

Lemma exp_2_le : exp 2 <= 9.
Proof.
  replace 2 with (1 + 1) by lra. rewrite exp_plus. assert (H := exp_le_3). assert (P := exp_pos 1). nra.
Qed.

(*@ C25 The bound on the time step is needed: with daily steps a ten metre layer of light
    snow at melting temperature gets a negative height. *)
Lemma boone_negative_height_refuted_lem :
  exists (g : Grid) (dt : R) g' x', counted g /\ layers_ok (g_nodes g) /\ dt = 86400 /\
    Forall (fun n => n_temperature n <= c_zero_temperature default_constants) (g_nodes g) /\
    method_Boone default_constants g dt = Ok g' /\ In x' (g_nodes g') /\ n_height x' < 0.
Proof.
  set (x := mkNode 10 273.16 0 0.1 0). set (g := mkGrid [x] 1 0 0 0).
  assert (Hn : counted g) by reflexivity.
  assert (D : layer_density default_constants x = 92.69).
  { unfold layer_density, layer_air_porosity. cbn. rewrite Rmax_right by lra. lra. }
  assert (C : compactable default_constants x) by (split; [unfold is_snow; rewrite D|]; cbn; lra).
  assert (K : nsnow default_constants (g_nodes g) = 1%nat).
  { unfold nsnow, snowb. cbn [g_nodes g filter]. rewrite Rltb_true by apply C. reflexivity. }
  destruct (boone_overburden_lem default_constants g 86400 x x 0) as (g' & x' & W & E & H).
  - exact Hn.
  - rewrite K. cbn. constructor; [exact C|constructor].
  - reflexivity.
  - rewrite K. reflexivity.
  - exists g, 86400, g', x'. split; [exact Hn|]. split; [constructor; [cbn; lra|constructor]|].
    split; [reflexivity|]. split; [constructor; [cbn; lra|constructor]|]. split; [exact W|].
    split; [eapply nth_error_In; exact E|]. rewrite H. change (n_height x) with 10.
    assert (B : 1 < boone_rate default_constants (column_weight default_constants (firstn 0 (g_nodes g)) + layer_weight default_constants x / 2) x * 86400); [|lra].
    unfold column_weight. cbn [firstn]. rewrite total_nil. unfold boone_rate, layer_weight. rewrite D.
    change (n_height x) with 10. change (c_zero_temperature default_constants - n_temperature x) with (273.16 - 273.16).
    match goal with |- 1 < (?a / (3.7e7 * exp ?b) + 2.8e-6 * exp ?d) * 86400 =>
      assert (P1 := exp_pos d); assert (P2 : exp b <= 9) end.
    { eapply Rle_trans; [|exact exp_2_le]. left. apply exp_increasing. lra. }
    match type of P2 with exp ?b <= 9 => assert (P3 := exp_pos b); set (e := exp b) in * end.
    assert (/ (3.7e7 * 9) <= / (3.7e7 * e)) by (apply Rinv_le_contravar; lra).
    unfold Rdiv. set (q := / (3.7e7 * e)) in *.
    assert (E9 : / (3.7e7 * 9) = 1 / 333000000) by (replace (3.7e7 * 9) with 333000000 by lra; lra). lra.
Qed.

(*@ C25 The warning about fractions adding up to more than one can never be printed: the
    porosity is computed from the two other fractions. *)
Lemma densification_warning_never_lem : forall (g : Grid) (i : Z) (x : Node),
  get_node g i = Ok x -> log_fraction_warning g i = Ok false.
Proof. exact warning_never. Qed.

(*@ C59 What the Vionnet scheme does, exactly. *)
Lemma vionnet_exact_lem : forall (c : Consts) (g : Grid) (slope dt : R),
  constants_ok c -> counted g -> layers_ok (g_nodes g) ->
  exists top stress,
    method_Vionnet c g slope dt = Ok (with_nodes g (top ++ skipn (nsnow c (g_nodes g)) (g_nodes g))) /\
    swept (vionnet_step c slope dt) None 0 (firstn (nsnow c (g_nodes g)) (g_nodes g)) top stress.
Proof.
  intros c g slope dt Hc Hn HL. apply vionnet_spec; [exact Hn|destruct Hc; lra|].
  eapply Forall_impl; [|exact HL]. cbv beta. intros x (H1 & H2 & H3). split; [exact H3|].
  apply density_positive; assumption.
Qed.

Lemma vionnet_rate_sign c m x : constants_ok c -> 0 < n_height x /\ 0 < n_ice x /\ 0 <= n_lwc x ->
  exists k, 0 < k /\ vionnet_rate c m x = m * k.
Proof.
  intros Hc (Hh & Hi & Hw). unfold vionnet_rate. assert (Hd := density_positive c x Hc Hi Hw).
  match goal with |- context [exp ?a] => assert (P := exp_pos a); set (e := exp a) in * end.
  assert (Hq : 0 <= n_lwc x / n_height x) by (apply Rle_mult_inv_pos; lra).
  eexists. split; [|reflexivity]. apply Rinv_0_lt_compat.
  apply Rmult_lt_0_compat; [|exact P]. apply Rmult_lt_0_compat; apply Rdiv_lt_0_compat; lra.
Qed.

Lemma vionnet_layers c slope dt l l' s : constants_ok c -> 0 < dt -> layers_ok l ->
  swept (vionnet_step c slope dt) None 0 l l' s ->
  Forall2 (fun x x' => (~ compactable c x /\ x' = x) \/
     (compactable c x /\ exists k, 0 < k /\ compacted_by (cos slope * k) x x')) l l'.
Proof.
  intros Hc Hdt HL HS.
  refine (proj2 (swept_inv (vionnet_step c slope dt) (fun s => exists m, 0 <= m /\ s = cos slope * m) (above_ok c)
    (fun x => 0 < n_height x /\ 0 < n_ice x /\ 0 <= n_lwc x) _ _ _ _ _ _ _ HS I _ HL)).
  - intros p a x x' a' Hp (m & Hm & Ea) Hx St. assert (W := layer_weight_pos c x Hc Hx).
    assert (A : 0 < added_load c p x) by (destruct p; cbn in *; lra).
    destruct St as [(C & E & d & Ed & D1 & D2)|(C & -> & ->)].
    + assert (Em : a' = cos slope * (m + 9.81 * added_load c p x)) by (rewrite E, Ea; ring).
      split; [exists (m + 9.81 * added_load c p x); split; [lra|exact Em]|]. split; [|exact W].
      right. split; [exact C|]. destruct (vionnet_rate_sign c a' x Hc Hx) as (k & Hk & Ek).
      exists ((m + 9.81 * added_load c p x) * k * dt). split.
      * apply Rmult_lt_0_compat; [|exact Hdt]. apply Rmult_lt_0_compat; [lra|exact Hk].
      * replace (cos slope * ((m + 9.81 * added_load c p x) * k * dt)) with d; [split; assumption|].
        rewrite Ed, Ek, Em. ring.
    + split; [eauto|]. split; [|exact W]. left. auto.
  - exists 0. split; [lra|ring].
Qed.

(*@ C59 The slope reaches this scheme in degrees but its cosine is taken as if it were in
    radians.  The sign of that cosine decides: if positive every thick snow layer gets
    thinner, if negative every thick snow layer gets thicker. *)
Lemma vionnet_sign_lem : forall (c : Consts) (g : Grid) (slope dt : R),
  constants_ok c -> counted g -> layers_ok (g_nodes g) -> 0 < dt ->
  exists g', method_Vionnet c g slope dt = Ok g' /\
    Forall2 (fun x x' => compactable c x ->
               (0 < cos slope -> n_height x' < n_height x) /\ (cos slope < 0 -> n_height x < n_height x'))
      (firstn (nsnow c (g_nodes g)) (g_nodes g)) (firstn (nsnow c (g_nodes g)) (g_nodes g')) /\
    Forall2 (fun x x' => n_temperature x' = n_temperature x /\ n_refreeze x' = n_refreeze x /\
                         (~ compactable c x -> x' = x)) (g_nodes g) (g_nodes g') /\
    skipn (nsnow c (g_nodes g)) (g_nodes g') = skipn (nsnow c (g_nodes g)) (g_nodes g) /\
    counted g' /\ same_clock g g'.
Proof.
  intros c g slope dt Hc Hn HL Hdt. destruct (vionnet_exact_lem c g slope dt Hc Hn HL) as (top & s & W & S).
  set (k := nsnow c (g_nodes g)) in *. assert (Hk : (k <= length (g_nodes g))%nat) by apply nsnow_le.
  exists (with_nodes g (top ++ skipn k (g_nodes g))). split; [exact W|]. cbn [g_nodes with_nodes].
  assert (HLk := layers_ok_firstn k _ HL).
  assert (F := vionnet_layers c slope dt _ _ s Hc Hdt HLk S).
  assert (Lt : length top = k) by (rewrite (swept_length _ _ _ _ _ _ S), firstn_length_le by exact Hk; reflexivity).
  assert (E1 : firstn k (top ++ skipn k (g_nodes g)) = top).
  { rewrite <- Lt at 1. rewrite firstn_app, Nat.sub_diag, firstn_all. cbn. apply app_nil_r. }
  assert (E2 : skipn k (top ++ skipn k (g_nodes g)) = skipn k (g_nodes g)).
  { rewrite <- Lt at 1. rewrite skipn_app, Nat.sub_diag, skipn_all. reflexivity. }
  rewrite E1, E2. split; [|split; [|split; [reflexivity|split; [|repeat split]]]].
  - eapply Forall2_mono; [|exact HLk|exact F]. cbv beta.
    intros x x' (Hh & _) [[C _]|[_ (m & Hm & D)]] C'; [contradiction|].
    rewrite (proj1 (compacted_keeps _ x x' D)). split; intros Hs.
    + assert (0 < cos slope * m) by (apply Rmult_lt_0_compat; assumption). nra.
    + assert (0 < - cos slope * m) by (apply Rmult_lt_0_compat; lra). nra.
  - rewrite <- (firstn_skipn k (g_nodes g)) at 1. apply Forall2_app.
    + eapply Forall2_weaken; [|exact F]. cbv beta. intros x x' [[C ->]|[C (m & Hm & D)]]; [auto|].
      destruct (compacted_keeps _ x x' D) as (_ & B1 & B2). repeat split; auto. intros; contradiction.
    + apply Forall2_diag. auto.
  - unfold counted in *. cbn. rewrite Hn. f_equal. rewrite app_length, Lt, skipn_length. lia.
Qed.

(*@ C59 So on every slope between 2 and 4.5 degrees the Vionnet scheme makes snow thicker. *)
Lemma vionnet_thickens_gentle_slopes_lem : forall (c : Consts) (g : Grid) (slope dt : R),
  constants_ok c -> counted g -> layers_ok (g_nodes g) -> 0 < dt -> 2 < slope <= 4.5 ->
  exists g', method_Vionnet c g slope dt = Ok g' /\
    Forall2 (fun x x' => compactable c x -> n_height x < n_height x')
      (firstn (nsnow c (g_nodes g)) (g_nodes g)) (firstn (nsnow c (g_nodes g)) (g_nodes g')).
Proof.
  intros c g slope dt Hc Hn HL Hdt Hs. destruct (vionnet_sign_lem c g slope dt Hc Hn HL Hdt) as (g' & W & F & _).
  exists g'. split; [exact W|]. eapply Forall2_weaken; [|exact F]. cbv beta. intros x x' H C. apply (H C).
  assert (P4 := PI_4). assert (P3 := PI2_3_2). apply cos_lt_0; lra.
Qed.

(*@ C60 What the empirical scheme does, exactly. *)
Lemma empirical_exact_lem : forall (c : Consts) (g : Grid) (dt : R),
  constants_ok c -> 0 < dt -> counted g -> layers_ok (g_nodes g) ->
  exists top, method_empirical c g dt
      = Ok (with_nodes g (top ++ skipn (nsnow c (g_nodes g)) (g_nodes g))) /\
    Forall2 (empirical_step c dt) (firstn (nsnow c (g_nodes g)) (g_nodes g)) top.
Proof. exact empirical_spec. Qed.

Lemma empirical_step_jump c dt x x' : constants_ok c -> 0 < dt -> 0 < n_ice x /\ 0 <= n_lwc x ->
  empirical_step c dt x x' ->
  (600 <= layer_density c x /\ x' = x) \/
  (layer_density c x <= c_ice_density c * n_ice x' /\ n_lwc x' = n_lwc x /\
   layer_density c x + c_water_density c * n_lwc x <= layer_density c x' /\ n_height x' = (1 - (600 - layer_density c x) * dt / 8.0e5 / layer_density c x') * n_height x).
Proof.
  intros Hc Hdt (Hi & Hw) [(H6 & E1 & E2 & E3 & E4 & E5)|H]; [right|left; exact H].
  assert (J := empirical_new_ice c x dt Hc Hdt H6).
  assert (Hri : 0 < c_ice_density c) by (destruct Hc; lra).
  assert (A : layer_density c x <= c_ice_density c * n_ice x').
  { rewrite E1. replace (c_ice_density c * _) with (600 - (600 - layer_density c x) * exp (- dt / 8.0e5)) by (field; lra). lra. }
  split; [exact A|]. split; [exact E3|]. split; [|exact E2].
  unfold layer_density at 2. unfold layer_air_porosity. rewrite E3.
  assert (0 <= Rmax 0 (1 - n_lwc x - n_ice x') * c_air_density c)
    by (apply Rmult_le_pos; [apply Rmax_l|destruct Hc; lra]). lra.
Qed.

(*@ C60 The empirical scheme turns the whole density of a light layer, water and air
    included, into ice and leaves the water where it is: however short the step, the
    density of a wet layer jumps by the weight of its water. *)
Lemma empirical_density_jump_lem : forall (c : Consts) (g : Grid) (dt : R),
  constants_ok c -> 0 < dt -> counted g -> layers_ok (g_nodes g) ->
  exists g', method_empirical c g dt = Ok g' /\
    Forall2 (fun x x' => layer_density c x < 600 ->
               n_lwc x' = n_lwc x /\ layer_density c x + c_water_density c * n_lwc x <= layer_density c x')
      (firstn (nsnow c (g_nodes g)) (g_nodes g)) (firstn (nsnow c (g_nodes g)) (g_nodes g')) /\
    Forall2 (fun x x' => n_temperature x' = n_temperature x /\ n_refreeze x' = n_refreeze x /\
                         n_lwc x' = n_lwc x /\ (600 <= layer_density c x -> x' = x))
      (g_nodes g) (g_nodes g') /\
    skipn (nsnow c (g_nodes g)) (g_nodes g') = skipn (nsnow c (g_nodes g)) (g_nodes g) /\
    counted g' /\ same_clock g g'.
Proof.
  intros c g dt Hc Hdt Hn HL. destruct (empirical_spec c g dt Hc Hdt Hn HL) as (top & W & F).
  set (k := nsnow c (g_nodes g)) in *. assert (Hk : (k <= length (g_nodes g))%nat) by apply nsnow_le.
  exists (with_nodes g (top ++ skipn k (g_nodes g))). split; [exact W|]. cbn [g_nodes with_nodes].
  assert (HLk := layers_ok_firstn k _ HL).
  assert (Lt : length top = k) by (rewrite (Forall2_len _ _ _ F), firstn_length_le by exact Hk; reflexivity).
  assert (E1 : firstn k (top ++ skipn k (g_nodes g)) = top).
  { rewrite <- Lt at 1. rewrite firstn_app, Nat.sub_diag, firstn_all. cbn. apply app_nil_r. }
  assert (E2 : skipn k (top ++ skipn k (g_nodes g)) = skipn k (g_nodes g)).
  { rewrite <- Lt at 1. rewrite skipn_app, Nat.sub_diag, skipn_all. reflexivity. }
  rewrite E1, E2. split; [|split; [|split; [reflexivity|split; [|repeat split]]]].
  - eapply Forall2_mono; [|exact HLk|exact F]. cbv beta. intros x x' (_ & Hi & Hw) S H6.
    destruct (empirical_step_jump c dt x x' Hc Hdt (conj Hi Hw) S) as [[H _]|(A & B & C & _)]; [lra|auto].
  - rewrite <- (firstn_skipn k (g_nodes g)) at 1. apply Forall2_app.
    + eapply Forall2_weaken; [|exact F]. cbv beta.
      intros x x' [(H6 & _ & _ & A & B & C)|(H6 & ->)]; repeat split; auto. intros; lra.
    + apply Forall2_diag. auto.
  - unfold counted in *. cbn. rewrite Hn. f_equal. rewrite app_length, Lt, skipn_length. lia.
Qed.

(*@ C60 Mass conservation is therefore refuted: one hour of empirical compaction increases
    the mass of a wet snow layer by more than a quarter. *)
Lemma empirical_creates_mass_refuted_lem :
  exists (g g' : Grid) (dt : R), counted g /\ layers_ok (g_nodes g) /\ dt = 3600 /\
    method_empirical default_constants g dt = Ok g' /\
    1.25 * column_mass default_constants (g_nodes g) < column_mass default_constants (g_nodes g').
Proof.
  set (x := mkNode 1 273.16 0.1 0.3 0). set (g := mkGrid [x] 1 0 0 0).
  assert (Hn : counted g) by reflexivity.
  assert (D : layer_density default_constants x = 375.76).
  { unfold layer_density, layer_air_porosity. cbn. rewrite Rmax_right by lra. lra. }
  assert (HL : layers_ok (g_nodes g)) by (constructor; [cbn; lra|constructor]).
  destruct (empirical_spec default_constants g 3600 default_ok ltac:(lra) Hn HL) as (top & W & F).
  assert (K : nsnow default_constants (g_nodes g) = 1%nat).
  { unfold nsnow, snowb. cbn [g_nodes g filter]. rewrite D, Rltb_true by (cbn; lra). reflexivity. }
  rewrite K in *. cbn [g_nodes g firstn skipn] in *. rewrite app_nil_r in W.
  inversion F as [|? x' ? ? S F']; subst. inversion F'; subst.
  exists g, (with_nodes g [x']), 3600. split; [exact Hn|]. split; [exact HL|]. split; [reflexivity|]. split; [exact W|].
  cbn [g_nodes with_nodes g]. rewrite !column_mass_total, !total_cons, !total_nil.
  destruct (empirical_step_jump default_constants 3600 x x' default_ok ltac:(lra) ltac:(cbn; lra) S)
    as [[H _]|(A & B & C & E)]; [lra|]. rewrite D in *.
  unfold layer_mass. change (n_height x) with 1 in *. change (n_lwc x) with 0.1 in *. change (n_ice x) with 0.3.
  rewrite B. change (c_ice_density default_constants) with 917 in *. change (c_water_density default_constants) with 1000 in *.
  assert (Q : (600 - 375.76) * 3600 / 8.0e5 / layer_density default_constants x' <= 0.01).
  { apply Rmult_le_reg_r with (layer_density default_constants x'); [lra|].
    unfold Rdiv at 1. rewrite Rmult_assoc, Rinv_l by lra. lra. }
  set (q := _ / layer_density default_constants x') in *.
  assert (0.99 <= n_height x') by lra.
  assert (0 <= (917 * n_ice x' + 1000 * 0.1 - 475.76) * (n_height x' - 0.99)) by (apply Rmult_le_pos; lra).
  nra.
Qed.

(*@ C25 Densification leaves the grid alone with the method "constant" and raises
    ValueError for every unknown method. *)
Lemma densification_dispatch_lem : forall (c : Consts) (g : Grid) (slope dt : R),
  (c_densification_method c = "Boone"%string -> densification c g slope dt = method_Boone c g dt) /\
  (c_densification_method c = "Vionnet"%string -> densification c g slope dt = method_Vionnet c g slope dt) /\
  (c_densification_method c = "empirical"%string -> densification c g slope dt = method_empirical c g dt) /\
  (c_densification_method c = "constant"%string -> densification c g slope dt = Ok g) /\
  (~ In (c_densification_method c) ["Boone"; "Vionnet"; "empirical"; "constant"]%string ->
   densification c g slope dt = Err ValueError).
Proof.
  intros c g slope dt. unfold densification. repeat split.
  1-4: intros ->; reflexivity.
  intros H. cbn [In] in H.
  destruct (String.eqb_spec (c_densification_method c) "Boone"); [exfalso; apply H; rewrite e; tauto|].
  destruct (String.eqb_spec (c_densification_method c) "Vionnet"); [exfalso; apply H; rewrite e; tauto|].
  destruct (String.eqb_spec (c_densification_method c) "empirical"); [exfalso; apply H; rewrite e; tauto|].
  destruct (String.eqb_spec (c_densification_method c) "constant"); [exfalso; apply H; rewrite e; tauto|].
  reflexivity.
Qed.

(*@ex The hypotheses hold for a snow pack of wet fresh snow and dry snow over ice, with
    both snow layers compactable and an hourly step small enough. *)
Lemma densification_case_lem :
  counted ex_dens_grid /\ layers_ok (g_nodes ex_dens_grid) /\
  nsnow default_constants (g_nodes ex_dens_grid) = 2%nat /\
  Forall (compactable default_constants) (firstn 2 (g_nodes ex_dens_grid)) /\
  Forall (fun n => n_temperature n <= c_zero_temperature default_constants) (g_nodes ex_dens_grid) /\
  (1.5 * column_weight default_constants (firstn 2 (g_nodes ex_dens_grid)) * 9.81 / 3.7e7 + 2.8e-6) * 3600 < 1.
Proof.
  assert (D1 : layer_density default_constants ex_d1 = 234.225).
  { unfold layer_density, layer_air_porosity. cbn. rewrite Rmax_right by lra. lra. }
  assert (D2 : layer_density default_constants ex_d2 = 321.665).
  { unfold layer_density, layer_air_porosity. cbn. rewrite Rmax_right by lra. lra. }
  assert (D3 : layer_density default_constants ex_d3 = 917).
  { unfold layer_density, layer_air_porosity. cbn. rewrite Rmax_left by lra. lra. }
  split; [reflexivity|]. split; [repeat constructor; cbn; lra|]. split; [|split; [|split]].
  - unfold nsnow, snowb. cbn [ex_dens_grid g_nodes filter]. rewrite D1, D2, D3.
    change (c_snow_ice_threshold default_constants) with 900.
    rewrite Rltb_true by lra. rewrite Rltb_true by lra. rewrite Rltb_false by lra. reflexivity.
  - repeat constructor; unfold is_snow; rewrite ?D1, ?D2; cbn; lra.
  - repeat constructor; cbn; lra.
  - cbn [ex_dens_grid g_nodes firstn]. unfold column_weight, layer_weight. rewrite !total_cons, total_nil, D1, D2. cbn. lra.
Qed.
