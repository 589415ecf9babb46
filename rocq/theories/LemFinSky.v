(** * Sky view, shading table and modelled radiation *)
From Verif Require Import ModelPy ModelConstants ModelNode ModelGrid ModelHeat ModelSurface ModelInit
  ModelCore ModelConfig ModelIO ModelMain ModelRadCor Spec SpecIO SpecRadCor LemPy LemGridBase LemDict
  LemIO LemIO5 LemSim LemHeat LemSurface LemRadCor LemShad LemShad2 LemShad3 LemShad4 LemShad5 LemFinShade.

(** ** Sky view *)

Lemma sky_visible_01 slo asp el azi i :
  let a := dot (direction (radians el) (radians azi)) (normal slo asp) in
  ((0 < a /\ i <> Some 0) /\ sky_visible slo asp el azi i = 1) \/
  (~ (0 < a /\ i <> Some 0) /\ sky_visible slo asp el azi i = 0).
Proof.
  intros a. unfold sky_visible. cbv zeta.
  replace (cos (radians el) * sin slo * cos (asp - radians azi) + sin (radians el) * cos slo) with a.
  2:{ unfold a, dot, direction, normal. rewrite cos_minus. ring. }
  destruct (num_eqb i 0) eqn:E.
  - apply num_eqb_spec in E. right. split; [|reflexivity]. rewrite E. intros [_ N]. apply N. reflexivity.
  - assert (NE: i <> Some 0). { intros E2. apply num_eqb_spec in E2. congruence. }
    destruct (Rltb_spec a 0) as [L|L].
    + destruct (Rltb_spec 0 0); [lra|]. right. split; [|reflexivity]. intros [P _]. lra.
    + destruct (Rltb_spec 0 a) as [P|P]; [left|right]; split; auto; [|lra]. intros [Q _]. contradiction.
Qed.

Lemma sky_view_inv dem mask slopes aspects lats lons svf y x z :
  LUTsvf dem mask slopes aspects lats lons = Ok svf -> cell_at dem y x = Some z ->
  exists b, cell_at mask y x = Some b /\
   (b <> Some 1 -> cell_at svf y x = Some None) /\
   (b = Some 1 -> exists slo asp visible,
      cell_at slopes y x = Some slo /\ cell_at aspects y x = Some asp /\ NoDup visible /\
      (forall p, In p visible <-> In p (list_prod (map (fun i => (10 * i)%Z) (zrange 1 37)) (map (fun i => (2 * i)%Z) (zrange 1 45))) /\
         0 < dot (direction (radians (IZR (snd p))) (radians (IZR (fst p)))) (normal (radians slo) (radians asp)) /\
         forall illu, relshad dem mask lats lons (IZR (snd p)) (IZR (fst p)) = Ok illu -> cell_at illu y x <> Some (Some 0)) /\
      cell_at svf y x = Some (Some (INR (length visible) / 1584))).
Proof.
  intros H Ez. pose proof (cell_at_nonneg _ _ _ _ Ez) as [Py Px].
  unfold LUTsvf in H. apply bind_ok in H as (tot & E1 & H).
  pose proof (raster_map_at _ _ _ y x H) as M. rewrite Ez in M. destruct M as (w & M1 & M2).
  apply bind_ok in M1 as (b & Eb & M1). apply raster_get_ok in Eb; [|assumption|assumption].
  exists b. split; [exact Eb|]. destruct (num_eqb b 1) eqn:En.
  - apply num_eqb_spec in En. split; [congruence|]. intros _. apply bind_ok in M1 as (v & Ev & M1). injection M1 as <-.
    apply raster_get_ok in Ev; [|assumption|assumption].
    rewrite (for_each_nested (fun azi el total =>
      illu <- relshad dem mask lats lons (IZR el) (IZR azi) ;;
      raster_map (fun y x v => slo <- raster_get slopes y x ;; asp <- raster_get aspects y x ;;
        i <- raster_get illu y x ;;
        Ok (v + sky_visible (radians slo) (radians asp) (IZR el) (IZR azi) i)) total)) in E1.
    set (dirs := list_prod _ _) in *.
    assert (E0: cell_at (map (map (fun _ => 0)) dem) y x = Some 0) by (rewrite cell_at_mapmap, Ez; reflexivity).
    (* slope and aspect exist, from the first direction *)
    assert (SA: exists slo asp, cell_at slopes y x = Some slo /\ cell_at aspects y x = Some asp).
    { change dirs with ((10, 2)%Z :: tl dirs) in E1. cbn [for_each] in E1. apply bind_ok in E1 as (t & Et & _).
      cbn [fst snd] in Et. apply bind_ok in Et as (il & _ & Et). pose proof (raster_map_at _ _ _ y x Et) as Q.
      rewrite E0 in Q. destruct Q as (u & Q & _). apply bind_ok in Q as (slo & Q1 & Q).
      apply bind_ok in Q as (asp & Q2 & _). apply raster_get_ok in Q1, Q2; try assumption. eauto. }
    destruct SA as (slo & asp & Es & Ea).
    assert (ND: NoDup dirs).
    { apply nodup_prod; apply nodup_map_inj; try (intros; lia); apply nodup_zseq. }
    destruct (for_each_count (fun p : Z * Z =>
        0 < dot (direction (radians (IZR (snd p))) (radians (IZR (fst p)))) (normal (radians slo) (radians asp)) /\
        forall illu, relshad dem mask lats lons (IZR (snd p)) (IZR (fst p)) = Ok illu -> cell_at illu y x <> Some (Some 0))
      (fun s => cell_at s y x) _ dirs ND _ _ 0 E1 E0) as (vis & N1 & N2 & N3).
    { intros [azi el] s s' v0 _ Es' Hv. cbn [fst snd] in *. apply bind_ok in Es' as (il & Eil & Es').
      pose proof (raster_map_at _ _ _ y x Es') as Q. rewrite Hv in Q. destruct Q as (u & Q & Eu).
      apply bind_ok in Q as (slo' & Q1 & Q). apply bind_ok in Q as (asp' & Q2 & Q). apply bind_ok in Q as (i & Q3 & Q).
      apply raster_get_ok in Q1, Q2, Q3; try assumption. rewrite Es in Q1. rewrite Ea in Q2.
      injection Q1 as <-. injection Q2 as <-. injection Q as <-. rewrite Eu, Eil.
      destruct (sky_visible_01 (radians slo) (radians asp) (IZR el) (IZR azi) i) as [[[A B] ->]|[A ->]].
      - left. split; [|reflexivity]. split; [exact A|]. intros illu E. injection E as <-. rewrite Q3. congruence.
      - right. split; [|f_equal; ring]. intros [P1 P2]. apply A. split; [exact P1|]. specialize (P2 il eq_refl).
        rewrite Q3 in P2. intros ->. apply P2. reflexivity. }
    exists slo, asp, vis. split; [exact Es|]. split; [exact Ea|]. split; [exact N1|]. split; [exact N2|].
    rewrite M2. rewrite N3 in Ev. injection Ev as <-. do 2 f_equal. field.
  - injection M1 as <-. split; [intros _; exact M2|]. intros E. subst b. cbn in En.
    destruct (Reqb_spec 1 1); [discriminate|congruence].
Qed.

Lemma in_dirs azi el :
  In (azi, el) (list_prod (map (fun i => (10 * i)%Z) (zrange 1 37)) (map (fun i => (2 * i)%Z) (zrange 1 45))) <->
  exists i j, (azi = 10 * i /\ el = 2 * j /\ 1 <= i <= 36 /\ 1 <= j <= 44)%Z.
Proof.
  rewrite in_prod_iff, !in_map_iff. split.
  - intros [(i & <- & I) (j & <- & J)]. apply in_zrange in I, J. exists i, j. repeat split; lia.
  - intros (i & j & -> & -> & I & J). split; [exists i|exists j]; (split; [reflexivity|apply in_zrange; lia]).
Qed.

(*@ C72 The sky view factor of a glacier cell is the fraction of the 1584 directions (36 azimuths, 44
   elevations) that lie above the plane of the slope and are not shaded by the terrain. *)
Lemma sky_view_counts_lem :
  forall dem mask slopes aspects lats lons svf y x z,
    LUTsvf dem mask slopes aspects lats lons = Ok svf ->
    cell_at dem y x = Some z -> cell_at mask y x = Some (Some 1) ->
    exists slope aspect (visible : list (Z * Z)),
      cell_at slopes y x = Some slope /\ cell_at aspects y x = Some aspect /\ NoDup visible /\
      (forall azi el, In (azi, el) visible <->
         (exists i j, azi = 10 * i /\ el = 2 * j /\ 1 <= i <= 36 /\ 1 <= j <= 44)%Z /\
         0 < dot (direction (radians (IZR el)) (radians (IZR azi))) (normal (radians slope) (radians aspect)) /\
         forall illu, relshad dem mask lats lons (IZR el) (IZR azi) = Ok illu ->
           cell_at illu y x <> Some (Some 0)) /\
      cell_at svf y x = Some (Some (INR (length visible) / 1584)).
Proof.
  intros dem mask slopes aspects lats lons svf y x z H Ez Em.
  destruct (sky_view_inv _ _ _ _ _ _ _ _ _ _ H Ez) as (b & Eb & _ & Q). rewrite Em in Eb. injection Eb as <-.
  destruct (Q eq_refl) as (slo & asp & vis & Q1 & Q2 & Q3 & Q4 & Q5). exists slo, asp, vis.
  split; [exact Q1|]. split; [exact Q2|]. split; [exact Q3|]. split; [|exact Q5].
  intros azi el. rewrite Q4, in_dirs. cbn [fst snd]. reflexivity.
Qed.

(*@ C72 It lies between 0 and 1 in glacier cells and is missing in all others. *)
Lemma sky_view_range_lem :
  forall dem mask slopes aspects lats lons svf y x z,
    LUTsvf dem mask slopes aspects lats lons = Ok svf -> cell_at dem y x = Some z ->
    (cell_at mask y x = Some (Some 1) -> exists v, cell_at svf y x = Some (Some v) /\ 0 <= v <= 1) /\
    (cell_at mask y x <> Some (Some 1) -> cell_at svf y x = Some None).
Proof.
  intros dem mask slopes aspects lats lons svf y x z H Ez.
  destruct (sky_view_inv _ _ _ _ _ _ _ _ _ _ H Ez) as (b & Eb & P & Q). rewrite Eb. split.
  - intros E. injection E as ->. destruct (Q eq_refl) as (slo & asp & vis & _ & _ & Q3 & Q4 & Q5).
    eexists. split; [exact Q5|].
    assert (L: (length vis <= 1584)%nat).
    { change 1584%nat with (length (list_prod (map (fun i => (10 * i)%Z) (zrange 1 37)) (map (fun i => (2 * i)%Z) (zrange 1 45)))).
      apply NoDup_incl_length; [exact Q3|]. intros p Ip. apply Q4 in Ip. tauto. }
    apply le_INR in L. replace (INR 1584) with 1584 in L by (rewrite INR_IZR_INZ; reflexivity).
    pose proof (pos_INR (length vis)). lra.
  - intros N. apply P. intros ->. apply N. reflexivity.
Qed.

(*@ C72 A level cell in level terrain sees the whole sky. *)
Lemma sky_view_level_lem :
  forall dem mask slopes aspects lats lons svf y x z,
    LUTsvf dem mask slopes aspects lats lons = Ok svf ->
    Forall (Forall (fun v => v = z)) dem -> cell_at dem y x = Some z ->
    cell_at mask y x = Some (Some 1) -> cell_at slopes y x = Some 0 ->
    cell_at svf y x = Some (Some 1).
Proof.
  intros dem mask slopes aspects lats lons svf y x z H Fl Ez Em Es.
  destruct (sky_view_inv _ _ _ _ _ _ _ _ _ _ H Ez) as (b & Eb & P & Q). rewrite Em in Eb. injection Eb as <-.
  destruct (Q eq_refl) as (slo & asp & vis & Q1 & _ & Q3 & Q4 & ->). rewrite Es in Q1. injection Q1 as <-.
  assert (L: length vis = 1584%nat).
  { apply Nat.le_antisymm.
    - change 1584%nat with (length (list_prod (map (fun i => (10 * i)%Z) (zrange 1 37)) (map (fun i => (2 * i)%Z) (zrange 1 45)))).
      apply NoDup_incl_length; [exact Q3|]. intros p Ip. apply Q4 in Ip. tauto.
    - change 1584%nat with (length (list_prod (map (fun i => (10 * i)%Z) (zrange 1 37)) (map (fun i => (2 * i)%Z) (zrange 1 45)))).
      apply NoDup_incl_length.
      { apply nodup_prod; apply nodup_map_inj; try (intros; lia); apply nodup_zseq. }
      intros [azi el] Ip. apply Q4. split; [exact Ip|]. cbn [fst snd]. apply in_dirs in Ip as (i & j & -> & -> & I & J).
      pose proof PI_RGT_0 as PP.
      assert (El: 0 < IZR (2 * j) < 90). { split; [apply (IZR_lt 0)|apply (IZR_lt _ 90)]; lia. }
      split.
      + unfold dot, direction, normal. replace (radians 0) with 0 by (unfold radians; field).
        rewrite sin_0, cos_0. assert (0 < sin (radians (IZR (2 * j)))); [|lra].
        apply sin_gt_0; unfold radians; nra.
      + intros illu E. destruct (Classical_Prop.classic (shaded_cell mask lats lons y x)) as [SC|SC].
        * destruct (shading_level_lem _ _ _ _ _ _ _ _ _ z E Fl SC) as [S1 _]. rewrite S1 by lra. intros K. injection K. lra.
        * destruct (shading_values_lem _ _ _ _ _ _ _ y x E) as [_ S2]. rewrite (S2 SC), Ez. discriminate. }
  rewrite L. do 2 f_equal. replace (INR 1584) with 1584 by (rewrite INR_IZR_INZ; reflexivity). field.
Qed.

Lemma within_convex l a b v : within l a -> within l b -> a <= v <= b -> within l v.
Proof.
  intros [(p & Ip & Lp) _] [_ (q & Iq & Lq)] H. split; [exists p|exists q]; (split; [assumption|lra]).
Qed.

(*@ C72 On a regular grid of real coordinates the sky view factor can be computed if and only if every
   glacier cell off the border is further than one step of the profile from the centres of the border cells
   in the four main directions; otherwise ValueError is raised. *)
Lemma sky_view_progress_lem :
  forall dem mask slopes aspects lats lons oy sy ox sx s,
    grid lats lons oy sy ox sx -> profile_step lats lons sy sx s ->
    sized dem (length lats) (length lons) -> sized mask (length lats) (length lons) ->
    sized slopes (length lats) (length lons) -> sized aspects (length lats) (length lons) ->
    (forall v, In v lats -> -90 <= v <= 90) ->
    (forall v w, In v lons -> In w lons -> v - w < 360) ->
    let clear y x := within lats (oy + IZR y * sy - s) /\ within lats (oy + IZR y * sy + s) /\
                     within lons (ox + IZR x * sx - s) /\ within lons (ox + IZR x * sx + s) in
    ((forall y x, shaded_cell mask lats lons y x -> clear y x) ->
       exists svf, LUTsvf dem mask slopes aspects lats lons = Ok svf) /\
    (~ (forall y x, shaded_cell mask lats lons y x -> clear y x) ->
       LUTsvf dem mask slopes aspects lats lons = Err ValueError).
Proof.
  intros dem mask slopes aspects lats lons oy sy ox sx s G Hs SD SM SS SA By Bx clear.
  destruct (step_count _ _ _ _ _ _ G _ Hs) as [_ Ps].
  assert (PR := fun h a => shading_progress_lem dem mask lats lons oy sy ox sx s h a G Hs SD SM By Bx). cbv zeta in PR.
  set (ny := length lats) in *. set (nx := length lons) in *.
  assert (ATD: forall {A B} (a : raster A) (b : raster B) y x v, sized a ny nx -> sized b ny nx -> cell_at a y x = Some v ->
    exists w, raster_get b y x = Ok w).
  { intros A B a b y x v [La Fa] Sb E. pose proof (cell_at_nonneg _ _ _ _ E) as [Py Px].
    unfold cell_at in E. destruct (Z.leb_spec 0 y); [|lia]. destruct (Z.leb_spec 0 x); [|lia]. cbn [andb] in E.
    destruct (nth_error a (Z.to_nat y)) as [row|] eqn:Er; [|discriminate].
    assert (Z.to_nat y < ny)%nat by (rewrite <- La; apply nth_error_Some; congruence).
    assert (length row = nx) by (rewrite Forall_forall in Fa; apply Fa; eapply nth_error_In; exact Er).
    assert (Z.to_nat x < nx)%nat by (rewrite <- H2; apply nth_error_Some; congruence).
    destruct (sized_at b ny nx y x Sb ltac:(lia) ltac:(lia)) as (w & Ew). exists w. apply raster_get_ok; assumption. }
  unfold LUTsvf.
  rewrite (for_each_nested (fun azi el total =>
      illu <- relshad dem mask lats lons (IZR el) (IZR azi) ;;
      raster_map (fun y x v => slo <- raster_get slopes y x ;; asp <- raster_get aspects y x ;;
        i <- raster_get illu y x ;;
        Ok (v + sky_visible (radians slo) (radians asp) (IZR el) (IZR azi) i)) total)).
  set (dirs := list_prod _ _).
  assert (ST: forall p (t : raster R), sized t ny nx ->
    match (illu <- relshad dem mask lats lons (IZR (snd p)) (IZR (fst p)) ;;
      raster_map (fun y x v => slo <- raster_get slopes y x ;; asp <- raster_get aspects y x ;;
        i <- raster_get illu y x ;;
        Ok (v + sky_visible (radians slo) (radians asp) (IZR (snd p)) (IZR (fst p)) i)) t) with
    | Ok t' => sized t' ny nx /\ (forall y x, shaded_cell mask lats lons y x ->
        within lats (oy + IZR y * sy + s * cos (radians (IZR (fst p)))) /\ within lons (ox + IZR x * sx + s * sin (radians (IZR (fst p)))))
    | Err e => e = ValueError /\ ~ (forall y x, shaded_cell mask lats lons y x ->
        within lats (oy + IZR y * sy + s * cos (radians (IZR (fst p)))) /\ within lons (ox + IZR x * sx + s * sin (radians (IZR (fst p)))))
    end).
  { intros [azi el] t Ht. cbn [fst snd]. destruct (PR (IZR el) (IZR azi)) as [P1 P2].
    destruct (Classical_Prop.classic (forall y x, shaded_cell mask lats lons y x ->
        within lats (oy + IZR y * sy + s * cos (radians (IZR azi))) /\ within lons (ox + IZR x * sx + s * sin (radians (IZR azi))))) as [C|C].
    - destruct (P1 C) as (il & -> & Sil). cbn [bind].
      match goal with |- match ?r with _ => _ end => assert (K: exists t', r = Ok t') end.
      { apply raster_map_ok. intros y x v E.
        destruct (ATD _ _ t slopes y x v Ht SS E) as (w1 & ->). destruct (ATD _ _ t aspects y x v Ht SA E) as (w2 & ->).
        destruct (ATD _ _ t il y x v Ht Sil E) as (w3 & ->). cbn [bind]. eauto. }
      destruct K as (t' & K). rewrite K. split; [eapply raster_map_sized; eassumption|exact C].
    - rewrite (P2 C). cbn [bind]. split; [reflexivity|exact C]. }
  assert (S0: sized (map (map (fun _ : R => 0)) dem) ny nx) by (apply sized_map; exact SD).
  assert (LP: forall l t, sized t ny nx ->
    match for_each l (fun p total => illu <- relshad dem mask lats lons (IZR (snd p)) (IZR (fst p)) ;;
      raster_map (fun y x v => slo <- raster_get slopes y x ;; asp <- raster_get aspects y x ;;
        i <- raster_get illu y x ;;
        Ok (v + sky_visible (radians slo) (radians asp) (IZR (snd p)) (IZR (fst p)) i)) total) t with
    | Ok t' => sized t' ny nx /\ forall p, In p l -> forall y x, shaded_cell mask lats lons y x ->
        within lats (oy + IZR y * sy + s * cos (radians (IZR (fst p)))) /\ within lons (ox + IZR x * sx + s * sin (radians (IZR (fst p))))
    | Err e => e = ValueError /\ exists p, In p l /\ ~ (forall y x, shaded_cell mask lats lons y x ->
        within lats (oy + IZR y * sy + s * cos (radians (IZR (fst p)))) /\ within lons (ox + IZR x * sx + s * sin (radians (IZR (fst p)))))
    end).
  { induction l as [|p l IH]; intros t Ht; cbn [for_each].
    - split; [exact Ht|]. intros p [].
    - specialize (ST p t Ht). match goal with |- match bind ?r _ with _ => _ end => destruct r as [t'|e] end; cbn [bind].
      + destruct ST as [St Cp]. specialize (IH t' St).
        match goal with |- match ?r with _ => _ end => destruct r as [t2|e] end.
        * destruct IH as [I1 I2]. split; [exact I1|]. intros q [<-|Iq]; auto.
        * destruct IH as [I1 (q & Iq & Nq)]. split; [exact I1|]. exists q. split; [right; exact Iq|exact Nq].
      + destruct ST as [-> Np]. split; [reflexivity|]. exists p. split; [left; reflexivity|exact Np]. }
  specialize (LP dirs _ S0).
  assert (Main: forall azi, In azi [360; 180; 90; 270]%Z -> In (azi, 2%Z) dirs).
  { intros azi I. apply in_dirs. exists (azi / 10)%Z, 1%Z. destruct I as [<-|[<-|[<-|[<-|[]]]]]; cbn; lia. }
  assert (Clear: forall y x, shaded_cell mask lats lons y x -> (clear y x <->
    (forall p, In p dirs ->  within lats (oy + IZR y * sy + s * cos (radians (IZR (fst p)))) /\
       within lons (ox + IZR x * sx + s * sin (radians (IZR (fst p))))))).
  { intros y x SC. split.
    - intros (C1 & C2 & C3 & C4) p _. pose proof (COS_bound (radians (IZR (fst p)))). pose proof (SIN_bound (radians (IZR (fst p)))).
      split; [eapply within_convex; [exact C1|exact C2|]|eapply within_convex; [exact C3|exact C4|]]; nra.
    - intros Q.
      pose proof (Q _ (Main 360%Z ltac:(cbn; auto))) as [Q1 _]. pose proof (Q _ (Main 180%Z ltac:(cbn; auto))) as [Q2 _].
      pose proof (Q _ (Main 90%Z ltac:(cbn; auto))) as [_ Q3]. pose proof (Q _ (Main 270%Z ltac:(cbn; auto))) as [_ Q4].
      cbn [fst] in *.
      replace (radians 360) with (2 * PI) in Q1 by (unfold radians; field). rewrite cos_2PI in Q1.
      replace (radians 180) with PI in Q2 by (unfold radians; field). rewrite cos_PI in Q2.
      replace (radians 90) with (PI / 2) in Q3 by (unfold radians; field). rewrite sin_PI2 in Q3.
      replace (radians 270) with (3 * (PI / 2)) in Q4 by (unfold radians; field). rewrite sin_3PI2 in Q4.
      rewrite Rmult_1_r in Q1, Q3. replace (s * -1) with (- s) in Q2, Q4 by ring. unfold clear. tauto. }
  match goal with |- _ /\ (_ -> bind ?r _ = _) => destruct r as [tot|e] end; cbn [bind].
  - destruct LP as [St Cl]. split.
    + intros _. apply raster_map_ok. intros y x v E. destruct (ATD _ _ dem mask y x v SD SM E) as (m & ->). cbn [bind].
      destruct (num_eqb m 1); [|eauto]. destruct (ATD _ _ dem tot y x v SD St E) as (w & ->). cbn [bind]. eauto.
    + intros N. exfalso. apply N. intros y x SC. apply (Clear y x SC). intros p Ip. apply Cl; assumption.
  - destruct LP as [-> (p & Ip & Np)]. split; [|reflexivity].
    intros Q. exfalso. apply Np. intros y x SC. apply (Clear y x SC); auto.
Qed.

Lemma grid_6x6 : grid [5; 4; 3; 2; 1; 0] [0; 1; 2; 3; 4; 5] 5 (-1) 0 1.
Proof.
  unfold grid, regular. repeat split; try lra; try (cbn; lia).
  all: intros k v H; do 6 (destruct k as [|k]; [injection H as <-; cbn; ring|]); destruct k; discriminate.
Qed.

Lemma step_6x6 s : profile_step [5; 4; 3; 2; 1; 0] [0; 1; 2; 3; 4; 5] (-1) 1 s -> s = 5 * sqrt 2 / 7.
Proof.
  intros (n & Hn & Hs). cbn [length INR] in Hn, Hs. replace (1 + 1 + 1 + 1 + 1 + 1) with 6 in * by ring.
  replace (((6 - 1) * -1) ^ 2 + ((6 - 1) * 1) ^ 2) with (5 ^ 2 * 2) in * by ring.
  rewrite sqrt_mult_alt, sqrt_pow2 in * by lra. pose proof sqrt2_bounds.
  replace (5 * sqrt 2 * 6 / ((6 - 1) * - -1)) with (6 * sqrt 2) in Hn by field.
  assert (n = 8%Z).
  { assert (IZR n < IZR 9) by lra. assert (IZR 7 < IZR n) by lra. apply lt_IZR in H0, H1. lia. }
  subst n. lra.
Qed.

Definition glacier_6x6 : raster number :=
  map (fun i => map (fun j => if (Nat.eqb i 2 && Nat.eqb j 3)%bool then Some 1 else Some 0)
                    [0; 1; 2; 3; 4; 5]%nat) [0; 1; 2; 3; 4; 5]%nat.

(*@ex On a grid of six by six cells with a glacier cell in the middle the sky view factor can be computed
   for every terrain. *)
Lemma sky_view_case_lem :
  forall dem slopes aspects, sized dem 6 6 -> sized slopes 6 6 -> sized aspects 6 6 ->
    exists svf, LUTsvf dem glacier_6x6 slopes aspects [5; 4; 3; 2; 1; 0] [0; 1; 2; 3; 4; 5] = Ok svf.
Proof.
  intros dem slopes aspects SD SS SA. destruct (step_exists _ _ _ _ _ _ grid_6x6) as (s & Hs).
  destruct (sky_view_progress_lem dem glacier_6x6 slopes aspects [5; 4; 3; 2; 1; 0] [0; 1; 2; 3; 4; 5] 5 (-1) 0 1 s) as [P _]; auto.
  - exact grid_6x6.
  - split; [reflexivity|repeat constructor].
  - intros v Iv. repeat (destruct Iv as [<-|Iv]; [lra|]). destruct Iv.
  - intros v w Iv Iw. assert (0 <= v <= 5) by (repeat (destruct Iv as [<-|Iv]; [lra|]); destruct Iv).
    assert (0 <= w <= 5) by (repeat (destruct Iw as [<-|Iw]; [lra|]); destruct Iw). lra.
  - apply P. intros y x (Hy & Hx & Hm). cbn [length] in Hy, Hx.
    assert (E: (y = 2 /\ x = 3)%Z).
    { assert (y = 1 \/ y = 2 \/ y = 3 \/ y = 4)%Z as [-> |[-> |[-> | ->]]] by lia;
      assert (x = 1 \/ x = 2 \/ x = 3 \/ x = 4)%Z as [-> |[-> |[-> | ->]]] by lia; auto;
        exfalso; cbv in Hm; injection Hm; intros; lra. }
    destruct E as [-> ->]. apply step_6x6 in Hs. pose proof sqrt2_bounds.
    repeat split; first [exists 0; split; [cbn; tauto|lra] | exists 5; split; [cbn; tauto|lra]].
Qed.
