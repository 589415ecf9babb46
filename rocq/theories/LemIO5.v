(** * Submitting the cells *)
From Verif Require Import ModelPy ModelConstants ModelNode ModelGrid ModelSurface ModelInit
  ModelCore ModelConfig ModelIO ModelMain SpecIO LemPy LemDict LemIO LemIO2 LemIO3 LemIO4.
From Coq Require Import Permutation.

Lemma map_res_forall2 {A B} (f : A -> res B) l rs :
  map_res f l = Ok rs <-> Forall2 (fun a b => f a = Ok b) l rs.
Proof.
  revert rs; induction l as [|a l IH]; intros rs; cbn [map_res].
  - split; intros H; [injection H as <-; constructor|inversion H; reflexivity].
  - split.
    + intros H. apply bind_ok in H as (b & Eb & H). apply bind_ok in H as (bs & Ebs & H).
      injection H as <-. constructor; [exact Eb|]. apply IH; exact Ebs.
    + intros H. inversion H as [|? b ? bs Eb Ebs]; subst. rewrite Eb. cbn [bind].
      apply IH in Ebs. rewrite Ebs. reflexivity.
Qed.

Lemma forall2_left {A B} (P : A -> B -> Prop) l rs a :
  Forall2 P l rs -> In a l -> exists b, In b rs /\ P a b.
Proof.
  intros F. induction F as [|a' b l rs F1 F2 IH]; intros I; [destruct I|].
  destruct I as [->|I]; [exists b; cbn; auto|]. destruct (IH I) as (b' & I1 & I2). exists b'. cbn; auto.
Qed.

Lemma forall2_right {A B} (P : A -> B -> Prop) l rs b :
  Forall2 P l rs -> In b rs -> exists a, In a l /\ P a b.
Proof.
  intros F. induction F as [|a b' l rs F1 F2 IH]; intros I; [destruct I|].
  destruct I as [->|I]; [exists a; cbn; auto|]. destruct (IH I) as (a' & I1 & I2). exists a'. cbn; auto.
Qed.

Lemma map_res_err {A B} (f : A -> res B) l e :
  map_res f l = Err e -> exists a, In a l /\ f a = Err e.
Proof.
  induction l as [|a l IH]; cbn [map_res]; [discriminate|].
  destruct (f a) as [b|e'] eqn:Ea; cbn [bind].
  - destruct (map_res f l) as [bs|e']; cbn [bind]; [discriminate|].
    intros H; injection H as ->. destruct (IH eq_refl) as (a' & H1 & H2). exists a'. cbn; auto.
  - intros H; injection H as ->. exists a. cbn; auto.
Qed.

Lemma in_zseq lo n z : In z (zseq lo n) <-> (lo <= z < lo + Z.of_nat n)%Z.
Proof.
  revert lo; induction n as [|n IH]; intros lo; cbn [zseq In]; [lia|].
  rewrite IH. lia.
Qed.
Lemma in_zrange lo hi z : In z (zrange lo hi) <-> (lo <= z < hi)%Z.
Proof. unfold zrange. rewrite in_zseq. lia. Qed.

Lemma nodup_zseq lo n : NoDup (zseq lo n).
Proof.
  revert lo; induction n as [|n IH]; intros lo; cbn [zseq]; constructor; [|apply IH].
  rewrite in_zseq. lia.
Qed.

Lemma in_product ny nx y x : In (y, x) (product_range ny nx) <-> (0 <= y < ny /\ 0 <= x < nx)%Z.
Proof.
  unfold product_range. rewrite in_flat_map. split.
  - intros (y' & H1 & H2). apply in_map_iff in H2 as (x' & E & H2). injection E as -> ->.
    rewrite in_zrange in H1, H2. auto.
  - intros [H1 H2]. exists y. rewrite in_zrange. split; [exact H1|].
    apply in_map_iff. exists x. rewrite in_zrange. auto.
Qed.

Lemma nodup_app {A} (l l' : list A) :
  NoDup l -> NoDup l' -> (forall a, In a l -> ~ In a l') -> NoDup (l ++ l').
Proof.
  intros H1 H2 H3. induction l as [|a l IH]; cbn; [exact H2|].
  inversion H1 as [|? ? N1 N2]; subst. constructor.
  - rewrite in_app_iff. intros [G|G]; [contradiction|]. apply (H3 a); cbn; auto.
  - apply IH; [exact N2|]. intros b Hb. apply H3. right; exact Hb.
Qed.

Lemma nodup_product ny nx : NoDup (product_range ny nx).
Proof.
  unfold product_range, zrange. generalize (nodup_zseq 0 (Z.to_nat (ny - 0))).
  generalize (zseq 0 (Z.to_nat (ny - 0))). intros l. induction l as [|y l IH]; cbn [flat_map]; intros ND.
  - constructor.
  - inversion ND as [|? ? N1 N2]; subst. apply nodup_app.
    + apply FinFun.Injective_map_NoDup; [intros a b E; congruence|apply nodup_zseq].
    + exact (IH N2).
    + intros [y' x'] H1 H2. apply in_map_iff in H1 as (x1 & E1 & _). injection E1 as -> ->.
      apply in_flat_map in H2 as (y2 & H2 & H3). apply in_map_iff in H3 as (x2 & E2 & _).
      injection E2 as -> ->. contradiction.
Qed.

Lemma check_for_nan_ok data y x : (0 <= y)%Z -> (0 <= x)%Z ->
  check_for_nan data y x = Ok tt -> ~ has_nan data y x.
Proof.
  intros Hy Hx H (name & arr & b & I & C & N). unfold check_for_nan in H.
  apply bind_ok in H as (bs & E & H).
  destruct (existsb _ bs) eqn:Ex; [discriminate|].
  apply map_res_forall2 in E.
  destruct (forall2_left _ _ _ _ E I) as (b' & Ib & Eb). cbn [snd] in Eb.
  rewrite cell_get_at, C in Eb by assumption. injection Eb as <-.
  rewrite existsb_false_iff in Ex. specialize (Ex b Ib). rewrite existsb_false_iff in Ex.
  specialize (Ex None N). discriminate.
Qed.

Lemma check_dimensions_ok cfg : check_dimensions cfg = Ok tt <-> dimensions_named cfg.
Proof.
  unfold check_dimensions, dimensions_named.
  destruct (rc_WRF cfg).
  - destruct (String.eqb_spec (rc_northing cfg) "south_north") as [->|]; cbn [andb];
      [destruct (String.eqb_spec (rc_easting cfg) "west_east") as [->|]|];
      split; try discriminate; tauto.
  - destruct (String.eqb_spec (rc_northing cfg) "lat") as [->|]; cbn [andb];
      [destruct (String.eqb_spec (rc_easting cfg) "lon") as [->|]|];
      split; try discriminate; tauto.
Qed.

Lemma submit_cell_ok cfg data restart stakes y x jobs : (0 <= y)%Z -> (0 <= x)%Z ->
  submit_cell cfg data restart stakes y x = Ok jobs ->
  (jobs = [] /\ ~ is_glacier data y x) \/
  (exists j, jobs = [j] /\ job_cell j = (y, x) /\ proper_job cfg data restart stakes j).
Proof.
  intros Hy Hx H. unfold submit_cell in H.
  apply bind_ok in H as (masks & E1 & H). apply bind_ok in H as ([] & _ & H).
  apply bind_ok in H as (m & E2 & H).
  apply bind_ok in H as (gl & E3 & H).
  unfold attr_get in E1. destruct (dict_find (g_vars data) "MASK"%string) as [ms|] eqn:Em; [|discriminate].
  injection E1 as ->. rewrite cell_get_at in E2 by assumption.
  destruct (cell_at masks y x) as [b|] eqn:Eb; [|discriminate]. injection E2 as ->.
  assert (G : is_glacier data y x <-> m = Series [Some 1]).
  { split; [intros (ms & F1 & F2); congruence|intros ->; exists masks; auto]. }
  destruct m as [[|[v|] [|]]|]; try discriminate; injection E3 as <-.
  - destruct (Reqb v 1) eqn:Ev.
    + destruct (Reqb_spec v 1) as [->|]; [|discriminate].
      apply bind_ok in H as ([] & E4 & H). apply check_for_nan_ok in E4; [|assumption..].
      destruct (rc_restart cfg) eqn:Er.
      * destruct restart as [r|]; [|discriminate].
        apply bind_ok in H as (d & E5 & H). injection H as <-. right.
        eexists; split; [reflexivity|]. split; [reflexivity|]. unfold proper_job. cbn [j_y j_x j_stakes j_restart].
        rewrite Er. split; [apply G; reflexivity|]. split; [exact E4|]. split; [reflexivity|].
        exists r, d. auto.
      * injection H as <-. right. eexists; split; [reflexivity|]. split; [reflexivity|].
        unfold proper_job. cbn [j_y j_x j_stakes j_restart].
        rewrite Er. split; [apply G; reflexivity|]. auto.
    + injection H as <-. left. split; [reflexivity|]. rewrite G. intros E; injection E as ->.
      assert (Reqb 1 1 = true) by (apply Reqb_true; reflexivity). congruence.
  - injection H as <-. left. split; [reflexivity|]. rewrite G. discriminate.
Qed.

Lemma submit_ok cfg data restart stakes ny nx jobs :
  submit cfg data restart stakes ny nx = Ok jobs ->
  NoDup (map job_cell jobs) /\
  (forall y x, In (y, x) (map job_cell jobs) <->
     (0 <= y < ny)%Z /\ (0 <= x < nx)%Z /\ is_glacier data y x) /\
  Forall (proper_job cfg data restart stakes) jobs.
Proof.
  intros H. unfold submit in H. apply bind_ok in H as (js & E & H). injection H as <-.
  apply map_res_forall2 in E.
  assert (G : forall cs jss, Forall2 (fun yx b => submit_cell cfg data restart stakes (fst yx) (snd yx) = Ok b) cs jss ->
    NoDup cs -> (forall y x, In (y, x) cs -> (0 <= y)%Z /\ (0 <= x)%Z) ->
    NoDup (map job_cell (concat jss)) /\
    (forall y x, In (y, x) (map job_cell (concat jss)) <-> In (y, x) cs /\ is_glacier data y x) /\
    Forall (proper_job cfg data restart stakes) (concat jss)).
  { clear E. intros cs jss F. induction F as [|[y x] b cs jss F1 F2 IH]; intros ND B.
    - cbn. split; [constructor|]. split; [tauto|constructor].
    - inversion ND as [|? ? N1 N2]; subst.
      destruct (IH N2) as (I1 & I2 & I3). { intros y' x' Hc. apply B. right; exact Hc. }
      destruct (B y x (or_introl eq_refl)) as [By Bx].
      cbn [fst snd] in F1. apply submit_cell_ok in F1; [|assumption..].
      destruct F1 as [[-> NG]|(j & -> & Hj & Pj)]; cbn [concat app].
      + split; [exact I1|]. split; [|exact I3]. intros y' x'. rewrite I2. cbn [In]. split; [tauto|].
        intros [[E|E] G]; [injection E as -> ->; contradiction|tauto].
      + cbn [map]. rewrite Hj. split; [|split].
        * constructor; [|exact I1]. rewrite I2. tauto.
        * intros y' x'. cbn [In]. rewrite I2. split.
          -- intros [E|E]; [|tauto]. injection E as -> ->. split; [tauto|].
             destruct Pj as [Pj _]. unfold job_cell in Hj. rewrite (f_equal fst Hj : j_y j = y'), (f_equal snd Hj : j_x j = x') in Pj. exact Pj.
          -- tauto.
        * constructor; assumption. }
  destruct (G _ _ E (nodup_product ny nx)) as (G1 & G2 & G3).
  { intros y x H. apply in_product in H. lia. }
  split; [exact G1|]. split; [|exact G3].
  intros y x. rewrite G2, in_product. tauto.
Qed.

Lemma jobs_in_quadrant cfg data restart stakes ny nx jobs :
  submit cfg data restart stakes ny nx = Ok jobs -> Forall in_quadrant jobs.
Proof.
  intros H. apply submit_ok in H as (_ & H & _). apply Forall_forall. intros j Hj.
  assert (G : In (j_y j, j_x j) (map job_cell jobs)) by (apply (in_map job_cell) in Hj; exact Hj).
  apply H in G. unfold in_quadrant. lia.
Qed.

(** ** When submitting succeeds *)

Lemma on_grid_cell data ny nx name arr y x :
  on_grid data ny nx -> In (name, arr) (g_vars data) -> (0 <= y < ny)%Z -> (0 <= x < nx)%Z ->
  exists b, cell_at arr y x = Some b.
Proof.
  intros [G _] I Hy Hx. destruct (G _ _ I) as [L F]. unfold cell_at.
  destruct (Z.leb_spec 0 y); [|lia]. destruct (Z.leb_spec 0 x); [|lia]. cbn [andb].
  destruct (nth_error arr (Z.to_nat y)) as [row|] eqn:Er.
  - rewrite Forall_forall in F. apply nth_error_In in Er. apply F in Er.
    destruct (nth_error row (Z.to_nat x)) eqn:Ex; [eauto|].
    apply nth_error_None in Ex. lia.
  - apply nth_error_None in Er. lia.
Qed.

Lemma check_for_nan_grid data ny nx y x :
  on_grid data ny nx -> (0 <= y < ny)%Z -> (0 <= x < nx)%Z ->
  (~ has_nan data y x /\ check_for_nan data y x = Ok tt) \/
  (has_nan data y x /\ check_for_nan data y x = Err SystemExit).
Proof.
  intros G Hy Hx. destruct (check_for_nan data y x) as [[]|e] eqn:C.
  - left. split; [|reflexivity]. apply check_for_nan_ok; [lia|lia|exact C].
  - right. unfold check_for_nan in C.
    destruct (map_res (fun nv => cell_get (snd nv) y x) (g_vars data)) as [bs|e'] eqn:E; cbn [bind] in C.
    + destruct (existsb _ bs) eqn:Ex; [|discriminate]. split; [|exact (eq_sym C)].
      apply map_res_forall2 in E.
      apply existsb_exists in Ex as (b & Ib & Hb). apply existsb_exists in Hb as (v & Iv & Hv).
      destruct v; [discriminate|].
      destruct (forall2_right _ _ _ _ E Ib) as ([n a] & Ia & Ea). cbn [snd] in Ea.
      rewrite cell_get_at in Ea by lia. destruct (cell_at a y x) eqn:Ec; [|discriminate].
      injection Ea as ->. exists n, a, b. auto.
    + exfalso. apply map_res_err in E as ([n a] & Ia & Ea). cbn [snd] in Ea.
      rewrite cell_get_at in Ea by lia.
      destruct (on_grid_cell _ _ _ _ _ _ _ G Ia Hy Hx) as [b Eb]. rewrite Eb in Ea. discriminate.
Qed.

Lemma submit_cell_grid cfg data restart stakes ny nx y x :
  dimensions_named cfg ->
  on_grid data ny nx -> rc_restart cfg = false -> (0 <= y < ny)%Z -> (0 <= x < nx)%Z ->
  (is_glacier data y x /\ has_nan data y x /\
     submit_cell cfg data restart stakes y x = Err SystemExit) \/
  (~ (is_glacier data y x /\ has_nan data y x) /\
     exists l, submit_cell cfg data restart stakes y x = Ok l).
Proof.
  intros Dn G Rs Hy Hx. pose proof G as [_ (masks & Em & Hm)]. unfold submit_cell.
  unfold attr_get. rewrite Em. cbn [bind]. apply check_dimensions_ok in Dn. rewrite Dn. cbn [bind]. rewrite cell_get_at by lia.
  destruct (on_grid_cell _ _ _ _ _ _ _ G (find_in _ _ _ Em) Hy Hx) as [b Eb]. rewrite Eb. cbn [bind].
  destruct (Hm _ _ _ Eb) as [v ->].
  assert (I : is_glacier data y x <-> v = Some 1).
  { split; [intros (ms & F1 & F2); congruence|intros ->; exists masks; auto]. }
  destruct v as [v|]; cbn [bind].
  - destruct (Reqb v 1) eqn:Ev.
    + destruct (Reqb_spec v 1) as [->|]; [|discriminate].
      destruct (check_for_nan_grid _ _ _ _ _ G Hy Hx) as [[N C]|[N C]]; rewrite C; cbn [bind].
      * right. rewrite Rs. split; [tauto|eauto].
      * left. split; [apply I; reflexivity|]. auto.
    + right. split; [|eauto]. intros [E _]. apply I in E. injection E as ->.
      assert (Reqb 1 1 = true) by (apply Reqb_true; reflexivity). congruence.
  - right. split; [|eauto]. intros [E _]. apply I in E. discriminate.
Qed.

Lemma map_res_progress {A B} (f : A -> res B) l :
  (forall a, In a l -> exists b, f a = Ok b) -> exists bs, map_res f l = Ok bs.
Proof.
  induction l as [|a l IH]; cbn [map_res]; intros H; [eauto|].
  destruct (H a (or_introl eq_refl)) as [b Eb].
  destruct IH as [bs Ebs]. { intros c Hc; apply H; right; exact Hc. }
  rewrite Eb, Ebs. cbn. eauto.
Qed.

Lemma map_res_fails {A B} (f : A -> res B) l a e :
  In a l -> f a = Err e -> (forall b e', In b l -> f b = Err e' -> e' = e) -> map_res f l = Err e.
Proof.
  intros I Ea H. destruct (map_res f l) as [bs|e'] eqn:E.
  - apply map_res_forall2 in E. destruct (forall2_left _ _ _ _ E I) as (b & _ & Eb). congruence.
  - apply map_res_err in E as (b & Ib & Eb). rewrite (H _ _ Ib Eb). reflexivity.
Qed.

Lemma submit_grid cfg data restart stakes ny nx :
  dimensions_named cfg ->
  on_grid data ny nx -> rc_restart cfg = false ->
  ((exists y x, (0 <= y < ny)%Z /\ (0 <= x < nx)%Z /\ is_glacier data y x /\ has_nan data y x) ->
     submit cfg data restart stakes ny nx = Err SystemExit) /\
  (~ (exists y x, (0 <= y < ny)%Z /\ (0 <= x < nx)%Z /\ is_glacier data y x /\ has_nan data y x) ->
     exists jobs, submit cfg data restart stakes ny nx = Ok jobs).
Proof.
  intros Dn G Rs. unfold submit. split.
  - intros (y & x & Hy & Hx & I & N).
    rewrite (map_res_fails _ _ (y, x) SystemExit); [reflexivity|..].
    + apply in_product; auto.
    + cbn [fst snd]. destruct (submit_cell_grid cfg data restart stakes ny nx y x Dn G Rs Hy Hx) as [[_ [_ E]]|[E _]];
        [exact E|tauto].
    + intros [y' x'] e' Hb Eb. apply in_product in Hb as [Hy' Hx']. cbn [fst snd] in Eb.
      destruct (submit_cell_grid cfg data restart stakes ny nx y' x' Dn G Rs Hy' Hx') as [[_ [_ E]]|[_ [l E]]]; congruence.
  - intros H.
    destruct (map_res_progress (fun yx => submit_cell cfg data restart stakes (fst yx) (snd yx)) (product_range ny nx)) as [js Ej].
    + intros [y x] Hc. apply in_product in Hc as [Hy Hx]. cbn [fst snd].
      destruct (submit_cell_grid cfg data restart stakes ny nx y x Dn G Rs Hy Hx) as [[I [N _]]|[_ E]]; [|exact E].
      exfalso. apply H. exists y, x. auto.
    + rewrite Ej. cbn. eauto.
Qed.
