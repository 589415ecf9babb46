(** * Times, hours and terrain of converted files *)
From Verif Require Import ModelPy ModelConstants ModelNode ModelGrid ModelHeat ModelSurface ModelInit
  ModelCore ModelConfig ModelIO ModelMain ModelRadCor SpecIO SpecRadCor ModelAws SpecAws.
From Verif Require Import LemPy LemDict LemIO LemIO4 LemIO5 LemShad LemShad5 LemAws LemAws2 LemAws3.
From Coq Require Import Permutation Sorted.

Lemma bin_hour index t : bin (bin_origin index) 3600 t = (3600 * (t / 3600))%Z.
Proof.
  assert (H : exists q, bin_origin index = (3600 * q)%Z).
  { destruct index as [|a ts]; [exists 0%Z; reflexivity|]. exists (24 * (fold_left Z.min ts a / 86400))%Z.
    unfold bin_origin. ring. }
  destruct H as (q & ->). unfold bin.
  replace (t - 3600 * q)%Z with (t + (- q) * 3600)%Z by ring. rewrite Z.div_add by lia. ring.
Qed.

Lemma origin_hour index : exists q, bin_origin index = (3600 * q)%Z.
Proof.
  destruct index as [|a ts]; [exists 0%Z; reflexivity|]. exists (24 * (fold_left Z.min ts a / 86400))%Z.
  unfold bin_origin. ring.
Qed.

Lemma in_hours index b : In b (bins 3600 index) <->
  (b mod 3600 = 0)%Z /\ exists t u, In t index /\ In u index /\ (3600 * (t / 3600) <= b <= 3600 * (u / 3600))%Z.
Proof.
  rewrite in_bins by lia. destruct (origin_hour index) as (q & Eq).
  assert (M : ((b - bin_origin index) mod 3600 = b mod 3600)%Z).
  { rewrite Eq. replace (b - 3600 * q)%Z with (b + (- q) * 3600)%Z by ring. apply Z_mod_plus_full. }
  rewrite M. split; intros (H1 & t & u & A & B & C); split; auto; exists t, u; split; auto; split; auto;
    rewrite !bin_hour in *; exact C.
Qed.

Lemma sorted_map_step (a w : Z) : (0 < w)%Z -> forall n lo, StronglySorted Z.lt (map (fun k => a + k * w)%Z (zseq lo n)).
Proof.
  intros Hw. induction n as [|n IH]; intros lo; cbn [zseq map]; constructor; auto.
  apply Forall_forall. intros x HI. apply in_map_iff in HI. destruct HI as (k & <- & HK).
  apply in_zseq in HK. nia.
Qed.
Lemma sorted_bins w index : (0 < w)%Z -> StronglySorted Z.lt (bins w index).
Proof.
  intros Hw. destruct index as [|t ts]; [constructor|]. unfold bins, zrange. apply sorted_map_step. exact Hw.
Qed.
Lemma sorted_filter {A} (R : A -> A -> Prop) (p : A -> bool) l : StronglySorted R l -> StronglySorted R (filter p l).
Proof.
  induction 1 as [|a t ST IH FA]; cbn; [constructor|]. destruct (p a); auto. constructor; auto.
  apply Forall_forall. intros x HI. apply filter_In in HI. rewrite Forall_forall in FA. apply FA. tauto.
Qed.

(** ** Numbers of a column *)
Lemma in_during b w index (c : list number) v : In v (during b w index c) <->
  exists t, In (t, v) (combine index c) /\ (b <= t < b + w)%Z.
Proof.
  unfold during. rewrite in_map_iff. split.
  - intros ([t v'] & E & HI). cbn in E. subst v'. apply filter_In in HI. destruct HI as (HI & HB).
    cbn [fst] in HB. apply andb_true_iff in HB. destruct HB as [B1 B2]. apply Z.leb_le in B1. apply Z.ltb_lt in B2. eauto.
  - intros (t & HI & HB). exists (t, v). split; auto. apply filter_In. split; auto. cbn [fst].
    apply andb_true_iff. split; [apply Z.leb_le|apply Z.ltb_lt]; lia.
Qed.

Lemma in_reals (l : list number) x : In x (reals_of l) <-> In (Some x) l.
Proof.
  induction l as [|[v|] t IH]; cbn; [tauto| |].
  - rewrite IH. split; intros [H|H]; auto; [left; congruence|injection H as H; auto].
  - rewrite IH. split; [auto|intros [H|H]; [discriminate|auto]].
Qed.

Lemma mean_none (l : list number) : mean_of l = None <-> forall x, ~ In (Some x) l.
Proof.
  unfold mean_of. split.
  - intros H x HI. apply in_reals in HI. destruct (reals_of l); [destruct HI|discriminate].
  - intros H. destruct (reals_of l) as [|x r] eqn:E; auto. exfalso. apply (H x). apply in_reals. rewrite E. left; auto.
Qed.
Lemma total_none (l : list number) : total_of l = None <-> forall x, ~ In (Some x) l.
Proof.
  unfold total_of. split.
  - intros H x HI. apply in_reals in HI. destruct (reals_of l); [destruct HI|discriminate].
  - intros H. destruct (reals_of l) as [|x r] eqn:E; auto. exfalso. apply (H x). apply in_reals. rewrite E. left; auto.
Qed.
Lemma aggregate_some k (l : list number) : k <> Sum -> (aggregate k l = None <-> forall x, ~ In (Some x) l).
Proof.
  intros NE. destruct k; [|congruence|].
  - rewrite mean_mean_of. apply mean_none.
  - rewrite nansum_total. apply total_none.
Qed.

Lemma carried_length c : length (carried c) = length c.
Proof. unfold carried. rewrite map_length, seq_length. reflexivity. Qed.

Lemma carried_nth c k : (k < length c)%nat -> nth_error (carried c) k = Some (last_known (firstn (S k) c)).
Proof.
  intros H. rewrite <- ffill_carried. rewrite ffill_nth by auto. f_equal. destruct (last_known _); reflexivity.
Qed.

Lemma last_known_app l v : last_known (l ++ [v]) = newer (last_known l) v.
Proof. unfold last_known. rewrite fold_left_app. reflexivity. Qed.

Lemma last_known_in (l : list number) x : last_known l = Some x -> In (Some x) l.
Proof.
  induction l as [|v t IH] using rev_ind; [discriminate|]. rewrite last_known_app. unfold newer.
  intros H. apply in_or_app. destruct v; [right; left; congruence|left; auto].
Qed.

Lemma firstn_snoc {A} (l : list A) k v : nth_error l k = Some v -> firstn (S k) l = firstn k l ++ [v].
Proof.
  revert k. induction l as [|a t IH]; intros [|k] H; cbn in H; try discriminate.
  - injection H as ->. reflexivity.
  - change (firstn (S (S k)) (a :: t)) with (a :: firstn (S k) t). rewrite (IH k H). reflexivity.
Qed.

Lemma carried_known (c : list number) k (x : R) : nth_error c k = Some (Some x : number) -> nth_error (carried c) k = Some (Some x : number).
Proof.
  intros H. rewrite carried_nth by (apply nth_error_Some; intros X; discriminate (eq_trans (eq_sym H) X)). rewrite (firstn_snoc _ _ _ H), last_known_app. reflexivity.
Qed.

Lemma carried_in (c : list number) (x : R) : In (Some x : number) (carried c) <-> In (Some x : number) c.
Proof.
  split.
  - intros H. unfold carried in H. apply in_map_iff in H. destruct H as (k & E & _). apply last_known_in in E.
    rewrite <- (firstn_skipn (S k) c). apply in_or_app. auto.
  - intros H. apply In_nth_error in H. destruct H as (k & H). eapply nth_error_In. eapply carried_known. exact H.
Qed.

Lemma nth_combine {A B} (l : list A) (m : list B) k a b : nth_error l k = Some a -> nth_error m k = Some b ->
  nth_error (combine l m) k = Some (a, b).
Proof.
  revert m k. induction l as [|x t IH]; intros [|y u] [|k]; cbn; intros H1 H2; try discriminate; auto. congruence.
Qed.

Lemma column_or_nan_length csv n : rectangular csv -> length (column_or_nan csv n) = length (f_index csv).
Proof.
  intros R. unfold column_or_nan, column. destruct (dict_find (f_cols csv) n) eqn:E; [eapply R; eauto|apply map_length].
Qed.

(** a column has a number exactly if one of its hourly values is a number *)
Lemma hour_column_number csv k n : rectangular csv -> k <> Sum ->
  (existsb is_number (hour_column csv k n) = true <-> exists x, In (Some x) (column_or_nan csv n)).
Proof.
  intros RE NE. unfold hour_column. rewrite existsb_exists. split.
  - intros (v & HI & E). apply in_map_iff in HI. destruct HI as (b & EB & _). destruct v as [v|]; [|discriminate].
    destruct (reals_of (during b 3600 (f_index csv) (carried (column_or_nan csv n)))) as [|x r] eqn:ER.
    + exfalso. assert (X : aggregate k (during b 3600 (f_index csv) (carried (column_or_nan csv n))) = None).
      { apply aggregate_some; auto. intros x HX. apply in_reals in HX. rewrite ER in HX. destruct HX. }
      congruence.
    + exists x. assert (HX : In x (reals_of (during b 3600 (f_index csv) (carried (column_or_nan csv n))))) by (rewrite ER; left; auto).
      apply in_reals, in_during in HX. destruct HX as (t & HX & _). apply in_combine_r in HX. apply carried_in. exact HX.
  - intros (x & HI). apply In_nth_error in HI. destruct HI as (i & HI).
    pose proof (carried_known _ _ _ HI) as HC.
    assert (Hi : (i < length (f_index csv))%nat).
    { rewrite <- (column_or_nan_length csv n RE). apply nth_error_Some. intros X. discriminate (eq_trans (eq_sym HI) X). }
    destruct (nth_error (f_index csv) i) as [t|] eqn:ET; [|apply nth_error_None in ET; lia].
    pose proof (nth_combine _ _ _ _ _ ET HC) as HX. apply nth_error_In in HX.
    set (b := bin (bin_origin (f_index csv)) 3600 t).
    exists (aggregate k (during b 3600 (f_index csv) (carried (column_or_nan csv n)))). split.
    + apply in_map_iff. exists b. split; auto. apply bins_cover; [lia|]. eapply nth_error_In; eauto.
    + destruct (aggregate k _) eqn:EA; auto. exfalso. eapply (proj1 (aggregate_some k _ NE) EA x).
      apply in_during. exists t. split; auto. apply bin_range. lia.
Qed.

(** ** Nearest grid point *)
Lemma nearest_from_ok p l : forall best i n v, nearest_from p best i l = (n, v) ->
  ((n, v) = best \/ exists k, n = (i + k)%nat /\ nth_error l k = Some v) /\
  (forall w, w = snd best \/ In w l -> Rabs (v - p) <= Rabs (w - p) /\ (Rabs (v - p) = Rabs (w - p) -> w <= v)).
Proof.
  induction l as [|x t IH]; intros best i n v H; cbn [nearest_from] in H.
  - subst best. cbn [snd]. split; [left; reflexivity|]. intros w [->|[]]. split; [lra|lra].
  - destruct (Rltb (Rabs (x - p)) (Rabs (snd best - p)) || (Reqb (Rabs (x - p)) (Rabs (snd best - p)) && Rltb (snd best) x)) eqn:E.
    + destruct (IH _ _ _ _ H) as [P Q]. cbn [snd] in *. split.
      * right. destruct P as [P|(k & -> & P)]; [injection P as -> ->; exists 0%nat; split; [lia|reflexivity]|exists (S k); split; [lia|exact P]].
      * intros w HW. destruct (Q x (or_introl eq_refl)) as [Q1 Q2].
        assert (BX : Rabs (x - p) <= Rabs (snd best - p) /\ (Rabs (x - p) = Rabs (snd best - p) -> snd best <= x)).
        { unfold Rltb, Reqb in E. destruct (Rlt_dec (Rabs (x - p)) (Rabs (snd best - p))); [split; lra|].
          destruct (Req_EM_T (Rabs (x - p)) (Rabs (snd best - p))); [|discriminate].
          destruct (Rlt_dec (snd best) x); [split; lra|discriminate]. }
        destruct HW as [->|[->|HW]]; [split; [lra|intros; assert (Rabs (x - p) = Rabs (snd best - p)) by lra; assert (Rabs (v - p) = Rabs (x - p)) by lra; intuition lra]|split; [lra|exact Q2]|apply Q; auto].
    + destruct (IH _ _ _ _ H) as [P Q]. split.
      * destruct P as [P|(k & -> & P)]; [left; exact P|right; exists (S k); split; [lia|exact P]].
      * intros w HW. destruct (Q (snd best) (or_introl eq_refl)) as [Q1 Q2].
        assert (BX : Rabs (snd best - p) <= Rabs (x - p) /\ (Rabs (snd best - p) = Rabs (x - p) -> x <= snd best)).
        { unfold Rltb, Reqb in E. destruct (Rlt_dec (Rabs (x - p)) (Rabs (snd best - p))); [discriminate|].
          destruct (Req_EM_T (Rabs (x - p)) (Rabs (snd best - p))); [|split; lra].
          destruct (Rlt_dec (snd best) x); [discriminate|split; lra]. }
        destruct HW as [->|[->|HW]]; [split; [lra|exact Q2]|split; [lra|intros; assert (Rabs (snd best - p) = Rabs (w - p)) by lra; assert (Rabs (v - p) = Rabs (snd best - p)) by lra; intuition lra]|apply Q; auto].
Qed.

Lemma nearest_ok l p n v : nearest l p = Ok (n, v) -> nth_error l n = Some v /\
  forall w, In w l -> Rabs (v - p) <= Rabs (w - p) /\ (Rabs (v - p) = Rabs (w - p) -> w <= v).
Proof.
  unfold nearest. destruct l as [|x t]; [discriminate|]. intros H. injection H as H.
  destruct (nearest_from_ok _ _ _ _ _ _ H) as [P Q]. cbn [snd] in *. split.
  - destruct P as [P|(k & -> & P)]; [injection P as -> ->; reflexivity|exact P].
  - intros w [->|HW]; apply Q; auto.
Qed.

Lemma find_last_none {V} (p : dict V) k : ~ In k (map fst p) -> find_last p k = None.
Proof. intros H. destruct (find_last p k) eqn:E; auto. exfalso. apply H. apply find_last_key. eauto. Qed.

(** ** Variables taken over from the static file *)
Lemma coordinates_plain cfg static lat lon vars n : point_coordinates cfg static = Ok (lat, lon, vars) ->
  (forall st, static = Some st -> plain_static st) -> dict_find variable_metadata n <> None ->
  ~ In n ["HGT"; "SLOPE"; "ASPECT"; "MASK"]%string -> dict_find vars n = None.
Proof.
  intros H PS MD NI. unfold point_coordinates in H. destruct (aw_WRF cfg); [injection H as _ _ <-; reflexivity|].
  destruct static as [st|]; [|injection H as _ _ <-; reflexivity].
  specialize (PS st eq_refl n MD).
  apply bind_ok in H as (iy & _ & H). apply bind_ok in H as (ix & _ & H). cbv zeta in H.
  apply bind_ok in H as (h & _ & H). apply bind_ok in H as (s & _ & H). apply bind_ok in H as (a & _ & H).
  apply bind_ok in H as (m & _ & H). apply bind_ok in H as (other & HO & H).
  assert (E : vars = dict_union other [("HGT", scalar_variable (Some h)); ("SLOPE", scalar_variable (Some s));
               ("ASPECT", scalar_variable (Some a)); ("MASK", scalar_variable m)]%string) by congruence.
  subst vars. rewrite find_union, find_last_none by exact NI.
  apply find_none. intros HI. apply find_none in PS. apply PS.
  apply in_map_iff in HI. destruct HI as ([k v] & <- & HI). apply map_res_forall2 in HO.
  eapply forall2_right in HO; [|exact HI]. destruct HO as ([k' r] & HI' & HO). cbn [fst snd] in *.
  apply bind_ok in HO as (x & _ & HO). injection HO as HO _. subst. apply in_map_iff. exists (k, r). auto.
Qed.

Lemma has_number_iff csv n : (exists x, In (Some x : number) (column_or_nan csv n)) <-> has_number csv n.
Proof.
  unfold has_number, column_or_nan. split.
  - intros (x & H). destruct (column csv n) as [c|]; [eauto|]. apply in_map_iff in H. destruct H as (? & X & _). discriminate.
  - intros (c & x & E & H). rewrite E. eauto.
Qed.

(** ** Adding variables *)
Lemma set_forall {V} (Q : string * V -> Prop) (d : dict V) k v : Forall Q d -> Q (k, v) -> Forall Q (dict_set d k v).
Proof.
  intros H HQ. induction d as [|[m w] t IH]; cbn; [constructor; auto|]. inversion H; subst.
  destruct (String.eqb_spec m k) as [->|NE]; constructor; auto.
Qed.

Lemma add_variables_forall (Q : variable -> Prop) dims l : forall vars vars', add_variables dims l vars = Ok vars' ->
  Forall (fun nv => Q (snd nv)) vars ->
  (forall n a u s, In (n, Some a) l -> Q (mkVariable dims a u s)) -> Forall (fun nv => Q (snd nv)) vars'.
Proof.
  unfold add_variables. induction l as [|[n o] t IH]; intros vars vars' H FA HL; cbn [for_each] in H.
  - injection H as <-. exact FA.
  - cbn [fst snd] in H. apply bind_ok in H as (v1 & H1 & H). eapply IH; [exact H| |intros; eapply HL; right; eauto].
    destruct o as [a|]; [|injection H1 as <-; exact FA]. apply add_variable_ok in H1. destruct H1 as (u & _ & ->).
    apply set_forall; auto. cbn [snd]. eapply HL. left. reflexivity.
Qed.

Lemma add_variables_total dims l : (forall n a, In (n, a) l -> dict_find variable_metadata n <> None) ->
  forall vars, exists vars', add_variables dims l vars = Ok vars'.
Proof.
  unfold add_variables. induction l as [|[n o] t IH]; intros HM vars; cbn [for_each]; [eauto|]. cbn [fst snd].
  destruct o as [a|].
  - unfold add_variable, dict_get. destruct (dict_find variable_metadata n) as [u|] eqn:E.
    + cbn [bind]. apply IH. intros. eapply HM. right. eauto.
    + exfalso. eapply HM; [left; reflexivity|exact E].
  - cbn [bind]. apply IH. intros. eapply HM. right. eauto.
Qed.

Lemma series_values l : array_values (point_series l) = l.
Proof. cbn. rewrite !app_nil_r. reflexivity. Qed.
