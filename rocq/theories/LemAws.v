(** * Lemmas on the conversion of station data *)
From Verif Require Import ModelPy ModelConstants ModelNode ModelGrid ModelHeat ModelSurface ModelInit
  ModelCore ModelConfig ModelIO ModelMain ModelRadCor SpecIO SpecRadCor ModelAws SpecAws.
From Verif Require Import LemPy LemDict LemIO LemIO4 LemIO5 LemShad5.

(** ** Adding variables *)
Lemma add_variable_ok dims n a vars vars' : add_variable dims n a vars = Ok vars' ->
  exists u, dict_find variable_metadata n = Some u /\ vars' = dict_set vars n (mkVariable dims a (fst u) (snd u)).
Proof.
  unfold add_variable, dict_get. intros H.
  destruct (dict_find variable_metadata n) as [u|]; [|discriminate].
  cbn [bind] in H. injection H as H. subst vars'. eauto.
Qed.

Lemma add_variables_find dims l : forall vars vars', NoDup (map fst l) ->
  add_variables dims l vars = Ok vars' -> forall n,
  match dict_find l n with
  | Some (Some a) => exists u, dict_find variable_metadata n = Some u /\
      dict_find vars' n = Some (mkVariable dims a (fst u) (snd u))
  | _ => dict_find vars' n = dict_find vars n
  end.
Proof.
  unfold add_variables.
  induction l as [|[m o] t IH]; intros vars vars' ND H n; cbn [for_each snd fst] in H.
  - injection H as H. subst. reflexivity.
  - inversion ND; subst. cbn [dict_find].
    assert (OT : forall vars1, (match o with Some a => add_variable dims m a vars | None => Ok vars end) = Ok vars1 ->
       for_each t (fun nv vars => match snd nv with Some a => add_variable dims (fst nv) a vars | None => Ok vars end) vars1 = Ok vars').
    { intros vars1 E. rewrite E in H. exact H. }
    destruct o as [a|].
    + destruct (add_variable dims m a vars) as [vars1|] eqn:E; [|discriminate]. specialize (OT _ eq_refl).
      apply add_variable_ok in E. destruct E as (u & E1 & E2).
      specialize (IH _ _ ltac:(assumption) OT n).
      rewrite String.eqb_sym. destruct (String.eqb_spec n m) as [->|NE].
      * assert (X : dict_find t m = None) by (apply find_none; assumption). rewrite X in IH.
        exists u. split; auto. rewrite IH, E2. apply find_set_same.
      * destruct (dict_find t n) as [[b|]|]; auto; rewrite IH, E2; apply find_set_other; congruence.
    + specialize (OT _ eq_refl). specialize (IH _ _ ltac:(assumption) OT n).
      rewrite String.eqb_sym. destruct (String.eqb_spec n m) as [->|NE]; auto.
      assert (X : dict_find t m = None) by (apply find_none; assumption). rewrite X in IH. auto.
Qed.

(** ** Forward filling *)
Lemma last_known_acc (l : list number) (a : number) : fold_left newer l a = newer a (last_known l).
Proof.
  unfold last_known. revert a. induction l as [|v t IH]; intros a; cbn [fold_left]; auto.
  rewrite IH. rewrite (IH (newer None v)). destruct v, (fold_left newer t None); reflexivity.
Qed.

Lemma ffill_nth l : forall a k, (k < length l)%nat ->
  nth_error (ffill a l) k = Some (newer a (last_known (firstn (S k) l))).
Proof.
  induction l as [|v t IH]; intros a k Hk; [cbn in Hk; lia|].
  destruct k as [|k].
  - destruct v; reflexivity.
  - cbn [length] in Hk. change (firstn (S (S k)) (v :: t)) with (v :: firstn (S k) t).
    unfold last_known at 1. cbn [fold_left]. rewrite last_known_acc.
    destruct v as [x|]; cbn [ffill nth_error]; rewrite IH by lia; cbn [newer]; destruct (last_known _); reflexivity.
Qed.

Lemma ffill_length a l : length (ffill a l) = length l.
Proof. revert a. induction l as [|[x|] t IH]; intros; cbn; auto. Qed.

Lemma nth_error_ext' {A} (l l' : list A) : length l = length l' ->
  (forall k, (k < length l)%nat -> nth_error l k = nth_error l' k) -> l = l'.
Proof.
  revert l'. induction l as [|x t IH]; intros [|y u] HL H; cbn in HL; try discriminate; auto.
  assert (H0 := H 0%nat ltac:(cbn; lia)). injection H0 as H0. subst y. f_equal. apply IH; [lia|].
  intros k Hk. apply (H (S k)). cbn. lia.
Qed.

Lemma ffill_carried l : ffill None l = carried l.
Proof.
  apply nth_error_ext'.
  - rewrite ffill_length. unfold carried. rewrite map_length, seq_length. reflexivity.
  - intros k Hk. rewrite ffill_length in Hk. rewrite ffill_nth by auto. unfold carried.
    rewrite nth_error_map.
    assert (E : nth_error (seq 0 (length l)) k = Some k).
    { rewrite (nth_error_nth' _ 0%nat) by (rewrite seq_length; auto). rewrite seq_nth; auto. }
    rewrite E. cbn [option_map]. destruct (last_known _); reflexivity.
Qed.

(** ** Bins *)
Lemma bin_range o w t : (0 < w)%Z -> (bin o w t <= t < bin o w t + w)%Z.
Proof.
  intros Hw. unfold bin. pose proof (Z.div_mod (t - o) w ltac:(lia)).
  pose proof (Z.mod_pos_bound (t - o) w Hw). lia.
Qed.
Lemma bin_multiple o w t : (0 < w)%Z -> ((bin o w t - o) mod w = 0)%Z.
Proof.
  intros Hw. unfold bin. replace (o + w * ((t - o) / w) - o)%Z with (((t - o) / w) * w)%Z by ring.
  apply Z.mod_mul. lia.
Qed.
Lemma bin_unique o w t b : (0 < w)%Z -> ((b - o) mod w = 0)%Z -> (b <= t < b + w)%Z -> bin o w t = b.
Proof.
  intros Hw HM HB. pose proof (bin_range o w t Hw). pose proof (bin_multiple o w t Hw).
  apply Z.mod_divide in HM; [|lia]. apply Z.mod_divide in H0; [|lia].
  destruct HM as (p & HP). destruct H0 as (q & HQ).
  assert (p = q) by nia. subst. lia.
Qed.
Lemma bin_eqb o w t b : (0 < w)%Z -> ((b - o) mod w = 0)%Z ->
  (bin o w t =? b)%Z = ((b <=? t) && (t <? b + w))%Z%bool.
Proof.
  intros Hw HM. destruct (Z.eqb_spec (bin o w t) b) as [E|E].
  - pose proof (bin_range o w t Hw). symmetry. apply andb_true_intro. split; [apply Z.leb_le|apply Z.ltb_lt]; lia.
  - symmetry. apply andb_false_iff. destruct (Z.leb_spec b t); auto. right.
    destruct (Z.ltb_spec t (b + w)); auto. exfalso. apply E. apply bin_unique; auto; lia.
Qed.

Lemma pick_filter {A} (f : Z -> bool) index : forall (l : list A),
  pick (map f index) l = map snd (filter (fun tv => f (fst tv)) (combine index l)).
Proof.
  induction index as [|t ts IH]; intros [|a l]; cbn; auto.
  - destruct (f t); reflexivity.
  - destruct (f t); cbn; rewrite IH; reflexivity.
Qed.

Lemma pick_during o w index b l : (0 < w)%Z -> ((b - o) mod w = 0)%Z ->
  pick (map (fun t => (bin o w t =? b)%Z) index) l = during b w index l.
Proof.
  intros Hw HM. rewrite pick_filter. unfold during. f_equal.
  apply filter_ext. intros [t v]. cbn [fst]. apply bin_eqb; auto.
Qed.

Lemma fold_min_le ts : forall t, (fold_left Z.min ts t <= t)%Z /\ (forall u, In u ts -> fold_left Z.min ts t <= u)%Z.
Proof.
  induction ts as [|u us IH]; intros t; cbn; [split; [lia|tauto]|].
  destruct (IH (Z.min t u)) as [A B]. split; [lia|]. intros v [->|HI]; [lia|auto].
Qed.
Lemma fold_max_ge ts : forall t, (t <= fold_left Z.max ts t)%Z /\ (forall u, In u ts -> u <= fold_left Z.max ts t)%Z.
Proof.
  induction ts as [|u us IH]; intros t; cbn; [split; [lia|tauto]|].
  destruct (IH (Z.max t u)) as [A B]. split; [lia|]. intros v [->|HI]; [lia|auto].
Qed.
Lemma fold_min_in ts : forall t, In (fold_left Z.min ts t) (t :: ts).
Proof.
  induction ts as [|u us IH]; intros t; cbn; auto. destruct (IH (Z.min t u)) as [E|E].
  - rewrite <- E. destruct (Z.min_spec t u) as [[_ ->]|[_ ->]]; auto.
  - auto.
Qed.
Lemma fold_max_in ts : forall t, In (fold_left Z.max ts t) (t :: ts).
Proof.
  induction ts as [|u us IH]; intros t; cbn; auto. destruct (IH (Z.max t u)) as [E|E].
  - rewrite <- E. destruct (Z.max_spec t u) as [[_ ->]|[_ ->]]; auto.
  - auto.
Qed.

Lemma bin_mono o w t u : (0 < w)%Z -> (t <= u)%Z -> (bin o w t <= bin o w u)%Z.
Proof. intros Hw H. unfold bin. pose proof (Z.div_le_mono (t - o) (u - o) w Hw ltac:(lia)). nia. Qed.

Lemma in_bins w index b : (0 < w)%Z -> (In b (bins w index) <->
  ((b - bin_origin index) mod w = 0)%Z /\
  exists t u, In t index /\ In u index /\ (bin (bin_origin index) w t <= b <= bin (bin_origin index) w u)%Z).
Proof.
  intros Hw. destruct index as [|t ts]; [cbn; split; [tauto|intros (_ & t & u & [] & _)]|].
  unfold bins. set (o := bin_origin (t :: ts)).
  set (lo := fold_left Z.min ts t). set (hi := fold_left Z.max ts t).
  pose proof (fold_min_le ts t) as [Lt Lo]. pose proof (fold_max_ge ts t) as [Ht Hi]. fold lo in Lt, Lo. fold hi in Ht, Hi.
  pose proof (fold_min_in ts t) as Ilo. pose proof (fold_max_in ts t) as Ihi. fold lo in Ilo. fold hi in Ihi.
  pose proof (bin_multiple o w lo Hw) as Mlo. pose proof (bin_multiple o w hi Hw) as Mhi.
  pose proof (bin_mono o w lo hi Hw ltac:(lia)) as LH.
  apply Z.mod_divide in Mlo; [|lia]. apply Z.mod_divide in Mhi; [|lia].
  destruct Mlo as (p & Hp). destruct Mhi as (q & Hq).
  assert (D : ((bin o w hi - bin o w lo) / w = q - p)%Z).
  { replace (bin o w hi - bin o w lo)%Z with ((q - p) * w)%Z by nia. apply Z.div_mul. lia. }
  rewrite in_map_iff. rewrite D. split.
  - intros (k & E & HI). apply in_zrange in HI. split.
    + apply Z.mod_divide; [lia|]. exists (p + k)%Z. nia.
    + exists lo, hi. split; [|split]; auto. split; nia.
  - intros (HM & t1 & u1 & I1 & I2 & HB).
    assert (A1 : (bin o w lo <= bin o w t1)%Z).
    { apply bin_mono; auto. destruct I1 as [<-|I1]; [lia|apply Lo; auto]. }
    assert (A2 : (bin o w u1 <= bin o w hi)%Z).
    { apply bin_mono; auto. destruct I2 as [<-|I2]; [lia|apply Hi; auto]. }
    apply Z.mod_divide in HM; [|lia]. destruct HM as (r & Hr).
    exists (r - p)%Z. split; [nia|]. apply in_zrange. nia.
Qed.

(** every time stamp falls into exactly one bin *)
Lemma bins_cover w index t : (0 < w)%Z -> In t index -> In (bin (bin_origin index) w t) (bins w index).
Proof.
  intros Hw HI. apply in_bins; auto. split; [apply bin_multiple; auto|]. exists t, t. split; [|split]; auto; lia.
Qed.

Lemma zseq_nth lo n k : (k < n)%nat -> nth_error (zseq lo n) k = Some (lo + Z.of_nat k)%Z.
Proof.
  revert lo k. induction n as [|n IH]; intros lo k Hk; [lia|]. destruct k as [|k]; cbn [zseq nth_error].
  - f_equal. lia.
  - rewrite IH by lia. f_equal. lia.
Qed.

(** bins follow each other without a gap *)
Lemma bins_step w index k a b : nth_error (bins w index) k = Some a -> nth_error (bins w index) (S k) = Some b ->
  b = (a + w)%Z.
Proof.
  destruct index as [|t ts]; [destruct k; discriminate|]. unfold bins. cbv zeta. rewrite !nth_error_map.
  unfold zrange. set (n := Z.to_nat _). intros A B.
  assert (Hk : (S k < n)%nat).
  { destruct (Nat.lt_ge_cases (S k) n); auto. exfalso.
    assert (X : nth_error (zseq 0 n) (S k) = None).
    { apply nth_error_None. clear -H. assert (L : forall lo m, length (zseq lo m) = m).
      { intros lo m. revert lo. induction m; intros; cbn; auto. } rewrite L. auto. }
    rewrite X in B. discriminate. }
  rewrite zseq_nth in A, B by lia. cbn [option_map] in A, B.
  assert (X : forall u v : Z, Some u = Some v -> u = v) by (intros u v E; inversion E; reflexivity).
  apply X in A. apply X in B. rewrite <- A, <- B, Nat2Z.inj_succ. ring.
Qed.

Lemma nodup_zseq' lo n : NoDup (zseq lo n).
Proof. apply nodup_zseq. Qed.

Lemma nodup_bins w index : (0 < w)%Z -> NoDup (bins w index).
Proof.
  intros Hw. destruct index as [|t ts]; [constructor|]. unfold bins. cbv zeta.
  apply nodup_map_inj; [|apply nodup_zseq]. intros x y H. nia.
Qed.

(** ** Resampling conserves sums *)
Lemma reals_app (l m : list number) : reals_of (l ++ m) = reals_of l ++ reals_of m.
Proof. induction l as [|[x|] t IH]; cbn; auto. rewrite IH. reflexivity. Qed.

Lemma fold_right_app_R (l m : list R) : fold_right Rplus 0 (l ++ m) = fold_right Rplus 0 l + fold_right Rplus 0 m.
Proof. induction l; cbn; lra. Qed.

Definition contribution (v : number) : R := match v with Some x => x | None => 0 end.
Lemma sum_of_map l : sum_of l = fold_right Rplus 0 (map contribution l).
Proof. unfold sum_of. induction l as [|[x|] t IH]; cbn; [reflexivity| |]; rewrite IH; lra. Qed.

Lemma sum_over_bins (bs : list Z) (key : Z -> Z) (tv : list (Z * number)) :
  NoDup bs -> (forall t, In t (map fst tv) -> In (key t) bs) ->
  fold_right Rplus 0 (map (fun b => sum_of (map snd (filter (fun p => (key (fst p) =? b)%Z) tv))) bs)
  = sum_of (map snd tv).
Proof.
  intros ND. induction tv as [|[t v] r IH]; intros H.
  - cbn [filter map]. unfold sum_of at 2. cbn. clear. induction bs; cbn; [reflexivity|].
    rewrite IHbs. unfold sum_of. cbn. lra.
  - assert (IH' := IH (fun u HU => H u (or_intror HU))). clear IH.
    assert (K : In (key t) bs) by (apply H; left; reflexivity). clear H.
    assert (E : forall bs', NoDup bs' ->
      fold_right Rplus 0 (map (fun b => sum_of (map snd (filter (fun p => (key (fst p) =? b)%Z) ((t, v) :: r)))) bs')
      = fold_right Rplus 0 (map (fun b => sum_of (map snd (filter (fun p => (key (fst p) =? b)%Z) r))) bs')
        + (if in_dec Z.eq_dec (key t) bs' then contribution v else 0)).
    { clear. induction bs' as [|b bs' IH]; intros ND.
      - cbn. lra.
      - inversion ND; subst. cbn [map fold_right]. rewrite IH by auto.
        cbn [filter]. change (fst (t, v)) with t.
        destruct (Z.eqb_spec (key t) b) as [E|E].
        + cbn [map snd]. rewrite (sum_of_map (v :: _)). cbn [map fold_right]. rewrite <- sum_of_map.
          destruct (in_dec Z.eq_dec (key t) bs') as [I|I]; [subst; tauto|].
          destruct (in_dec Z.eq_dec (key t) (b :: bs')) as [J|J]; [lra|]. exfalso. apply J. left. auto.
        + destruct (in_dec Z.eq_dec (key t) bs') as [I|I]; destruct (in_dec Z.eq_dec (key t) (b :: bs')) as [J|J]; try lra.
          * exfalso. apply J. right. auto.
          * exfalso. destruct J as [J|J]; auto. }
    rewrite (E bs ND). rewrite IH'. destruct (in_dec Z.eq_dec (key t) bs); [|tauto].
    cbn [map snd]. rewrite (sum_of_map (v :: _)). cbn [map fold_right]. rewrite <- sum_of_map. lra.
Qed.

Lemma resample_sum w index c : (0 < w)%Z -> length c = length index ->
  fold_right Rplus 0 (map (fun b => sum_of (during b w index c)) (bins w index)) = sum_of c.
Proof.
  intros Hw HL. set (o := bin_origin index).
  rewrite (map_ext_in _ (fun b => sum_of (map snd (filter (fun p => (bin o w (fst p) =? b)%Z) (combine index c))))).
  2:{ intros b HI. apply in_bins in HI; auto. destruct HI as (HM & _).
      rewrite <- (pick_during o w index b c Hw HM). rewrite pick_filter. reflexivity. }
  rewrite (sum_over_bins _ (bin o w)).
  - f_equal. clear -HL. revert c HL. induction index as [|t ts IH]; intros [|v c] HL; cbn in *; try lia; auto.
    f_equal. apply IH. lia.
  - apply nodup_bins; auto.
  - intros t HI. apply bins_cover; auto. clear -HI. revert c HI. induction index as [|u us IH]; intros [|v c] HI; cbn in *; try tauto.
    destruct HI as [->|HI]; auto. right. eapply IH. eauto.
Qed.

(** ** Aggregation *)
Lemma mean_mean_of l : aggregate Mean l = mean_of l.
Proof. cbn. unfold mean_of, mean. destruct (reals_of l); auto. rewrite sum_list_fold. reflexivity. Qed.
Lemma sum_sum_of l : aggregate Sum l = Some (sum_of l).
Proof. cbn. unfold sum_of. rewrite sum_list_fold. reflexivity. Qed.
Lemma nansum_total l : aggregate NanSum l = total_of l.
Proof. cbn. unfold nansumwrapper, total_of. destruct (reals_of l); auto. rewrite sum_list_fold. reflexivity. Qed.
