(** * Lemmas about gridded arrays and the copying of results *)
From Verif Require Import ModelPy ModelConstants ModelNode ModelGrid ModelSurface ModelInit
  ModelCore ModelConfig ModelIO ModelMain SpecIO LemPy LemDict.
From Coq Require Import Permutation.

(** ** Arrays *)

Lemma nth_error_update {A} (f : A -> A) (l : list A) (k i : nat) :
  nth_error (list_update k f l) i =
  if (i =? k)%nat then option_map f (nth_error l i) else nth_error l i.
Proof.
  revert k i; induction l as [|a l IH]; intros [|k] [|i]; cbn; try reflexivity.
  - destruct (i =? k)%nat; reflexivity.
  - apply IH.
Qed.

Lemma list_update_twice {A} (f g : A -> A) (l : list A) (k : nat) :
  list_update k f (list_update k g l) = list_update k (fun x => f (g x)) l.
Proof. revert k; induction l as [|a l IH]; intros [|k]; cbn; try rewrite IH; reflexivity. Qed.

Lemma list_update_comm {A} (f g : A -> A) (l : list A) (k i : nat) : k <> i ->
  list_update k f (list_update i g l) = list_update i g (list_update k f l).
Proof.
  revert k i; induction l as [|a l IH]; intros [|k] [|i] N; cbn; try reflexivity; try lia.
  rewrite IH by lia; reflexivity.
Qed.

Lemma list_update_ext {A} (f g : A -> A) (l : list A) (k : nat) :
  (forall a, nth_error l k = Some a -> f a = g a) -> list_update k f l = list_update k g l.
Proof.
  revert k; induction l as [|a l IH]; intros [|k] H; cbn; try reflexivity.
  - rewrite (H a) by reflexivity; reflexivity.
  - rewrite (IH k); [reflexivity|exact H].
Qed.

Lemma py_get_nonneg {A} (l : list A) (i : Z) : (0 <= i)%Z ->
  py_get l i = match nth_error l (Z.to_nat i) with Some a => Ok a | None => Err IndexError end.
Proof.
  intros H. unfold py_get, py_index.
  destruct (Z.leb_spec 0 i); [|lia].
  destruct (Z.ltb_spec i (Z.of_nat (length l))); cbn [andb].
  - reflexivity.
  - destruct (Z.ltb_spec i 0); [lia|]. rewrite andb_false_r.
    destruct (nth_error l (Z.to_nat i)) eqn:E; [|reflexivity].
    assert (Z.to_nat i < length l)%nat by (apply nth_error_Some; congruence). lia.
Qed.

Lemma py_update_nonneg {A} (f : A -> A) (l : list A) (i : Z) : (0 <= i)%Z ->
  py_update l i f =
  match nth_error l (Z.to_nat i) with
  | Some _ => Ok (list_update (Z.to_nat i) f l)
  | None => Err IndexError
  end.
Proof.
  intros H. unfold py_update, py_index.
  destruct (Z.leb_spec 0 i); [|lia].
  destruct (Z.ltb_spec i (Z.of_nat (length l))); cbn [andb].
  - destruct (nth_error l (Z.to_nat i)) eqn:E; [reflexivity|].
    apply nth_error_None in E; lia.
  - destruct (Z.ltb_spec i 0); [lia|]. rewrite andb_false_r.
    destruct (nth_error l (Z.to_nat i)) eqn:E; [|reflexivity].
    assert (Z.to_nat i < length l)%nat by (apply nth_error_Some; congruence). lia.
Qed.

(** the array with one cell replaced *)
Definition put {A} (y x : Z) (v : A) (a : cells A) : cells A :=
  list_update (Z.to_nat y) (list_update (Z.to_nat x) (fun _ => v)) a.

Lemma cell_get_at {A} (a : cells A) (y x : Z) : (0 <= y)%Z -> (0 <= x)%Z ->
  cell_get a y x = match cell_at a y x with Some v => Ok v | None => Err IndexError end.
Proof.
  intros Hy Hx. unfold cell_get, cell_at.
  destruct (Z.leb_spec 0 y); [|lia]. destruct (Z.leb_spec 0 x); [|lia]. cbn [andb].
  rewrite py_get_nonneg by exact Hy.
  destruct (nth_error a (Z.to_nat y)) as [row|]; cbn; [|reflexivity].
  apply py_get_nonneg; exact Hx.
Qed.

Lemma cell_set_at {A} (a : cells A) (y x : Z) (v : A) : (0 <= y)%Z -> (0 <= x)%Z ->
  cell_set a y x v = match cell_at a y x with Some _ => Ok (put y x v a) | None => Err IndexError end.
Proof.
  intros Hy Hx. unfold cell_set, cell_at.
  destruct (Z.leb_spec 0 y); [|lia]. destruct (Z.leb_spec 0 x); [|lia]. cbn [andb].
  rewrite py_get_nonneg by exact Hy.
  destruct (nth_error a (Z.to_nat y)) as [row|] eqn:E; cbn; [|reflexivity].
  rewrite py_update_nonneg by exact Hx.
  destruct (nth_error row (Z.to_nat x)) as [b|] eqn:E2; cbn; [|reflexivity].
  rewrite py_update_nonneg by exact Hy. rewrite E. f_equal.
  unfold put. apply list_update_ext. intros r Hr. congruence.
Qed.

Lemma cell_at_put {A} (a : cells A) (y x y' x' : Z) (v : A) :
  (0 <= y)%Z -> (0 <= x)%Z ->
  cell_at (put y x v a) y' x' =
  if ((y' =? y) && (x' =? x))%Z%bool then option_map (fun _ => v) (cell_at a y' x')
  else cell_at a y' x'.
Proof.
  intros Hy Hx. unfold cell_at, put.
  destruct (Z.leb_spec 0 y') as [Hy'|Hy']; cbn [andb].
  2:{ destruct ((y' =? y) && (x' =? x))%Z%bool; reflexivity. }
  destruct (Z.leb_spec 0 x') as [Hx'|Hx']; cbn [andb].
  2:{ destruct ((y' =? y) && (x' =? x))%Z%bool; reflexivity. }
  rewrite nth_error_update.
  destruct (Z.eqb_spec y' y) as [->|Ny]; cbn [andb].
  - rewrite Nat.eqb_refl.
    destruct (nth_error a (Z.to_nat y)) as [row|]; cbn [option_map].
    2:{ destruct (x' =? x)%Z; reflexivity. }
    rewrite nth_error_update.
    destruct (Z.eqb_spec x' x) as [->|Nx].
    + rewrite Nat.eqb_refl. reflexivity.
    + destruct (Nat.eqb_spec (Z.to_nat x') (Z.to_nat x)); [lia|reflexivity].
  - destruct (Nat.eqb_spec (Z.to_nat y') (Z.to_nat y)); [lia|reflexivity].
Qed.

Lemma put_swap {A} (a : cells A) (y x y' x' : Z) (v w : A) :
  (0 <= y)%Z -> (0 <= x)%Z -> (0 <= y')%Z -> (0 <= x')%Z -> (y, x) <> (y', x') ->
  put y x v (put y' x' w a) = put y' x' w (put y x v a).
Proof.
  intros H1 H2 H3 H4 N. unfold put.
  destruct (Z.eq_dec y y') as [->|Ny].
  - assert (Z.to_nat x <> Z.to_nat x') as Nx by (intros E; apply N; f_equal; lia).
    rewrite !list_update_twice. apply list_update_ext. intros r _.
    apply list_update_comm; exact Nx.
  - apply list_update_comm. lia.
Qed.

Lemma cell_at_tabulate {A} (ny nx : Z) (f : Z -> Z -> A) (y x : Z) :
  (0 <= y < ny)%Z -> (0 <= x < nx)%Z -> cell_at (tabulate ny nx f) y x = Some (f y x).
Proof.
  assert (Hz : forall n k lo, (k < n)%nat -> nth_error (zseq lo n) k = Some (lo + Z.of_nat k)%Z).
  { induction n as [|n IH]; intros k lo Hk; [lia|]. destruct k; cbn [zseq nth_error].
    - f_equal; lia.
    - rewrite IH by lia. f_equal; lia. }
  intros Hy Hx. unfold cell_at, tabulate, zrange.
  destruct (Z.leb_spec 0 y); [|lia]. destruct (Z.leb_spec 0 x); [|lia]. cbn [andb].
  rewrite nth_error_map, Hz by lia. cbn [option_map].
  rewrite nth_error_map, Hz by lia. cbn [option_map].
  f_equal. f_equal; lia.
Qed.

(** ** Single assignments *)

Definition op : Type := string * pyval.

Definition do_op (y x : Z) (o : op) (a : dict (cells block)) : res (dict (cells block)) :=
  arr <- attr_get a (fst o) ;;
  old <- cell_get arr y x ;;
  new <- assign old (snd o) ;;
  arr' <- cell_set arr y x new ;;
  Ok (dict_set a (fst o) arr').

Fixpoint do_ops (y x : Z) (os : list op) (a : dict (cells block)) : res (dict (cells block)) :=
  match os with
  | [] => Ok a
  | o :: t => a' <- do_op y x o a ;; do_ops y x t a'
  end.

Lemma do_op_inv y x o a b : (0 <= y)%Z -> (0 <= x)%Z -> do_op y x o a = Ok b ->
  exists arr old new, dict_find a (fst o) = Some arr /\ cell_at arr y x = Some old /\
    assign old (snd o) = Ok new /\ b = dict_set a (fst o) (put y x new arr).
Proof.
  intros Hy Hx. unfold do_op, attr_get.
  destruct (dict_find a (fst o)) as [arr|] eqn:Ea; cbn; [|discriminate].
  rewrite cell_get_at by assumption.
  destruct (cell_at arr y x) as [old|] eqn:Ec; cbn; [|discriminate].
  destruct (assign old (snd o)) as [new|] eqn:En; cbn; [|discriminate].
  rewrite cell_set_at by assumption. rewrite Ec. cbn. intros H; injection H as <-.
  exists arr, old, new. auto.
Qed.

Lemma do_op_intro y x o a arr old new : (0 <= y)%Z -> (0 <= x)%Z ->
  dict_find a (fst o) = Some arr -> cell_at arr y x = Some old -> assign old (snd o) = Ok new ->
  do_op y x o a = Ok (dict_set a (fst o) (put y x new arr)).
Proof.
  intros Hy Hx Ea Ec En. unfold do_op, attr_get. rewrite Ea. cbn.
  rewrite cell_get_at by assumption. rewrite Ec. cbn. rewrite En. cbn.
  rewrite cell_set_at by assumption. rewrite Ec. reflexivity.
Qed.

(** assignments to different cells commute *)
Lemma do_op_swap y x y' x' o o' a b c :
  (0 <= y)%Z -> (0 <= x)%Z -> (0 <= y')%Z -> (0 <= x')%Z -> (y, x) <> (y', x') ->
  do_op y x o a = Ok b -> do_op y' x' o' b = Ok c ->
  exists b', do_op y' x' o' a = Ok b' /\ do_op y x o b' = Ok c.
Proof.
  intros H1 H2 H3 H4 N E1 E2.
  apply do_op_inv in E1 as (arr & old & new & F1 & C1 & A1 & ->); [|assumption..].
  apply do_op_inv in E2 as (arr' & old' & new' & F2 & C2 & A2 & ->); [|assumption..].
  rewrite find_set in F2.
  destruct (eqb_spec_s (fst o) (fst o')) as [Eo|No].
  - injection F2 as <-.
    rewrite cell_at_put in C2 by assumption.
    assert (((y' =? y) && (x' =? x))%Z%bool = false) as B.
    { destruct (Z.eqb_spec y' y); destruct (Z.eqb_spec x' x); cbn; congruence. }
    rewrite B in C2.
    exists (dict_set a (fst o') (put y' x' new' arr)). split.
    + apply do_op_intro with old'; try assumption. rewrite <- Eo; exact F1.
    + rewrite (do_op_intro y x o _ (put y' x' new' arr) old new); try assumption.
      * f_equal. rewrite Eo, !set_overwrite. f_equal. apply put_swap; assumption.
      * rewrite Eo. apply find_set_same.
      * rewrite cell_at_put by assumption.
        assert (((y =? y') && (x =? x'))%Z%bool = false) as B'.
        { destruct (Z.eqb_spec y y'); destruct (Z.eqb_spec x x'); cbn; congruence. }
        rewrite B'. exact C1.
  - exists (dict_set a (fst o') (put y' x' new' arr')). split.
    + apply do_op_intro with old'; assumption.
    + rewrite (do_op_intro y x o _ arr old new); try assumption.
      * f_equal. apply set_swap; [congruence|eapply find_key; exact F2].
      * rewrite find_set_other by congruence. exact F1.
Qed.

Lemma do_ops_swap1 y x y' x' o os a b c :
  (0 <= y)%Z -> (0 <= x)%Z -> (0 <= y')%Z -> (0 <= x')%Z -> (y, x) <> (y', x') ->
  do_op y x o a = Ok b -> do_ops y' x' os b = Ok c ->
  exists b', do_ops y' x' os a = Ok b' /\ do_op y x o b' = Ok c.
Proof.
  intros H1 H2 H3 H4 N. revert a b c.
  induction os as [|o' os IH]; cbn [do_ops]; intros a b c E1 E2.
  - injection E2 as <-. exists a; auto.
  - apply bind_ok in E2 as (b1 & E2 & E3).
    destruct (do_op_swap _ _ _ _ _ _ _ _ _ H1 H2 H3 H4 N E1 E2) as (b' & F1 & F2).
    destruct (IH _ _ _ F2 E3) as (b'' & G1 & G2).
    exists b''. rewrite F1. cbn. auto.
Qed.

Lemma do_ops_swap y x y' x' os os' a b c :
  (0 <= y)%Z -> (0 <= x)%Z -> (0 <= y')%Z -> (0 <= x')%Z -> (y, x) <> (y', x') ->
  do_ops y x os a = Ok b -> do_ops y' x' os' b = Ok c ->
  exists b', do_ops y' x' os' a = Ok b' /\ do_ops y x os b' = Ok c.
Proof.
  intros H1 H2 H3 H4 N. revert a b c.
  induction os as [|o os IH]; cbn [do_ops]; intros a b c E1 E2.
  - injection E1 as <-. exists c; auto.
  - apply bind_ok in E1 as (a1 & E0 & E1).
    destruct (IH _ _ _ E1 E2) as (b1 & F1 & F2).
    destruct (do_ops_swap1 _ _ _ _ _ _ _ _ _ H1 H2 H3 H4 N E0 F1) as (b' & G1 & G2).
    exists b'. split; [exact G1|]. rewrite G2. exact F2.
Qed.

Lemma do_ops_app y x os os' a :
  do_ops y x (os ++ os') a = (b <- do_ops y x os a ;; do_ops y x os' b).
Proof.
  revert a; induction os as [|o os IH]; intros a; cbn; [reflexivity|].
  destruct (do_op y x o a); cbn; [apply IH|reflexivity].
Qed.

Lemma do_op_keys y x o a b : (0 <= y)%Z -> (0 <= x)%Z ->
  do_op y x o a = Ok b -> map fst b = map fst a.
Proof.
  intros H1 H2 E. apply do_op_inv in E as (arr & old & new & F & _ & _ & ->); [|assumption..].
  apply keys_set_present. eapply find_key; exact F.
Qed.

Lemma do_ops_keys y x os a b : (0 <= y)%Z -> (0 <= x)%Z ->
  do_ops y x os a = Ok b -> map fst b = map fst a.
Proof.
  intros H1 H2; revert a; induction os as [|o os IH]; cbn; intros a E.
  - injection E as <-; reflexivity.
  - apply bind_ok in E as (a1 & E0 & E1). rewrite (IH _ E1).
    exact (do_op_keys _ _ _ _ _ H1 H2 E0).
Qed.

(** ** The copying functions as lists of assignments *)

Lemma set_cell_op attr y x v io :
  set_cell attr y x v io = (a <- do_op y x (attr, v) (io_arrays io) ;; Ok (with_arrays io a)).
Proof.
  unfold set_cell, do_op; cbn.
  destruct (attr_get (io_arrays io) attr) as [a|]; cbn; [|reflexivity].
  destruct (cell_get a y x) as [a0|]; cbn; [|reflexivity].
  destruct (assign a0 v) as [a1|]; cbn; [|reflexivity].
  destruct (cell_set a y x a1); reflexivity.
Qed.

Lemma with_arrays_twice io a b : with_arrays (with_arrays io a) b = with_arrays io b.
Proof. reflexivity. Qed.
Lemma with_arrays_self io : with_arrays io (io_arrays io) = io.
Proof. destruct io; reflexivity. Qed.

Definition ops_of_calls (prefix : string) (names : list string) (env : environment)
  (calls : list (string * string)) : list op :=
  flat_map (fun call =>
              if in_names (fst call) names
              then match dict_find env (snd call) with
                   | Some v => [((prefix ++ fst call)%string, v)]
                   | None => []
                   end
              else []) calls.

Lemma fold_err {A B} (f : res A -> B -> res A) (l : list B) e :
  (forall x, f (Err e) x = Err e) -> fold_left f l (Err e) = Err e.
Proof. intros H; induction l as [|b l IH]; cbn; [reflexivity|rewrite H; exact IH]. Qed.

Lemma run_calls_ops (prefix : string) (names : IO -> list string)
  (set : string -> pyval -> IO -> res IO) env y x :
  (forall name v io, set name v io =
     if in_names name (names io) then set_cell (prefix ++ name)%string y x v io else Ok io) ->
  (forall io a, names (with_arrays io a) = names io) ->
  forall calls io,
    (forall call, In call calls -> exists v, dict_find env (snd call) = Some v) ->
    run_calls set env calls io =
    (a <- do_ops y x (ops_of_calls prefix (names io) env calls) (io_arrays io) ;;
     Ok (with_arrays io a)).
Proof.
  intros Hset Hn. induction calls as [|call calls IH]; intros io Hv.
  - cbn. rewrite with_arrays_self; reflexivity.
  - unfold run_calls; cbn [fold_left]; fold (run_calls set env calls io).
    destruct (Hv call (or_introl eq_refl)) as [v E].
    unfold dict_get at 2. rewrite E. cbn [bind].
    unfold ops_of_calls; cbn [flat_map]; fold (ops_of_calls prefix (names io) env calls).
    rewrite Hset. destruct (in_names (fst call) (names io)) eqn:Ein.
    + rewrite E. cbn [app do_ops]. rewrite set_cell_op.
      destruct (do_op y x ((prefix ++ fst call)%string, v) (io_arrays io)) as [a|e] eqn:Ea;
        cbn [bind].
      * specialize (IH (with_arrays io a)). unfold run_calls in IH. rewrite IH.
        2:{ intros c Hc; apply Hv; right; exact Hc. }
        rewrite Hn. cbn [io_arrays with_arrays].
        destruct (do_ops y x _ a); reflexivity.
      * apply fold_err. reflexivity.
    + cbn [app]. specialize (IH io). unfold run_calls in IH. apply IH.
      intros c Hc; apply Hv; right; exact Hc.
Qed.

Lemma length_eqb_true {A B} (l : list A) (l' : list B) :
  negb (length l =? length l')%nat = false -> length l = length l'.
Proof. intros H. apply negb_false_iff, Nat.eqb_eq in H. exact H. Qed.

(** all assignments of one worker, apart from the restart data *)
Definition local_ops (cfg : RunConfig) (io : IO) (env : environment) : list op :=
  ops_of_calls "" (io_atm io) env atm_calls ++
  ops_of_calls "" (io_internal io) env internal_calls ++
  (if rc_full_field cfg then ops_of_calls "LAYER_" (io_full io) env full_field_calls else []).

Lemma copy_local_ops cfg args io :
  length args = length copy_parameters ->
  copy_local_to_global cfg args io =
  (let env := combine copy_parameters args in
   vy <- dict_get env "y"%string ;; y <- index_of vy ;;
   vx <- dict_get env "x"%string ;; x <- index_of vx ;;
   a <- do_ops y x (local_ops cfg io env) (io_arrays io) ;; Ok (with_arrays io a)).
Proof.
  intros L. unfold copy_local_to_global.
  rewrite L, Nat.eqb_refl. cbn [negb]. cbv zeta.
  set (env := combine copy_parameters args).
  assert (Hp : forall p, In p copy_parameters -> exists v, dict_find env p = Some v).
  { intros p Hp. apply find_combine; assumption. }
  destruct (dict_get env "y"%string) as [vy|]; cbn [bind]; [|reflexivity].
  destruct (index_of vy) as [y|]; cbn [bind]; [|reflexivity].
  destruct (dict_get env "x"%string) as [vx|]; cbn [bind]; [|reflexivity].
  destruct (index_of vx) as [x|]; cbn [bind]; [|reflexivity].
  assert (Hin : forall calls : list (string * string), (forall c, In c calls -> In (snd c) copy_parameters) ->
    forall c, In c calls -> exists v, dict_find env (snd c) = Some v).
  { intros calls H c Hc. apply Hp, H, Hc. }
  assert (Ha : forall c, In c atm_calls -> In (snd c) copy_parameters).
  { intros c Hc. cbn in Hc. cbn. repeat (destruct Hc as [<-|Hc]; [cbn; tauto|]). contradiction. }
  assert (Hi : forall c, In c internal_calls -> In (snd c) copy_parameters).
  { intros c Hc. cbn in Hc. cbn. repeat (destruct Hc as [<-|Hc]; [cbn; tauto|]). contradiction. }
  assert (Hf : forall c, In c full_field_calls -> In (snd c) copy_parameters).
  { intros c Hc. cbn in Hc. cbn. repeat (destruct Hc as [<-|Hc]; [cbn; tauto|]). contradiction. }
  rewrite (run_calls_ops "" io_atm _ env y x); [|reflexivity|reflexivity|apply Hin, Ha].
  unfold local_ops. rewrite !do_ops_app.
  destruct (do_ops y x (ops_of_calls "" (io_atm io) env atm_calls) (io_arrays io)) as [a1|];
    cbn [bind]; [|reflexivity].
  rewrite (run_calls_ops "" io_internal _ env y x); [|reflexivity|reflexivity|apply Hin, Hi].
  rewrite do_ops_app. cbn [io_internal io_arrays with_arrays].
  destruct (do_ops y x (ops_of_calls "" (io_internal io) env internal_calls) a1) as [a2|];
    cbn [bind]; [|reflexivity].
  destruct (rc_full_field cfg).
  - rewrite (run_calls_ops "LAYER_" io_full _ env y x); [|reflexivity|reflexivity|apply Hin, Hf].
    cbn [io_full io_arrays with_arrays].
    destruct (do_ops y x (ops_of_calls "LAYER_" (io_full io) env full_field_calls) a2); reflexivity.
  - cbn. reflexivity.
Qed.
