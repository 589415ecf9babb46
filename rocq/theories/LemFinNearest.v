(** * The cell whose profile is shown *)
From Verif Require Import ModelPy ModelConstants ModelNode ModelGrid ModelHeat ModelSurface ModelInit
  ModelCore ModelConfig ModelIO ModelMain ModelRadCor ModelAws ModelSetup ModelPost SpecPost.
From Verif Require Import LemPy LemAws4 LemFinPost2.

(*@ C98 Looking up a cell by position takes the row whose latitude is next to the given one and the column whose longitude is next to the given one, each by itself; of two latitudes or longitudes equally far away the larger one. It fails with KeyError if there are no latitudes or no longitudes, and otherwise finds a cell in every field of that shape. *)
Lemma profile_cell_nearest_lem :
  forall (A : Type) (lats lons : list R) (la lo : R) (field : raster A),
    let next_to (l : list R) (p : R) (k : nat) :=
      exists v, nth_error l k = Some v /\
        forall w, In w l -> Rabs (v - p) <= Rabs (w - p) /\ (Rabs (v - p) = Rabs (w - p) -> w <= v) in
    (lats = [] \/ lons = [] -> sel_nearest lats lons la lo field = Err KeyError) /\
    (forall cell, sel_nearest lats lons la lo field = Ok cell ->
       exists j i row, next_to lats la j /\ next_to lons lo i /\
         nth_error field j = Some row /\ nth_error row i = Some cell) /\
    (lats <> [] -> lons <> [] -> rectangular field (length lats) (length lons) ->
       exists cell, sel_nearest lats lons la lo field = Ok cell).
Proof.
  intros A lats lons la lo field next_to. unfold sel_nearest. split; [|split].
  - intros [-> | ->]; [reflexivity|]. cbn [nearest bind].
    destruct lats as [|x t]; cbn [nearest bind]; reflexivity.
  - intros cell H. destruct (nearest lats la) as [[j y]|] eqn:EJ; cbn [bind] in H; [|discriminate].
    destruct (nearest lons lo) as [[i x]|] eqn:EI; cbn [bind fst] in H; [|discriminate].
    unfold raster_get in H. destruct (py_get field (Z.of_nat j)) as [row|] eqn:ER; cbn [bind] in H; [|discriminate].
    assert (GET : forall B (l : list B) n (v : B), py_get l (Z.of_nat n) = Ok v -> nth_error l n = Some v).
    { intros B l n v G. apply py_get_pos_inv in G; [|lia]. destruct G as (pre & post & -> & E). apply Nat2Z.inj in E. subst n.
      rewrite nth_error_app2 by lia. rewrite Nat.sub_diag. reflexivity. }
    apply GET in ER. apply GET in H.
    exists j, i, row. apply nearest_ok in EJ. apply nearest_ok in EI.
    split; [exists y; exact EJ|]. split; [exists x; exact EI|]. split; assumption.
  - intros NL NO [RL RW]. destruct (nearest_some lats la NL) as (j & y & EJ). destruct (nearest_some lons lo NO) as (i & x & EI).
    rewrite EJ, EI. cbn [bind fst]. apply nearest_ok in EJ. apply nearest_ok in EI. destruct EJ as [EJ _]. destruct EI as [EI _].
    assert (LJ : (j < length lats)%nat) by (apply nth_error_Some; congruence).
    assert (LI : (i < length lons)%nat) by (apply nth_error_Some; congruence).
    assert (LF : (j < length field)%nat) by lia. apply nth_error_Some in LF.
    destruct (nth_error field j) as [row|] eqn:ER; [|congruence].
    assert (LR : length row = length lons).
    { apply (proj1 (Forall_forall _ _) RW). apply nth_error_In in ER. exact ER. }
    assert (LC : (i < length row)%nat) by lia. apply nth_error_Some in LC.
    destruct (nth_error row i) as [cell|] eqn:EC; [|congruence]. exists cell.
    unfold raster_get. rewrite (py_get_nth _ _ _ ER). cbn [bind]. apply py_get_nth. exact EC.
Qed.

(*@ex C98 Halfway between two latitudes the larger one is taken, also if the latitudes descend. *)
Lemma profile_cell_example_lem :
  sel_nearest [47; 46] [10; 11] 46.5 10.2 [["a"; "b"]; ["c"; "d"]]%string = Ok "a"%string /\
  sel_nearest [46; 47] [10; 11] 46.5 10.2 [["a"; "b"]; ["c"; "d"]]%string = Ok "c"%string.
Proof.
  unfold sel_nearest, nearest. cbn [nearest_from snd].
  replace (Rabs (46 - 46.5)) with 0.5 by (rewrite Rabs_left; lra).
  replace (Rabs (47 - 46.5)) with 0.5 by (rewrite Rabs_pos_eq; lra).
  replace (Rabs (10 - 10.2)) with 0.2 by (rewrite Rabs_left; lra).
  replace (Rabs (11 - 10.2)) with 0.8 by (rewrite Rabs_pos_eq; lra).
  unfold Rltb, Reqb.
  destruct (Rlt_dec 0.5 0.5); [lra|]. destruct (Req_EM_T 0.5 0.5); [|lra].
  destruct (Rlt_dec 47 46); [lra|]. destruct (Rlt_dec 46 47); [|lra].
  destruct (Rlt_dec 0.8 0.2); [lra|]. destruct (Req_EM_T 0.8 0.2); [lra|].
  split; reflexivity.
Qed.
