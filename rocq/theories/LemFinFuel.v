(** * The bound on the number of loop passes does not matter (C102) *)
From Verif Require Import ModelPy ModelConstants ModelNode ModelGrid ModelWater ModelHeat ModelDensification
  ModelRadiation ModelAlbedo ModelSurface ModelInit ModelCore SpecCalm LemPy LemCore LemFinRun.

(** unless the first computation ran out of passes, both have the same outcome *)
Definition refines {A} (m m' : res A) : Prop := m = Err OutOfFuel \/ m' = m.

Lemma refines_refl {A} (m : res A) : refines m m.
Proof. right. reflexivity. Qed.

Lemma refines_bind {A B} (m m' : res A) (k k' : A -> res B) :
  refines m m' -> (forall x, refines (k x) (k' x)) -> refines (bind m k) (bind m' k').
Proof.
  intros [->| ->] K; [left; reflexivity|]. destruct m as [x|e]; cbn [bind]; [apply K|right; reflexivity].
Qed.

Lemma refines_while {S} cond (body body' : S -> res S) : (forall s, refines (body s) (body' s)) ->
  forall f f' s, (f <= f')%nat -> refines (while_loop f cond body s) (while_loop f' cond body' s).
Proof.
  intros B f. induction f as [|f IH]; intros f' s L; [left; reflexivity|].
  destruct f' as [|f']; [lia|]. cbn [while_loop]. apply refines_bind; [apply refines_refl|]. intros [|]; [|apply refines_refl].
  apply refines_bind; [apply B|]. intros x. apply IH. lia.
Qed.

Ltac fuel_free := match goal with |- refines ?m ?m => apply refines_refl end.

Lemma correct_layer_refines f f' c g i h : (f <= f')%nat -> refines (correct_layer f c g i h) (correct_layer f' c g i h).
Proof.
  intros L. unfold correct_layer. apply refines_bind; [fuel_free|]. intros x.
  apply refines_bind; [apply refines_while; [intros; fuel_free|exact L]|]. intros [[a b] d]. fuel_free.
Qed.

Lemma log_profile_refines f f' c g : (f <= f')%nat -> refines (log_profile f c g) (log_profile f' c g).
Proof.
  intros L. unfold log_profile. apply refines_bind; [fuel_free|]. intros x.
  apply refines_bind.
  { apply refines_while; [|exact L]. intros [[[a b] d] e]. unfold log_snow_body.
    destruct (Rleb e d); [|fuel_free]. apply refines_bind; [apply correct_layer_refines; exact L|intros; fuel_free]. }
  intros [[[a b] d] e]. do 3 (apply refines_bind; [fuel_free|]; intros ?).
  apply refines_bind; [|intros [[[? ?] ?] ?]; fuel_free].
  apply refines_while; [|exact L]. intros [[[a1 b1] d1] e1]. unfold log_ice_body.
  destruct (Rleb e1 d1); [|fuel_free]. apply refines_bind; [apply correct_layer_refines; exact L|intros; fuel_free].
Qed.

Lemma adaptive_profile_refines f f' c g : (f <= f')%nat -> refines (adaptive_profile f c g) (adaptive_profile f' c g).
Proof.
  intros L. unfold adaptive_profile, adaptive_snow.
  apply refines_bind; [apply refines_while; [intros; fuel_free|exact L]|]. intros [[a b] d].
  do 2 (apply refines_bind; [fuel_free|]; intros ?).
  apply refines_bind.
  { destruct (_ && _); [|fuel_free]. apply refines_bind; [apply correct_layer_refines; exact L|intros; fuel_free]. }
  intros [g2 i2]. apply refines_bind; [apply refines_while; [intros; fuel_free|exact L]|]. intros [g3 i3].
  apply correct_layer_refines. exact L.
Qed.

Lemma update_grid_refines f f' c g : (f <= f')%nat -> refines (update_grid f c g) (update_grid f' c g).
Proof.
  intros L. unfold update_grid. apply refines_bind; [|intros; fuel_free].
  destruct (String.eqb _ _); [apply log_profile_refines; exact L|].
  destruct (String.eqb _ _); [apply adaptive_profile_refines; exact L|fuel_free].
Qed.

Lemma remove_melt_refines f f' c g m i : (f <= f')%nat -> refines (remove_melt_weq f c g m i) (remove_melt_weq f' c g m i).
Proof.
  intros L. unfold remove_melt_weq.
  apply refines_bind; [apply refines_while; [intros; fuel_free|exact L]|]. intros [[a b] d]. fuel_free.
Qed.

Lemma water_step_refines f f' c g melt m r : (f <= f')%nat -> refines (water_step f c g melt m r) (water_step f' c g melt m r).
Proof.
  intros L. unfold water_step. apply refines_bind; [apply remove_melt_refines; exact L|]. intros [a b]. fuel_free.
Qed.

Lemma heat_refines f f' c g dt : (f <= f')%nat -> refines (solveHeatEquation f c g dt) (solveHeatEquation f' c g dt).
Proof.
  intros L. unfold solveHeatEquation. cbv zeta. do 4 (apply refines_bind; [fuel_free|]; intros ?).
  apply refines_bind; [|intros; fuel_free]. unfold heat_loop. apply refines_while; [intros; fuel_free|exact L].
Qed.

Lemma core_step_refines f f' c sw sv st d inp t s : (f <= f')%nat ->
  refines (core_step f c sw sv st d inp t s) (core_step f' c sw sv st d inp t s).
Proof.
  intros L. unfold core_step. destruct st as [[dt ml] z].
  do 6 (apply refines_bind; [fuel_free|]; intros ?).
  apply refines_bind; [fuel_free|]. intros [sn ra]. apply refines_bind; [fuel_free|]. intros G. cbv zeta.
  apply refines_bind; [apply update_grid_refines; exact L|]. intros g2.
  apply refines_bind; [fuel_free|]. intros [[g3 al] as_]. apply refines_bind; [fuel_free|]. intros z0.
  apply refines_bind; [fuel_free|]. intros [[g4 sm] gp].
  do 4 (apply refines_bind; [fuel_free|]; intros ?).
  apply refines_bind; [fuel_free|]. intros [[[g5 fn] Ts] fl].
  do 2 (apply refines_bind; [fuel_free|]; intros ?).
  apply refines_bind; [apply water_step_refines; exact L|]. intros [[g8 q] wr].
  apply refines_bind; [apply heat_refines; exact L|]. intros g9. fuel_free.
Qed.

Lemma core_loop_refines f f' c sw sv st d inp n : (f <= f')%nat -> forall t s,
  refines (core_loop f c sw sv st d inp n t s) (core_loop f' c sw sv st d inp n t s).
Proof.
  intros L. induction n as [|n IH]; intros t s; [apply refines_refl|]. cbn [core_loop].
  apply refines_bind; [apply core_step_refines; exact L|]. intros [s1 o].
  apply refines_bind; [apply IH|]. intros [s2 os]. fuel_free.
Qed.

(*@ C102 One time step: whatever it returns or raises with one bound on the number of loop passes,
    it also returns or raises with every larger bound, except for running out of passes. *)
Lemma step_bound_irrelevant_lem :
  forall (fuel fuel' : nat) c sw sv settings d inp t s, (fuel <= fuel')%nat ->
    core_step fuel c sw sv settings d inp t s <> Err OutOfFuel ->
    core_step fuel' c sw sv settings d inp t s = core_step fuel c sw sv settings d inp t s.
Proof.
  intros fuel fuel' c sw sv st d inp t s L N. destruct (core_step_refines fuel fuel' c sw sv st d inp t s L); [contradiction|assumption].
Qed.

(*@ C102 The same for a complete run of one grid cell: a finished run with one bound is the finished run
    with every other bound that suffices, so nothing that is proved of a run depends on the bound. *)
Lemma cell_bound_irrelevant_lem :
  forall (fuel fuel' : nat) c sw sv d restart,
    cosipy_core fuel c sw sv d restart <> Err OutOfFuel ->
    cosipy_core fuel' c sw sv d restart <> Err OutOfFuel ->
    cosipy_core fuel' c sw sv d restart = cosipy_core fuel c sw sv d restart.
Proof.
  assert (K : forall f f' c sw sv d r, (f <= f')%nat -> refines (cosipy_core f c sw sv d r) (cosipy_core f' c sw sv d r)).
  { intros f f' c sw sv d r L. unfold cosipy_core. do 3 (apply refines_bind; [fuel_free|]; intros ?). cbv zeta.
    destruct (sw_WRF_X_CSPY sw); (apply refines_bind; [apply core_loop_refines; exact L|]); intros [s1 os]; fuel_free. }
  intros f f' c sw sv d r N N'. destruct (Nat.le_ge_cases f f') as [L|L].
  - destruct (K f f' c sw sv d r L); [contradiction|assumption].
  - destruct (K f' f c sw sv d r L); [contradiction|symmetry; assumption].
Qed.

(*@ C102 Remeshing, melt and heat conduction alone. *)
Lemma part_bound_irrelevant_lem :
  forall (fuel fuel' : nat) c g, (fuel <= fuel')%nat ->
    (update_grid fuel c g <> Err OutOfFuel -> update_grid fuel' c g = update_grid fuel c g) /\
    (forall m i, remove_melt_weq fuel c g m i <> Err OutOfFuel -> remove_melt_weq fuel' c g m i = remove_melt_weq fuel c g m i) /\
    (forall dt, solveHeatEquation fuel c g dt <> Err OutOfFuel -> solveHeatEquation fuel' c g dt = solveHeatEquation fuel c g dt).
Proof.
  intros f f' c g L. split; [|split].
  - intros N. destruct (update_grid_refines f f' c g L); [contradiction|assumption].
  - intros m i N. destruct (remove_melt_refines f f' c g m i L); [contradiction|assumption].
  - intros dt N. destruct (heat_refines f f' c g dt L); [contradiction|assumption].
Qed.

(*@ex C102 A step that does not run out of passes. *)
Lemma bound_case_lem : exists fuel inp,
  select_inputs calm_constants calm_switches calm_data = Ok inp /\
  core_step fuel calm_constants calm_switches calm_solvers calm_settings calm_data inp 0 calm_state <> Err OutOfFuel /\
  core_step 0 calm_constants calm_switches calm_solvers calm_settings calm_data inp 0 calm_state
    <> core_step fuel calm_constants calm_switches calm_solvers calm_settings calm_data inp 0 calm_state.
Proof.
  destruct calm_step_lem as (fuel & inp & s' & o & _ & _ & _ & _ & _ & I & E & _).
  exists fuel, inp. split; [exact I|]. split; [rewrite E; discriminate|]. intros X.
  rewrite E in X. unfold calm_settings, core_step in X.
  repeat match type of X with
  | bind ?m _ = Ok _ => apply bind_ok in X; let y := fresh "y" in let F := fresh "F" in destruct X as (y & F & X);
      repeat match goal with p : (_ * _)%type |- _ => destruct p end;
      lazymatch type of F with water_step 0 _ _ _ _ _ = _ => discriminate F | _ => idtac end
  end.
Qed.
