(** * The secant solver (C33) *)
From Verif Require Import ModelPy ModelConstants ModelNode ModelGrid ModelSurface Spec LemPy.

Lemma adiv_ok a b : b <> 0 -> adiv a b = Ok (a / b).
Proof. intros H. unfold adiv. destruct (Req_EM_T b 0); [contradiction|reflexivity]. Qed.

(** the two formulas of the loop are the chord formula *)
Lemma secant_step (f : R -> R) a b : f a <> f b ->
  (if Rltb (Rabs (f a)) (Rabs (f b))
   then x <- adiv (- f a) (f b) ;; y <- adiv (f a) (f b) ;; adiv (x * b + a) (1 - y)
   else x <- adiv (- f b) (f a) ;; y <- adiv (f b) (f a) ;; adiv (x * a + b) (1 - y))
  = Ok (chord_root f a b).
Proof.
  intros H. destruct (Rltb_spec (Rabs (f a)) (Rabs (f b))) as [L|L].
  - assert (Hb : f b <> 0).
    { intros E. rewrite E, Rabs_R0 in L. assert (0 <= Rabs (f a)) by apply Rabs_pos. lra. }
    rewrite !adiv_ok by exact Hb. cbn [bind]. rewrite adiv_ok.
    + unfold chord_root. f_equal. field. repeat split; try exact Hb; intros E; apply H; lra.
    + intros E. apply H. apply (Rmult_eq_reg_r (/ f b)); [|apply Rinv_neq_0_compat; exact Hb].
      rewrite Rinv_r by exact Hb. unfold Rdiv in E. lra.
  - assert (Ha : f a <> 0).
    { intros E. apply H. rewrite E, Rabs_R0 in L. destruct (Req_dec (f b) 0) as [Z|Z]; [congruence|].
      assert (0 < Rabs (f b)) by (apply Rabs_pos_lt; exact Z). lra. }
    rewrite !adiv_ok by exact Ha. cbn [bind]. rewrite adiv_ok.
    + unfold chord_root. f_equal. field. repeat split; try exact Ha; intros E; apply H; lra.
    + intros E. apply H. apply (Rmult_eq_reg_r (/ f a)); [|apply Rinv_neq_0_compat; exact Ha].
      rewrite Rinv_r by exact Ha. unfold Rdiv in E. lra.
Qed.

Lemma secant_loop_step (f : R -> R) func tol rtol k p p0 p1 calls :
  (forall x, func x = Ok (f x)) -> f p0 <> f p1 ->
  secant_loop (S k) func tol rtol p p0 p1 (f p0) (f p1) calls
  = (let r := chord_root f p0 p1 in
     if Rleb (Rabs (r - p1)) (tol + rtol * Rabs p1) then Ok (r, calls)
     else secant_loop k func tol rtol r p1 r (f p1) (f r) (S calls)).
Proof.
  intros Hf H. cbn [secant_loop]. rewrite Reqb_false by congruence.
  rewrite (secant_step f p0 p1 H). cbn [bind]. rewrite Hf. cbn [bind]. reflexivity.
Qed.

(** what the solver may answer *)
Definition secant_answer (f : R -> R) (tol rtol : R) (calls budget : nat) (o : res (R * nat)) : Prop :=
  (exists r k a b, o = Ok (r, k) /\ f a <> f b /\ r = chord_root f a b /\ (calls <= k <= budget)%nat /\
     (Rabs (r - b) <= tol + rtol * Rabs b \/ k = budget)) \/
  (o = Err RuntimeError /\ exists a b, a <> b /\ f a = f b).

Lemma secant_loop_answer (f : R -> R) func tol rtol : (forall x, func x = Ok (f x)) -> 0 < tol -> 0 <= rtol ->
  forall k p p0 p1 calls, p0 <> p1 ->
  secant_answer f tol rtol calls (calls + S k) (secant_loop (S k) func tol rtol p p0 p1 (f p0) (f p1) calls).
Proof.
  intros Hf Ht Hr. induction k as [|k IH]; intros p p0 p1 calls Hp.
  all: destruct (Req_dec (f p0) (f p1)) as [E|E].
  1,3: right; split; [|exists p0, p1; split; assumption];
    cbn [secant_loop]; rewrite Reqb_true by congruence; rewrite Reqb_false by congruence; reflexivity.
  all: rewrite (secant_loop_step f func tol rtol _ p p0 p1 calls Hf E); cbv zeta;
    destruct (Rleb_spec (Rabs (chord_root f p0 p1 - p1)) (tol + rtol * Rabs p1)) as [C|C].
  1,3: left; exists (chord_root f p0 p1), calls, p0, p1; (split; [reflexivity|]; split; [exact E|]; split; [reflexivity|]; split; [lia|left; exact C]).
  - left. exists (chord_root f p0 p1), (S calls), p0, p1.
    split; [reflexivity|]. split; [exact E|]. split; [reflexivity|]. split; [lia|right; lia].
  - assert (Hn : p1 <> chord_root f p0 p1).
    { intros Z. apply C. rewrite <- Z. unfold Rminus. rewrite Rplus_opp_r, Rabs_R0.
      assert (0 <= rtol * Rabs p1) by (apply Rmult_le_pos; [exact Hr|apply Rabs_pos]). lra. }
    destruct (IH (chord_root f p0 p1) p1 (chord_root f p0 p1) (S calls) Hn)
      as [(r & j & a & b & W & H1 & H2 & H3 & H4)|(W & H1)].
    + left. exists r, j, a, b. split; [exact W|]. split; [exact H1|]. split; [exact H2|].
      split; [lia|]. destruct H4; [left; assumption|right; lia].
    + right. split; assumption.
Qed.

(*@ C33 The solver always stops after at most [maxiter + 2] evaluations and never divides by
    zero.  It answers the zero of a chord of the function, close to the last point unless
    the budget is used up; its only error is a horizontal chord. *)
Lemma secant_terminates_lem : forall (f : R -> R) (func : R -> res R) (x0 tol rtol : R) (maxiter : nat) (x1 : option R),
  (forall x, func x = Ok (f x)) -> 0 < tol -> 0 <= rtol -> (0 < maxiter)%nat ->
  match x1 with Some x => x <> x0 | None => True end ->
  secant_answer f tol rtol 2 (maxiter + 2) (secant func x0 tol maxiter x1 rtol).
Proof.
  intros f func x0 tol rtol maxiter x1 Hf Ht Hr Hm Hx. unfold secant.
  destruct maxiter as [|k]; [lia|]. cbn [Nat.eqb]. rewrite Rleb_false by exact Ht.
  replace (S k + 2)%nat with (2 + S k)%nat by lia. cbv zeta.
  assert (exists p1, (match x1 with
           | Some x1 => if Reqb x1 x0 then Err ValueError else Ok x1
           | None => Ok (x0 * (1 + 0.0001) + (if Rleb 0 (x0 * (1 + 0.0001)) then 0.0001 else - (0.0001)))
           end) = Ok p1 /\ p1 <> 1 * x0) as (p1 & -> & Hp).
  { destruct x1 as [x|].
    - exists x. rewrite Reqb_false by exact Hx. split; [reflexivity|lra].
    - eexists. split; [reflexivity|].
      destruct (Rleb_spec 0 (x0 * (1 + 0.0001))); lra. }
  cbn [bind]. cbv zeta. rewrite !Hf. cbn [bind].
  destruct (Rltb (Rabs (f p1)) (Rabs (f (1 * x0)))).
  - apply secant_loop_answer; assumption.
  - apply secant_loop_answer; try assumption. intros E. apply Hp. symmetry. exact E.
Qed.

Lemma affine_loop (s d tol rtol : R) func : (forall x, func x = Ok (s * x + d)) -> s <> 0 -> 0 < tol -> 0 <= rtol ->
  forall k p p0 p1 calls, p0 <> p1 ->
  exists j, secant_loop (S k) func tol rtol p p0 p1 (s * p0 + d) (s * p1 + d) calls = Ok (- d / s, j) /\ (j <= S calls)%nat.
Proof.
  intros Hf Hs Ht Hr k p p0 p1 calls Hp. set (f := fun x => s * x + d).
  assert (Hne : forall a b, a <> b -> f a <> f b).
  { intros a b H E. apply H. apply (Rmult_eq_reg_l s); [unfold f in E; lra|exact Hs]. }
  assert (Hroot : forall a b, a <> b -> chord_root f a b = - d / s).
  { intros a b H. unfold chord_root, f. field. split; [exact Hs|]. intros E. apply H.
    apply (Rmult_eq_reg_l s); [lra|exact Hs]. }
  change (s * p0 + d) with (f p0). change (s * p1 + d) with (f p1).
  rewrite (secant_loop_step f func tol rtol k p p0 p1 calls Hf (Hne _ _ Hp)). cbv zeta. rewrite (Hroot _ _ Hp).
  destruct (Rleb_spec (Rabs (- d / s - p1)) (tol + rtol * Rabs p1)) as [C|C].
  - exists calls. split; [reflexivity|lia].
  - destruct k as [|k].
    { exists (S calls). split; [reflexivity|lia]. }
    assert (Hn : p1 <> - d / s).
    { intros Z. apply C. rewrite <- Z. unfold Rminus. rewrite Rplus_opp_r, Rabs_R0.
      assert (0 <= rtol * Rabs p1) by (apply Rmult_le_pos; [exact Hr|apply Rabs_pos]). lra. }
    rewrite (secant_loop_step f func tol rtol k _ p1 _ (S calls) Hf (Hne _ _ Hn)). cbv zeta.
    rewrite (Hroot _ _ Hn). unfold Rminus at 1. rewrite Rplus_opp_r, Rabs_R0. rewrite Rleb_true.
    + exists (S calls). split; [reflexivity|lia].
    + assert (0 <= rtol * Rabs (- d / s)) by (apply Rmult_le_pos; [exact Hr|apply Rabs_pos]). lra.
Qed.

(*@ C33 For affine functions with non-zero slope the answer is the exact root, after at most
    three evaluations, from every start and for every tolerance. *)
Lemma secant_affine_exact_lem : forall (s d : R) (func : R -> res R) (x0 tol rtol : R) (maxiter : nat),
  (forall x, func x = Ok (s * x + d)) -> s <> 0 -> 0 < tol -> 0 <= rtol -> (0 < maxiter)%nat ->
  exists k, secant func x0 tol maxiter None rtol = Ok (- d / s, k) /\ (k <= 3)%nat.
Proof.
  intros s d func x0 tol rtol maxiter Hf Hs Ht Hr Hm. unfold secant.
  destruct maxiter as [|k]; [lia|]. cbn [Nat.eqb]. rewrite Rleb_false by exact Ht.
  cbn [bind]. cbv zeta. set (p1 := x0 * (1 + 0.0001) + _). rewrite !Hf. cbn [bind].
  assert (Hp : p1 <> 1 * x0) by (unfold p1; destruct (Rleb_spec 0 (x0 * (1 + 0.0001))); lra).
  destruct (Rltb _ _).
  - destruct (affine_loop s d tol rtol func Hf Hs Ht Hr k 0 p1 (1 * x0) 2 Hp) as (j & W & L).
    exists j. split; [exact W|lia].
  - assert (Hp' : 1 * x0 <> p1) by (intros E; apply Hp; symmetry; exact E).
    destruct (affine_loop s d tol rtol func Hf Hs Ht Hr k 0 (1 * x0) p1 2 Hp') as (j & W & L).
    exists j. split; [exact W|lia].
Qed.

Lemma reciprocal_loop tol : 0 < tol < 1 -> forall k p p0 p1 calls, 1 <= p0 -> 1 <= p1 -> p0 <> p1 ->
  exists r, secant_loop k (fun x => Ok (/ x)) tol 0 p p0 p1 (/ p0) (/ p1) calls = Ok (r, (calls + k)%nat) /\
    (k <> O -> 1 <= r).
Proof.
  intros Ht. 
  assert (Hroot : forall a b, 1 <= a -> 1 <= b -> a <> b -> / a <> / b /\ chord_root Rinv a b = a + b).
  { intros a b Ha Hb H. split.
    - intros E. apply H. rewrite <- (Rinv_inv a), <- (Rinv_inv b), E. reflexivity.
    - unfold chord_root. field. repeat split; lra. }
  induction k as [|k IH]; intros p p0 p1 calls H0 H1 Hp.
  - exists p. split; [cbn; f_equal; f_equal; lia|intros; contradiction].
  - destruct (Hroot p0 p1 H0 H1 Hp) as (Hne & Er).
    rewrite (secant_loop_step Rinv (fun x => Ok (/ x)) tol 0 k p p0 p1 calls (fun x => eq_refl) Hne).
    cbv zeta. rewrite Er. replace (p0 + p1 - p1) with p0 by ring. rewrite Rabs_pos_eq by lra.
    rewrite Rleb_false by lra.
    destruct (IH (p0 + p1) p1 (p0 + p1) (S calls) H1 ltac:(lra) ltac:(lra)) as (r & W & Hr).
    exists r. split; [rewrite W; f_equal; f_equal; lia|]. intros _. destruct k; [|apply Hr; discriminate].
    cbn in W. injection W as <-. lra.
Qed.

(*@ C33 Not converging is not reported: on the function 1/x, which has no root, the solver
    answers a number for every iteration budget (scipy's solver raises an error). *)
Lemma secant_silent_refuted_lem : exists (f : R -> R) (x0 tol : R), 0 < tol /\ (forall x, 1 <= x -> f x <> 0) /\
  forall maxiter : nat, (0 < maxiter)%nat -> exists r,
    secant (fun x => Ok (f x)) x0 tol maxiter None 0 = Ok (r, (2 + maxiter)%nat) /\ 1 <= r.
Proof.
  exists Rinv, 1, 0.01. split; [lra|]. split; [intros x Hx; apply Rinv_neq_0_compat; lra|].
  intros maxiter Hm. unfold secant. destruct maxiter as [|k]; [lia|]. cbn [Nat.eqb].
  rewrite Rleb_false by lra. cbn [bind]. cbv zeta. rewrite (Rleb_true 0 (1 * (1 + 0.0001))) by lra.
  set (p1 := 1 * (1 + 0.0001) + 0.0001). assert (1 < p1) by (unfold p1; lra).
  destruct (Rltb _ _).
  - destruct (reciprocal_loop 0.01 ltac:(lra) (S k) 0 p1 (1 * 1) 2 ltac:(lra) ltac:(lra) ltac:(lra)) as (r & W & Hr).
    exists r. split; [exact W|apply Hr; discriminate].
  - destruct (reciprocal_loop 0.01 ltac:(lra) (S k) 0 (1 * 1) p1 2 ltac:(lra) ltac:(lra) ltac:(lra)) as (r & W & Hr).
    exists r. split; [exact W|apply Hr; discriminate].
Qed.

(** the value of the function where it has one *)
Definition value_at (func : R -> res R) (x : R) : R := match func x with Ok v => v | Err _ => 0 end.

(** what the solver may answer if the function may fail *)
Definition secant_outcome (func : R -> res R) (tol rtol : R) (calls budget : nat) (o : res (R * nat)) : Prop :=
  (exists r k a b fa fb, o = Ok (r, k) /\ func a = Ok fa /\ func b = Ok fb /\ fa <> fb /\
     r = b - fb * (b - a) / (fb - fa) /\ (calls <= k <= budget)%nat /\
     (Rabs (r - b) <= tol + rtol * Rabs b \/ k = budget)) \/
  (o = Err RuntimeError /\ exists a b v, a <> b /\ func a = Ok v /\ func b = Ok v) \/
  (exists x e, func x = Err e /\ o = Err e).

Lemma secant_loop_outcome func tol rtol : 0 < tol -> 0 <= rtol ->
  forall k p p0 p1 q0 q1 calls, p0 <> p1 -> func p0 = Ok q0 -> func p1 = Ok q1 ->
  secant_outcome func tol rtol calls (calls + S k) (secant_loop (S k) func tol rtol p p0 p1 q0 q1 calls).
Proof.
  intros Ht Hr. induction k as [|k IH]; intros p p0 p1 q0 q1 calls Hp F0 F1.
  all: destruct (Req_dec q0 q1) as [E|E].
  1,3: right; left; split; [|exists p0, p1, q0; split; [exact Hp|]; split; [exact F0|subst q1; exact F1]];
    cbn [secant_loop]; rewrite Reqb_true by congruence; rewrite Reqb_false by congruence; reflexivity.
  all: set (f := value_at func); assert (V0 : f p0 = q0) by (unfold f, value_at; rewrite F0; reflexivity);
    assert (V1 : f p1 = q1) by (unfold f, value_at; rewrite F1; reflexivity);
    assert (SS := secant_step f p0 p1); rewrite V0, V1 in SS; specialize (SS E);
    unfold chord_root in SS; rewrite V0, V1 in SS; set (r := p1 - q1 * (p1 - p0) / (q1 - q0)) in *;
    cbn [secant_loop]; rewrite Reqb_false by congruence; rewrite SS; cbn [bind];
    destruct (Rleb_spec (Rabs (r - p1)) (tol + rtol * Rabs p1)) as [C|C].
  1,3: left; exists r, calls, p0, p1, q0, q1; repeat (split; [first [reflexivity|assumption|lia]|]); left; exact C.
  - destruct (func r) as [q|e] eqn:Q; cbn [bind].
    + left. exists r, (S calls), p0, p1, q0, q1. repeat (split; [first [reflexivity|assumption|lia]|]). right; lia.
    + right. right. exists r, e. auto.
  - destruct (func r) as [q|e] eqn:Q; cbn [bind]; [|right; right; exists r, e; auto].
    assert (Hn : p1 <> r).
    { intros Z. apply C. rewrite <- Z. unfold Rminus. rewrite Rplus_opp_r, Rabs_R0.
      assert (0 <= rtol * Rabs p1) by (apply Rmult_le_pos; [exact Hr|apply Rabs_pos]). lra. }
    destruct (IH r p1 r q1 q (S calls) Hn F1 Q)
      as [(r' & j & a & b & fa & fb & W & A1 & A2 & A3 & A4 & A5 & A6)|[(W & H1)|H1]].
    + left. exists r', j, a, b, fa, fb. split; [exact W|]. repeat (split; [first [assumption|lia]|]).
      destruct A6; [left; assumption|right; lia].
    + right. left. split; assumption.
    + right. right. exact H1.
Qed.

(*@ C33 The same for a function that may fail: the only other outcome is the exception of the function itself. *)
Lemma secant_outcome_lem : forall (func : R -> res R) (x0 tol rtol : R) (maxiter : nat) (x1 : option R),
  0 < tol -> 0 <= rtol -> (0 < maxiter)%nat ->
  match x1 with Some x => x <> x0 | None => True end ->
  secant_outcome func tol rtol 2 (maxiter + 2) (secant func x0 tol maxiter x1 rtol).
Proof.
  intros func x0 tol rtol maxiter x1 Ht Hr Hm Hx. unfold secant.
  destruct maxiter as [|k]; [lia|]. cbn [Nat.eqb]. rewrite Rleb_false by exact Ht.
  replace (S k + 2)%nat with (2 + S k)%nat by lia. cbv zeta.
  assert (exists p1, (match x1 with
           | Some x1 => if Reqb x1 x0 then Err ValueError else Ok x1
           | None => Ok (x0 * (1 + 0.0001) + (if Rleb 0 (x0 * (1 + 0.0001)) then 0.0001 else - (0.0001)))
           end) = Ok p1 /\ p1 <> 1 * x0) as (p1 & -> & Hp).
  { destruct x1 as [x|].
    - exists x. rewrite Reqb_false by exact Hx. split; [reflexivity|lra].
    - eexists. split; [reflexivity|].
      destruct (Rleb_spec 0 (x0 * (1 + 0.0001))); lra. }
  cbn [bind]. cbv zeta.
  destruct (func (1 * x0)) as [q0|e] eqn:Q0; cbn [bind]; [|right; right; exists (1 * x0), e; auto].
  destruct (func p1) as [q1|e] eqn:Q1; cbn [bind]; [|right; right; exists p1, e; auto].
  destruct (Rltb (Rabs q1) (Rabs q0)).
  - apply secant_loop_outcome; assumption.
  - apply secant_loop_outcome; try assumption. intros E. apply Hp. symmetry. exact E.
Qed.

(*@ C33 The surface temperature found with the method Secant: the search stops after at most 52 evaluations of the sum of the fluxes; its answer is the zero of a chord of this sum, within 0.01 K of the last point unless the evaluations are used up, and is taken, cut at melting, if it is not below 220 K.  With a horizontal chord, an answer below 220 K or a sum that fails with a RuntimeError or a ValueError, the sum of the fluxes is minimised between 220 K and melting instead. *)
Lemma surface_by_secant_lem : forall c wrf newton minimize g a q B top g' fn Ts f,
  c_sfc_temperature_method c = "Secant"%string ->
  interp_subT c g = Ok B -> get_node g 0 = Ok top ->
  update_surface_temperature c wrf newton minimize g a q = Ok (g', fn, Ts, f) ->
  let bal := eb_optim c wrf g a q B in
  (fn = None /\ exists r k x y bx b_y,
     Ts = Rmin (c_zero_temperature c) r /\ 220 <= r /\ bal x = Ok bx /\ bal y = Ok b_y /\ bx <> b_y /\
     r = y - b_y * (y - x) / (b_y - bx) /\
     (2 <= k <= 52)%nat /\ (Rabs (r - y) <= 0.01 \/ k = 52%nat)) \/
  (exists r v, fn = Some v /\ Ts = py_min_nan (c_zero_temperature c) r /\
     minimize "SLSQP"%string bal (Rmin (n_temperature top) 270) 220 (c_zero_temperature c) = Ok (r, v) /\
     ((exists x y b, x <> y /\ bal x = Ok b /\ bal y = Ok b) \/
      (exists x y bx b_y, bal x = Ok bx /\ bal y = Ok b_y /\ bx <> b_y /\ y - b_y * (y - x) / (b_y - bx) < 220) \/
      (exists x, bal x = Err RuntimeError \/ bal x = Err ValueError))).
Proof.
  intros c wrf newton minimize g a q B top g' fn Ts f M EB ET H bal.
  unfold update_surface_temperature in H. rewrite EB in H. cbn [bind] in H. rewrite ET in H. cbn [bind] in H.
  rewrite M in H. cbn [String.eqb Ascii.eqb Bool.eqb orb] in H.
  fold bal in H. set (x0 := Rmin (n_temperature top) 270) in *.
  assert (A := secant_outcome_lem bal x0 0.01 0 50 None ltac:(lra) ltac:(lra) ltac:(lia) I).
  apply bind_ok in H as ([x fn'] & HX & H). apply bind_ok in H as (g1 & _ & H). apply bind_ok in H as (f1 & _ & H).
  injection H as _ <- <- _.
  assert (FB : forall P : Prop, P ->
    ('(x1, v) <- minimize "SLSQP"%string bal x0 220 (c_zero_temperature c);; Ok (x1, Some v)) = Ok (x, fn') ->
    exists r v, fn' = Some v /\ py_min_nan (c_zero_temperature c) x = py_min_nan (c_zero_temperature c) r /\
     minimize "SLSQP"%string bal x0 220 (c_zero_temperature c) = Ok (r, v) /\ P).
  { intros P p HM. apply bind_ok in HM as ([r v] & HM & K). injection K as <- <-. exists r, v. auto. }
  unfold call_secant_jitted in HX.
  destruct A as [(r & k & u & w & fu & fw & E & E1 & E2 & N & R & L & C)|[(E & HC)|(x' & e & HE & E)]]; rewrite E in HX; cbn [bind try_except] in HX.
  - destruct (Rltb_spec r 220) as [LT|LT]; cbn [bind try_except] in HX.
    + right. apply FB; [|exact HX]. right. left. exists u, w, fu, fw. rewrite <- R. auto.
    + unfold check_residual_clip in HX. rewrite Rltb_false in HX by lra. cbn [bind] in HX.
      injection HX as <- <-. left. split; [reflexivity|]. exists r, k, u, w, fu, fw.
      split; [unfold py_min_nan; destruct (Rltb_spec r (c_zero_temperature c)); [rewrite Rmin_right by lra|rewrite Rmin_left by lra]; reflexivity|].
      split; [lra|]. repeat (split; [assumption|]). destruct C as [C|C]; [left; lra|right; exact C].
  - right. apply FB; [left; exact HC|exact HX].
  - right. destruct e; try discriminate HX; (apply FB; [right; right; exists x'; auto|exact HX]).
Qed.

(*@ex The hypotheses of the affine theorem hold for a concrete function. *)
Lemma secant_case_lem : exists k, secant (fun x => Ok (2 * x + -546)) 250 0.01 50 None 0 = Ok (- (-546) / 2, k) /\ (k <= 3)%nat.
Proof. apply secant_affine_exact_lem; [reflexivity|lra|lra|lra|lia]. Qed.
