(** * The secant solver (C33)

    Theorems only; the proofs are in LemFinSecant.v and the files it uses. *)

From Verif Require Import ModelPy ModelConstants ModelNode ModelGrid ModelSurface Spec.
From Verif Require Import LemFinSecant.

(** C33.  The solver always stops after at most [maxiter + 2] evaluations and never divides by
    zero.  It answers the zero of a chord of the function, close to the last point unless
    the budget is used up; its only error is a horizontal chord. *)
Theorem secant_terminates :
  forall (f : R -> R) (func : R -> res R) (x0 tol rtol : R) (maxiter : nat) (x1 : option R),
  (forall x, func x = Ok (f x)) -> 0 < tol -> 0 <= rtol -> (0 < maxiter)%nat ->
  match x1 with Some x => x <> x0 | None => True end ->
  secant_answer f tol rtol 2 (maxiter + 2) (secant func x0 tol maxiter x1 rtol).
Proof. exact secant_terminates_lem. Qed.
Print Assumptions secant_terminates.

(** C33.  For affine functions with non-zero slope the answer is the exact root, after at most
    three evaluations, from every start and for every tolerance. *)
Theorem secant_affine_exact :
  forall (s d : R) (func : R -> res R) (x0 tol rtol : R) (maxiter : nat),
  (forall x, func x = Ok (s * x + d)) -> s <> 0 -> 0 < tol -> 0 <= rtol -> (0 < maxiter)%nat ->
  exists k, secant func x0 tol maxiter None rtol = Ok (- d / s, k) /\ (k <= 3)%nat.
Proof. exact secant_affine_exact_lem. Qed.
Print Assumptions secant_affine_exact.

(** C33.  Not converging is not reported: on the function 1/x, which has no root, the solver
    answers a number for every iteration budget (scipy's solver raises an error). *)
Theorem secant_silent_refuted :
  exists (f : R -> R) (x0 tol : R), 0 < tol /\ (forall x, 1 <= x -> f x <> 0) /\
  forall maxiter : nat, (0 < maxiter)%nat -> exists r,
    secant (fun x => Ok (f x)) x0 tol maxiter None 0 = Ok (r, (2 + maxiter)%nat) /\ 1 <= r.
Proof. exact secant_silent_refuted_lem. Qed.
Print Assumptions secant_silent_refuted.

(** C33.  The same for a function that may fail: the only other outcome is the exception of the function itself. *)
Theorem secant_outcome :
  forall (func : R -> res R) (x0 tol rtol : R) (maxiter : nat) (x1 : option R),
  0 < tol -> 0 <= rtol -> (0 < maxiter)%nat ->
  match x1 with Some x => x <> x0 | None => True end ->
  secant_outcome func tol rtol 2 (maxiter + 2) (secant func x0 tol maxiter x1 rtol).
Proof. exact secant_outcome_lem. Qed.
Print Assumptions secant_outcome.

(** C33.  The surface temperature found with the method Secant: the search stops after at most 52 evaluations of the sum of the fluxes; its answer is the zero of a chord of this sum, within 0.01 K of the last point unless the evaluations are used up, and is taken, cut at melting, if it is not below 220 K.  With a horizontal chord, an answer below 220 K or a sum that fails with a RuntimeError or a ValueError, the sum of the fluxes is minimised between 220 K and melting instead. *)
Theorem surface_by_secant :
  forall c wrf newton minimize g a q B top g' fn Ts f,
  c_sfc_temperature_method c = "Secant"%string ->
  interp_subT c g = Ok B -> get_node g 0 = Ok top ->
  update_surface_temperature c wrf newton minimize g a q = Ok (g', fn, Ts, f) ->
  let bal := eb_optim c wrf g a q B in
  (fn = None /\ exists r k x y bx b_y,
     Ts = Rmin (c_zero_temperature c) r /\ 220 <= r /\ bal x = Ok bx /\ bal y = Ok b_y /\ bx <> b_y /\
     r = y - b_y * (y - x) / (b_y - bx) /\
     (2 <= k <= 52)%nat /\ (Rabs (r - y) <= 0.01 \/ k = 52%nat)) \/
  (exists r v, fn = Some v /\ Ts = py_min_nan (c_zero_temperature c) r /\
     minimize "SLSQP"%string bal (Rmin (n_temperature top) 270) 220 (c_zero_temperature c) = Ok (r, v) /\
     ((exists x y b, x <> y /\ bal x = Ok b /\ bal y = Ok b) \/
      (exists x y bx b_y, bal x = Ok bx /\ bal y = Ok b_y /\ bx <> b_y /\ y - b_y * (y - x) / (b_y - bx) < 220) \/
      (exists x, bal x = Err RuntimeError \/ bal x = Err ValueError))).
Proof. exact surface_by_secant_lem. Qed.
Print Assumptions surface_by_secant.

(** The hypotheses of the affine theorem hold for a concrete function. *)
Example secant_case :
  exists k, secant (fun x => Ok (2 * x + -546)) 250 0.01 50 None 0 = Ok (- (-546) / 2, k) /\ (k <= 3)%nat.
Proof. exact secant_case_lem. Qed.
