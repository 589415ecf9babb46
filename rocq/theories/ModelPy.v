(** * Python/numba runtime conventions used by all model files.

    Nothing in this file models a line of /repo by itself; it fixes how the
    constructs that /repo uses (exceptions, list indexing, [del], [insert],
    [range] loops, [while] loops, scalar division) are represented. *)

From Coq Require Export String.
From Coq Require Export Reals List ZArith Lia Lra Bool.
Export ListNotations.
Open Scope R_scope.

(** Exceptions as values.  [OutOfFuel] is not a Python exception: it is the
    answer of a [while] loop whose fuel is exhausted, i.e. "has not terminated
    yet".  Theorems either exclude it or prove it impossible.  Neither is [NotReal]: it is
    the answer of a numpy operation whose result is infinite or NaN, i.e. "the model does
    not follow the code beyond this point". *)
Inductive exn : Type :=
| IndexError | ZeroDivisionError | ValueError | TypeError | KeyError
| AttributeError | RuntimeError | NotImplementedError | AssertionError
| UnboundLocalError | SystemExit | OutOfFuel | NotReal.

Inductive res (A : Type) : Type :=
| Ok (a : A)
| Err (e : exn).
Arguments Ok {A} a.
Arguments Err {A} e.

Definition bind {A B : Type} (m : res A) (k : A -> res B) : res B :=
  match m with Ok a => k a | Err e => Err e end.

Declare Scope py_scope.
Delimit Scope py_scope with py.
Notation "x <- m ;; k" := (bind m (fun x => k))
  (at level 61, m at next level, right associativity) : py_scope.
Notation "' p <- m ;; k" := (bind m (fun x => let 'p := x in k))
  (at level 61, p pattern, m at next level, right associativity) : py_scope.
Notation "m ;; k" := (bind m (fun _ => k))
  (at level 61, right associativity) : py_scope.
Open Scope py_scope.

(** ** Real comparisons as booleans (Python [<], [<=], [==] on floats).
    float64 rounding, NaN and infinities are not modelled: numbers are the
    mathematical reals. *)
Definition Rltb (a b : R) : bool := if Rlt_dec a b then true else false.
Definition Rleb (a b : R) : bool := if Rle_dec a b then true else false.
Definition Reqb (a b : R) : bool := if Req_EM_T a b then true else false.

(** Scalar float division in numba-compiled code (error model "python"). *)
Definition fdiv (a b : R) : res R :=
  if Req_EM_T b 0 then Err ZeroDivisionError else Ok (a / b).

(** ** Lists with Python indices (numba [typed.List] has the same rules). *)
Definition py_index (n : nat) (i : Z) : option nat :=
  if ((0 <=? i) && (i <? Z.of_nat n))%Z%bool then Some (Z.to_nat i)
  else if ((- Z.of_nat n <=? i) && (i <? 0))%Z%bool
       then Some (Z.to_nat (Z.of_nat n + i))
       else None.

(** [l[i]] *)
Definition py_get {A : Type} (l : list A) (i : Z) : res A :=
  match py_index (length l) i with
  | None => Err IndexError
  | Some k => match nth_error l k with Some a => Ok a | None => Err IndexError end
  end.

Fixpoint list_update {A : Type} (k : nat) (f : A -> A) (l : list A) : list A :=
  match l, k with
  | [], _ => []
  | x :: t, O => f x :: t
  | x :: t, S k' => x :: list_update k' f t
  end.

(** [l[i].attr = v]: in-place update of one element *)
Definition py_update {A : Type} (l : list A) (i : Z) (f : A -> A) : res (list A) :=
  match py_index (length l) i with
  | None => Err IndexError
  | Some k => Ok (list_update k f l)
  end.

Fixpoint list_delete {A : Type} (k : nat) (l : list A) : list A :=
  match l, k with
  | [], _ => []
  | _ :: t, O => t
  | x :: t, S k' => x :: list_delete k' t
  end.

(** [del l[i]] *)
Definition py_del {A : Type} (l : list A) (i : Z) : res (list A) :=
  match py_index (length l) i with
  | None => Err IndexError
  | Some k => Ok (list_delete k l)
  end.

(** [l.insert(i, x)]: never raises, the position is clamped. *)
Definition py_insert {A : Type} (l : list A) (i : Z) (x : A) : list A :=
  let n := Z.of_nat (length l) in
  let j := if (i <? 0)%Z then Z.max (n + i) 0 else Z.min i n in
  firstn (Z.to_nat j) l ++ x :: skipn (Z.to_nat j) l.

(** ** Loops *)

(** [for i in range(lo, lo + count): s = body(i, s)] *)
Fixpoint for_loop {S : Type} (count : nat) (i : Z) (body : Z -> S -> res S) (s : S)
  : res S :=
  match count with
  | O => Ok s
  | Datatypes.S n => s' <- body i s ;; for_loop n (i + 1)%Z body s'
  end.

(** [for i in range(lo, hi)]: the bound is evaluated once, before the loop. *)
Definition for_range {S : Type} (lo hi : Z) (body : Z -> S -> res S) (s : S) : res S :=
  for_loop (Z.to_nat (hi - lo)) lo body s.

(** [while cond(s): s = body(s)] *)
Fixpoint while_loop {S : Type} (fuel : nat) (cond : S -> res bool)
  (body : S -> res S) (s : S) : res S :=
  match fuel with
  | O => Err OutOfFuel
  | Datatypes.S f =>
      b <- cond s ;;
      if b then (s' <- body s ;; while_loop f cond body s') else Ok s
  end.

(** [[f(x) for x in l]] where [f] may raise *)
Fixpoint map_res {A B : Type} (f : A -> res B) (l : list A) : res (list B) :=
  match l with
  | [] => Ok []
  | x :: t => y <- f x ;; ys <- map_res f t ;; Ok (y :: ys)
  end.

(** [range(lo, lo+n)] as a list *)
Fixpoint zseq (lo : Z) (n : nat) : list Z :=
  match n with O => [] | Datatypes.S k => lo :: zseq (lo + 1)%Z k end.

Definition zrange (lo hi : Z) : list Z := zseq lo (Z.to_nat (hi - lo)).

(** [sum(l)] and [np.cumsum(l)] on floats *)
Definition sum_list (l : list R) : R := fold_left Rplus l 0.

Fixpoint cumsum_from (acc : R) (l : list R) : list R :=
  match l with [] => [] | x :: t => (acc + x) :: cumsum_from (acc + x) t end.
Definition cumsum (l : list R) : list R := cumsum_from 0 l.
