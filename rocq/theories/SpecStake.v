(** * Vocabulary for the places of the stakes *)
From Verif Require Import ModelPy ModelConstants ModelNode ModelGrid ModelSurface ModelInit
  ModelCore ModelConfig ModelIO ModelMain ModelStake.

(** squared straight distance of two points *)
Definition distance2 (p q : point) : R :=
  let '(x, y, z) := p in let '(x', y', z') := q in
  (x - x') ^ 2 + (y - y') ^ 2 + (z - z') ^ 2.

(** a search that finds a nearest point among the given ones *)
Definition finds_nearest (query : list point -> point -> nat) : Prop :=
  forall pts p, pts <> [] ->
    exists q, nth_error pts (query pts p) = Some q /\
      forall q', In q' pts -> distance2 p q <= distance2 p q'.

(** the cell (y, x) of the grid has these coordinates *)
Definition lies_at (coords : list (list (number * number))) (y x : Z) (lat lon : R) : Prop :=
  exists row, nth_error coords (Z.to_nat y) = Some row /\
    nth_error row (Z.to_nat x) = Some (Some lat, Some lon) /\ (0 <= y)%Z /\ (0 <= x)%Z.

(** all rows have the same number of cells *)
Definition rectangular (coords : list (list (number * number))) (nx : nat) : Prop :=
  Forall (fun row => length row = nx) coords.

(** straight distance between two places on the ellipsoid, squared *)
Definition apart2 (lat lon lat' lon' : R) : R :=
  distance2 (transform_coordinates lat lon) (transform_coordinates lat' lon').

(** a search that looks at every point in turn; the answer is (index, squared distance) *)
Fixpoint scan (k best : nat) (d : R) (p : point) (pts : list point) : nat :=
  match pts with
  | [] => best
  | q :: pts' =>
      if Rlt_dec (distance2 p q) d then scan (S k) k (distance2 p q) p pts'
      else scan (S k) best d p pts'
  end.
Definition scan_query (pts : list point) (p : point) : nat :=
  match pts with [] => 0%nat | q :: pts' => scan 1 0 (distance2 p q) p pts' end.

(** a valley with two times two cells *)
Definition valley_coordinates : list (list (number * number)) :=
  meshgrid [Some 46; Some 47] [Some 10; Some 11].
