(** * Notions for the plots of results *)
From Verif Require Import ModelPy ModelConstants ModelNode ModelGrid ModelHeat ModelSurface ModelInit
  ModelCore ModelConfig ModelIO ModelMain ModelRadCor ModelAws ModelSetup ModelPost.

(** depth of the upper boundary of layer [k] of layers with heights [h] *)
Definition layer_top (h : list R) (k : nat) : R := sum_list (firstn k h).

(** the layer of a profile with heights [h] that holds the depth [d]; the last one also holds what is
    below it *)
Definition holds_depth (h : list R) (k : nat) (d : R) : Prop :=
  (k < length h)%nat /\ layer_top h k <= d /\ (d < layer_top h (S k) \/ S k = length h).

(** heights as they are stored: the layers, then NaN *)
Definition stored (h : list R) (missing : nat) : list number := map Some h ++ repeat None missing.

(** the numbers of an array *)
Definition is_number (l : list number) (i : nat) (a : R) : Prop := nth_error l i = Some (Some a).

(** [i] is the first position whose number has the smallest distance from [v] *)
Definition first_nearest (l : list number) (v : R) (i : nat) (a : R) : Prop :=
  is_number l i a /\ forall j b, is_number l j b ->
    Rabs (a - v) <= Rabs (b - v) /\ ((j < i)%nat -> Rabs (a - v) < Rabs (b - v)).

(** rows of the same length *)
Definition rectangular {A : Type} (a : raster A) (ny nx : nat) : Prop :=
  length a = ny /\ Forall (fun row => length row = nx) a.

(** the numbers of a time series in the interval [from, until), in order *)
Definition numbers_between (l : time_series) (from until : Z) : list R :=
  flat_map (fun tv => match snd tv with Some v => [v] | None => [] end)
    (filter (fun tv => ((from <=? fst tv) && (fst tv <? until))%Z) l).

(** the arithmetic mean of these numbers, NaN if there are none *)
Definition arithmetic_mean (l : list R) : number :=
  match l with [] => None | _ => Some (sum_list l / INR (length l)) end.

(** a day, counted from the epoch *)
Definition day_start (d : Z) : Z := (d * 86400)%Z.
Definition day_mean (l : time_series) (d : Z) : number :=
  arithmetic_mean (numbers_between l (day_start d) (day_start (d + 1))).

(** the point of the surface over row [j] and column [i] of the grid; lengths are in radii of the Earth *)
Definition grid_point (lats lons : list R) (HGT : raster number) (j i : nat) : option point3 :=
  match nth_error lons i, nth_error lats j, nth_error HGT j with
  | Some lo, Some la, Some row =>
      match nth_error row i with Some h => Some (lo, la, option_map (fun e => e / 6370000) h) | None => None end
  | _, _, _ => None
  end.

(** the corners of the cell of the grid between the columns [i], [i + 1] and the rows [j], [j + 1] of
    points that are numbered column by column *)
Definition grid_cell (nlat i j : Z) : Z * Z * Z * Z :=
  let p := (i * nlat + j)%Z in (p, p + 1, p + nlat + 1, p + nlat)%Z.
