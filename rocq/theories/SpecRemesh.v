(** * Vocabulary for the remeshed column *)
From Verif Require Import ModelPy ModelConstants ModelNode ModelGrid Spec.

(** thickness of layer [k] of the logarithmic profile that starts with [f] and grows by the
    factor [s] from layer to layer, and depth reached after [k] layers *)
Definition target (f s : R) (k : nat) : R := f * s ^ k.
Definition reach (f s : R) (k : nat) : R := sum_upto (target f s) k.

(** a layer without liquid water *)
Definition dry (n : Node) : Prop := 0 < n_height n /\ 0 < n_ice n <= 1 /\ n_lwc n = 0.

(** [l] is the logarithmic profile of a pack of height [H], [k] layers of which are complete:
    the layers have exactly the target thickness; if some height is left, the last
    complete layer is thickened and may be followed by further layers *)
Definition log_profiled (f s H : R) (k : nat) (l : list Node) : Prop :=
  reach f s k <= H < reach f s (S k) /\ column_height l = H /\
  ((H = reach f s k /\ map n_height l = map (target f s) (seq 0 k)) \/
   (reach f s k < H /\ exists top x more, l = top ++ x :: more /\
      map n_height top = map (target f s) (seq 0 (k - 1)) /\
      ((0 < k)%nat -> target f s (k - 1) < n_height x))).
