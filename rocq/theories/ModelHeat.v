(** * Heat conduction (cosipy/modules/heatEquation.py) *)
From Verif Require Import ModelPy ModelConstants ModelNode ModelGrid.

(** The array expressions of the code are written out for one centre point [i]
    (the code's [k], [kl], [ku] are [i], [i+1], [i-1]).  Array division never
    raises in numpy/numba; it is plain division here. *)
Definition at_ (l : list R) (i : nat) : R := nth i l 0.

(** heatEquation.py:18: centre points 1 .. nl-2 *)
Definition centre_points (nl : nat) : list nat := seq 1 (nl - 2).

(** heatEquation.py:24-26: distances to the points above and below *)
Definition heat_hk (h : list R) (i : nat) : R := (at_ h (i - 1) + at_ h i) / 2.
Definition heat_hk1 (h : list R) (i : nat) : R := (at_ h i + at_ h (i + 1)) / 2.

(** heatEquation.py:30-31: diffusivities between the points *)
Definition heat_Kl (K : list R) (i : nat) : R := (at_ K i + at_ K (i + 1)) / 2.
Definition heat_Ku (K : list R) (i : nat) : R := (at_ K (i - 1) + at_ K i) / 2.

(** [min(array)]: ValueError for an empty array *)
Definition py_min (l : list R) : res R :=
  match l with [] => Err ValueError | x :: t => Ok (fold_left Rmin t x) end.

(** heatEquation.py:36-37 *)
Definition heat_dt_stab (h K : list R) (nl : nat) : res R :=
  m1 <- py_min (map (fun i => heat_hk h i ^ 2 / heat_Ku K i) (centre_points nl)) ;;
  m2 <- py_min (map (fun i => heat_hk1 h i ^ 2 / heat_Kl K i) (centre_points nl)) ;;
  Ok (0.8 * (Rmin m1 m2 / 2)).

(** heatEquation.py:44-47: new temperature of one centre point *)
Definition heat_point (h K T : list R) (dt_use : R) (i : nat) : R :=
  at_ T i +
  ((heat_Kl K i * dt_use * (at_ T (i + 1) - at_ T i) / heat_hk1 h i)
   - (heat_Ku K i * dt_use * (at_ T i - at_ T (i - 1)) / heat_hk h i))
  / (0.5 * (heat_hk h i + heat_hk1 h i)).

(** heatEquation.py:44-47: all centre points at once, first and last point stay *)
Definition heat_step (h K : list R) (dt_use : R) (T : list R) : list R :=
  map (fun i => if ((1 <=? i) && (i <=? length T - 2))%nat
                then heat_point h K T dt_use i else at_ T i) (seq 0 (length T)).

(** heatEquation.py:39-47; the state is [(stab_t, T)] *)
Definition heat_loop (fuel : nat) (h K : list R) (dt_stab dt : R) (T : list R)
  : res (R * list R) :=
  while_loop fuel
    (fun s => Ok (Rltb (fst s) dt))
    (fun s => let dt_use := Rmin dt_stab (dt - fst s) in
              Ok (fst s + dt_use, heat_step h K dt_use (snd s)))
    (0, T).

(** heatEquation.py:6-49 *)
Definition solveHeatEquation (fuel : nat) (c : Consts) (g : Grid) (dt : R) : res Grid :=
  let nl := Z.to_nat (get_number_layers g) in
  h <- get_height g ;;
  K <- get_thermal_diffusivity c g ;;
  T <- get_temperature g ;;
  dt_stab <- heat_dt_stab h K nl ;;
  s <- heat_loop fuel h K dt_stab dt T ;;
  set_temperature g (snd s).
