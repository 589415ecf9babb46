(** * Stakes go to the closest cell

    Theorems only; the proofs are in LemFinStake.v and the files it uses. *)

From Verif Require Import ModelPy ModelConstants ModelNode ModelGrid ModelSurface ModelInit ModelCore ModelConfig ModelIO ModelMain ModelStake SpecIO SpecStake.
From Verif Require Import LemFinStake.

From Coq Require Import Lra Lia Reals List Psatz.

(** C111.  Every stake gets a cell inside of the grid, and no other cell is closer to it. *)
Theorem stake_closest :
  forall query coords nx rows stakes,
    finds_nearest query -> rectangular coords nx ->
    locate_stakes query coords rows = Ok stakes ->
    Forall2 (fun row stake =>
      exists lat lon name y x la lo,
        row = (Some lat, Some lon, name) /\ stake = (y, x, name) /\
        (0 <= y < Z.of_nat (length coords))%Z /\ (0 <= x < Z.of_nat nx)%Z /\
        lies_at coords y x la lo /\
        forall y' x' la' lo', lies_at coords y' x' la' lo' ->
          apart2 lat lon la lo <= apart2 lat lon la' lo') rows stakes.
Proof. exact stake_closest_lem. Qed.
Print Assumptions stake_closest.

(** C111.  The stakes are located exactly if no coordinate is NaN, that of a cell or that of a stake, and there is a
   cell if there is a stake. There is no limit to the distance: a stake far outside of the grid
   gets a cell as well. Where this fails, the run stops with ValueError. *)
Theorem stakes_located :
  forall query coords nx rows,
    finds_nearest query -> rectangular coords nx ->
    ((exists stakes, locate_stakes query coords rows = Ok stakes) <->
     Forall (Forall (fun p => exists lat lon, p = (Some lat, Some lon))) coords /\
     Forall (fun row => exists lat lon, fst row = (Some lat, Some lon)) rows /\
     (rows <> [] -> concat coords <> [])) /\
    (forall e, locate_stakes query coords rows = Err e -> e = ValueError).
Proof. exact stakes_located_lem. Qed.
Print Assumptions stakes_located.

(** C111.  A stake with the coordinates of a cell belongs to this cell. *)
Theorem stake_in_own_cell :
  forall query coords nx rows stakes k lat lon name y x,
    finds_nearest query -> rectangular coords nx ->
    (forall y x la lo, lies_at coords y x la lo -> -90 < la < 90 /\ -180 < lo <= 180) ->
    (forall y x y' x' la lo, lies_at coords y x la lo -> lies_at coords y' x' la lo -> y = y' /\ x = x') ->
    locate_stakes query coords rows = Ok stakes ->
    nth_error rows k = Some (Some lat, Some lon, name) ->
    lies_at coords y x lat lon ->
    nth_error stakes k = Some (y, x, name).
Proof. exact stake_in_own_cell_lem. Qed.
Print Assumptions stake_in_own_cell.

(** C111.  Among the cells on the parallel of the stake, no cell is closer in longitude than the one chosen, if the one chosen is on
   this parallel. *)
Theorem stake_longitude :
  forall query coords nx rows stakes lat lon name y x lo,
    finds_nearest query -> rectangular coords nx -> -90 < lat < 90 ->
    (forall y x la lo, lies_at coords y x la lo -> Rabs (lon - lo) <= 180) ->
    locate_stakes query coords rows = Ok stakes ->
    (exists k, nth_error rows k = Some (Some lat, Some lon, name) /\ nth_error stakes k = Some (y, x, name)) ->
    lies_at coords y x lat lo ->
    forall y' x' lo', lies_at coords y' x' lat lo' -> Rabs (lon - lo) <= Rabs (lon - lo').
Proof. exact stake_longitude_lem. Qed.
Print Assumptions stake_longitude.

(** C111.  The worker of a cell evaluates exactly the stakes for which this cell was chosen. *)
Theorem worker_stakes :
  forall query coords nx rows stakes cfg data restart ny jobs j,
    finds_nearest query -> rectangular coords nx ->
    locate_stakes query coords rows = Ok stakes ->
    rc_stake_evaluation cfg = true ->
    submit cfg data restart stakes ny (Z.of_nat nx) = Ok jobs -> In j jobs ->
    exists names, j_stakes j = Some names /\
      (forall name, In name names <->
         exists k row, nth_error rows k = Some row /\ nth_error stakes k = Some (j_y j, j_x j, name)) /\
      (forall name, In name names ->
         exists lat lon la lo, In (Some lat, Some lon, name) rows /\
           lies_at coords (j_y j) (j_x j) la lo /\
           forall y' x' la' lo', lies_at coords y' x' la' lo' ->
             apart2 lat lon la lo <= apart2 lat lon la' lo').
Proof. exact worker_stakes_lem. Qed.
Print Assumptions worker_stakes.

(** C111.  A stake whose closest cell is not glacier is evaluated by no worker, and the run says nothing about it. *)
Theorem stake_off_glacier :
  forall cfg data restart stakes ny nx jobs y x name,
    rc_stake_evaluation cfg = true ->
    submit cfg data restart stakes ny nx = Ok jobs ->
    NoDup (map snd stakes) -> In (y, x, name) stakes -> ~ is_glacier data y x ->
    forall j names, In j jobs -> j_stakes j = Some names -> ~ In name names.
Proof. exact stake_off_glacier_lem. Qed.
Print Assumptions stake_off_glacier.

(** C111.  Without WRF the cell (y, x) has the latitude y and the longitude x of the two axes; with WRF its
   coordinates are those of the input. *)
Theorem coordinates_of_cells :
  forall cfg wrf lats lons,
    (rc_WRF cfg = true -> cell_coordinates cfg wrf lats lons = wrf) /\
    (rc_WRF cfg = false ->
       rectangular (cell_coordinates cfg wrf lats lons) (length lons) /\
       length (cell_coordinates cfg wrf lats lons) = length lats /\
       forall y x la lo, (0 <= y)%Z -> (0 <= x)%Z ->
         lies_at (cell_coordinates cfg wrf lats lons) y x la lo <->
         nth_error lats (Z.to_nat y) = Some (Some la) /\ nth_error lons (Z.to_nat x) = Some (Some lo)).
Proof. exact coordinates_of_cells_lem. Qed.
Print Assumptions coordinates_of_cells.

(** C111.  The places of the stakes matter only if stakes are evaluated: without evaluation the run is the same
   whatever the file of the stakes holds. *)
Theorem stakes_unused :
  forall query query' wrf wrf' lats lats' lons lons' rows rows' cfg c work arrivals data restart measured io,
    rc_stake_evaluation cfg = false ->
    run_with_stakes query wrf lats lons rows cfg c work arrivals data restart measured io =
    run_with_stakes query' wrf' lats' lons' rows' cfg c work arrivals data restart measured io.
Proof. exact stakes_unused_lem. Qed.
Print Assumptions stakes_unused.

(** C111.  With evaluation, one stake without latitude or longitude stops the whole run with ValueError. *)
Theorem stake_without_place :
  forall query wrf lats lons rows cfg c work arrivals data restart measured io row,
    rc_stake_evaluation cfg = true -> In row rows ->
    fst (fst row) = None \/ snd (fst row) = None ->
    run_with_stakes query wrf lats lons rows cfg c work arrivals data restart measured io = Err ValueError.
Proof. exact stake_without_place_lem. Qed.
Print Assumptions stake_without_place.

(** C111 Such a search exists: look at every point. *)
Example search_example :
  finds_nearest scan_query.
Proof. exact search_example_lem. Qed.

(** C111 In a valley with two times two cells, a stake at the second cell of the first row gets this cell, and a
   stake on the equator gets a cell as well. *)
Example valley_stakes :
  exists y x,
    locate_stakes scan_query valley_coordinates
      [(Some 46, Some 11, "s1"%string); (Some 0, Some 0, "s2"%string)]
    = Ok [(0, 1, "s1"%string); (y, x, "s2"%string)]%Z.
Proof. exact valley_stakes_lem. Qed.
