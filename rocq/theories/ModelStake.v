(** * Where the stakes are (COSIPY.py:175-211) *)
From Verif Require Import ModelPy ModelConstants ModelNode ModelGrid ModelSurface ModelInit
  ModelCore ModelConfig ModelIO ModelMain.

(** a point of the KD-tree, in kilometres *)
Definition point : Type := (R * R * R)%type.

(** [np.meshgrid(DATA.lon, DATA.lat)], COSIPY.py:193: (latitude, longitude) of each cell *)
Definition meshgrid (lats lons : list number) : list (list (number * number)) :=
  map (fun la => map (fun lo => (la, lo)) lons) lats.

(** COSIPY.py:187-194: the coordinates of the cells.  With WRF they are two-dimensional variables
    of the input, given as [wrf]; otherwise they are built from the two axes. *)
Definition cell_coordinates (cfg : RunConfig) (wrf : list (list (number * number)))
  (lats lons : list number) : list (list (number * number)) :=
  if rc_WRF cfg then wrf else meshgrid lats lons.

(** [transform_coordinates] of one pair; NaN where a coordinate is NaN *)
Definition transform_pair (p : number * number) : option point :=
  match p with
  | (Some lat, Some lon) => Some (transform_coordinates lat lon)
  | _ => None
  end.

(** scipy's cKDTree refuses data with NaN *)
Definition finite_point (p : option point) : res point :=
  match p with Some q => Ok q | None => Err ValueError end.

(** [np.unravel_index(i, (ny, nx))], row by row *)
Definition unravel_index (i ny nx : nat) : res (Z * Z) :=
  if (i <? ny * nx)%nat then Ok (Z.of_nat (i / nx), Z.of_nat (i mod nx)) else Err ValueError.

(** COSIPY.py:196-207: the list of (row, column, name).  [query] is scipy's
    [cKDTree(points).query(point)[1]]; a row of the file of the stakes is (lat, lon, id). *)
Definition locate_stakes (query : list point -> point -> nat) (coords : list (list (number * number)))
  (rows : list (number * number * string)) : res (list (Z * Z * string)) :=
  tree <- map_res (fun p => finite_point (transform_pair p)) (concat coords) ;;
  map_res (fun row =>
    p <- finite_point (transform_pair (fst row)) ;;
    yx <- unravel_index (query tree p) (length coords) (length (hd [] coords)) ;;
    Ok (fst yx, snd yx, snd row)) rows.

(** [run_cosipy] with the file of the stakes: it is read only if stakes are evaluated *)
Definition run_with_stakes (query : list point -> point -> nat)
  (wrf : list (list (number * number))) (lats lons : list number)
  (rows : list (number * number * string))
  (cfg : RunConfig) (c : Consts) (work : Job -> res (list pyval))
  (arrivals : list Job -> list Job) (data : Gridded) (restart : option restart_file)
  (measured : dict (list number)) (io : IO) : res Collected :=
  stakes <- (if rc_stake_evaluation cfg
             then locate_stakes query (cell_coordinates cfg wrf lats lons) rows else Ok []) ;;
  run_cosipy cfg c work arrivals data restart stakes measured io.
