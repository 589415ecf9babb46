(** * Initial snow pack and restart (cosipy/cpkernel/init.py, the restart part of
    cosipy_core.py and io.py) *)
From Verif Require Import ModelPy ModelConstants ModelNode ModelGrid ModelSurface.

(** [int(x)] truncates towards zero *)
Definition py_int (x : R) : Z :=
  if Rleb 0 x then Int_part x else (- Int_part (- x))%Z.

(** [np.ones(n) * v]: a negative length raises *)
Definition np_const (n : Z) (v : R) : res (list R) :=
  if (n <? 0)%Z then Err ValueError else Ok (repeat v (Z.to_nat n)).

(** [[start - slope * i for i in range(1, n + 1)]] *)
Definition ramp (start slope : R) (n : Z) : list R :=
  map (fun i => start - slope * IZR i) (zrange 1 (n + 1)).

(** one row per layer from the four arrays (they have the same length wherever this is used) *)
Fixpoint rows_of (hs ds ts ws : list R) : list LayerInput :=
  match hs, ds, ts, ws with
  | h :: hs', d :: ds', t :: ts', w :: ws' => mkLayer h d t w None :: rows_of hs' ds' ts' ws'
  | _, _, _, _ => []
  end.

(** init.py:8-115 [init_snowpack]; [snowheight] is DATA.SNOWHEIGHT ([None]: not in the
    dataset, [Some None]: NaN) and [T2_0] is DATA.T2.values[0].  A zero height of the
    glacier layers raises, as with Python floats; the temperature gradient is a numpy number
    and becomes infinite or NaN instead, where the model stops. *)
Definition init_snowpack (c : Consts) (snowheight : option number) (T2_0 : R) : res Grid :=
  let initial_snowheight :=
    match snowheight with
    | Some (Some h) => h
    | Some None => 0
    | None => c_initial_snowheight_constant c
    end in
  let temperature_top := Rmin T2_0 (c_zero_temperature c) in
  '(heights, densities, temps, lwc) <-
    (if Rltb 0 initial_snowheight then
       let nlayers := py_int (Rmin (initial_snowheight / 0.1) 5) in
       dT <- adiv (temperature_top - c_temperature_bottom c)
                  (initial_snowheight + c_initial_glacier_height c) ;;
       '(sh, sd, st, sw) <-
         (if (nlayers =? 0)%Z then
            Ok ([initial_snowheight], [c_initial_top_density_snowpack c], [temperature_top], [0])
          else
            let drho := (c_initial_top_density_snowpack c - c_initial_bottom_density_snowpack c)
                        / initial_snowheight in
            let step := initial_snowheight / IZR nlayers in
            sh <- np_const nlayers step ;;
            sw <- np_const nlayers 0 ;;
            Ok (sh, ramp (c_initial_top_density_snowpack c) (drho * step) nlayers,
                ramp temperature_top (dT * step) nlayers, sw)) ;;
       q <- fdiv (c_initial_glacier_height c) (c_initial_glacier_layer_heights c) ;;
       let n := py_int q in
       gh <- np_const n (c_initial_glacier_layer_heights c) ;;
       gd <- np_const n (c_ice_density c) ;;
       gw <- np_const n 0 ;;
       t_last <- py_get st (-1) ;;
       Ok (sh ++ gh, sd ++ gd, st ++ ramp t_last (dT * c_initial_glacier_layer_heights c) n, sw ++ gw)
     else
       q <- fdiv (c_initial_glacier_height c) (c_initial_glacier_layer_heights c) ;;
       let n := py_int q in
       dT <- (if (n =? 0)%Z then Ok 0     (* not used without layers *)
              else adiv (temperature_top - c_temperature_bottom c) (c_initial_glacier_height c)) ;;
       gh <- np_const n (c_initial_glacier_layer_heights c) ;;
       gd <- np_const n (c_ice_density c) ;;
       gw <- np_const n 0 ;;
       Ok (gh, gd, ramp temperature_top (dT * c_initial_glacier_layer_heights c) n, gw)) ;;
  Ok (new_grid c (rows_of heights densities temps lwc) None None None).

(** ** Restart data *)

(** A dataset of one grid cell: named variables, each a list of numbers (NaN = [None]);
    scalars are lists of length one. *)
Definition dataset : Type := list (string * list number).

(** attribute access [DATASET.name] *)
Fixpoint ds_get (d : dataset) (name : string) : res (list number) :=
  match d with
  | [] => Err AttributeError
  | (n, v) :: t => if String.eqb n name then Ok v else ds_get t name
  end.

(** [A[0:n] = v] on an array [A] of NaNs of length [m]: raises if the array is too short.
    [n = len v] wherever this is used. *)
Definition fill_nan (m : Z) (v : list R) : res (list number) :=
  if (m <? Z.of_nat (length v))%Z then Err ValueError
  else Ok (map Some v ++ repeat None (Z.to_nat m - length v)).

(** cosipy_core.py:496-504 into the dataset made by io.py:760-794 *)
Definition write_restart (c : Consts) (g : Grid) : res dataset :=
  let m := c_max_layers c in
  let '(h, t, o) := get_fresh_snow_props g in
  hs <- get_height g ;; vh <- fill_nan m hs ;;
  ds <- get_density c g ;; vd <- fill_nan m ds ;;
  ts <- get_temperature g ;; vt <- fill_nan m ts ;;
  ws <- get_liquid_water_content g ;; vw <- fill_nan m ws ;;
  fs <- get_ice_fraction g ;; vf <- fill_nan m fs ;;
  Ok [("NLAYERS"%string, [Some (IZR (get_number_layers g))]);
      ("NEWSNOWHEIGHT"%string, [Some h]);
      ("NEWSNOWTIMESTAMP"%string, [Some t]);
      ("OLDSNOWTIMESTAMP"%string, [Some o]);
      ("LAYER_HEIGHT"%string, vh); ("LAYER_RHO"%string, vd); ("LAYER_T"%string, vt);
      ("LAYER_LWC"%string, vw); ("LAYER_IF"%string, vf)].

(** [np.float64(x.values)] of a variable of size one; NaN stops the model *)
Definition ds_scalar (d : dataset) (name : string) : res R :=
  v <- ds_get d name ;;
  match v with
  | [Some x] => Ok x
  | [None] => Err NotReal
  | _ => Err TypeError
  end.

(** [x.values[0:n]]; a NaN among the values stops the model (the code raises for a NaN
    temperature, init.py:178-180, and goes on with any other NaN) *)
Definition ds_slice (d : dataset) (name : string) (n : Z) : res (list R) :=
  v <- ds_get d name ;;
  map_res (fun x => match x with Some r => Ok r | None => Err NotReal end)
          (firstn (Z.to_nat n) v).

Fixpoint rows_with_ice (hs ds ts ws fs : list R) : list LayerInput :=
  match hs, ds, ts, ws, fs with
  | h :: hs', d :: ds', t :: ts', w :: ws', f :: fs' =>
      mkLayer h d t w (Some f) :: rows_with_ice hs' ds' ts' ws' fs'
  | _, _, _, _, _ => []
  end.

(** init.py:118-147 [load_snowpack].  [names] are the names of the three fresh-snow
    variables that are read; see [load_snowpack]. *)
Definition load_snowpack_with (names : string * string * string) (c : Consts) (d : dataset)
  : res Grid :=
  let '(nsh, nst, ost) := names in
  k <- ds_scalar d "NLAYERS"%string ;;
  let n := py_int k in
  hs <- ds_slice d "LAYER_HEIGHT"%string n ;;
  ds <- ds_slice d "LAYER_RHO"%string n ;;
  ts <- ds_slice d "LAYER_T"%string n ;;
  ws <- ds_slice d "LAYER_LWC"%string n ;;
  fs <- ds_slice d "LAYER_IF"%string n ;;
  h <- ds_scalar d nsh ;; t <- ds_scalar d nst ;; o <- ds_scalar d ost ;;
  Ok (new_grid c (rows_with_ice hs ds ts ws fs) (Some h) (Some t) (Some o)).

(** init.py:132-134: the names the code reads *)
Definition load_snowpack : Consts -> dataset -> res Grid :=
  load_snowpack_with ("new_snow_height", "new_snow_timestamp", "old_snow_timestamp")%string.
