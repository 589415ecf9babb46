(** * Conversion of WRF output (cosipy/utilities/wrf2cosipy/wrf2cosipy.py)

    Arrays along time and space are lists of rasters.  The file read is taken to hold numbers; values
    that numpy would make NaN or infinity are [None].  [xrs.slope] and [xrs.aspect] (package
    xarray-spatial) are parameters.  All variables of the file have the same dimensions, and its time
    stamps are increasing, which pandas needs to look up dates that are not in the file. *)
From Verif Require Import ModelPy ModelConstants ModelNode ModelGrid ModelHeat ModelSurface ModelInit
  ModelCore ModelConfig ModelIO ModelMain ModelRadCor ModelAws.
From Coq Require Import Ascii.

(** ** Time stamps *)
Record stamp : Type := mkStamp { s_year : Z; s_month : Z; s_day : Z; s_hour : Z; s_minute : Z }.

Definition digit (n : Z) : ascii := ascii_of_N (Z.to_N (48 + n mod 10)).
Definition two_digits (n : Z) (rest : string) : string := String (digit (n / 10)) (String (digit n) rest).
Definition four_digits (n : Z) (rest : string) : string := two_digits (n / 100) (two_digits n rest).

(** wrf2cosipy.py:54: [strftime('%Y-%m-%dT%H-%M')] *)
Definition strftime (t : stamp) : string :=
  four_digits (s_year t) (String "-" (two_digits (s_month t) (String "-" (two_digits (s_day t)
    (String "T" (two_digits (s_hour t) (String "-" (two_digits (s_minute t) EmptyString)))))))).

(** [a <= b] for texts *)
Definition text_leb (a b : string) : bool :=
  match String.compare a b with Gt => false | _ => true end.

(** ** The file read *)
Record wrf_file : Type := mkWrf {
  w_Time : list stamp;
  w_XLAT : list (raster R); w_XLONG : list (raster R); w_HGT : list (raster R);
  w_T2 : list (raster R); w_Q2 : list (raster R); w_PSFC : list (raster R);
  w_SWDOWN : list (raster R); w_GLW : list (raster R);
  w_SNOWH : list (raster R); w_SNOW : list (raster R); w_SNOWC : list (raster R);
  w_LU_INDEX : list (raster R); w_TSK : list (raster R);
  w_U10 : list (raster R); w_V10 : list (raster R);
  w_RAINNC : list (raster R); w_RAINC : list (raster R); w_SNOWNC : list (raster R);
  w_DX : option R; w_DY : option R                     (* global attributes *)
}.

(** [ds.sel(Time=...)] *)
Definition select (keep : list bool) (w : wrf_file) : wrf_file :=
  mkWrf (pick keep (w_Time w)) (pick keep (w_XLAT w)) (pick keep (w_XLONG w)) (pick keep (w_HGT w))
    (pick keep (w_T2 w)) (pick keep (w_Q2 w)) (pick keep (w_PSFC w)) (pick keep (w_SWDOWN w))
    (pick keep (w_GLW w)) (pick keep (w_SNOWH w)) (pick keep (w_SNOW w)) (pick keep (w_SNOWC w))
    (pick keep (w_LU_INDEX w)) (pick keep (w_TSK w)) (pick keep (w_U10 w)) (pick keep (w_V10 w))
    (pick keep (w_RAINNC w)) (pick keep (w_RAINC w)) (pick keep (w_SNOWNC w)) (w_DX w) (w_DY w).

(** wrf2cosipy.py:57-58 *)
Definition select_period (start_date end_date : option string) (w : wrf_file) : wrf_file :=
  match start_date, end_date with
  | Some a, Some b =>
      select (map (fun t => text_leb a (strftime t) && text_leb (strftime t) b)%bool (w_Time w)) w
  | _, _ => w
  end.

(** ** Arrays *)
(** operations with two or more arrays of the same shape *)
Definition zip_slab {A B C : Type} (f : A -> B -> C) (a : raster A) (b : raster B) : res (raster C) :=
  raster_map (fun y x v => u <- raster_get b y x ;; Ok (f v u)) a.
Fixpoint zip_res {A B C : Type} (f : A -> B -> res C) (a : list A) (b : list B) : res (list C) :=
  match a, b with
  | [], [] => Ok []
  | x :: a, y :: b => z <- f x y ;; r <- zip_res f a b ;; Ok (z :: r)
  | _, _ => Err ValueError
  end.
Definition zip_array {A B C : Type} (f : A -> B -> C) (a : list (raster A)) (b : list (raster B))
  : res (list (raster C)) := zip_res (zip_slab f) a b.
Definition map_array {A B : Type} (f : A -> B) (a : list (raster A)) : list (raster B) :=
  map (map (map f)) a.
Definition slab_map {A B : Type} (f : A -> B) (a : raster A) : raster B := map (map f) a.

(** wrf2cosipy.py:160-170 for one entry *)
Definition wrf_rh (T2 Q2 PSFC : R) : number :=
  let pq0 := 379.90516 in
  let a2 := 17.2693882 in
  let a3 := 273.16 in
  let a4 := 35.86 in
  if Req_EM_T PSFC 0 then None else if Req_EM_T (T2 - a4) 0 then None else
  let rh := Q2 * 100 / ((pq0 / PSFC) * exp (a2 * (T2 - a3) / (T2 - a4))) in
  let rh := if Rlt_dec 100.0 rh then 100.0 else rh in
  let rh := if Rlt_dec rh 0.0 then 0.0 else rh in
  Some rh.

(** wrf2cosipy.py:84-85 for one entry *)
Definition wrf_wind (U10 V10 : R) : R :=
  let z0 := 0.0040 in
  let umag := sqrt (V10 ^ 2 + U10 ^ 2) in
  umag * (ln (2 / z0) / ln (10 / z0)).

(** wrf2cosipy.py:89-91 for one entry *)
Definition wrf_mask (lu_class v : R) : R :=
  let m := if Req_EM_T v lu_class then v else 0 in
  if Req_EM_T m lu_class then 1 else m.

(** wrf2cosipy.py:95-97 and 107-109: differences of an accumulated quantity *)
Definition increments (steps : nat) (accumulated zero : list (raster R)) : res (list (raster R)) :=
  for_range 1 (Z.of_nat steps) (fun t rrr =>
    now <- py_get accumulated t ;;
    before <- py_get accumulated (t - 1) ;;
    d <- zip_slab Rminus now before ;;
    py_update rrr t (fun _ => d)) zero.

(** ** The file written *)
Inductive field : Type := Flat (r : raster number) | Timed (l : list (raster number)).
Record wrf_variable : Type := mkWrfVariable { wv_data : field; wv_units : string; wv_long_name : string }.
Record cosipy_file : Type := mkCosipyFile {
  cf_time : list string; cf_lat : raster R; cf_lon : raster R; cf_vars : dict wrf_variable
}.

Definition field_values (f : field) : list number :=
  match f with Flat r => concat r | Timed l => flat_map (@concat number) l end.

(** wrf2cosipy.py:134-148 *)
Definition add (name : string) (data : field) (units long_name : string) (vars : dict wrf_variable)
  : dict wrf_variable := dict_set vars name (mkWrfVariable data units long_name).
Definition flat (r : raster R) : field := Flat (slab_map (@Some R) r).
Definition timed (l : list (raster R)) : field := Timed (map_array (@Some R) l).

(** wrf2cosipy.py:125-131: names of the variables for which a warning is printed *)
Definition wrf_checks (vars : dict wrf_variable) : res (list string) :=
  for_each [("T2", (316.16, 223.16)); ("RH2", (100.0, 0.0)); ("SNOWFALL", (1.0, 0.0)); ("U2", (50.0, 0.0));
            ("G", (1600.0, 0.0)); ("PRES", (1080.0, 200.0)); ("LWin", (500.0, 100.0))]%string
    (fun nb ws =>
       let '(n, (mx, mn)) := nb in
       v <- attr_get vars n ;;
       w <- check (field_values (wv_data v)) mx mn ;;
       Ok (if w : bool then ws ++ [n] else ws)) [].

(** density of fresh snow, wrf2cosipy.py:101-104, and lines 110 *)
Definition wrf_snow (c : Consts) (T2 U2 : list (raster R)) (snowf : list (raster R)) : res (list (raster R)) :=
  if negb (String.eqb (c_densification_method c) "constant"%string) then
    density <- zip_array (fun t u => Rmax (109.0 + 6.0 * (t - 273.16) + 26.0 * sqrt u) 50.0) T2 U2 ;;
    zip_array (fun s d => (s / 1000.0) * (c_water_density c / d)) snowf density
  else
    q <- fdiv (c_water_density c) (c_constant_density c) ;;
    Ok (map_array (fun s => (s / 1000.0) * q) snowf).

(** wrf2cosipy.py:41-131.  The file is written before the checks of lines 125-131 are made. *)
Definition create_input (c : Consts) (cfg : dict R) (slope aspect : raster R -> R -> R -> raster number)
  (w : wrf_file) (start_date end_date : option string) : res (cosipy_file * res (list string)) :=
  let ds := select_period start_date end_date w in
  lat <- py_get (w_XLAT ds) 0 ;;
  lon <- py_get (w_XLONG ds) 0 ;;
  hgt <- py_get (w_HGT ds) 0 ;;
  let vars := add "HGT" (flat hgt) "m" "Elevation" [] in
  let vars := add "T2" (timed (w_T2 ds)) "m" "Temperature at 2 m" vars in
  tq <- zip_array pair (w_T2 ds) (w_Q2 ds) ;;
  rh <- zip_array (fun tq p => wrf_rh (fst tq) (snd tq) p) tq (w_PSFC ds) ;;
  let vars := add "RH2" (Timed rh) "%" "Relative humidity at 2 m" vars in
  let vars := add "G" (timed (w_SWDOWN ds)) "W m^-2" "Incoming shortwave radiation" vars in
  let vars := add "LWin" (timed (w_GLW ds)) "W m^-2" "Incoming longwave radiation" vars in
  let vars := add "PRES" (timed (map_array (fun p => p / 100.0) (w_PSFC ds))) "hPa" "Atmospheric Pressure" vars in
  snowh <- py_get (w_SNOWH ds) 0 ;;
  let vars := add "SNOWHEIGHT" (flat snowh) "m" "Initial snowheight" vars in
  snow <- py_get (w_SNOW ds) 0 ;;
  let vars := add "SWE" (flat snow) "kg m^-2" "Snow Water Equivalent" vars in
  snowc <- py_get (w_SNOWC ds) 0 ;;
  let vars := add "SNOWC" (flat snowc) "-" "Flag indicating snow coverage (1 for snow cover)" vars in
  lu_index <- py_get (w_LU_INDEX ds) 0 ;;
  let vars := add "LU_INDEX" (flat lu_index) "-" "Land use category" vars in
  tsk <- py_get (w_TSK ds) 0 ;;
  let vars := add "TSK" (flat tsk) "K" "Skin temperature" vars in
  z <- dict_get cfg "hu" ;;
  U2 <- zip_array (fun v u => wrf_wind u v) (w_V10 ds) (w_U10 ds) ;;
  let vars := add "U2" (timed U2) "m s^-1" "Wind velocity at 2 m" vars in
  lu_class <- dict_get cfg "lu_class" ;;
  let mask := slab_map (wrf_mask lu_class) lu_index in
  let vars := add "MASK" (flat mask) "-" "Glacier mask" vars in
  let zero := map_array (fun _ => 0) (w_T2 ds) in
  rain <- zip_array Rplus (w_RAINNC ds) (w_RAINC ds) ;;
  rrr <- increments (length (w_Time ds)) rain zero ;;
  let vars := add "RRR" (timed rrr) "mm" "Total precipitation" vars in
  snowf <- increments (length (w_Time ds)) (w_SNOWNC ds) zero ;;
  snowf <- wrf_snow c (w_T2 ds) U2 snowf ;;
  let vars := add "SNOWFALL" (timed snowf) "m" "Snowfall" vars in
  match w_DX ds, w_DY ds with
  | Some DX, Some DY =>
      let vars := add "SLOPE" (Flat (slope hgt DX DY)) "degrees" "Slope" vars in
      let vars := add "ASPECT" (Flat (aspect hgt DX DY)) "degrees" "Aspect" vars in
      Ok (mkCosipyFile (map strftime (w_Time ds)) lat lon vars, wrf_checks vars)
  | _, _ => Err AttributeError
  end.
