(** * Reading the results: profiles, fields and surfaces (cosipy/postprocessing)

    Only the selection and the placement of data are modelled.  Figures, colours, labels, tick marks,
    stake markers and command line arguments are left out, and so are the meshes that VTK makes of
    points (Delaunay triangulation, smoothing, rendering).  Data arrays are numbers or NaN ([None]);
    time stamps are seconds. *)
From Verif Require Import ModelPy ModelConstants ModelNode ModelGrid ModelHeat ModelSurface ModelInit
  ModelCore ModelConfig ModelIO ModelMain ModelRadCor ModelAws ModelSetup.
From Coq Require Import Ascii.

(** ** Profiles (profile_plots/plot_profiles.py) *)

(** sum of two numbers; NaN if one of them is *)
Definition add_number (a b : number) : number :=
  match a, b with Some x, Some y => Some (x + y) | _, _ => None end.

(** [np.cumsum] *)
Fixpoint number_cumsum_from (acc : number) (l : list number) : list number :=
  match l with
  | [] => []
  | x :: t => let s := add_number acc x in s :: number_cumsum_from s t
  end.
Definition number_cumsum (l : list number) : list number := number_cumsum_from (Some 0) l.

(** [np.nanargmin]: position of the first minimum; ValueError if there is no number *)
Fixpoint nanargmin_from (best : option (nat * R)) (i : nat) (l : list number) : option (nat * R) :=
  match l with
  | [] => best
  | None :: t => nanargmin_from best (S i) t
  | Some x :: t =>
      nanargmin_from
        (match best with
         | Some (j, b) => if Rltb x b then Some (i, x) else Some (j, b)
         | None => Some (i, x)
         end) (S i) t
  end.
Definition nanargmin (l : list number) : res nat :=
  match nanargmin_from None 0 l with Some (i, _) => Ok i | None => Err ValueError end.

(** plot_profiles.py:227-230 and 135-144 [find_nearest] (the latter for each of its values) *)
Definition find_nearest (array : list number) (value : R) : res (nat * number) :=
  idx <- nanargmin (map (option_map (fun a => Rabs (a - value))) array) ;;
  Ok (idx, nth idx array None).

(** [np.argmin]: a NaN counts as the smallest, and the first of several is taken *)
Fixpoint first_nan (i : nat) (l : list number) : option nat :=
  match l with
  | [] => None
  | None :: _ => Some i
  | Some _ :: t => first_nan (S i) t
  end.
Definition number_argmin (l : list number) : res nat :=
  match first_nan 0 l with Some i => Ok i | None => nanargmin l end.

(** plot_profiles.py:232-239 [naive_fast]: row and column of the cell next to a position *)
Definition naive_fast (latvals lonvals : raster number) (lat0 lon0 : R) : res (nat * nat) :=
  let dist_sq :=
    map2 (fun la lo => match la, lo with
                       | Some a, Some o => Some ((a - lat0) * (a - lat0) + (o - lon0) * (o - lon0))
                       | _, _ => None
                       end) (concat latvals) (concat lonvals) in
  k <- number_argmin dist_sq ;;
  let nx := length (hd [] latvals) in
  Ok (Nat.div k nx, Nat.modulo k nx).

(** the layers of one cell at one time *)
Record profile : Type := mkProfile { pf_height : list number; pf_rho : list number; pf_t : list number }.

(** [ds.sel(lat=lat, lon=lon, method='nearest')] *)
Definition sel_nearest {A : Type} (lats lons : list R) (lat lon : R) (a : raster A) : res A :=
  iy <- nearest lats lat ;;
  ix <- nearest lons lon ;;
  raster_get a (Z.of_nat (fst iy)) (Z.of_nat (fst ix)).

(** [l[idx]] *)
Definition number_at (l : list number) (idx : nat) : res number :=
  match nth_error l idx with Some v => Ok v | None => Err IndexError end.

(** plot_profiles.py:187-224 [plot_profile_1D] for a date that is one time step: the line printed for
    each depth (nearest depth, density, temperature) and the points of the density curve.  Only one
    coordinate selects nothing, but then the first row of cells is put in front (lines 203-204).
    Line 207 formats numbers and fails for several cells.  Lines printed before an error are lost. *)
Definition plot_profile_1D (lats lons : list R) (lat lon : option R) (data : raster profile)
  (d : option (list R)) : res (list (number * number * number) * list (number * number)) :=
  cells <- (match lat, lon with
            | Some la, Some lo => p <- sel_nearest lats lons la lo data ;; Ok [[p]]
            | _, _ => Ok data
            end) ;;
  let depth := Some 0 :: number_cumsum (concat (map pf_height (concat cells))) in
  let append := fun (f : profile -> list number) =>
    let all := concat (map f (concat cells)) in
    match lat, lon with
    | Some _, Some _ | None, None =>
        firsts <- map_res (fun p => number_at (f p) 0) (concat cells) ;; Ok (firsts ++ all)
    | _, _ =>
        match cells with
        | [] => Err IndexError
        | row :: _ => Ok (concat (map f row) ++ all)
        end
    end in
  rho <- append pf_rho ;;
  t <- append pf_t ;;
  match concat cells with [_] => Ok tt | _ => Err TypeError end ;;
  printed <- map_res (fun dmeas =>
      n <- find_nearest depth dmeas ;;
      r <- number_at rho (fst n) ;;
      tt <- number_at t (fst n) ;;
      Ok (snd n, r, tt)) (match d with Some l => l | None => [] end) ;;
  if (length rho =? length depth)%nat && (length t =? length depth)%nat
  then Ok (printed, combine rho depth)
  else Err ValueError.

(** ** Profiles over time (plot_profiles.py:33-184) *)

(** the variables of the layers in a file with full fields *)
Record layer_vars : Type := mkLayerVars {
  lv_height : list number; lv_t : list number; lv_rho : list number; lv_ice_fraction : list number;
  lv_refreeze : list number; lv_lwc : list number; lv_porosity : list number
}.

(** plot_profiles.py:49-106: [None] if the name is none of these *)
Definition profile_variable (var : string) (l : layer_vars) : option (list number) :=
  if String.eqb var "T" then Some (lv_t l)
  else if String.eqb var "RHO" then Some (lv_rho l)
  else if String.eqb var "IF" then Some (lv_ice_fraction l)
  else if String.eqb var "REF" then Some (lv_refreeze l)
  else if String.eqb var "LWC" then Some (lv_lwc l)
  else if String.eqb var "POR" then Some (lv_porosity l)
  else if String.eqb var "DEPTH" then Some (number_cumsum (lv_height l))
  else if String.eqb var "HEIGHT" then Some (lv_height l)
  else None.

(** [np.arange] *)
Definition ceiling (x : R) : Z := (- Int_part (- x))%Z.
Definition np_arange (start stop step : R) : res (list R) :=
  if Req_EM_T step 0 then Err ZeroDivisionError
  else Ok (map (fun k => start + IZR k * step) (zrange 0 (ceiling ((stop - start) / step)))).

(** [x.max()] of xarray, without NaN; NaN if there is no number *)
Definition number_max (l : list number) : number :=
  fold_left (fun m x => match m, x with
                        | Some a, Some b => Some (Rmax a b)
                        | None, v => v
                        | m, None => m
                        end) l None.

(** plot_profiles.py:133: height of a depth above the base of the snow *)
Definition above_base (snow depth : number) : number :=
  match depth, snow with Some x, Some s => Some (- (x - s)) | _, _ => None end.

(** plot_profiles.py:146-149: one column of the image; [snow] is the snow height of the step *)
Definition image_column (yi : list R) (snow : number) (heights V : list number) : res (list number) :=
  let D := map (above_base snow) (number_cumsum heights) in
  map_res (fun y =>
    match snow with
    | Some s => if Rltb y s then n <- find_nearest D y ;; number_at V (fst n) else Ok None
    | None => Ok None
    end) yi.

(** plot_profiles.py:33-149: the columns of the image.  [snow_all] are the snow heights of all cells
    and times, [steps] the snow height and the layers of the plotted cell.  [np_int] says whether
    numpy still has [np.int] (removed in 1.24; /repo asks for 2.0 or later). *)
Definition profile_image (np_int : bool) (var : string) (fl : R) (domainy : option R)
  (snow_all : list number) (steps : list (number * layer_vars)) : res (list (list number)) :=
  if negb np_int then Err AttributeError
  else
    match number_max snow_all with
    | None => Err ValueError
    | Some m =>
        let Dn := IZR (Int_part m + 1) in
        yi <- np_arange (match domainy with Some y => y | None => 0 end) Dn fl ;;
        map_res (fun s =>
          match profile_variable var (snd s) with
          | None => Err UnboundLocalError
          | Some V => image_column yi (fst s) (lv_height (snd s)) V
          end) steps
    end.

(** ** Fields (field_plots/plot_cosipy_fields.py) *)

(** plot_cosipy_fields.py:17-26 and plot_cosipy_fields_vtk.py:26-35 [check_2d]: names and lengths of
    the dimensions *)
Fixpoint check_2d (dims : dict Z) : res unit :=
  match dims with
  | [] => Ok tt
  | (name, size) :: t =>
      if negb (String.eqb name "time" || String.eqb name "layer") && (size <=? 1)%Z
      then Err ValueError else check_2d t
  end.

(** time stamps with the values of one cell *)
Definition time_series : Type := list (Z * number).

(** a date or a time in the arguments: the first and the last second it names *)
Record period : Type := mkPeriod { pe_first : Z; pe_last : Z }.

(** plot_cosipy_fields.py:49-57: selection at a time.  A time that is as fine as those of the file
    must be there; a coarser one selects a slice, and must not be outside of the file as a whole. *)
Definition within (p : period) (t : Z) : bool := ((pe_first p <=? t) && (t <=? pe_last p))%Z.
Definition sel_period (l : time_series) (p : period) : res time_series :=
  let chosen := filter (fun tv => within p (fst tv)) l in
  if (pe_first p =? pe_last p)%Z then match chosen with [] => Err KeyError | _ => Ok chosen end
  else if forallb (fun tv => (pe_last p <? fst tv)%Z) l || forallb (fun tv => (fst tv <? pe_first p)%Z) l
       then Err KeyError else Ok chosen.

(** [array.resample(time="1D", skipna=True).mean()]: one value for each day from the first to the last *)
Definition day_of (t : Z) : Z := (t / 86400)%Z.
Definition values_of_day (l : time_series) (d : Z) : list R :=
  flat_map (fun tv => match snd tv with
                      | Some v => if (day_of (fst tv) =? d)%Z then [v] else []
                      | None => []
                      end) l.
Definition daily_mean (l : time_series) : time_series :=
  match l with
  | [] => []
  | tv :: _ =>
      let first := fold_left (fun m x => Z.min m (day_of (fst x))) l (day_of (fst tv)) in
      let last := fold_left (fun m x => Z.max m (day_of (fst x))) l (day_of (fst tv)) in
      map (fun d => ((d * 86400)%Z, mean (values_of_day l d))) (zrange first (last + 1))
  end.

(** [.sel(time=timestamp, method="nearest")]; the time of a date is its first second *)
Definition sel_time_nearest (l : time_series) (p : period) : res (Z * number) :=
  n <- nearest (map (fun tv => IZR (fst tv)) l) (IZR (pe_first p)) ;;
  match nth_error l (fst n) with Some tv => Ok tv | None => Err IndexError end.

(** plot_cosipy_fields.py:29-64 [get_selection] *)
Definition get_selection (l : time_series) (p : period) (use_mean : bool) : res time_series :=
  if negb use_mean then
    data <- sel_period l p ;;
    if (1 <? length data)%nat then Err KeyError else Ok data
  else v <- sel_time_nearest (daily_mean l) p ;; Ok [v].

(** plot_cosipy_fields_vtk.py:38-62 [get_selection] *)
Definition get_selection_vtk (l : time_series) (p : period) (use_mean : bool) : res (Z * number) :=
  if negb use_mean then sel_time_nearest l p else sel_time_nearest (daily_mean l) p.

(** plot_cosipy_fields.py:180-204: the data of one panel.  [long_name] is the attribute of the variable,
    [data] its cells over time. *)
Definition panel_data (long_name : option string) (data : raster time_series) (p : period)
  (plot_type : string) (use_mean : bool) : res (raster time_series) :=
  match long_name with
  | None => Err AttributeError
  | Some name =>
      shown <- (if String.eqb (lower name) "elevation" then Ok data
                else map_res (fun row => map_res (fun l => get_selection l p use_mean) row) data) ;;
      if String.eqb (lower plot_type) "contour" || String.eqb (lower plot_type) "mesh"
      then Ok shown else Err ValueError
  end.

(** plot_cosipy_fields.py:315-320 and 361-366: the panels of the plots of several variables *)
Definition mesh_variables : list (list string) :=
  [["H"; "LE"; "B"]; ["SNOWHEIGHT"; "surfM"; "TS"]; ["G"; "Q"; "LWout"]; ["surfMB"; "MB"; "REFREEZE"]]%string.
Definition contour_variables : list (list string) :=
  [["H"; "LE"; "B"]; ["SNOWHEIGHT"; "surfM"; "TS"]; ["G"; "LWin"; "LWout"]; ["MB"; "surfMB"; "Q"]]%string.

(** ** Names of images *)

(** [re.sub(r"\W+", "", s)] for ASCII texts *)
Definition word_char (c : ascii) : bool :=
  let n := nat_of_ascii c in
  ((48 <=? n) && (n <=? 57) || (65 <=? n) && (n <=? 90) || (97 <=? n) && (n <=? 122) || (n =? 95))%nat.
Definition word_chars (s : string) : string :=
  string_of_list_ascii (filter word_char (list_ascii_of_string s)).

(** plot_cosipy_fields.py:100-132 [save_image], with the time as text *)
Definition save_image_name (timestamp : string) (name : option string) (suffix fmt : string) : string :=
  let img_id := word_chars timestamp in
  let img_id :=
    match name with
    | None => (img_id ++ "_stamp_plot")%string
    | Some n => if String.eqb n "" then img_id else (img_id ++ "_" ++ n)%string
    end in
  let suffix := if String.eqb suffix "" then suffix else ("_" ++ suffix)%string in
  (img_id ++ suffix ++ "." ++ fmt)%string.

(** plot_cosipy_fields_vtk.py:351-370 [set_filename], with the time as text *)
Definition set_filename (name timestamp fmt : string) : string :=
  (word_chars timestamp ++ "_" ++ name ++ "_vtk." ++ fmt)%string.

(** ** Surfaces (vtk_plots/plot_cosipy_fields_vtk.py) *)

(** a point: longitude, latitude, height in radii of the Earth *)
Definition point3 : Type := (R * R * number)%type.

(** plot_cosipy_fields_vtk.py:85-106 [create_points]: the points in the order in which they are numbered.
    [HGT] has the latitude first.  A label that occurs twice on an axis cannot be selected and is not
    modelled: the axes hold distinct values. *)
Definition create_points (lats lons : list R) (HGT : raster number) : res (list point3) :=
  map_res (fun ij =>
      let '(i, j) := ij in
      h <- raster_get HGT j i ;;
      lo <- py_get lons i ;;
      la <- py_get lats j ;;
      Ok (lo, la, option_map (fun v => v / 6370000) h))
    (product_range (Z.of_nat (length lons)) (Z.of_nat (length lats))).

(** plot_cosipy_fields_vtk.py:247-257: the corners of the cells of [createDEM_v2] *)
Definition dem_quads (points nlat : Z) : list (Z * Z * Z * Z) :=
  map (fun idx => (idx, idx + 1, idx + nlat + 1, idx + nlat)%Z)
    (filter (fun idx => negb (idx mod nlat =? 0)%Z) (zrange 0 (points - nlat))).

(** plot_cosipy_fields_vtk.py:232-257 [createDEM_v2]: points and cells *)
Definition createDEM_v2 (dims : dict Z) (lats lons : list R) (HGT : raster number)
  : res (list point3 * list (Z * Z * Z * Z)) :=
  check_2d dims ;;
  points <- create_points lats lons HGT ;;
  Ok (points, dem_quads (Z.of_nat (length points)) (Z.of_nat (length lats))).

(** plot_cosipy_fields_vtk.py:297-325: the values put on the points of the mesh.  [data] are the values of
    the selected time, latitude first; [closest] is the search of VTK for the closest point, negative
    if there is none. *)
Definition add_scalar (closest : point3 -> Z) (num_points : Z) (lats lons : list R)
  (HGT data : raster number) : res (list number) :=
  stacked <- map_res (fun ji =>
      let '(j, i) := ji in
      v <- raster_get data j i ;;
      Ok (j, i, v)) (product_range (Z.of_nat (length lats)) (Z.of_nat (length lons))) ;;
  fold_left (fun acc (jiv : Z * Z * number) =>
      scalar <- acc ;;
      let '(j, i, v) := jiv in
      match v with
      | None => Ok scalar
      | Some x =>
          h <- raster_get HGT j i ;;
          lo <- py_get lons i ;;
          la <- py_get lats j ;;
          let id := closest (lo, la, option_map (fun e => e / 6370000) h) in
          if (id <? 0)%Z then Ok scalar else py_update scalar id (fun _ => Some x)
      end) stacked (Ok (repeat None (Z.to_nat num_points))).
