(** * The plot programs (postprocessing/field_plots/plot_cosipy_fields.py and
    profile_plots/plot_profiles.py from the parsed arguments on)

    What is drawn and under which name it is saved.  The arguments are parsed in [ModelPlotArgs].  Colours, labels and the
    contours of the elevation are left out.  All variables but the elevation have a time axis. *)
From Verif Require Import ModelPy ModelConstants ModelNode ModelGrid ModelHeat ModelSurface ModelInit
  ModelCore ModelConfig ModelIO ModelMain ModelRadCor ModelAws ModelSetup ModelPost.

(** ** Fields *)

(** a variable of the file: its attribute long_name and its cells over time *)
Definition field_var : Type := (option string * raster time_series)%type.
Record field_file : Type := mkFieldFile { ff_dims : dict Z; ff_vars : dict field_var }.

(** plot_cosipy_fields.py:266-273 and 277-284: one call of plot_axes *)
Definition draw_variable (vars : dict field_var) (p : period) (use_mean : bool) (plot_type key : string)
  : res (raster time_series) :=
  array <- dict_get vars key ;;
  topography <- attr_get vars "HGT"%string ;;
  panel_data (fst array) (snd array) p plot_type use_mean.

(** plot_cosipy_fields.py:241-287 [plot_data] with create_subplots_for_variables (212-238); the rows of
    [variables] have the same length *)
Definition plot_data (vars : dict field_var) (p : period) (short_name : option string) (use_mean : bool)
  (variables : list (list string)) (plot_type : string) : res (list (list (raster time_series))) :=
  match short_name with
  | None =>
      match variables with
      | [] => Err ValueError
      | _ => map_res (map_res (draw_variable vars p use_mean plot_type)) variables
      end
  | Some n => panel <- draw_variable vars p use_mean plot_type n ;; Ok [[panel]]
  end.

(** a figure that is written to a file of the given name, or shown *)
Inductive figure : Type :=
| Saved (name : string) (panels : list (list (raster time_series)))
| Shown (panels : list (list (raster time_series))).

Definition finish (save : bool) (pdate : string) (var : option string) (suffix : string)
  (panels : list (list (raster time_series))) : figure :=
  if save then Saved (save_image_name pdate var suffix "png"%string) panels else Shown panels.

Section Plots.
(** the period that a date in the arguments names *)
Variable names : string -> period.

(** plot_cosipy_fields.py:290-333 [plotMesh] *)
Definition plotMesh (data : field_file) (pdate : string) (var : option string) (use_mean save : bool)
  : res figure :=
  check_2d (ff_dims data) ;;
  panels <- plot_data (ff_vars data) (names pdate) var use_mean mesh_variables "mesh"%string ;;
  Ok (finish save pdate var "mesh"%string panels).

(** plot_cosipy_fields.py:336-379 [plotContour] *)
Definition plotContour (data : field_file) (pdate : string) (var : option string) (use_mean save : bool)
  : res figure :=
  check_2d (ff_dims data) ;;
  panels <- plot_data (ff_vars data) (names pdate) var use_mean contour_variables "contour"%string ;;
  Ok (finish save pdate var "contour"%string panels).

(** plot_cosipy_fields.py:466-497 [main] *)
Definition fields_main (data : field_file) (pdate : string) (var : option string) (use_mean save : bool)
  (plot_type : Z) : res figure :=
  if (plot_type =? 1)%Z then plotContour data pdate var use_mean save
  else plotMesh data pdate var use_mean save.

(** ** Profiles *)

(** a result file with full fields: the layers of every cell over time *)
Record profile_file : Type := mkProfileFile {
  pr_lats : list R; pr_lons : list R;
  pr_first_layer : option R;                        (* attribute First_layer_height_log_profile *)
  pr_times : list Z;
  pr_snow : raster (list number);                   (* SNOWHEIGHT *)
  pr_layers : raster (list layer_vars)
}.

(** plot_profiles.py:38-39: the times that are kept *)
Definition series_times (start stop : option string) (times : list Z) : list bool :=
  match start, stop with
  | Some a, Some b =>
      map (fun t => ((pe_first (names a) <=? t) && (t <=? pe_last (names b)))%Z) times
  | _, _ => map (fun _ => true) times
  end.

(** plot_profiles.py:33-149 [plot_profile_1D_timeseries] without a position, up to the drawing.  The
    lower end of the axis of heights, [domainy], is a list (see [profile_main]), which np.arange refuses. *)
Definition plot_profile_1D_timeseries (np_int : bool) (f : profile_file) (var : string)
  (domainy : option (list R)) (start stop : option string) : res (list (list number)) :=
  let keep := series_times start stop (pr_times f) in
  fl <- match pr_first_layer f with Some x => Ok x | None => Err KeyError end ;;
  layers <- raster_get (pr_layers f) 0 0 ;;
  snow <- raster_get (pr_snow f) 0 0 ;;
  let all := concat (map (pick keep) (concat (pr_snow f))) in
  match domainy with
  | None => profile_image np_int var fl None all (combine (pick keep snow) (pick keep layers))
  | Some _ =>
      if negb np_int then Err AttributeError
      else match number_max all with None => Err ValueError | Some _ => Err TypeError end
  end.

(** the layers of one time *)
Definition profile_at (k : Z) (layers : list layer_vars) : res profile :=
  l <- py_get layers k ;; Ok (mkProfile (lv_height l) (lv_rho l) (lv_t l)).

(** position of a time in the file *)
Fixpoint time_position (t : Z) (k : Z) (times : list Z) : res Z :=
  match times with
  | [] => Err KeyError
  | x :: r => if (x =? t)%Z then Ok k else time_position t (k + 1)%Z r
  end.

(** what the program draws *)
Inductive profile_plot : Type :=
| SeriesPlot (image : list (list number))
| SinglePlot (printed : list (number * number * number)) (curve : list (number * number)).

(** plot_profiles.py:242-261.  The date of a single profile names one time of the file.  The third
    argument of plot_profile_1D_timeseries is the list of depths, and the position is not handed on. *)
Definition profile_main (np_int : bool) (f : profile_file) (pdate : option string) (var : string)
  (lat lon : option R) (start stop : option string) (d : option (list R)) : res profile_plot :=
  match pdate with
  | None =>
      image <- plot_profile_1D_timeseries np_int f var d start stop ;;
      Ok (SeriesPlot image)
  | Some date =>
      k <- time_position (pe_first (names date)) 0 (pr_times f) ;;
      data <- map_res (map_res (profile_at k)) (pr_layers f) ;;
      r <- plot_profile_1D (pr_lats f) (pr_lons f) lat lon data d ;;
      Ok (SinglePlot (fst r) (snd r))
  end.
End Plots.
