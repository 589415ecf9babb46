(** * The plot programs

    Theorems only; the proofs are in LemFinPlots.v and the files it uses. *)

From Verif Require Import ModelPy ModelConstants ModelNode ModelGrid ModelHeat ModelSurface ModelInit ModelCore ModelConfig ModelIO ModelMain ModelRadCor ModelAws ModelSetup ModelPost ModelPlots SpecPost.
From Verif Require Import LemFinPlots.

From Coq Require Import Ascii.

(** C127.  A run of the field plots that succeeds has read a file whose dimensions other than time and layer are longer than one. It draws the variable asked for, or else the twelve variables of the plot of several variables in their places; each panel shows the elevation as it is and of other variables the selection at the date in each cell. With the switch the figure is saved under a name made of the date, the variable and the kind of plot, otherwise it is shown. *)
Theorem fields_drawn :
  forall names data pdate var use_mean save plot_type fig,
  var <> Some ""%string ->
  fields_main names data pdate var use_mean save plot_type = Ok fig ->
  (forall name size, In (name, size) (ff_dims data) -> name <> "time"%string -> name <> "layer"%string -> (1 < size)%Z) /\
  exists panels,
    Forall2 (Forall2 (shows (ff_vars data) (names pdate) use_mean))
      (match var with Some v => [[v]] | None => if (plot_type =? 1)%Z then contour_panels else mesh_panels end) panels /\
    fig = (if save
           then Saved (word_chars pdate ++ "_" ++ (match var with Some v => v | None => "stamp_plot" end) ++ "_"
                       ++ plot_kind plot_type ++ ".png")%string panels
           else Shown panels).
Proof. exact fields_drawn_lem. Qed.
Print Assumptions fields_drawn.

(** C127.  The field plots refuse a file with a dimension of length one (ValueError), a variable that is not in the file (KeyError) and a file without the elevation (AttributeError). *)
Theorem fields_refused :
  forall names data pdate var use_mean save plot_type,
  (forall name size, In (name, size) (ff_dims data) -> name <> "time"%string -> name <> "layer"%string -> (size <= 1)%Z ->
     fields_main names data pdate var use_mean save plot_type = Err ValueError) /\
  ((forall name size, In (name, size) (ff_dims data) -> name <> "time"%string -> name <> "layer"%string -> (1 < size)%Z) ->
   forall v, var = Some v ->
     (dict_find (ff_vars data) v = None ->
        fields_main names data pdate var use_mean save plot_type = Err KeyError) /\
     (dict_find (ff_vars data) v <> None -> dict_find (ff_vars data) "HGT" = None ->
        fields_main names data pdate var use_mean save plot_type = Err AttributeError)).
Proof. exact fields_refused_lem. Qed.
Print Assumptions fields_refused.

(** C127.  Two figures are saved under the same name exactly if the letters and digits of the dates, the variables and the kinds of plot are the same (for dates and variables without underscores): whether the daily mean or a time step is drawn is not in the name. *)
Theorem images_distinct :
  forall names names' data data' pdate pdate' var var' use_mean use_mean' plot_type plot_type' file file' panels panels',
  no_underscore pdate -> no_underscore pdate' ->
  (forall v, var = Some v \/ var' = Some v -> no_underscore v /\ v <> ""%string) ->
  fields_main names data pdate var use_mean true plot_type = Ok (Saved file panels) ->
  fields_main names' data' pdate' var' use_mean' true plot_type' = Ok (Saved file' panels') ->
  (file = file' <->
   word_chars pdate = word_chars pdate' /\ var = var' /\ plot_kind plot_type = plot_kind plot_type').
Proof. exact images_distinct_lem. Qed.
Print Assumptions images_distinct.

(** C127.  The mean of the day and the time step of the same date are saved under the same name, although they differ: the second run overwrites the first figure. *)
Theorem mean_overwrites_refuted :
  exists names data pdate file panels panels',
  fields_main names data pdate (Some "MB"%string) false true 1 = Ok (Saved file panels) /\
  fields_main names data pdate (Some "MB"%string) true true 1 = Ok (Saved file panels') /\
  panels = [[two_cells [(21600%Z, Some 3)]]] /\ panels' = [[two_cells [(0%Z, Some 2)]]].
Proof. exact mean_overwrites_refuted_lem. Qed.
Print Assumptions mean_overwrites_refuted.

(** C127.  Without a date the profiles over time show the first cell: the position in the arguments and the layers of the other cells change nothing. *)
Theorem series_first_cell :
  forall names np_int f f' var lat lon lat' lon' start stop d,
  pr_first_layer f = pr_first_layer f' -> pr_times f = pr_times f' -> pr_snow f = pr_snow f' ->
  raster_get (pr_layers f) 0 0 = raster_get (pr_layers f') 0 0 ->
  profile_main names np_int f None var lat lon start stop d = profile_main names np_int f' None var lat' lon' start stop d.
Proof. exact series_first_cell_lem. Qed.
Print Assumptions series_first_cell.

(** C127.  Each column of that image is drawn from the snow height and the layers of the first cell at one of the times between the two dates (all times unless both are given). The heights go in steps of the first layer's height from 0 to beyond the highest snow surface of all cells at these times. *)
Theorem series_columns :
  forall names f var lat lon start stop image fl,
  profile_main names true f None var lat lon start stop None = Ok (SeriesPlot image) ->
  pr_first_layer f = Some fl -> 0 < fl ->
  let keep t := match start, stop with
                | Some a, Some b => (pe_first (names a) <=? t) && (t <=? pe_last (names b))
                | _, _ => true
                end%Z in
  exists snow layers yi top,
    raster_get (pr_snow f) 0 0 = Ok snow /\ raster_get (pr_layers f) 0 0 = Ok layers /\
    (forall n y, nth_error yi n = Some y <-> y = INR n * fl /\ y < top) /\
    (forall row cell t s, In row (pr_snow f) -> In cell row -> In (t, Some s) (combine (pr_times f) cell) ->
       keep t = true -> s < top) /\
    Forall2 (fun step column => exists V, profile_variable var (snd step) = Some V /\
               image_column yi (fst step) (lv_height (snd step)) V = Ok column)
      (map snd (filter (fun tx => keep (fst tx)) (combine (pr_times f) (combine snow layers)))) image.
Proof. exact series_columns_lem. Qed.
Print Assumptions series_columns.

(** C127.  With depths in the arguments the profiles over time are never drawn, whatever the version of numpy. *)
Theorem depths_refuse_series :
  forall names np_int f var lat lon start stop depths,
  exists e, profile_main names np_int f None var lat lon start stop (Some depths) = Err e.
Proof. exact depths_refuse_series_lem. Qed.
Print Assumptions depths_refuse_series.

(** C127.  Two cells with snow of 300 and 600 kg m^-3: the profile over time at the position of the second one shows 300. *)
Theorem series_position_refuted :
  exists names image column,
  profile_main names true two_profiles None "RHO" (Some 47) (Some 10) None None None = Ok (SeriesPlot image) /\
  nth_error image 0 = Some column /\ nth_error column 0 = Some (Some 300) /\
  (exists x y, nearest (pr_lats two_profiles) 47 = Ok (1%nat, x) /\ nearest (pr_lons two_profiles) 10 = Ok (0%nat, y)) /\
  raster_get (pr_layers two_profiles) 1 0 = Ok [uniform 600].
Proof. exact series_position_refuted_lem. Qed.
Print Assumptions series_position_refuted.

(** C127.  With a date and a position the single profile is that of the nearest cell at that time. *)
Theorem single_profile :
  forall names np_int f date var la lo start stop d printed curve,
  profile_main names np_int f (Some date) var (Some la) (Some lo) start stop d = Ok (SinglePlot printed curve) ->
  exists k j i x y cell l,
    nth_error (pr_times f) k = Some (pe_first (names date)) /\
    nearest (pr_lats f) la = Ok (j, x) /\ nearest (pr_lons f) lo = Ok (i, y) /\
    raster_get (pr_layers f) (Z.of_nat j) (Z.of_nat i) = Ok cell /\ nth_error cell k = Some l /\
    plot_profile_1D [] [] None None [[mkProfile (lv_height l) (lv_rho l) (lv_t l)]] d = Ok (printed, curve).
Proof. exact single_profile_lem. Qed.
Print Assumptions single_profile.

(** C127 A run that draws a field, one that saves it, and one that is refused. *)
Example plots_case :
  fields_main (fun _ => mkPeriod 0 0) small_file "2009-01-01T00:00" (Some "MB"%string) false false 2 =
    Ok (Shown [[two_cells [(0%Z, Some 1)]]]) /\
  fields_main (fun _ => mkPeriod 0 0) small_file "2009-01-01T00:00" (Some "MB"%string) false true 2 =
    Ok (Saved "20090101T0000_MB_mesh.png" [[two_cells [(0%Z, Some 1)]]]) /\
  fields_main (fun _ => mkPeriod 0 0) small_file "2009-01-01T00:00" None false true 2 = Err KeyError.
Proof. exact plots_case_lem. Qed.

(** C127 The single profile at the position of the second of the two cells shows its snow. *)
Example single_profile_case :
  exists curve,
  profile_main (fun _ => mkPeriod 0 0) false two_profiles (Some "2009-01-01"%string) "RHO" (Some 47) (Some 10) None None None =
    Ok (SinglePlot [] curve) /\
  map fst curve = [Some 600; Some 600; Some 600].
Proof. exact single_profile_case_lem. Qed.
