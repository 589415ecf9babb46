(** * The plot programs *)
From Verif Require Import ModelPy ModelConstants ModelNode ModelGrid ModelHeat ModelSurface ModelInit
  ModelCore ModelConfig ModelIO ModelMain ModelRadCor ModelAws ModelSetup ModelPost ModelPlots SpecPost.
From Verif Require Import LemPy LemSurface LemIO5 LemAws2 LemAws4 LemShad LemShad2 LemPost LemFinPost LemFinPost2
  LemFinPost4.
From Coq Require Import Ascii.

(** the variables of the two plots of several variables, row by row *)
Definition contour_panels : list (list string) :=
  [["H"; "LE"; "B"]; ["SNOWHEIGHT"; "surfM"; "TS"]; ["G"; "LWin"; "LWout"]; ["MB"; "surfMB"; "Q"]]%string.
Definition mesh_panels : list (list string) :=
  [["H"; "LE"; "B"]; ["SNOWHEIGHT"; "surfM"; "TS"]; ["G"; "Q"; "LWout"]; ["surfMB"; "MB"; "REFREEZE"]]%string.

(** the name of the kind of plot *)
Definition plot_kind (plot_type : Z) : string := if (plot_type =? 1)%Z then "contour" else "mesh".

(** what a panel shows of the variable [v] *)
Definition shows (vars : dict field_var) (p : period) (use_mean : bool) (v : string) (panel : raster time_series) : Prop :=
  exists name cells, dict_find vars v = Some (Some name, cells) /\
    (lower name = "elevation"%string -> panel = cells) /\
    (lower name <> "elevation"%string ->
       Forall2 (Forall2 (fun l s => get_selection l p use_mean = Ok s)) cells panel).

Lemma Forall2_weaken {A B} (P Q : A -> B -> Prop) l r : (forall a b, P a b -> Q a b) -> Forall2 P l r -> Forall2 Q l r.
Proof. intros H F. induction F; constructor; auto. Qed.

Lemma draw_variable_shows vars p use_mean kind key panel :
  draw_variable vars p use_mean kind key = Ok panel -> shows vars p use_mean key panel.
Proof.
  unfold draw_variable, dict_get, attr_get. intros H.
  destruct (dict_find vars key) as [[[name|] cells]|] eqn:E; cbn [bind] in H; [| |discriminate];
    (destruct (dict_find vars "HGT") eqn:EH; cbn [bind] in H; [|discriminate]); cbn [fst snd] in H.
  - exists name, cells. split; [exact E|].
    destruct (panel_shows_lem name cells p kind use_mean) as (K & _). destruct (K _ H) as (_ & K1 & K2). auto.
  - discriminate.
Qed.

Lemma plot_data_shows vars p var use_mean variables kind panels :
  plot_data vars p var use_mean variables kind = Ok panels ->
  Forall2 (Forall2 (shows vars p use_mean)) (match var with Some v => [[v]] | None => variables end) panels.
Proof.
  unfold plot_data. destruct var as [v|]; intros H.
  - destruct (draw_variable vars p use_mean kind v) as [panel|] eqn:E; cbn [bind] in H; [|discriminate].
    injection H as <-. repeat constructor. eapply draw_variable_shows, E.
  - destruct variables as [|r t]; [discriminate|]. apply map_res_forall2 in H.
    eapply Forall2_weaken; [|exact H]. intros a b K. apply map_res_forall2 in K.
    eapply Forall2_weaken; [|exact K]. intros a' b'. apply draw_variable_shows.
Qed.

Lemma fields_main_unfold names data pdate var use_mean save plot_type :
  fields_main names data pdate var use_mean save plot_type =
  (check_2d (ff_dims data) ;;
   panels <- plot_data (ff_vars data) (names pdate) var use_mean
               (if (plot_type =? 1)%Z then contour_panels else mesh_panels) (plot_kind plot_type) ;;
   Ok (finish save pdate var (plot_kind plot_type) panels)).
Proof. unfold fields_main, plot_kind. destruct (plot_type =? 1)%Z; reflexivity. Qed.

Lemma string_app_assoc (a b c : string) : ((a ++ b) ++ c = a ++ (b ++ c))%string.
Proof. induction a as [|ch a IH]; cbn; [reflexivity|]. rewrite IH. reflexivity. Qed.

Lemma image_name pdate var kind : var <> Some ""%string -> kind <> ""%string ->
  save_image_name pdate var kind "png" =
    (word_chars pdate ++ "_" ++ (match var with Some v => v | None => "stamp_plot" end) ++ "_" ++ kind ++ ".png")%string.
Proof.
  intros V K. destruct (image_names_lem pdate (match var with Some v => v | None => "" end) kind "png") as (_ & N1 & N2 & _).
  apply String.eqb_neq in K. destruct var as [v|].
  - rewrite N2 by congruence. rewrite K. rewrite !string_app_assoc. reflexivity.
  - rewrite N1, K. rewrite !string_app_assoc. reflexivity.
Qed.

Lemma plot_kind_nonempty plot_type : plot_kind plot_type <> ""%string.
Proof. unfold plot_kind. destruct (plot_type =? 1)%Z; discriminate. Qed.

(*@ C127 A run of the field plots that succeeds has read a file whose dimensions other than time and layer are longer than one. It draws the variable asked for, or else the twelve variables of the plot of several variables in their places; each panel shows the elevation as it is and of other variables the selection at the date in each cell. With the switch the figure is saved under a name made of the date, the variable and the kind of plot, otherwise it is shown. *)
Lemma fields_drawn_lem :
  forall names data pdate var use_mean save plot_type fig,
  var <> Some ""%string ->
  fields_main names data pdate var use_mean save plot_type = Ok fig ->
  (forall name size, In (name, size) (ff_dims data) -> name <> "time"%string -> name <> "layer"%string -> (1 < size)%Z) /\
  exists panels,
    Forall2 (Forall2 (shows (ff_vars data) (names pdate) use_mean))
      (match var with Some v => [[v]] | None => if (plot_type =? 1)%Z then contour_panels else mesh_panels end) panels /\
    fig = (if save
           then Saved (word_chars pdate ++ "_" ++ (match var with Some v => v | None => "stamp_plot" end) ++ "_"
                       ++ plot_kind plot_type ++ ".png")%string panels
           else Shown panels).
Proof.
  intros names data pdate var use_mean save plot_type fig V H. rewrite fields_main_unfold in H.
  destruct (check_2d (ff_dims data)) as [[]|] eqn:C; cbn [bind] in H; [|discriminate].
  destruct (plot_data _ _ _ _ _ _) as [panels|] eqn:P; cbn [bind] in H; [|discriminate]. injection H as <-.
  split; [apply two_dimensional_lem, C|]. exists panels. split; [eapply plot_data_shows, P|].
  unfold finish. rewrite image_name; [reflexivity|exact V|apply plot_kind_nonempty].
Qed.

(*@ C127 The field plots refuse a file with a dimension of length one (ValueError), a variable that is not in the file (KeyError) and a file without the elevation (AttributeError). *)
Lemma fields_refused_lem :
  forall names data pdate var use_mean save plot_type,
  (forall name size, In (name, size) (ff_dims data) -> name <> "time"%string -> name <> "layer"%string -> (size <= 1)%Z ->
     fields_main names data pdate var use_mean save plot_type = Err ValueError) /\
  ((forall name size, In (name, size) (ff_dims data) -> name <> "time"%string -> name <> "layer"%string -> (1 < size)%Z) ->
   forall v, var = Some v ->
     (dict_find (ff_vars data) v = None ->
        fields_main names data pdate var use_mean save plot_type = Err KeyError) /\
     (dict_find (ff_vars data) v <> None -> dict_find (ff_vars data) "HGT" = None ->
        fields_main names data pdate var use_mean save plot_type = Err AttributeError)).
Proof.
  intros names data pdate var use_mean save plot_type. destruct (two_dimensional_lem (ff_dims data)) as [T1 T2].
  rewrite fields_main_unfold. split.
  - intros name size I N1 N2 S1. destruct (check_2d (ff_dims data)) as [[]|e] eqn:C; cbn [bind].
    + pose proof (proj1 T1 eq_refl name size I N1 N2). lia.
    + f_equal. apply T2. reflexivity.
  - intros D v ->. rewrite (proj2 T1 D). cbn [bind plot_data]. unfold draw_variable, dict_get, attr_get. split.
    + intros ->. reflexivity.
    + intros F H. destruct (dict_find (ff_vars data) v) as [a|]; [|congruence]. cbn [bind]. rewrite H. reflexivity.
Qed.

(** ** Names of images *)
Definition no_underscore (s : string) : Prop := ~ In "_"%char (list_ascii_of_string s).

Lemma split_underscore a b : forall c d, no_underscore a -> no_underscore c ->
  (a ++ String "_" b = c ++ String "_" d)%string -> a = c /\ b = d.
Proof.
  induction a as [|x a IH]; intros [|y c] d NA NC E; cbn in E.
  - injection E as E. auto.
  - injection E as E _. subst y. exfalso. apply NC. left. reflexivity.
  - injection E as E _. subst x. exfalso. apply NA. left. reflexivity.
  - injection E as E1 E2. subst y. destruct (IH c d) as [-> ->]; [intros I; apply NA; right; exact I|
      intros I; apply NC; right; exact I|exact E2|auto].
Qed.

Lemma word_chars_plain s : no_underscore s -> no_underscore (word_chars s).
Proof.
  unfold no_underscore, word_chars. intros H I. rewrite chars_of_string in I. apply filter_In in I. apply H, I.
Qed.

Lemma kinds a b : (plot_kind a ++ ".png" = plot_kind b ++ ".png")%string -> plot_kind a = plot_kind b.
Proof. unfold plot_kind. destruct (a =? 1)%Z, (b =? 1)%Z; cbn; intros E; (reflexivity || discriminate E). Qed.

(*@ C127 Two figures are saved under the same name exactly if the letters and digits of the dates, the variables and the kinds of plot are the same (for dates and variables without underscores): whether the daily mean or a time step is drawn is not in the name. *)
Lemma images_distinct_lem :
  forall names names' data data' pdate pdate' var var' use_mean use_mean' plot_type plot_type' file file' panels panels',
  no_underscore pdate -> no_underscore pdate' ->
  (forall v, var = Some v \/ var' = Some v -> no_underscore v /\ v <> ""%string) ->
  fields_main names data pdate var use_mean true plot_type = Ok (Saved file panels) ->
  fields_main names' data' pdate' var' use_mean' true plot_type' = Ok (Saved file' panels') ->
  (file = file' <->
   word_chars pdate = word_chars pdate' /\ var = var' /\ plot_kind plot_type = plot_kind plot_type').
Proof.
  intros names names' data data' pdate pdate' var var' use_mean use_mean' plot_type plot_type' file file' panels panels' P P' V H H'.
  assert (NV : var <> Some ""%string) by (intros E; destruct (V _ (or_introl E)); congruence).
  assert (NV' : var' <> Some ""%string) by (intros E; destruct (V _ (or_intror E)); congruence).
  destruct (fields_drawn_lem _ _ _ _ _ _ _ _ NV H) as (_ & q & _ & E).
  destruct (fields_drawn_lem _ _ _ _ _ _ _ _ NV' H') as (_ & q' & _ & E').
  cbn match in E, E'. injection E as -> _. injection E' as -> _. split.
  - intros E. cbn [append] in E.
    destruct (split_underscore _ _ _ _ (word_chars_plain _ P) (word_chars_plain _ P') E) as [-> E2]. split; [reflexivity|].
    destruct var as [v|], var' as [v'|].
    + destruct (split_underscore _ _ _ _ (proj1 (V v (or_introl eq_refl))) (proj1 (V v' (or_intror eq_refl))) E2) as [-> E3].
      split; [reflexivity|]. apply kinds, E3.
    + exfalso. change ("stamp_plot" ++ String "_" (plot_kind plot_type' ++ ".png"))%string
        with ("stamp" ++ String "_" ("plot_" ++ plot_kind plot_type' ++ ".png"))%string in E2.
      destruct (split_underscore _ _ _ _ (proj1 (V v (or_introl eq_refl))) (ltac:(intros X; cbn in X; intuition discriminate) : no_underscore "stamp") E2) as [_ E3].
      unfold plot_kind in E3. destruct (plot_type =? 1)%Z, (plot_type' =? 1)%Z; discriminate E3.
    + exfalso. change ("stamp_plot" ++ String "_" (plot_kind plot_type ++ ".png"))%string
        with ("stamp" ++ String "_" ("plot_" ++ plot_kind plot_type ++ ".png"))%string in E2.
      destruct (split_underscore _ _ _ _ (ltac:(intros X; cbn in X; intuition discriminate) : no_underscore "stamp") (proj1 (V v' (or_intror eq_refl))) E2) as [_ E3].
      unfold plot_kind in E3. destruct (plot_type =? 1)%Z, (plot_type' =? 1)%Z; discriminate E3.
    + split; [reflexivity|]. apply kinds. cbn [append] in E2. injection E2 as E2. exact E2.
  - intros (-> & -> & ->). reflexivity.
Qed.

(** ** A date with the mean and without *)
Definition two_cells (s : time_series) : raster time_series := [[s; s]; [s; s]].
Definition six_hours : time_series := [(0%Z, Some 1); (21600%Z, Some 3)].
Definition small_file : field_file :=
  mkFieldFile [("time", 2); ("lat", 2); ("lon", 2)]%string%Z
    [("HGT", (Some "Elevation", two_cells [(0%Z, Some 5000)])); ("MB", (Some "Mass balance", two_cells six_hours))]%string.

Lemma single_reading (l : time_series) d : daily_mean l = [d] -> forall p, get_selection l p true = Ok [d].
Proof.
  intros D p. unfold get_selection. cbn [negb]. unfold sel_time_nearest. rewrite D. cbn [map nearest].
  unfold nearest. cbn [nearest_from bind fst nth_error]. reflexivity.
Qed.

Lemma six_hours_mean : daily_mean six_hours = [(0%Z, Some 2)].
Proof.
  change (daily_mean six_hours) with [(0%Z, mean [1; 3])]. unfold mean, sum_list. cbn [fold_left length INR].
  replace ((0 + 1 + 3) / (1 + 1)) with 2 by lra. reflexivity.
Qed.

(*@ C127 The mean of the day and the time step of the same date are saved under the same name, although they differ: the second run overwrites the first figure. *)
Lemma mean_overwrites_refuted_lem :
  exists names data pdate file panels panels',
  fields_main names data pdate (Some "MB"%string) false true 1 = Ok (Saved file panels) /\
  fields_main names data pdate (Some "MB"%string) true true 1 = Ok (Saved file panels') /\
  panels = [[two_cells [(21600%Z, Some 3)]]] /\ panels' = [[two_cells [(0%Z, Some 2)]]].
Proof.
  exists (fun _ => mkPeriod 21600 21600), small_file, "2009-01-01T06:00"%string.
  eexists. eexists. eexists. split; [|split; [|split; reflexivity]].
  - rewrite fields_main_unfold. reflexivity.
  - rewrite fields_main_unfold. cbn [small_file ff_dims ff_vars]. unfold plot_data, draw_variable.
    change (check_2d _) with (Ok tt). cbn [bind]. change (dict_get _ _) with (Ok (Some "Mass balance"%string, two_cells six_hours)).
    change (attr_get _ _) with (Ok (Some "Elevation"%string, two_cells [(0%Z, Some 5000)])). cbn [bind fst snd].
    unfold panel_data. change (String.eqb (lower "Mass balance") "elevation") with false. cbn [two_cells map_res].
    rewrite (single_reading _ _ six_hours_mean). reflexivity.
Qed.

(** ** Profiles *)

(*@ C127 Without a date the profiles over time show the first cell: the position in the arguments and the layers of the other cells change nothing. *)
Lemma series_first_cell_lem :
  forall names np_int f f' var lat lon lat' lon' start stop d,
  pr_first_layer f = pr_first_layer f' -> pr_times f = pr_times f' -> pr_snow f = pr_snow f' ->
  raster_get (pr_layers f) 0 0 = raster_get (pr_layers f') 0 0 ->
  profile_main names np_int f None var lat lon start stop d = profile_main names np_int f' None var lat' lon' start stop d.
Proof.
  intros names np_int f f' var lat lon lat' lon' start stop d E1 E2 E3 E4.
  unfold profile_main, plot_profile_1D_timeseries. rewrite E1, E2, E3, E4. reflexivity.
Qed.

(*@ C127 Each column of that image is drawn from the snow height and the layers of the first cell at one of the times between the two dates (all times unless both are given). The heights go in steps of the first layer's height from 0 to beyond the highest snow surface of all cells at these times. *)
Lemma series_columns_lem :
  forall names f var lat lon start stop image fl,
  profile_main names true f None var lat lon start stop None = Ok (SeriesPlot image) ->
  pr_first_layer f = Some fl -> 0 < fl ->
  let keep t := match start, stop with
                | Some a, Some b => (pe_first (names a) <=? t) && (t <=? pe_last (names b))
                | _, _ => true
                end%Z in
  exists snow layers yi top,
    raster_get (pr_snow f) 0 0 = Ok snow /\ raster_get (pr_layers f) 0 0 = Ok layers /\
    (forall n y, nth_error yi n = Some y <-> y = INR n * fl /\ y < top) /\
    (forall row cell t s, In row (pr_snow f) -> In cell row -> In (t, Some s) (combine (pr_times f) cell) ->
       keep t = true -> s < top) /\
    Forall2 (fun step column => exists V, profile_variable var (snd step) = Some V /\
               image_column yi (fst step) (lv_height (snd step)) V = Ok column)
      (map snd (filter (fun tx => keep (fst tx)) (combine (pr_times f) (combine snow layers)))) image.
Proof.
  intros names f var lat lon start stop image fl H FL POS keep. unfold profile_main, plot_profile_1D_timeseries in H.
  rewrite FL in H. cbn [bind] in H.
  assert (KE : series_times names start stop (pr_times f) = map keep (pr_times f)).
  { unfold series_times, keep. destruct start, stop; reflexivity. }
  rewrite KE in H.
  destruct (raster_get (pr_layers f) 0 0) as [layers|]; cbn [bind] in H; [|discriminate].
  destruct (raster_get (pr_snow f) 0 0) as [snow|]; cbn [bind] in H; [|discriminate].
  destruct (profile_image _ _ _ _ _ _) as [im|] eqn:P; cbn [bind] in H; [|discriminate]. injection H as <-.
  destruct (image_axes_lem _ _ _ _ _ _ P POS) as (yi & top & Y & T & F). exists snow, layers, yi, top.
  split; [reflexivity|]. split; [reflexivity|].
  split; [intros n y; rewrite Y; split; intros [-> L]; split; lra|]. clearbody keep.
  split.
  - intros row cell t s R1 R2 R3 K. apply T. apply in_concat. exists (pick (map keep (pr_times f)) cell).
    split; [apply in_map, in_concat; eauto|]. clear - R3 K. revert cell R3.
    induction (pr_times f) as [|u ts IH]; intros [|x cell] I; cbn [combine] in I; try contradiction.
    cbn [map pick]. destruct I as [E|I].
    + injection E as -> ->. rewrite K. left. reflexivity.
    + destruct (keep u); [right|]; apply IH, I.
  - replace (map snd _) with (combine (pick (map keep (pr_times f)) snow) (pick (map keep (pr_times f)) layers)); [exact F|].
    clear. generalize (pr_times f) as ts. revert layers. induction snow as [|s snow IH]; intros layers ts.
    + cbn [combine]. destruct ts; [reflexivity|]. cbn. destruct (keep z); reflexivity.
    + destruct layers as [|l layers].
      * replace (pick (map keep ts) (@nil layer_vars)) with (@nil layer_vars) by (destruct ts as [|t ts]; [reflexivity|cbn; destruct (keep t); reflexivity]).
        cbn [combine]. rewrite !combine_nil. reflexivity.
      * destruct ts as [|t ts]; [reflexivity|]. cbn [combine filter map pick fst]. destruct (keep t).
        -- cbn [map snd combine]. f_equal. apply IH.
        -- apply IH.
Qed.

(*@ C127 With depths in the arguments the profiles over time are never drawn, whatever the version of numpy. *)
Lemma depths_refuse_series_lem :
  forall names np_int f var lat lon start stop depths,
  exists e, profile_main names np_int f None var lat lon start stop (Some depths) = Err e.
Proof.
  intros. unfold profile_main, plot_profile_1D_timeseries. destruct (pr_first_layer f); cbn [bind]; [|eauto].
  destruct (raster_get (pr_layers f) 0 0); cbn [bind]; [|eauto]. destruct (raster_get (pr_snow f) 0 0); cbn [bind]; [|eauto].
  destruct np_int; cbn [negb bind]; [|eauto]. destruct (number_max _); cbn [bind]; eauto.
Qed.

Definition uniform (rho : R) : layer_vars :=
  mkLayerVars [Some 1; Some 1] [Some 270; Some 270] [Some rho; Some rho] [Some 0.3; Some 0.3] [Some 0; Some 0] [Some 0; Some 0]
    [Some 0.5; Some 0.5].
Definition two_profiles : profile_file :=
  mkProfileFile [46; 47] [10] (Some 1) [0%Z] [[[Some 2]]; [[Some 2]]] [[[uniform 300]]; [[uniform 600]]].

(*@ C127 Two cells with snow of 300 and 600 kg m^-3: the profile over time at the position of the second one shows 300. *)
Lemma series_position_refuted_lem :
  exists names image column,
  profile_main names true two_profiles None "RHO" (Some 47) (Some 10) None None None = Ok (SeriesPlot image) /\
  nth_error image 0 = Some column /\ nth_error column 0 = Some (Some 300) /\
  (exists x y, nearest (pr_lats two_profiles) 47 = Ok (1%nat, x) /\ nearest (pr_lons two_profiles) 10 = Ok (0%nat, y)) /\
  raster_get (pr_layers two_profiles) 1 0 = Ok [uniform 600].
Proof.
  exists (fun _ => mkPeriod 0 0).
  unfold profile_main, plot_profile_1D_timeseries, two_profiles. cbn [pr_first_layer bind pr_layers pr_snow pr_times pr_lats pr_lons].
  change (raster_get [[[uniform 300]]; [[uniform 600]]] 0 0) with (Ok [uniform 300]).
  change (raster_get [[[Some 2]]; [[Some 2]]] 0 0) with (Ok [Some 2]).
  cbn [bind series_times map pick concat app combine]. unfold profile_image. cbn [negb].
  match goal with |- context [number_max ?l] =>
    destruct (number_max_some l 2 (or_introl eq_refl)) as [m M]; rewrite M end.
  pose proof (number_max_spec _ _ M 2 (or_introl eq_refl)) as LE.
  unfold np_arange at 1. destruct (Req_EM_T 1 0) as [E|E]; [exfalso; lra|]. cbn [bind map_res snd fst].
  change (profile_variable "RHO" (uniform 300)) with (Some [Some 300; Some 300]). cbn iota.
  set (yi := map _ _).
  assert (Y : forall n y, nth_error yi n = Some y <-> y = 0 + INR n * 1 /\ y < IZR (Int_part m + 1)).
  { apply np_arange_spec; [|lra]. unfold np_arange. destruct (Req_EM_T 1 0); [contradiction|reflexivity]. }
  destruct (image_pixel_lem yi 2 [1; 1] 0 [Some 300; Some 300]) as (c & C & L & H); [repeat constructor; lra|discriminate|reflexivity|].
  change (lv_height (uniform 300)) with (stored [1; 1] 0). rewrite C. cbn [bind].
  eexists. exists c. split; [reflexivity|]. split; [reflexivity|]. split.
  - destruct (H 0%nat 0) as [_ H2].
    + apply Y. cbn [INR]. destruct (base_Int_part m). rewrite plus_IZR. split; lra.
    + rewrite (H2 1%nat); [destruct (Rle_dec _ _); reflexivity|lra|].
      split; [cbn; lia|]. unfold layer_top, sum_list. cbn. split; [lra|right; reflexivity].
  - split; [|reflexivity]. exists 47, 10. split; [|reflexivity]. unfold nearest. cbn [nearest_from snd].
    rewrite (Rabs_right (47 - 47)), (Rabs_left (46 - 47)) by lra.
    destruct (Rltb_cases (47 - 47) (- (46 - 47))) as [[-> L1]|[_ L1]]; [reflexivity|lra].
Qed.

Lemma time_position_ok t times : forall k0 k, time_position t k0 times = Ok k ->
  exists n, k = (k0 + Z.of_nat n)%Z /\ nth_error times n = Some t.
Proof.
  induction times as [|x r IH]; intros k0 k H; cbn [time_position] in H; [discriminate|].
  destruct (x =? t)%Z eqn:E.
  - injection H as <-. apply Z.eqb_eq in E. subst. exists 0%nat. split; [lia|reflexivity].
  - destruct (IH _ _ H) as (n & -> & N). exists (S n). split; [lia|exact N].
Qed.

Lemma py_get_forall2 {A B} (P : A -> B -> Prop) l r i b : Forall2 P l r -> py_get r i = Ok b ->
  exists a, py_get l i = Ok a /\ P a b.
Proof.
  intros F. unfold py_get. replace (length l) with (length r) by (clear - F; induction F; cbn; congruence). destruct (py_index (length r) i) as [k|]; [|discriminate].
  revert k. induction F as [|x y l r XY F IH]; intros [|k]; cbn [nth_error]; try discriminate.
  - intros [= <-]. eauto.
  - apply IH.
Qed.

(*@ C127 With a date and a position the single profile is that of the nearest cell at that time. *)
Lemma single_profile_lem :
  forall names np_int f date var la lo start stop d printed curve,
  profile_main names np_int f (Some date) var (Some la) (Some lo) start stop d = Ok (SinglePlot printed curve) ->
  exists k j i x y cell l,
    nth_error (pr_times f) k = Some (pe_first (names date)) /\
    nearest (pr_lats f) la = Ok (j, x) /\ nearest (pr_lons f) lo = Ok (i, y) /\
    raster_get (pr_layers f) (Z.of_nat j) (Z.of_nat i) = Ok cell /\ nth_error cell k = Some l /\
    plot_profile_1D [] [] None None [[mkProfile (lv_height l) (lv_rho l) (lv_t l)]] d = Ok (printed, curve).
Proof.
  intros names np_int f date var la lo start stop d printed curve H. unfold profile_main in H.
  destruct (time_position _ _ _) as [k'|] eqn:T; cbn [bind] in H; [|discriminate].
  destruct (time_position_ok _ _ _ _ T) as (k & -> & K). rewrite Z.add_0_l in H.
  destruct (map_res _ (pr_layers f)) as [data|] eqn:D; cbn [bind] in H; [|discriminate].
  destruct (plot_profile_1D _ _ _ _ _ _) as [[pr cu]|] eqn:P; cbn [bind fst snd] in H; [|discriminate].
  injection H as -> ->. apply map_res_forall2 in D.
  unfold plot_profile_1D in P. destruct (sel_nearest _ _ _ _ _) as [p|] eqn:N; cbn [bind] in P; [|discriminate].
  unfold sel_nearest in N. destruct (nearest (pr_lats f) la) as [[j x]|] eqn:NJ; cbn [bind] in N; [|discriminate].
  destruct (nearest (pr_lons f) lo) as [[i y]|] eqn:NI; cbn [bind fst] in N; [|discriminate].
  unfold raster_get in N. destruct (py_get data (Z.of_nat j)) as [row|] eqn:RJ; cbn [bind] in N; [|discriminate].
  destruct (py_get_forall2 _ _ _ _ _ D RJ) as (lrow & LJ & LR). apply map_res_forall2 in LR.
  destruct (py_get_forall2 _ _ _ _ _ LR N) as (cell & LI & LC).
  unfold profile_at in LC. destruct (py_get cell (Z.of_nat k)) as [l|] eqn:LK; cbn [bind] in LC; [|discriminate].
  injection LC as <-.
  exists k, j, i, x, y, cell, l. repeat split; try assumption.
  - unfold raster_get. rewrite LJ. exact LI.
  - unfold py_get in LK. destruct (py_index _ _) as [n|] eqn:I; [|discriminate].
    assert (n = k) as ->. { unfold py_index in I. destruct ((0 <=? _) && _)%Z; [injection I as <-; lia|].
      destruct ((_ <=? _) && (Z.of_nat k <? 0))%Z eqn:B in I; [apply andb_prop in B as [_ B]; apply Z.ltb_lt in B; lia|discriminate]. }
    destruct (nth_error cell k); [congruence|discriminate].
Qed.

(*@ex C127 A run that draws a field, one that saves it, and one that is refused. *)
Lemma plots_case_lem :
  fields_main (fun _ => mkPeriod 0 0) small_file "2009-01-01T00:00" (Some "MB"%string) false false 2 =
    Ok (Shown [[two_cells [(0%Z, Some 1)]]]) /\
  fields_main (fun _ => mkPeriod 0 0) small_file "2009-01-01T00:00" (Some "MB"%string) false true 2 =
    Ok (Saved "20090101T0000_MB_mesh.png" [[two_cells [(0%Z, Some 1)]]]) /\
  fields_main (fun _ => mkPeriod 0 0) small_file "2009-01-01T00:00" None false true 2 = Err KeyError.
Proof. repeat split; reflexivity. Qed.

(*@ex C127 The single profile at the position of the second of the two cells shows its snow. *)
Lemma single_profile_case_lem :
  exists curve,
  profile_main (fun _ => mkPeriod 0 0) false two_profiles (Some "2009-01-01"%string) "RHO" (Some 47) (Some 10) None None None =
    Ok (SinglePlot [] curve) /\
  map fst curve = [Some 600; Some 600; Some 600].
Proof.
  unfold profile_main. change (time_position _ _ _) with (Ok 0%Z). cbn [bind].
  change (map_res _ (pr_layers two_profiles)) with
    (Ok [[mkProfile [Some 1; Some 1] [Some 300; Some 300] [Some 270; Some 270]];
         [mkProfile [Some 1; Some 1] [Some 600; Some 600] [Some 270; Some 270]]]). cbn [bind].
  unfold plot_profile_1D, sel_nearest.
  assert (N : nearest (pr_lats two_profiles) 47 = Ok (1%nat, 47)).
  { unfold two_profiles, nearest. cbn [pr_lats nearest_from snd].
    rewrite (Rabs_right (47 - 47)), (Rabs_left (46 - 47)) by lra.
    destruct (Rltb_cases (47 - 47) (- (46 - 47))) as [[-> L1]|[_ L1]]; [reflexivity|lra]. }
  rewrite N. eexists. split; reflexivity.
Qed.
