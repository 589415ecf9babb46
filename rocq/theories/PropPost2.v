(** * Plots of fields and names of images

    Theorems only; the proofs are in LemFinPost2.v and the files it uses. *)

From Verif Require Import ModelPy ModelConstants ModelNode ModelGrid ModelHeat ModelSurface ModelInit ModelCore ModelConfig ModelIO ModelMain ModelFiles ModelRadCor ModelAws ModelSetup ModelPost SpecIO SpecPost.
From Verif Require Import LemFinPost2.

From Coq Require Import Ascii.

(** C99.  The check accepts a file exactly if every dimension apart from time and layer has at least two entries, and otherwise raises ValueError. *)
Theorem two_dimensional :
  forall dims,
  (check_2d dims = Ok tt <->
     forall name size, In (name, size) dims -> name <> "time"%string -> name <> "layer"%string -> (1 < size)%Z) /\
  (forall e, check_2d dims = Err e -> e = ValueError).
Proof. exact two_dimensional_lem. Qed.
Print Assumptions two_dimensional.

(** C99.  A selection without mean is what the file has in the named period, at most one time. *)
Theorem time_selected :
  forall l p data, get_selection l p false = Ok data ->
  (length data <= 1)%nat /\
  forall tv, In tv data <-> In tv l /\ (pe_first p <= fst tv <= pe_last p)%Z.
Proof. exact time_selected_lem. Qed.
Print Assumptions time_selected.

(** C99.  If exactly one time of the file is in the period, it is selected; if there are several, or none although the period is a single time, the selection raises KeyError. *)
Theorem time_found :
  forall (l : time_series) p,
  (forall tv before after, l = before ++ tv :: after -> (pe_first p <= fst tv <= pe_last p)%Z ->
     (forall x : Z * number, In x (before ++ after) -> ~ (pe_first p <= fst x <= pe_last p)%Z) ->
     get_selection l p false = Ok [tv]) /\
  (forall (x y : Z * number) before between after, l = before ++ x :: between ++ y :: after ->
     (pe_first p <= fst x <= pe_last p)%Z -> (pe_first p <= fst y <= pe_last p)%Z ->
     get_selection l p false = Err KeyError) /\
  (pe_first p = pe_last p -> (forall x : Z * number, In x l -> fst x <> pe_first p) -> get_selection l p false = Err KeyError).
Proof. exact time_found_lem. Qed.
Print Assumptions time_found.

(** C99.  With the option for means the value is the mean of the day whose midnight is next to the given time: for a date or a time before noon this is the day itself, from noon on it is the next day. It needs data on or before and on or after that day. The same holds for the surface plots. *)
Theorem day_mean_selected :
  forall l p a b,
  let day := (pe_first p / 86400)%Z in
  let chosen := if (pe_first p mod 86400 <? 43200)%Z then day else (day + 1)%Z in
  In a l -> In b l -> (fst a < day_start (chosen + 1))%Z -> (day_start chosen <= fst b)%Z ->
  get_selection l p true = Ok [(day_start chosen, day_mean l chosen)] /\
  get_selection_vtk l p true = Ok (day_start chosen, day_mean l chosen).
Proof. exact day_mean_selected_lem. Qed.
Print Assumptions day_mean_selected.

(** C99.  Values of 0 on one day and of 1 on the next: asked for the daily mean of 18:00 of the first day, the plot shows 1. *)
Theorem afternoon_mean_refuted :
  exists l p, (pe_first p / 86400 = 0)%Z /\ day_mean l 0 = Some 0 /\ get_selection l p true = Ok [(86400%Z, Some 1)].
Proof. exact afternoon_mean_refuted_lem. Qed.
Print Assumptions afternoon_mean_refuted.

(** C99.  Without mean a surface plot shows the time of the file next to the given one, the later of two. *)
Theorem surface_time :
  forall l p,
  (l <> [] -> exists tv, get_selection_vtk l p false = Ok tv) /\
  (forall tv, get_selection_vtk l p false = Ok tv -> In tv l /\ forall x, In x l ->
     (Z.abs (fst tv - pe_first p) <= Z.abs (fst x - pe_first p))%Z /\
     (Z.abs (fst tv - pe_first p) = Z.abs (fst x - pe_first p) -> fst x <= fst tv)%Z).
Proof. exact surface_time_lem. Qed.
Print Assumptions surface_time.

(** C99.  A panel shows a field called elevation as it is, and of every other field the selection in each cell; the kind of plot must be contour or mesh, in whatever case. *)
Theorem panel_shows :
  forall name data p plot_type use_mean,
  (forall shown, panel_data (Some name) data p plot_type use_mean = Ok shown ->
     (lower plot_type = "contour"%string \/ lower plot_type = "mesh"%string) /\
     (lower name = "elevation"%string -> shown = data) /\
     (lower name <> "elevation"%string -> Forall2 (Forall2 (fun l s => get_selection l p use_mean = Ok s)) data shown)) /\
  (lower plot_type <> "contour"%string -> lower plot_type <> "mesh"%string ->
     forall shown, panel_data (Some name) data p plot_type use_mean <> Ok shown) /\
  panel_data None data p plot_type use_mean = Err AttributeError.
Proof. exact panel_shows_lem. Qed.
Print Assumptions panel_shows.

(** C99,C69.  With the shipped configuration every variable of the two plots of several variables is in the result file: it is an input variable, or in a list of output variables that serves it. *)
Theorem stamp_variables_written :
  forall attrs cfg name,
  config_load shipped_config [] = Ok attrs -> run_config_of attrs = Ok cfg ->
  In name (concat mesh_variables ++ concat contour_variables) ->
  (In name (io_atm (io_init cfg)) /\ atm_field name <> None) \/
  (In name (io_internal (io_init cfg)) /\ internal_field name <> None) \/
  dict_find metadata_spatiotemporal name <> None.
Proof. exact stamp_variables_written_lem. Qed.
Print Assumptions stamp_variables_written.

(** C99.  In the name of an image the time stamp has kept its letters, digits and underscores, in order, and nothing else; times that differ in other characters only share a file. *)
Theorem image_names :
  forall timestamp name suffix fmt,
  (forall ch, In ch (list_ascii_of_string (word_chars timestamp)) <->
     In ch (list_ascii_of_string timestamp) /\ word_char ch = true) /\
  save_image_name timestamp None suffix fmt =
    (word_chars timestamp ++ "_stamp_plot" ++ (if String.eqb suffix "" then "" else "_" ++ suffix) ++ "." ++ fmt)%string /\
  (name <> ""%string -> save_image_name timestamp (Some name) suffix fmt =
    (word_chars timestamp ++ "_" ++ name ++ (if String.eqb suffix "" then "" else "_" ++ suffix) ++ "." ++ fmt)%string) /\
  set_filename name timestamp fmt = (word_chars timestamp ++ "_" ++ name ++ "_vtk." ++ fmt)%string /\
  (forall other, word_chars other = word_chars timestamp ->
     save_image_name other (Some name) suffix fmt = save_image_name timestamp (Some name) suffix fmt /\
     set_filename name other fmt = set_filename name timestamp fmt).
Proof. exact image_names_lem. Qed.
Print Assumptions image_names.

(** C99 The hyphens and colons of a time stamp are removed. *)
Example image_name_case :
  save_image_name "2009-01-01T06:00" (Some "MB"%string) "mesh" "png" = "20090101T0600_MB_mesh.png"%string /\
  set_filename "TS" "2009-01-01" "png" = "20090101_TS_vtk.png"%string.
Proof. exact image_name_case_lem. Qed.
