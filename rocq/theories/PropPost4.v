(** * Reading the results: the names that can be asked for, and what is refused

    Theorems only; the proofs are in LemFinPost4.v and the files it uses. *)

From Verif Require Import ModelPy ModelConstants ModelNode ModelGrid ModelHeat ModelSurface ModelInit ModelCore ModelConfig ModelIO ModelMain ModelRadCor ModelAws ModelSetup ModelPost.
From Verif Require Import LemFinPost4.

From Coq Require Import Ascii.

(** C98.  The names of the profiles over time: each shows the values of the layers under that name (the depth is the sum of the heights), and any other name is refused with an UnboundLocalError as soon as there is a time step to draw; a spacing of 0 is refused with a ZeroDivisionError, and a file without any snow height with a ValueError. *)
Theorem profile_names :
  forall var fl domainy snow_all,
  (forall f l, In (var, f) profile_names -> profile_variable var l = Some (f l)) /\
  (forall s steps, (forall f, ~ In (var, f) profile_names) -> In (Some s) snow_all -> fl <> 0 -> steps <> [] ->
     profile_image true var fl domainy snow_all steps = Err UnboundLocalError) /\
  (forall s steps, In (Some s) snow_all -> profile_image true var 0 domainy snow_all steps = Err ZeroDivisionError) /\
  (forall steps, Forall (fun s => s = None) snow_all -> profile_image true var fl domainy snow_all steps = Err ValueError).
Proof. exact profile_names_lem. Qed.
Print Assumptions profile_names.

(** C98.  A profile of a cell without layers, and a profile with only one of the two coordinates on a file without cells, end with an IndexError. *)
Theorem profile_empty :
  forall lats lons d,
  (forall p, pf_rho p = [] -> plot_profile_1D lats lons None None [[p]] d = Err IndexError) /\
  (forall x, plot_profile_1D lats lons (Some x) None [] d = Err IndexError /\
             plot_profile_1D lats lons None (Some x) [] d = Err IndexError).
Proof. exact profile_empty_lem. Qed.
Print Assumptions profile_empty.

(** C99.  A period that is longer than a second and lies before or after all times of the file is refused with a KeyError, like one with several times; a period between two times shows nothing. *)
Theorem period_outside :
  forall (l : time_series) p,
  (pe_first p < pe_last p)%Z ->
  ((forall x, In x l -> (pe_last p < fst x)%Z) -> get_selection l p false = Err KeyError) /\
  ((forall x, In x l -> (fst x < pe_first p)%Z) -> get_selection l p false = Err KeyError) /\
  (forall x y, In x l -> In y l -> (fst x < pe_first p)%Z -> (pe_last p < fst y)%Z ->
     (forall z, In z l -> (fst z < pe_first p)%Z \/ (pe_last p < fst z)%Z) -> get_selection l p false = Ok []).
Proof. exact period_outside_lem. Qed.
Print Assumptions period_outside.

(** C99.  A kind of plot other than contour and mesh is refused with a ValueError, after the selection has succeeded. *)
Theorem plot_kind_refused :
  forall name data p plot_type use_mean shown,
  panel_data (Some name) data p "mesh" use_mean = Ok shown ->
  lower plot_type <> "contour"%string -> lower plot_type <> "mesh"%string ->
  panel_data (Some name) data p plot_type use_mean = Err ValueError.
Proof. exact plot_kind_refused_lem. Qed.
Print Assumptions plot_kind_refused.

(** C99.  The characters of the time that are kept in the name of an image are exactly the letters, the digits and the underscore, in their order. *)
Theorem image_letters :
  forall timestamp,
  exists kept, word_chars timestamp = string_of_list_ascii kept /\
    kept = filter (fun ch => if in_dec ascii_dec ch word_letters then true else false) (list_ascii_of_string timestamp).
Proof. exact image_letters_lem. Qed.
Print Assumptions image_letters.

(** C98,C99 A name that is not known, a kind of plot that is not known, and the name of an image. *)
Example names_example :
  profile_image true "DENSITY" 0.1 None [Some 1] [(Some 1, mkLayerVars [] [] [] [] [] [] [])] = Err UnboundLocalError /\
  panel_data (Some "Elevation"%string) [] (mkPeriod 0 0) "Surface" false = Err ValueError /\
  save_image_name "2009-01-01T06:00" (Some "MB"%string) "" "png" = "20090101T0600_MB.png"%string.
Proof. exact names_example_lem. Qed.
