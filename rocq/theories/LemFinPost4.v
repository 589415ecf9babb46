(** * Reading the results: the names that can be asked for, and what is refused *)
From Verif Require Import ModelPy ModelConstants ModelNode ModelGrid ModelHeat ModelSurface ModelInit
  ModelCore ModelConfig ModelIO ModelMain ModelRadCor ModelAws ModelSetup ModelPost.
From Coq Require Import Ascii.

(** the letters, digits and the underscore *)
Definition word_letters : list ascii :=
  list_ascii_of_string "abcdefghijklmnopqrstuvwxyzABCDEFGHIJKLMNOPQRSTUVWXYZ0123456789_".

(** the names of the profiles over time, and the values of the layers they show *)
Definition profile_names : list (string * (layer_vars -> list number)) :=
  [("T", lv_t); ("RHO", lv_rho); ("IF", lv_ice_fraction); ("REF", lv_refreeze); ("LWC", lv_lwc);
   ("POR", lv_porosity); ("HEIGHT", lv_height); ("DEPTH", fun l => number_cumsum (lv_height l))]%string.

Lemma number_max_some l s : In (Some s) l -> exists m, number_max l = Some m.
Proof.
  unfold number_max. intros I.
  assert (K : forall l m, exists r, fold_left (fun m x => match m, x with
      | Some a, Some b => Some (Rmax a b) | None, v => v | m, None => m end) l (Some m) = Some r).
  { clear. induction l as [|[x|] l IH]; intros m; cbn [fold_left]; [eauto|apply IH|apply IH]. }
  revert I. generalize (@None R) as m0. induction l as [|x l IH]; intros m0 [].
  - subst x. cbn [fold_left]. destruct m0; apply K.
  - cbn [fold_left]. apply IH. assumption.
Qed.

(*@ C98 The names of the profiles over time: each shows the values of the layers under that name (the depth is the sum of the heights), and any other name is refused with an UnboundLocalError as soon as there is a time step to draw; a spacing of 0 is refused with a ZeroDivisionError, and a file without any snow height with a ValueError. *)
Lemma profile_names_lem :
  forall var fl domainy snow_all,
  (forall f l, In (var, f) profile_names -> profile_variable var l = Some (f l)) /\
  (forall s steps, (forall f, ~ In (var, f) profile_names) -> In (Some s) snow_all -> fl <> 0 -> steps <> [] ->
     profile_image true var fl domainy snow_all steps = Err UnboundLocalError) /\
  (forall s steps, In (Some s) snow_all -> profile_image true var 0 domainy snow_all steps = Err ZeroDivisionError) /\
  (forall steps, Forall (fun s => s = None) snow_all -> profile_image true var fl domainy snow_all steps = Err ValueError).
Proof.
  intros var fl domainy snow_all. repeat split.
  - intros f l I. unfold profile_names in I. cbn [In] in I.
    destruct I as [I|[I|[I|[I|[I|[I|[I|[I|[]]]]]]]]]; apply pair_equal_spec in I as [<- <-]; reflexivity.
  - intros s steps N I FL NE. destruct (number_max_some _ _ I) as [m M]. unfold profile_image. cbn [negb]. rewrite M.
    unfold np_arange. destruct (Req_EM_T fl 0); [contradiction|]. cbn [bind].
    destruct steps as [|st steps]; [contradiction|]. cbn [map_res].
    replace (profile_variable var (snd st)) with (@None (list number)); [reflexivity|]. symmetry. unfold profile_variable.
    repeat match goal with
    | |- context [String.eqb var ?x] =>
        let E := fresh in destruct (String.eqb_spec var x) as [E|E];
        [exfalso; subst var; eapply N; unfold profile_names; cbn [In]; tauto|]
    end. reflexivity.
  - intros s steps I. destruct (number_max_some _ _ I) as [m M]. unfold profile_image. cbn [negb]. rewrite M.
    unfold np_arange. destruct (Req_EM_T 0 0); [reflexivity|contradiction].
  - intros steps F. unfold profile_image. cbn [negb]. replace (number_max snow_all) with (@None R); [reflexivity|].
    unfold number_max. induction F as [|x l -> F IH]; [reflexivity|]. cbn [fold_left]. exact IH.
Qed.

(*@ C98 A profile of a cell without layers, and a profile with only one of the two coordinates on a file without cells, end with an IndexError. *)
Lemma profile_empty_lem :
  forall lats lons d,
  (forall p, pf_rho p = [] -> plot_profile_1D lats lons None None [[p]] d = Err IndexError) /\
  (forall x, plot_profile_1D lats lons (Some x) None [] d = Err IndexError /\
             plot_profile_1D lats lons None (Some x) [] d = Err IndexError).
Proof.
  intros lats lons d. split.
  - intros p H. unfold plot_profile_1D. cbn [bind concat app map map_res]. rewrite H. reflexivity.
  - intros x. split; reflexivity.
Qed.

(*@ C99 A period that is longer than a second and lies before or after all times of the file is refused with a KeyError, like one with several times; a period between two times shows nothing. *)
Lemma period_outside_lem :
  forall (l : time_series) p,
  (pe_first p < pe_last p)%Z ->
  ((forall x, In x l -> (pe_last p < fst x)%Z) -> get_selection l p false = Err KeyError) /\
  ((forall x, In x l -> (fst x < pe_first p)%Z) -> get_selection l p false = Err KeyError) /\
  (forall x y, In x l -> In y l -> (fst x < pe_first p)%Z -> (pe_last p < fst y)%Z ->
     (forall z, In z l -> (fst z < pe_first p)%Z \/ (pe_last p < fst z)%Z) -> get_selection l p false = Ok []).
Proof.
  intros l p LT. unfold get_selection, sel_period. cbn [negb].
  replace (pe_first p =? pe_last p)%Z with false by (symmetry; apply Z.eqb_neq; lia). repeat split.
  - intros H. replace (forallb (fun tv => (pe_last p <? fst tv)%Z) l) with true; [reflexivity|].
    symmetry. apply forallb_forall. intros x I. apply Z.ltb_lt, H, I.
  - intros H. replace (forallb (fun tv => (fst tv <? pe_first p)%Z) l) with true; [rewrite orb_true_r; reflexivity|].
    symmetry. apply forallb_forall. intros x I. apply Z.ltb_lt, H, I.
  - intros x y IX IY LX LY H.
    replace (forallb (fun tv => (pe_last p <? fst tv)%Z) l) with false;
      [|symmetry; apply not_true_is_false; rewrite forallb_forall; intros F; specialize (F x IX); apply Z.ltb_lt in F; lia].
    replace (forallb (fun tv => (fst tv <? pe_first p)%Z) l) with false;
      [|symmetry; apply not_true_is_false; rewrite forallb_forall; intros F; specialize (F y IY); apply Z.ltb_lt in F; lia].
    cbn [orb bind].
    replace (filter (fun tv => within p (fst tv)) l) with (@nil (Z * number)); [reflexivity|].
    symmetry. clear - H. induction l as [|z l IH]; [reflexivity|]. cbn [filter].
    replace (within p (fst z)) with false; [apply IH; intros; apply H; right; assumption|].
    symmetry. unfold within. apply andb_false_iff.
    destruct (H z (or_introl eq_refl)) as [A|A]; [left|right]; apply Z.leb_gt; exact A.
Qed.

(*@ C99 A kind of plot other than contour and mesh is refused with a ValueError, after the selection has succeeded. *)
Lemma plot_kind_refused_lem :
  forall name data p plot_type use_mean shown,
  panel_data (Some name) data p "mesh" use_mean = Ok shown ->
  lower plot_type <> "contour"%string -> lower plot_type <> "mesh"%string ->
  panel_data (Some name) data p plot_type use_mean = Err ValueError.
Proof.
  intros name data p plot_type use_mean shown H N1 N2. unfold panel_data in *.
  destruct (if String.eqb (lower name) "elevation" then _ else _) as [s|] eqn:E; cbn [bind] in *; [|discriminate].
  apply String.eqb_neq in N1, N2. rewrite N1, N2. reflexivity.
Qed.

(*@ C99 The characters of the time that are kept in the name of an image are exactly the letters, the digits and the underscore, in their order. *)
Lemma image_letters_lem :
  forall timestamp,
  exists kept, word_chars timestamp = string_of_list_ascii kept /\
    kept = filter (fun ch => if in_dec ascii_dec ch word_letters then true else false) (list_ascii_of_string timestamp).
Proof.
  intros timestamp. eexists. split; [|reflexivity]. unfold word_chars. f_equal. apply filter_ext. intros ch.
  destruct ch as [[|] [|] [|] [|] [|] [|] [|] [|]]; vm_compute; reflexivity.
Qed.

(*@ex C98,C99 A name that is not known, a kind of plot that is not known, and the name of an image. *)
Lemma names_example_lem :
  profile_image true "DENSITY" 0.1 None [Some 1] [(Some 1, mkLayerVars [] [] [] [] [] [] [])] = Err UnboundLocalError /\
  panel_data (Some "Elevation"%string) [] (mkPeriod 0 0) "Surface" false = Err ValueError /\
  save_image_name "2009-01-01T06:00" (Some "MB"%string) "" "png" = "20090101T0600_MB.png"%string.
Proof.
  split; [|split; reflexivity].
  destruct (profile_names_lem "DENSITY" 0.1 None [Some 1]) as (_ & H & _). apply (H 1).
  - intros f I. cbn in I. repeat (destruct I as [I|I]; [apply pair_equal_spec in I as [I _]; discriminate I|]). exact I.
  - left. reflexivity.
  - lra.
  - discriminate.
Qed.
