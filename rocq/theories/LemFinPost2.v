(** * Plots of fields and names of images *)
From Verif Require Import ModelPy ModelConstants ModelNode ModelGrid ModelHeat ModelSurface ModelInit
  ModelCore ModelConfig ModelIO ModelMain ModelFiles ModelRadCor ModelAws ModelSetup ModelPost SpecIO SpecPost.
From Verif Require Import LemPy LemSurface LemIO5 LemAws2 LemAws4 LemShad LemShad2 LemPost.
From Coq Require Import Ascii.

(*@ C99 The check accepts a file exactly if every dimension apart from time and layer has at least two entries, and otherwise raises ValueError. *)
Lemma two_dimensional_lem :
  forall dims,
  (check_2d dims = Ok tt <->
     forall name size, In (name, size) dims -> name <> "time"%string -> name <> "layer"%string -> (1 < size)%Z) /\
  (forall e, check_2d dims = Err e -> e = ValueError).
Proof.
  induction dims as [|[name size] t [IH1 IH2]]; cbn [check_2d].
  - split; [split; [intros _ ? ? []|reflexivity]|discriminate].
  - destruct (negb (String.eqb name "time" || String.eqb name "layer") && (size <=? 1)%Z) eqn:E.
    + apply andb_prop in E. destruct E as [E1 E2]. apply negb_true_iff in E1. apply orb_false_elim in E1. destruct E1 as [E1 E3].
      apply String.eqb_neq in E1, E3. apply Z.leb_le in E2. split; [split; [discriminate|]|intros e [= <-]; reflexivity].
      intros H. specialize (H name size (or_introl eq_refl) E1 E3). lia.
    + split; [|exact IH2]. rewrite IH1. split; intros H.
      * intros n s [I|I]; [|apply H; exact I]. injection I as <- <-. intros N1 N2.
        apply andb_false_iff in E. destruct E as [E|E]; [|apply Z.leb_gt in E; lia].
        apply negb_false_iff in E. apply orb_prop in E. destruct E as [E|E]; apply String.eqb_eq in E; congruence.
      * intros n s I. apply H. right. exact I.
Qed.

Lemma within_spec p t : within p t = true <-> (pe_first p <= t <= pe_last p)%Z.
Proof. unfold within. rewrite andb_true_iff, !Z.leb_le. reflexivity. Qed.

(*@ C99 A selection without mean is what the file has in the named period, at most one time. *)
Lemma time_selected_lem :
  forall l p data, get_selection l p false = Ok data ->
  (length data <= 1)%nat /\
  forall tv, In tv data <-> In tv l /\ (pe_first p <= fst tv <= pe_last p)%Z.
Proof.
  intros l p data H. unfold get_selection in H. cbn [negb] in H.
  destruct (sel_period l p) as [d|] eqn:E; cbn [bind] in H; [|discriminate].
  destruct (1 <? length d)%nat eqn:L; [discriminate|]. injection H as <-. apply Nat.ltb_ge in L.
  split; [exact L|]. unfold sel_period in E.
  assert (d = filter (fun tv => within p (fst tv)) l) as ->.
  { destruct (pe_first p =? pe_last p)%Z; [destruct (filter _ l); [discriminate|congruence]|].
    destruct (_ || _); [discriminate|congruence]. }
  intros tv. rewrite filter_In, within_spec. reflexivity.
Qed.

(*@ C99 If exactly one time of the file is in the period, it is selected; if there are several, or none although the period is a single time, the selection raises KeyError. *)
Lemma time_found_lem :
  forall (l : time_series) p,
  (forall tv before after, l = before ++ tv :: after -> (pe_first p <= fst tv <= pe_last p)%Z ->
     (forall x : Z * number, In x (before ++ after) -> ~ (pe_first p <= fst x <= pe_last p)%Z) ->
     get_selection l p false = Ok [tv]) /\
  (forall (x y : Z * number) before between after, l = before ++ x :: between ++ y :: after ->
     (pe_first p <= fst x <= pe_last p)%Z -> (pe_first p <= fst y <= pe_last p)%Z ->
     get_selection l p false = Err KeyError) /\
  (pe_first p = pe_last p -> (forall x : Z * number, In x l -> fst x <> pe_first p) -> get_selection l p false = Err KeyError).
Proof.
  intros l p.
  assert (OUT : forall k : time_series, (forall x, In x k -> ~ (pe_first p <= fst x <= pe_last p)%Z) -> filter (fun tv => within p (fst tv)) k = []).
  { induction k as [|x k IH]; intros H; [reflexivity|]. cbn [filter]. destruct (within p (fst x)) eqn:E.
    - apply within_spec in E. destruct (H x (or_introl eq_refl) E).
    - apply IH. intros; apply H; right; auto. }
  assert (INSIDE : forall tv, In tv l -> (pe_first p <= fst tv <= pe_last p)%Z ->
     sel_period l p = Ok (filter (fun tv => within p (fst tv)) l)).
  { intros tv I B. unfold sel_period.
    assert (NE : filter (fun tv => within p (fst tv)) l <> []).
    { intros E. assert (In tv []) as []. rewrite <- E. apply filter_In. split; [exact I|]. apply within_spec, B. }
    destruct (pe_first p =? pe_last p)%Z; [destruct (filter _ l); [congruence|reflexivity]|].
    destruct (forallb _ l) eqn:F1.
    { rewrite forallb_forall in F1. specialize (F1 tv I). apply Z.ltb_lt in F1. lia. }
    destruct (forallb (fun tv => (fst tv <? pe_first p)%Z) l) eqn:F2.
    { rewrite forallb_forall in F2. specialize (F2 tv I). apply Z.ltb_lt in F2. lia. }
    reflexivity. }
  split; [|split].
  - intros tv before after E B H. assert (I : In tv l) by (rewrite E; apply in_elt).
    unfold get_selection. cbn [negb]. rewrite (INSIDE tv I B). cbn [bind]. rewrite E, filter_app. cbn [filter].
    rewrite (proj2 (within_spec p (fst tv)) B). rewrite !OUT by (intros x X; apply H; apply in_or_app; auto). reflexivity.
  - intros x y before between after E B1 B2. assert (I : In x l) by (rewrite E; apply in_elt).
    unfold get_selection. cbn [negb]. rewrite (INSIDE x I B1). cbn [bind]. rewrite E.
    rewrite filter_app. cbn [filter]. rewrite (proj2 (within_spec p (fst x)) B1), filter_app. cbn [filter].
    rewrite (proj2 (within_spec p (fst y)) B2). rewrite app_length. cbn [length]. rewrite app_length. cbn [length].
    match goal with |- context [(1 <? ?n)%nat] => destruct (Nat.ltb_spec 1 n); [reflexivity|lia] end.
  - intros E H. unfold get_selection, sel_period. cbn [negb].
    rewrite (proj2 (Z.eqb_eq _ _) E). rewrite OUT; [reflexivity|]. intros x X B. apply (H x X). lia.
Qed.

(** ** Daily means *)
Lemma values_of_day_spec l d : values_of_day l d = numbers_between l (day_start d) (day_start (d + 1)).
Proof.
  unfold values_of_day, numbers_between, day_start. induction l as [|[t v] k IH]; [reflexivity|].
  cbn [flat_map filter fst snd]. 
  assert (E : (day_of t =? d)%Z = ((d * 86400 <=? t) && (t <? (d + 1) * 86400))%Z).
  { unfold day_of. destruct (Z.eqb_spec (t / 86400) d) as [<-|N].
    - pose proof (Z.div_mod t 86400 ltac:(lia)). pose proof (Z.mod_pos_bound t 86400 ltac:(lia)).
      symmetry. rewrite andb_true_iff, Z.leb_le, Z.ltb_lt. lia.
    - symmetry. apply andb_false_iff. rewrite Z.leb_gt, Z.ltb_ge.
      destruct (Z.lt_ge_cases t (d * 86400)); [auto|]. right. destruct (Z.lt_ge_cases t ((d + 1) * 86400)); [|lia].
      exfalso. apply N. symmetry. apply (Z.div_unique t 86400 d (t - d * 86400)); lia. }
  rewrite <- E. destruct (day_of t =? d)%Z; cbn [flat_map snd]; rewrite IH; [reflexivity|]. destruct v; reflexivity.
Qed.

Lemma fold_min_spec (l : time_series) : forall m, 
  let r := fold_left (fun m x => Z.min m (day_of (fst x))) l m in
  (r <= m)%Z /\ forall x, In x l -> (r <= day_of (fst x))%Z.
Proof.
  induction l as [|a t IH]; intros m; cbn [fold_left]; [split; [lia|intros ? []]|].
  destruct (IH (Z.min m (day_of (fst a)))) as [H1 H2]. split; [lia|]. intros x [<-|I]; [lia|]. apply H2, I.
Qed.
Lemma fold_max_spec (l : time_series) : forall m, 
  let r := fold_left (fun m x => Z.max m (day_of (fst x))) l m in
  (m <= r)%Z /\ forall x, In x l -> (day_of (fst x) <= r)%Z.
Proof.
  induction l as [|a t IH]; intros m; cbn [fold_left]; [split; [lia|intros ? []]|].
  destruct (IH (Z.max m (day_of (fst a)))) as [H1 H2]. split; [lia|]. intros x [<-|I]; [lia|]. apply H2, I.
Qed.

Lemma daily_mean_range l a b d : In a l -> In b l -> (day_of (fst a) <= d <= day_of (fst b))%Z ->
  exists first last, (first <= d < last)%Z /\ daily_mean l = map (fun d => (day_start d, day_mean l d)) (zrange first last).
Proof.
  intros A B H. unfold daily_mean. destruct l as [|tv t]; [destruct A|].
  set (first := fold_left _ _ _). set (last := fold_left _ _ _).
  exists first, (last + 1)%Z. split.
  - pose proof (proj2 (fold_min_spec (tv :: t) (day_of (fst tv))) a A). pose proof (proj2 (fold_max_spec (tv :: t) (day_of (fst tv))) b B).
    fold first in H0. fold last in H1. lia.
  - apply map_ext. intros x. unfold day_mean. rewrite <- values_of_day_spec. reflexivity.
Qed.

Lemma nearest_some l p : l <> [] -> exists n v, nearest l p = Ok (n, v).
Proof. destruct l as [|x t]; [congruence|]. intros _. unfold nearest. destruct (nearest_from p (0%nat, x) 1 t) as [n v]. eauto. Qed.

Lemma nearest_day l first last p (chosen : Z) :
  (first <= chosen < last)%Z ->
  (forall d, d <> chosen -> Rabs (IZR (day_start chosen) - IZR p) <= Rabs (IZR (day_start d) - IZR p) /\
     (Rabs (IZR (day_start chosen) - IZR p) = Rabs (IZR (day_start d) - IZR p) -> (d < chosen)%Z)) ->
  forall q, p = pe_first q ->
  sel_time_nearest (map (fun d => (day_start d, day_mean l d)) (zrange first last)) q = Ok (day_start chosen, day_mean l chosen).
Proof.
  intros R MIN q ->. unfold sel_time_nearest. rewrite map_map. cbn [fst].
  set (labels := map (fun d => IZR (day_start d)) (zrange first last)).
  assert (IC : In (IZR (day_start chosen)) labels) by (apply in_map_iff; exists chosen; split; [reflexivity|apply in_zrange; exact R]).
  destruct (nearest_some labels (IZR (pe_first q))) as (n & v & E); [intros X; rewrite X in IC; destruct IC|].
  rewrite E. cbn [bind fst]. apply nearest_ok in E. destruct E as [N H].
  unfold labels in N. rewrite nth_error_map in N |- *.
  destruct (nth_error (zrange first last) n) as [d|] eqn:D; [|discriminate]. cbn [option_map] in *. injection N as <-.
  assert (d = chosen) as ->; [|reflexivity].
  destruct (Z.eq_dec d chosen) as [X|X]; [exact X|exfalso].
  destruct (MIN d X) as [M1 M2]. destruct (H _ IC) as [H1 H2]. 
  assert (EQ : Rabs (IZR (day_start chosen) - IZR (pe_first q)) = Rabs (IZR (day_start d) - IZR (pe_first q))) by lra.
  specialize (M2 EQ). symmetry in EQ. specialize (H2 EQ). apply le_IZR in H2. unfold day_start in H2. lia.
Qed.

(*@ C99 With the option for means the value is the mean of the day whose midnight is next to the given time: for a date or a time before noon this is the day itself, from noon on it is the next day. It needs data on or before and on or after that day. The same holds for the surface plots. *)
Lemma day_mean_selected_lem :
  forall l p a b,
  let day := (pe_first p / 86400)%Z in
  let chosen := if (pe_first p mod 86400 <? 43200)%Z then day else (day + 1)%Z in
  In a l -> In b l -> (fst a < day_start (chosen + 1))%Z -> (day_start chosen <= fst b)%Z ->
  get_selection l p true = Ok [(day_start chosen, day_mean l chosen)] /\
  get_selection_vtk l p true = Ok (day_start chosen, day_mean l chosen).
Proof.
  intros l p a b day chosen A B HA HB.
  assert (RA : (day_of (fst a) <= chosen)%Z).
  { unfold day_of, day_start in *. assert (fst a / 86400 < chosen + 1)%Z; [|lia]. apply Z.div_lt_upper_bound; lia. }
  assert (RB : (chosen <= day_of (fst b))%Z).
  { unfold day_of, day_start in *. apply Z.div_le_lower_bound; lia. }
  destruct (daily_mean_range l a b chosen A B (conj RA RB)) as (first & last & R & E).
  assert (S1 : sel_time_nearest (daily_mean l) p = Ok (day_start chosen, day_mean l chosen)).
  { rewrite E. apply (nearest_day l first last (pe_first p) chosen R); [|reflexivity].
    intros d ND. rewrite <- !minus_IZR. rewrite !Rabs_Zabs.
    assert (Z.abs (day_start chosen - pe_first p) < Z.abs (day_start d - pe_first p) \/
            (Z.abs (day_start chosen - pe_first p) = Z.abs (day_start d - pe_first p) /\ d < chosen))%Z as [X|[X Y]].
    { unfold chosen, day, day_start in *. pose proof (Z.div_mod (pe_first p) 86400 ltac:(lia)).
      pose proof (Z.mod_pos_bound (pe_first p) 86400 ltac:(lia)). destruct (Z.ltb_spec (pe_first p mod 86400) 43200); lia. }
    - split; [apply IZR_le; lia|]. intros EQ. apply eq_IZR in EQ. lia.
    - split; [apply IZR_le; lia|]. intros _. exact Y. }
  unfold get_selection, get_selection_vtk. cbn [negb]. rewrite S1. split; reflexivity.
Qed.

(*@ C99 Values of 0 on one day and of 1 on the next: asked for the daily mean of 18:00 of the first day, the plot shows 1. *)
Lemma afternoon_mean_refuted_lem :
  exists l p, (pe_first p / 86400 = 0)%Z /\ day_mean l 0 = Some 0 /\ get_selection l p true = Ok [(86400%Z, Some 1)].
Proof.
  exists [(3600%Z, Some 0); (90000%Z, Some 1)], (mkPeriod 64800 64800). split; [reflexivity|].
  assert (D0 : day_mean [(3600%Z, Some 0); (90000%Z, Some 1)] 0 = Some 0).
  { change (Some (sum_list [0] / INR 1) = Some 0). f_equal. unfold sum_list. cbn. lra. }
  assert (D1 : day_mean [(3600%Z, Some 0); (90000%Z, Some 1)] 1 = Some 1).
  { change (Some (sum_list [1] / INR 1) = Some 1). f_equal. unfold sum_list. cbn. lra. }
  split; [exact D0|].
  destruct (day_mean_selected_lem [(3600%Z, Some 0); (90000%Z, Some 1)] (mkPeriod 64800 64800) (3600%Z, Some 0) (90000%Z, Some 1))
    as [H _]; [cbn; auto|cbn; auto|cbn; lia|cbn; lia|].
  rewrite H. change (Ok [(86400%Z, day_mean [(3600%Z, Some 0); (90000%Z, Some 1)] 1)] = Ok [(86400%Z, Some 1)]).
  rewrite D1. reflexivity.
Qed.

(*@ C99 Without mean a surface plot shows the time of the file next to the given one, the later of two. *)
Lemma surface_time_lem :
  forall l p,
  (l <> [] -> exists tv, get_selection_vtk l p false = Ok tv) /\
  (forall tv, get_selection_vtk l p false = Ok tv -> In tv l /\ forall x, In x l ->
     (Z.abs (fst tv - pe_first p) <= Z.abs (fst x - pe_first p))%Z /\
     (Z.abs (fst tv - pe_first p) = Z.abs (fst x - pe_first p) -> fst x <= fst tv)%Z).
Proof.
  intros l p. unfold get_selection_vtk. cbn [negb]. unfold sel_time_nearest. split.
  - intros NE. destruct (nearest_some (map (fun tv => IZR (fst tv)) l) (IZR (pe_first p))) as (n & v & E).
    { destruct l; [congruence|discriminate]. }
    rewrite E. cbn [bind fst]. apply nearest_ok in E. destruct E as [N _]. rewrite nth_error_map in N.
    destruct (nth_error l n) as [tv|]; [eauto|discriminate].
  - intros tv H. destruct (nearest _ _) as [[n v]|] eqn:E; cbn [bind fst] in H; [|discriminate].
    apply nearest_ok in E. destruct E as [N M]. rewrite nth_error_map in N.
    destruct (nth_error l n) as [tv'|] eqn:D; [|discriminate]. injection H as ->. cbn in N. injection N as <-.
    split; [eapply nth_error_In; exact D|]. intros x X.
    destruct (M (IZR (fst x)) (in_map _ _ _ X)) as [M1 M2]. rewrite <- !minus_IZR, !Rabs_Zabs in M1, M2.
    split; [apply le_IZR; exact M1|]. intros EQ. apply le_IZR. apply M2. rewrite EQ. reflexivity.
Qed.

(*@ C99 A panel shows a field called elevation as it is, and of every other field the selection in each cell; the kind of plot must be contour or mesh, in whatever case. *)
Lemma panel_shows_lem :
  forall name data p plot_type use_mean,
  (forall shown, panel_data (Some name) data p plot_type use_mean = Ok shown ->
     (lower plot_type = "contour"%string \/ lower plot_type = "mesh"%string) /\
     (lower name = "elevation"%string -> shown = data) /\
     (lower name <> "elevation"%string -> Forall2 (Forall2 (fun l s => get_selection l p use_mean = Ok s)) data shown)) /\
  (lower plot_type <> "contour"%string -> lower plot_type <> "mesh"%string ->
     forall shown, panel_data (Some name) data p plot_type use_mean <> Ok shown) /\
  panel_data None data p plot_type use_mean = Err AttributeError.
Proof.
  intros name data p plot_type use_mean. split; [|split; [|reflexivity]].
  - intros shown H. cbn [panel_data] in H.
    destruct (if String.eqb (lower name) "elevation" then _ else _) as [s|] eqn:E; cbn [bind] in H; [|discriminate].
    destruct (String.eqb (lower plot_type) "contour" || String.eqb (lower plot_type) "mesh") eqn:T; [|discriminate].
    injection H as <-. split; [apply orb_prop in T; rewrite !String.eqb_eq in T; exact T|].
    destruct (String.eqb_spec (lower name) "elevation") as [N|N].
    + injection E as <-. split; [reflexivity|intros X; congruence].
    + split; [intros X; congruence|intros _]. apply map_res_forall2 in E.
      induction E as [|row s' ? ? E' _ IH]; constructor; [|exact IH]. apply map_res_forall2 in E'. exact E'.
  - intros N1 N2 shown H. cbn [panel_data] in H.
    destruct (if String.eqb (lower name) "elevation" then _ else _) as [s|] eqn:E; cbn [bind] in H; [|discriminate].
    apply String.eqb_neq in N1, N2. rewrite N1, N2 in H. discriminate.
Qed.

Definition plotted_from (atm internal : list string) (n : string) : bool :=
  (in_names n atm && match atm_field n with Some _ => true | None => false end) ||
  (in_names n internal && match internal_field n with Some _ => true | None => false end) ||
  match dict_find metadata_spatiotemporal n with Some _ => true | None => false end.

Lemma plotted_from_spec atm internal n : plotted_from atm internal n = true ->
  (In n atm /\ atm_field n <> None) \/ (In n internal /\ internal_field n <> None) \/
  dict_find metadata_spatiotemporal n <> None.
Proof.
  unfold plotted_from. intros G.
  apply orb_prop in G. destruct G as [G|G]; [apply orb_prop in G; destruct G as [G|G]|].
  - left. apply andb_prop in G. destruct G as [G1 G2]. split; [|destruct (atm_field n); congruence].
    apply existsb_exists in G1. destruct G1 as (m & N & E). apply String.eqb_eq in E. subst. exact N.
  - right. left. apply andb_prop in G. destruct G as [G1 G2]. split; [|destruct (internal_field n); congruence].
    apply existsb_exists in G1. destruct G1 as (m & N & E). apply String.eqb_eq in E. subst. exact N.
  - right. right. destruct (dict_find metadata_spatiotemporal n); congruence.
Qed.

Lemma shipped_lists attrs cfg : config_load shipped_config [] = Ok attrs -> run_config_of attrs = Ok cfg ->
  io_atm (io_init cfg) = ["RAIN"; "SNOWFALL"; "LWin"; "LWout"; "H"; "LE"; "B"; "QRR"; "Z0"; "ALBEDO"; "TS"]%string /\
  io_internal (io_init cfg) = ["ME"; "MB"; "surfMB"; "intMB"; "EVAPORATION"; "SUBLIMATION"; "CONDENSATION"; "DEPOSITION";
    "surfM"; "subM"; "Q"; "REFREEZE"; "SNOWHEIGHT"; "TOTALHEIGHT"; "LAYERS"]%string.
Proof. intros H1 H2. injection H1 as <-. injection H2 as <-. split; reflexivity. Qed.

(*@ C99,C69 With the shipped configuration every variable of the two plots of several variables is in the result file: it is an input variable, or in a list of output variables that serves it. *)
Lemma stamp_variables_written_lem :
  forall attrs cfg name,
  config_load shipped_config [] = Ok attrs -> run_config_of attrs = Ok cfg ->
  In name (concat mesh_variables ++ concat contour_variables) ->
  (In name (io_atm (io_init cfg)) /\ atm_field name <> None) \/
  (In name (io_internal (io_init cfg)) /\ internal_field name <> None) \/
  dict_find metadata_spatiotemporal name <> None.
Proof.
  intros attrs cfg name H1 H2 I. destruct (shipped_lists _ _ H1 H2) as [E1 E2]. rewrite E1, E2. clear H1 H2 E1 E2.
  apply plotted_from_spec. revert name I. apply forallb_forall. reflexivity.
Qed.

(** ** Names of images *)
Lemma chars_of_string l : list_ascii_of_string (string_of_list_ascii l) = l.
Proof. apply list_ascii_of_string_of_list_ascii. Qed.

(*@ C99 In the name of an image the time stamp has kept its letters, digits and underscores, in order, and nothing else; times that differ in other characters only share a file. *)
Lemma image_names_lem :
  forall timestamp name suffix fmt,
  (forall ch, In ch (list_ascii_of_string (word_chars timestamp)) <->
     In ch (list_ascii_of_string timestamp) /\ word_char ch = true) /\
  save_image_name timestamp None suffix fmt =
    (word_chars timestamp ++ "_stamp_plot" ++ (if String.eqb suffix "" then "" else "_" ++ suffix) ++ "." ++ fmt)%string /\
  (name <> ""%string -> save_image_name timestamp (Some name) suffix fmt =
    (word_chars timestamp ++ "_" ++ name ++ (if String.eqb suffix "" then "" else "_" ++ suffix) ++ "." ++ fmt)%string) /\
  set_filename name timestamp fmt = (word_chars timestamp ++ "_" ++ name ++ "_vtk." ++ fmt)%string /\
  (forall other, word_chars other = word_chars timestamp ->
     save_image_name other (Some name) suffix fmt = save_image_name timestamp (Some name) suffix fmt /\
     set_filename name other fmt = set_filename name timestamp fmt).
Proof.
  assert (APP : forall a b c : string, ((a ++ b) ++ c = a ++ (b ++ c))%string).
  { induction a as [|ch a IH]; intros b c; cbn; [reflexivity|]. rewrite IH. reflexivity. }
  intros timestamp name suffix fmt. split; [|split; [|split; [|split; [reflexivity|]]]].
  - intros ch. unfold word_chars. rewrite chars_of_string. apply filter_In.
  - unfold save_image_name. rewrite !APP. destruct (String.eqb_spec suffix ""); [subst|]; rewrite ?APP; reflexivity.
  - intros N. unfold save_image_name. apply String.eqb_neq in N. rewrite N. rewrite !APP.
    destruct (String.eqb_spec suffix ""); [subst|]; rewrite ?APP; reflexivity.
  - intros other E. unfold save_image_name, set_filename. rewrite E. split; reflexivity.
Qed.

(*@ex C99 The hyphens and colons of a time stamp are removed. *)
Lemma image_name_case_lem :
  save_image_name "2009-01-01T06:00" (Some "MB"%string) "mesh" "png" = "20090101T0600_MB_mesh.png"%string /\
  set_filename "TS" "2009-01-01" "png" = "20090101_TS_vtk.png"%string.
Proof. split; reflexivity. Qed.
