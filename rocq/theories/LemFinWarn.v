(** * Conversion of weather station data: warnings, units and refusals *)
From Verif Require Import ModelPy ModelConstants ModelNode ModelGrid ModelHeat ModelSurface ModelInit
  ModelCore ModelConfig ModelIO ModelMain ModelRadCor SpecIO SpecRadCor ModelAws SpecAws SpecWarn.
From Verif Require Import LemPy LemDict LemIO LemIO4 LemIO5 LemShad LemShad2 LemShad3 LemShad4 LemShad5 LemAws LemAws2 LemAws3 LemAws4
  LemAws5 LemFinInput LemFinAws LemFinAws2 LemFinAws3 LemFinAws4.

(** ** The checks *)
Lemma check_exact field mx mn w : check field mx mn = Ok w ->
  (w = true <-> exists v, In (Some v) field /\ (v < mn \/ mx < v)).
Proof.
  intros W.
  unfold check in W. apply bind_ok in W as (ok & C & W). injection W as <-.
  destruct (field) as [|v0 l0] eqn:EA; [discriminate C|].
  destruct (check_field_spec (v0 :: l0) mx mn ltac:(discriminate)) as (ok' & C' & S').
  rewrite C' in C. injection C as ->. rewrite negb_true_iff. split.
  * intros ->. destruct (reals_of (v0 :: l0)) as [|x r] eqn:ER.
    { unfold check_field in C'. rewrite ER in C'. discriminate. }
    unfold check_field in C'. rewrite ER in C'. injection C' as C'. apply negb_false_iff, orb_true_iff in C'.
    destruct C' as [C'|C'].
    -- apply max_list_lt in C' as (v & I & L). exists v. split; [|right; exact L]. apply in_reals_of. rewrite ER. exact I.
    -- apply min_list_lt in C' as (v & I & L). exists v. split; [|left; exact L]. apply in_reals_of. rewrite ER. exact I.
  * intros (v & I & L). destruct ok; [|reflexivity]. destruct S' as [S' _]. specialize (S' eq_refl v I). lra.
Qed.

Lemma checks_ok vars l : forall ws0 ws,
  for_each l (fun nb ws =>
       let '(n, (mx, mn)) := fst nb in
       v <- attr_get vars n ;;
       w <- check (array_values (v_data v)) mx mn ;;
       Ok (ws ++ [(n, w)])) ws0 = Ok ws ->
  exists ws', ws = ws0 ++ ws' /\ map fst ws' = map (fun nb : (string * (R * R)) * bool => fst (fst nb)) l /\
    forall n w, In (n, w) ws' -> exists var mx mn b, dict_find vars n = Some var /\ In (n, (mx, mn), b) l /\
      (w = true <-> exists v, In (Some v) (array_values (v_data var)) /\ (v < mn \/ mx < v)).
Proof.
  induction l as [|[[n [mx mn]] b] t IH]; intros ws0 ws H; cbn [for_each] in H.
  - injection H as <-. exists []. rewrite app_nil_r. split; [reflexivity|]. split; [reflexivity|]. intros n w [].
  - cbn [fst] in H. apply bind_ok in H as (ws1 & E & H). apply IH in H as (ws' & -> & N & A).
    apply bind_ok in E as (var & V & E). apply bind_ok in E as (w & W & E). injection E as <-.
    exists ((n, w) :: ws'). split; [rewrite <- app_assoc; reflexivity|]. split; [cbn [map fst]; rewrite N; reflexivity|].
    intros m u [I|I].
    + injection I as <- <-. unfold attr_get in V. destruct (dict_find vars n) as [v0|] eqn:F; [|discriminate]. injection V as ->.
      exists var, mx, mn, b. split; [reflexivity|]. split; [left; reflexivity|].
      eapply check_exact. exact W.
    + destruct (A _ _ I) as (v & x1 & x2 & b' & A1 & A2 & A3). exists v, x1, x2, b'. split; [exact A1|]. split; [right; exact A2|exact A3].
Qed.

Lemma check_data_ok cfg vars df ws : check_data cfg vars df = Ok ws ->
  map fst ws = ["T2"; "RH2"; "U2"; "G"; "PRES"]%string ++
    map fst (filter (fun nc => dict_mem (f_cols df) (snd nc))
      [("RRR", aw_RRR cfg); ("SNOWFALL", aw_SNOWFALL cfg); ("LWin", aw_LWin cfg); ("N", aw_N cfg)]%string) /\
  Forall (fun nw => exists var mn mx,
    dict_find vars (fst nw) = Some var /\ In (fst nw, (mn, mx)) warning_ranges /\
    (snd nw = true <-> exists v, In (Some v) (array_values (v_data var)) /\ (v < mn \/ mx < v))) ws.
Proof.
  unfold check_data. cbv zeta. intros H. apply checks_ok in H as (ws' & -> & N & A). cbn [app]. split.
  - rewrite N. cbn [filter snd map fst app].
    destruct (dict_mem (f_cols df) (aw_RRR cfg)), (dict_mem (f_cols df) (aw_SNOWFALL cfg)),
      (dict_mem (f_cols df) (aw_LWin cfg)), (dict_mem (f_cols df) (aw_N cfg)); reflexivity.
  - apply Forall_forall. intros [n w] I. cbn [fst snd].
    destruct (A _ _ I) as (var & mx & mn & b & F & L & W). exists var, mn, mx. split; [exact F|]. split; [|exact W].
    apply filter_In in L as [L _]. cbn [In] in L.
    destruct L as [L|[L|[L|[L|[L|[L|[L|[L|[L|[]]]]]]]]]]; apply pair_equal_spec in L as [L _];
      apply pair_equal_spec in L as [<- L]; apply pair_equal_spec in L as [<- <-]; unfold warning_ranges; cbn [In];
      repeat (first [left; repeat f_equal; lra | right]).
Qed.

(** ** The variables of a file *)
Lemma main_ok parse vapour doy cfg csv static lut sd ed xl xr yl yu f ws :
  aws_main parse vapour doy cfg csv static lut sd ed xl xr yl yu = Ok (f, ws) ->
  exists df vars0 vars1 s1 s2 s3 s4 a1 a2 a3 a4 a5 o1 o2 o3 o4,
    add_variables (file_dims cfg) [("HGT", Some s1); ("ASPECT", Some s2); ("SLOPE", Some s3); ("MASK", Some s4)]%string vars0 = Ok vars1 /\
    add_variables ("time"%string :: file_dims cfg)
      [("T2", Some a1); ("RH2", Some a2); ("U2", Some a3); ("G", Some a4); ("PRES", Some a5);
       ("RRR", o1); ("SNOWFALL", o2); ("LWin", o3); ("N", o4)]%string vars1 = Ok (nf_vars f) /\
    (o1 <> None <-> dict_find (f_cols df) (aw_RRR cfg) <> None) /\
    (o2 <> None <-> dict_find (f_cols df) (aw_SNOWFALL cfg) <> None) /\
    (o3 <> None <-> dict_find (f_cols df) (aw_LWin cfg) <> None) /\
    (o4 <> None <-> dict_find (f_cols df) (aw_N cfg) <> None) /\
    check_data cfg (nf_vars f) df = Ok ws /\
    ((forall st, static = Some st -> plain_static st) -> forall n, dict_find variable_metadata n <> None ->
       ~ In n ["HGT"; "SLOPE"; "ASPECT"; "MASK"]%string -> dict_find vars0 n = None).
Proof.
  assert (IC : forall df n g, if_column df n g <> None <-> dict_find (f_cols df) n <> None).
  { intros df n g. unfold if_column. destruct (dict_find (f_cols df) n); cbn; split; congruence. }
  unfold aws_main, file_dims. destruct (aw_point_model cfg).
  - intros H. unfold create_1D_input in H. cbv zeta in H.
    apply bind_ok in H as (df0 & _ & H). apply bind_ok in H as (df1 & _ & H).
    apply bind_ok in H as ([[lat lon] vars0] & HC & H). apply bind_ok in H as (df & _ & H).
    apply bind_ok in H as (T2 & _ & H). apply bind_ok in H as ([] & _ & H). apply bind_ok in H as (RH2 & _ & H).
    apply bind_ok in H as (U2 & _ & H). apply bind_ok in H as (G & _ & H). apply bind_ok in H as (PRES & _ & H).
    apply bind_ok in H as ([[aspect slope] mask] & _ & H).
    apply bind_ok in H as (vars1 & A1 & H). apply bind_ok in H as (vars2 & A2 & H).
    apply bind_ok in H as ([] & _ & H). apply bind_ok in H as (w & CD & H). injection H as <- <-.
    exists df, vars0, vars1. cbn [negb andb nf_vars].
    do 13 eexists. split; [exact A1|]. split; [exact A2|].
    repeat (split; [apply IC|]). split; [exact CD|].
    intros PS n MD NI. eapply coordinates_plain; eauto.
  - destruct static as [st|]; [|discriminate]. intros H. unfold create_2D_input in H. cbv zeta in H.
    apply bind_ok in H as (df0 & _ & H). apply bind_ok in H as (df1 & _ & H).
    set (ds := subset st xl xr yl yu) in *.
    replace (if aw_WRF cfg then
      (Mesh (meshgrid_y (st_lons ds) (st_lats ds)), Mesh (meshgrid_x (st_lons ds) (st_lats ds)),
       ["south_north"; "west_east"]%string, [])
      else
      (Along "lat" (st_lats ds), Along "lon" (st_lons ds), ["lat"; "lon"]%string,
       map (fun nr => (fst nr, mkVariable ["lat"; "lon"]%string (map (map one_number) (snd nr)) "" ""))
           (st_other ds)))
      with (fst (fst (fst (if aw_WRF cfg then
      (Mesh (meshgrid_y (st_lons ds) (st_lats ds)), Mesh (meshgrid_x (st_lons ds) (st_lats ds)),
       ["south_north"; "west_east"]%string, []:dict variable)
      else
      (Along "lat" (st_lats ds), Along "lon" (st_lons ds), ["lat"; "lon"]%string, grid_others cfg ds)))),
      snd (fst (fst (if aw_WRF cfg then
      (Mesh (meshgrid_y (st_lons ds) (st_lats ds)), Mesh (meshgrid_x (st_lons ds) (st_lats ds)),
       ["south_north"; "west_east"]%string, []:dict variable)
      else
      (Along "lat" (st_lats ds), Along "lon" (st_lons ds), ["lat"; "lon"]%string, grid_others cfg ds)))),
      (if aw_WRF cfg then ["south_north"; "west_east"] else ["lat"; "lon"])%string,
      grid_others cfg ds) in H by (unfold grid_others; destruct (aw_WRF cfg); reflexivity).
    apply bind_ok in H as (df & _ & H).
    apply bind_ok in H as (RH2 & _ & H). apply bind_ok in H as (U2 & _ & H). apply bind_ok in H as (G & _ & H).
    apply bind_ok in H as (PRES & _ & H). apply bind_ok in H as (T2 & _ & H). apply bind_ok in H as ([] & _ & H).
    apply bind_ok in H as (g & _ & H).
    apply bind_ok in H as (vars1 & A1 & H). apply bind_ok in H as (vars2 & A2 & H).
    apply bind_ok in H as ([] & _ & H). apply bind_ok in H as (w & CD & H).
    injection H as <- <-.
    exists df, (grid_others cfg ds), vars1. cbn [negb andb nf_vars].
    do 13 eexists. split; [exact A1|]. split; [exact A2|].
    repeat (split; [apply IC|]). split; [exact CD|].
    intros PS n MD NI. apply grid_others_plain; auto. apply subset_plain, PS. reflexivity.
Qed.

Lemma names_of_metadata n : dict_find variable_metadata n <> None <-> In n (map fst input_units).
Proof.
  split.
  - intros H. destruct (dict_find variable_metadata n) as [u|] eqn:E; [|congruence]. apply find_in in E.
    cbn [variable_metadata In] in E. cbn [input_units map fst In].
    repeat (destruct E as [E|E]; [injection E as <- _; tauto|]). destruct E.
  - intros H. cbn [input_units map fst In] in H. repeat (destruct H as [<-|H]; [discriminate|]). destruct H.
Qed.

Lemma metadata_units n u : dict_find variable_metadata n = Some u -> In (n, u) input_units.
Proof.
  intros E. apply find_in in E. cbn [variable_metadata In] in E. cbn [input_units In].
  repeat (destruct E as [E|E]; [rewrite E; tauto|]). destruct E.
Qed.

Lemma units_unique n u u' : In (n, u) input_units -> In (n, u') input_units -> u = u'.
Proof.
  assert (ND : NoDup (map fst input_units)) by (cbn; repeat constructor; cbn; intuition discriminate).
  intros A B. apply (in_find _ _ _ ND) in A. apply (in_find _ _ _ ND) in B. congruence.
Qed.

Lemma nodup4 : NoDup ["HGT"; "ASPECT"; "SLOPE"; "MASK"]%string.
Proof. repeat constructor; cbn; intuition discriminate. Qed.
Lemma nodup9 : NoDup ["T2"; "RH2"; "U2"; "G"; "PRES"; "RRR"; "SNOWFALL"; "LWin"; "N"]%string.
Proof. repeat constructor; cbn; intuition discriminate. Qed.

(** ** Warnings *)

(*@ C113 The conversion, for a point or for a grid, checks the five variables temperature, humidity, wind, radiation and pressure and each of precipitation, snowfall, longwave radiation and clouds that the file has.  A warning on a variable is printed if and only if one of its numbers is out of its range. *)
Lemma conversion_warnings_lem :
  forall parse vapour doy (cfg : AwsConfig) (csv : frame) static lut sd ed xl xr yl yu f ws,
    (forall st, static = Some st -> plain_static st) ->
    aws_main parse vapour doy cfg csv static lut sd ed xl xr yl yu = Ok (f, ws) ->
    map fst ws = ["T2"; "RH2"; "U2"; "G"; "PRES"]%string ++
      filter (fun n => match dict_find (nf_vars f) n with Some _ => true | None => false end)
        ["RRR"; "SNOWFALL"; "LWin"; "N"]%string /\
    Forall (warns_rightly f) ws.
Proof.
  intros parse vapour doy cfg csv static lut sd ed xl xr yl yu f ws PS H.
  apply main_ok in H as (df & vars0 & vars1 & s1 & s2 & s3 & s4 & a1 & a2 & a3 & a4 & a5 & o1 & o2 & o3 & o4 & A1 & A2 & I1 & I2 & I3 & I4 & CD & PL).
  specialize (PL PS). destruct (check_data_ok _ _ _ _ CD) as (E & FA). split; [|exact FA].
  assert (V1 : forall n, In n ["RRR"; "SNOWFALL"; "LWin"; "N"]%string -> dict_find vars1 n = None).
  { intros n I. pose proof (fun N => add_variables_find _ _ _ _ N A1 n) as F. specialize (F nodup4).
    assert (X : dict_find vars0 n = None).
    { cbn in I. apply PL; repeat (destruct I as [<-|I]; [cbn; intuition discriminate|]); destruct I. }
    cbn in I. repeat (destruct I as [<-|I]; [cbn in F; congruence|]). destruct I. }
  pose proof (fun N => add_variables_find _ _ _ _ N A2) as F. specialize (F nodup9).
  assert (Q : forall n o col, In (n, o, col) [("RRR", o1, aw_RRR cfg); ("SNOWFALL", o2, aw_SNOWFALL cfg); ("LWin", o3, aw_LWin cfg); ("N", o4, aw_N cfg)]%string ->
    (o <> None <-> dict_find (nf_vars f) n <> None)).
  { intros n o col I. specialize (F n). specialize (V1 n).
    cbn [In] in I. destruct I as [I|[I|[I|[I|[]]]]]; apply pair_equal_spec in I as [I _]; apply pair_equal_spec in I as [<- <-];
      cbn in F; rewrite V1 in F by (clear; cbn; tauto);
      match goal with |- ?o <> None <-> _ => destruct o end;
      try (destruct F as (u & _ & F)); rewrite F; split; congruence. }
  rewrite E. f_equal. clear E FA CD A1 A2 F V1 PL.
  assert (M : forall n o col, In (n, o, col) [("RRR", o1, aw_RRR cfg); ("SNOWFALL", o2, aw_SNOWFALL cfg); ("LWin", o3, aw_LWin cfg); ("N", o4, aw_N cfg)]%string ->
    (o <> None <-> dict_find (f_cols df) col <> None) ->
    dict_mem (f_cols df) col = match dict_find (nf_vars f) n with Some _ => true | None => false end).
  { intros n o col I J. apply Q in I. rewrite mem_find.
    destruct (dict_find (f_cols df) col), (dict_find (nf_vars f) n), o; try reflexivity; exfalso; intuition congruence. }
  cbn [filter snd map fst].
  rewrite (M "RRR"%string o1), (M "SNOWFALL"%string o2), (M "LWin"%string o3), (M "N"%string o4) by (assumption || (clear; cbn; tauto)).
  destruct (dict_find (nf_vars f) "RRR"), (dict_find (nf_vars f) "SNOWFALL"), (dict_find (nf_vars f) "LWin"), (dict_find (nf_vars f) "N"); reflexivity.
Qed.

(*@ C113 Each of the thirteen variables of a converted file has its own dimensions, unit and description; nine of them have a time. *)
Lemma file_units_lem :
  forall parse vapour doy (cfg : AwsConfig) (csv : frame) static lut sd ed xl xr yl yu f ws n v u long,
    (forall st, static = Some st -> plain_static st) ->
    aws_main parse vapour doy cfg csv static lut sd ed xl xr yl yu = Ok (f, ws) ->
    dict_find (nf_vars f) n = Some v -> In (n, (u, long)) input_units ->
    v_units v = u /\ v_long_name v = long /\
    v_dims v = if in_dec string_dec n ["HGT"; "ASPECT"; "SLOPE"; "MASK"]%string then file_dims cfg
               else "time"%string :: file_dims cfg.
Proof.
  intros parse vapour doy cfg csv static lut sd ed xl xr yl yu f ws n v u long PS H FV IU.
  apply main_ok in H as (df & vars0 & vars1 & s1 & s2 & s3 & s4 & a1 & a2 & a3 & a4 & a5 & o1 & o2 & o3 & o4 & A1 & A2 & _ & _ & _ & _ & _ & PL).
  specialize (PL PS n).
  pose proof (fun N => add_variables_find _ _ _ _ N A1 n) as F1. specialize (F1 nodup4).
  pose proof (fun N => add_variables_find _ _ _ _ N A2 n) as F2. specialize (F2 nodup9).
  assert (MD : dict_find variable_metadata n <> None) by (apply names_of_metadata, (in_map fst _ _ IU)).
  assert (DONE : forall dims a, (exists u, dict_find variable_metadata n = Some u /\ dict_find (nf_vars f) n = Some (mkVariable dims a (fst u) (snd u))) ->
    v_units v = u /\ v_long_name v = long /\ v_dims v = dims).
  { intros dims a (m & M & E). apply metadata_units in M. pose proof (units_unique _ _ _ IU M) as X. subst m.
    rewrite E in FV. injection FV as <-. cbn. auto. }
  pose proof (in_map fst _ _ IU) as IN. cbn [fst] in IN. cbn in IN.
  destruct (in_dec string_dec n ["HGT"; "ASPECT"; "SLOPE"; "MASK"]%string) as [I|I].
  - cbn in I. destruct I as [<-|[<-|[<-|[<-|[]]]]]; cbn in F1, F2; rewrite <- F2 in F1; eapply DONE; exact F1.
  - specialize (PL MD ltac:(clear -I; cbn in I; cbn; tauto)).
    assert (X : dict_find vars1 n = None).
    { cbn [dict_find] in F1. rewrite PL in F1. cbn in I.
      destruct (String.eqb_spec "HGT" n); [subst; clear -I; tauto|]. destruct (String.eqb_spec "ASPECT" n); [subst; clear -I; tauto|].
      destruct (String.eqb_spec "SLOPE" n); [subst; clear -I; tauto|]. destruct (String.eqb_spec "MASK" n); [subst; clear -I; tauto|]. exact F1. }
    rewrite X in F2.
    destruct (dict_find _ n) as [[a|]|] in F2; [eapply DONE; exact F2|congruence|congruence].
Qed.

(** ** Refusals *)

Lemma has_none_in l : has_none l = true <-> In None l.
Proof.
  unfold has_none. rewrite existsb_exists. split.
  - intros ([x|] & I & E); [discriminate|exact I].
  - intros I. exists None. auto.
Qed.

Lemma map_res_missing {A} (d : dict A) l : (exists n, In n l /\ dict_find d n = None) -> map_res (dict_get d) l = Err KeyError.
Proof.
  induction l as [|a t IH]; intros (n & I & E); [destruct I|]. cbn [map_res]. unfold dict_get at 1.
  destruct (dict_find d a) eqn:F; cbn [bind]; [|reflexivity]. rewrite IH; [reflexivity|].
  exists n. split; [|exact E]. destruct I as [<-|I]; [congruence|exact I].
Qed.

(*@ C113 What the conversion refuses, and with which exception: missing values in the data of a point, or in a glacier cell of a grid, and a temperature out of range or no temperature at all with ValueError; data with neither longwave radiation nor clouds with ValueError; a static file without coordinates with KeyError; a grid without a static file with ValueError. *)
Lemma conversion_refusals_lem :
  (forall vars,
     ((exists n v, In (n, v) vars /\ In None (array_values (v_data v))) -> check_for_nan_point vars = Err ValueError) /\
     ((forall n v, In (n, v) vars -> ~ In None (array_values (v_data v))) -> check_for_nan_point vars = Ok tt)) /\
  (forall vars masks y x, (0 <= y)%Z -> (0 <= x)%Z ->
     dict_find vars "MASK"%string = Some masks -> cell_at (v_data masks) y x = Some (Series [Some 1]) ->
     (forall n v, In (n, v) vars -> cell_at (v_data v) y x <> None) ->
     (exists n v b, In (n, v) vars /\ cell_at (v_data v) y x = Some b /\ In None (block_values b)) ->
     check_for_nan_cell vars y x = Err ValueError) /\
  (forall l : list number, (l = [] \/ exists x, In (Some x) l /\ (x < 173.16 \/ 373.16 < x)) ->
     check_temperature_bounds l = Err ValueError) /\
  (forall cfg b df, (forall n, In n [aw_T2 cfg; aw_RH2 cfg; aw_U2 cfg; aw_G cfg; aw_PRES cfg] -> column df n <> None) ->
     column df (aw_LWin cfg) = None -> column df (aw_N cfg) = None -> set_order_and_type cfg b df = Err ValueError) /\
  (forall cfg b df, (exists n, In n [aw_T2 cfg; aw_RH2 cfg; aw_U2 cfg; aw_G cfg; aw_PRES cfg] /\ column df n = None) ->
     set_order_and_type cfg b df = Err KeyError) /\
  (forall cfg st, aw_WRF cfg = false -> st_lats st = [] \/ st_lons st = [] ->
     point_coordinates cfg (Some st) = Err KeyError) /\
  (forall parse vapour doy cfg csv lut sd ed xl xr yl yu, aw_point_model cfg = false ->
     aws_main parse vapour doy cfg csv None lut sd ed xl xr yl yu = Err ValueError).
Proof.
  split; [|split; [|split; [|split; [|split; [|split]]]]].
  - intros vars. unfold check_for_nan_point. split.
    + intros (n & v & I & J). rewrite (proj2 (existsb_exists _ _)); [reflexivity|]. exists (n, v). split; [exact I|]. apply has_none_in. exact J.
    + intros A. destruct (existsb _ vars) eqn:E; [|reflexivity]. exfalso. apply existsb_exists in E as ([n v] & I & J).
      apply has_none_in in J. exact (A n v I J).
  - intros vars masks y x Y X M C A (n & v & b & I & CB & J). unfold check_for_nan_cell, attr_get. rewrite M. cbn [bind].
    rewrite (cell_get_at _ _ _ Y X), C. cbn [bind]. unfold num_eqb, Reqb. destruct (Req_EM_T 1 1) as [_|N1]; [|congruence].
    assert (B : map_res (fun nv : string * variable => cell_get (v_data (snd nv)) y x) vars =
      Ok (map (fun nv : string * variable => match cell_at (v_data (snd nv)) y x with Some b => b | None => Series [] end) vars)).
    { apply map_res_pure. intros [m w] J'. cbn [snd]. rewrite (cell_get_at _ _ _ Y X).
      destruct (cell_at (v_data w) y x) eqn:E; [reflexivity|]. exfalso. exact (A m w J' E). }
    rewrite B. cbn [bind]. rewrite (proj2 (existsb_exists _ _)); [reflexivity|].
    exists b. split; [|apply has_none_in; exact J]. apply in_map_iff. exists (n, v). cbn [snd]. rewrite CB. auto.
  - intros l H. destruct (check_temperature_bounds l) as [[]|e] eqn:E.
    + exfalso. apply temperature_bounds_iff in E as [E1 E2]. destruct H as [H|(x & I & H)]; [exact (E1 H)|]. specialize (E2 x I). lra.
    + f_equal. unfold check_temperature_bounds in E. destruct l as [|a t]; [inversion E; reflexivity|].
      destruct (reals_of (a :: t)) as [|x r]; [discriminate|]. destruct (Rltb 373.16 _); [inversion E; reflexivity|]. destruct (Rltb _ 173.16); inversion E; reflexivity.
  - intros cfg b df RQ L N. unfold column in *. unfold set_order_and_type.
    assert (M : exists cols, map_res (dict_get (f_cols df)) [aw_T2 cfg; aw_RH2 cfg; aw_U2 cfg; aw_G cfg; aw_PRES cfg] = Ok cols).
    { eexists. apply (map_res_pure _ (fun n => match dict_find (f_cols df) n with Some c => c | None => [] end)).
      intros n I. unfold dict_get. specialize (RQ n I). destruct (dict_find (f_cols df) n); [reflexivity|congruence]. }
    destruct M as (cols & ->). cbn [bind]. cbv zeta. rewrite (mem_find _ (aw_PRES cfg)).
    pose proof (RQ (aw_PRES cfg) ltac:(cbn; tauto)) as P. destruct (dict_find (f_cols df) (aw_PRES cfg)); [|congruence].
    cbn [negb]. rewrite andb_false_r, !mem_find, L, N. reflexivity.
  - intros cfg b df H. unfold set_order_and_type. rewrite map_res_missing by exact H. reflexivity.
  - intros cfg st W H. unfold point_coordinates. rewrite W. unfold nearest.
    destruct (st_lats st); [reflexivity|]. cbn [bind]. destruct H as [H|H]; [discriminate|]. rewrite H. reflexivity.
  - intros. unfold aws_main. rewrite H. reflexivity.
Qed.

Lemma ranges_nodup : NoDup (map fst warning_ranges).
Proof. cbn. repeat constructor; cbn; intuition discriminate. Qed.

(** a point at 3000 m, a station at 2500 m *)
Definition windy_config : AwsConfig :=
  mkAwsConfig "PRES" "T2" "RH2" "G" "RRR" "U2" "LWin" "SNOWFALL" "N" true false false 3600%Z None false
    0 0 0 0 true 9 46 3000 2500 46 (Ropp 0.006) 0 0 0.
Definition windy_station : frame :=
  mkFrame [0; 1800; 3600]%Z
        [("T2", [Some 270; Some 272; Some 274]); ("RH2", [Some 50; None; Some 101]); ("U2", [Some 1; Some 3; Some 60]);
         ("G", [Some 0; Some 100; Some 200]); ("PRES", [Some 700; Some 700; Some 701]); ("RRR", [Some 1; None; Some 0]);
         ("LWin", [Some 250; Some 260; Some 270])]%string.

(*@ex C113 A file with warnings: the wind of 60 m/s is too strong, the temperatures are accepted. *)
Lemma warning_example_lem :
  forall parse vapour doy lut, exists f ws,
    aws_main parse vapour doy windy_config
      windy_station None lut None None None None None None = Ok (f, ws) /\
    map fst ws = ["T2"; "RH2"; "U2"; "G"; "PRES"; "RRR"; "LWin"]%string /\
    In ("U2"%string, true) ws /\ In ("T2"%string, false) ws.
Proof.
  intros parse vapour doy lut.
  unfold windy_config. change (mkAwsConfig _ _ _ _ _ _ _ _ _ _ _ _ _ _ _ _ _ _ _ _ _ _ _ _ _ _ _ _ _) with a_config. set (st := windy_station).
  assert (RE : rectangular st).
  { intros n c H. apply find_in in H. cbn in H. repeat (destruct H as [H|H]; [injection H as <- <-; reflexivity|]). destruct H. }
  assert (HB : forall b, hour_in_file parse st None None b -> b = 0%Z \/ b = 3600%Z) by exact (a_hours parse).
  assert (HM : forall n b, In n ["T2"; "RH2"; "U2"; "G"; "PRES"; "RRR"; "LWin"]%string -> hour_in_file parse st None None b -> hourly_mean st n b <> None).
  { intros n b HN H. apply HB in H. destruct H as [-> | ->];
    repeat (destruct HN as [<-|HN]; [cbv [hourly_mean]; cbn; discriminate|]); destruct HN. }
  assert (F : exists f w, create_1D_input parse a_config st None None None = Ok (f, w)).
  { apply point_conversion_succeeds_lem.
    - exact a_names.
    - exact RE.
    - left. reflexivity.
    - cbn. unfold standard_atmosphere. lra.
    - cbn. unfold standard_atmosphere. lra.
    - exists 0%Z. split; [reflexivity|]. split; [reflexivity|]. exists 0%Z, 3600%Z. cbn. split; [tauto|]. split; [tauto|lia].
    - intros n b HN H. apply HM; auto. cbn in HN. cbn. tauto.
    - discriminate.
    - intros n HN. cbn in HN. destruct HN as [<-|[<-|[<-|[<-|[]]]]].
      + right. intros b H. apply HM; auto. cbn. tauto.
      + left. intros (c & x & E & _). discriminate.
      + right. intros b H. apply HM; auto. cbn. tauto.
      + left. intros (c & x & E & _). discriminate.
    - left. exists [Some 250; Some 260; Some 270], 250. split; [reflexivity|left; reflexivity].
    - intros b v H HV. apply HB in H. cbn [a_config aw_hgt aw_stationAlt aw_lapse_T]. unfold kelvin. cbn [aw_in_K a_config].
      destruct H as [-> | ->]; unfold hourly_mean in HV; cbn in HV; injection HV as <-; lra. }
  destruct F as (f & ws & H). exists f, ws. split; [exact H|].
  pose proof (point_ok _ _ _ _ _ _ _ _ a_names H) as (_ & HT & _ & _ & _ & _ & vars0 & a0 & s0 & m0 & _ & _ & _ & _ & _ & _ & VN & VS).
  rewrite filter_true in HT by reflexivity. change (bins 3600 (f_index st)) with [0; 3600]%Z in HT.
  pose proof (point_file_content_lem parse a_config st None None None f ws a_names RE ltac:(intros; discriminate) H) as (C1 & _ & C3 & _ & _ & (C6 & _) & (_ & C7) & (C8 & _) & (_ & C9)).
  destruct (conversion_warnings_lem parse vapour doy a_config st None lut None None None None None None f ws ltac:(intros; discriminate) H) as (E & FA).
  assert (VAL : forall n w l, In (n, w) ws -> file_series f n 0 0 = Some l -> (exists x, dict_find (point_vars a_config st (nf_time f)) n = Some (Some (point_series x))) ->
    exists mn mx, In (n, (mn, mx)) warning_ranges /\ (w = true <-> exists v, In (Some v) l /\ (v < mn \/ mx < v))).
  { intros n w l I FS (x & X). rewrite Forall_forall in FA. destruct (FA _ I) as (var & mn & mx & V & R & W). cbn [fst snd] in *.
    exists mn, mx. split; [exact R|]. destruct (VS n _ X) as (u & _ & F). rewrite F in V. injection V as <-. cbn [v_data] in W.
    rewrite series_values in W. apply point_find in F. rewrite F in FS. injection FS as <-. exact W. }
  assert (NW : forall n, In n (map fst ws) -> exists w, In (n, w) ws).
  { intros n I. apply in_map_iff in I as ([m w] & <- & I). eauto. }
  cbn [filter] in E. rewrite C7 in E by (intros (c & x & X & _); discriminate). rewrite C9 in E by (intros (c & x & X & _); discriminate).
  assert (IN : forall n l, file_series f n 0 0 = Some l -> dict_find (nf_vars f) n <> None).
  { intros n l FS X. unfold file_series in FS. rewrite X in FS. discriminate. }
  pose proof (IN _ _ (C6 ltac:(exists [Some 1; None; Some 0], 1; split; [reflexivity|left; reflexivity]))) as X6.
  pose proof (IN _ _ (C8 ltac:(exists [Some 250; Some 260; Some 270], 250; split; [reflexivity|left; reflexivity]))) as X8.
  destruct (dict_find (nf_vars f) "RRR"); [|congruence]. destruct (dict_find (nf_vars f) "LWin"); [|congruence].
  cbn [app] in E. split; [exact E|]. rewrite HT in C1, C3. split.
  - destruct (NW "U2"%string) as (w & I); [rewrite E; cbn; tauto|].
    destruct (VAL _ _ _ I C3) as (mn & mx & R & W); [eexists; reflexivity|].
    assert (X : w = true); [|subst w; exact I]. apply W. exists 60.
    apply in_find in R; [|exact ranges_nodup]. cbn in R. injection R as <- <-. split; [|right; lra].
    unfold hourly_mean. cbn. right. left. f_equal. lra.
  - destruct (NW "T2"%string) as (w & I); [rewrite E; cbn; tauto|].
    destruct (VAL _ _ _ I C1) as (mn & mx & R & W); [eexists; reflexivity|].
    assert (X : w = false); [|subst w; exact I]. destruct w; [|reflexivity]. exfalso. destruct (proj1 W eq_refl) as (v' & J & L).
    apply in_find in R; [|exact ranges_nodup]. cbn in R. injection R as <- <-.
    unfold hourly_mean in J. cbn in J. unfold kelvin in J. cbn in J.
    destruct J as [J|[J|[]]]; injection J as <-; lra.
Qed.
