(** * The input that the result file repeats *)
From Verif Require Import ModelPy ModelConstants ModelNode ModelGrid ModelSurface ModelInit
  ModelCore ModelConfig ModelIO ModelMain SpecIO SpecCell SpecCalm SpecCopy.
From Verif Require Import LemPy LemDict LemIO LemIO2 LemIO3 LemIO4 LemIO5 LemIO6 Spec LemCorrect LemFinIO LemFinIO2 LemFinCell LemFinCell2.
From Coq Require Import Permutation Lra.

(** ** The simulation leaves the other variables alone *)

Lemma pairs_keys add pg pl md arrays names p k : pairs add pg pl md arrays names = Ok p -> In k (map fst p) ->
  exists n, In n names /\ k = (pl ++ n)%string.
Proof.
  intros E I. apply in_map_iff in I as ([k' v] & <- & I).
  destruct (pairs_in _ _ _ _ _ _ _ _ _ E I) as (n & a & m & N1 & N2 & _). eauto.
Qed.

Lemma collect_untouched cfg work l acc col k :
  answers_for_its_cell work -> ~ In k (io_atm (col_io acc)) -> ~ In k (io_internal (col_io acc)) -> prefix "LAYER_" k = false ->
  collect cfg work l acc = Ok col -> dict_find (io_RESULT (col_io col)) k = dict_find (io_RESULT (col_io acc)) k.
Proof.
  intros W. revert acc. induction l as [|j l IH]; intros acc N1 N2 N3 H; cbn [collect] in H.
  - injection H as <-. reflexivity.
  - apply bind_ok in H as (r & Er & H). apply bind_ok in H as (acc' & Es & H).
    pose proof (W _ _ Er) as F.
    apply (store_result_ok cfg r (j_y j) (j_x j)) in Es; [|exact F].
    destruct Es as (_ & os & a & p & q & stat & vals & E1 & E2 & E3 & E4 & E5 & ->).
    rewrite (IH _) with (4 := H); cbn [col_io rebuild io_atm io_internal io_RESULT]; try assumption.
    rewrite find_union, find_last_none; [reflexivity|]. intros I.
    unfold result_pairs in E3. apply bind_ok in E3 as (p1 & P1 & E3). apply bind_ok in E3 as (p2 & P2 & E3).
    apply bind_ok in E3 as (p3 & P3 & E3). injection E3 as <-. rewrite !map_app, !in_app_iff in I.
    destruct I as [I|[I|I]].
    + destruct (pairs_keys _ _ _ _ _ _ _ _ P1 I) as (n & I1 & ->). exact (N1 I1).
    + destruct (pairs_keys _ _ _ _ _ _ _ _ P2 I) as (n & I1 & ->). exact (N2 I1).
    + destruct (rc_full_field cfg); [|injection P3 as <-; destruct I].
      destruct (pairs_keys _ _ _ _ _ _ _ _ P3 I) as (n & _ & ->). destruct n; discriminate N3.
Qed.

(** ** What the result dataset starts with *)

Lemma fold_present (vars : dict (cells block)) mk l ds k :
  NoDup (map fst l) ->
  dict_find (fold_left (fun ds (m : string * (string * string)) => match dict_find vars (fst m) with
       | Some v => dict_set ds (fst m) (mk v (fst (snd m)) (snd (snd m))) | None => ds end) l ds) k =
  match dict_find vars k, dict_find l k with
  | Some v, Some m => Some (mk v (fst m) (snd m))
  | _, _ => dict_find (V := variable) ds k
  end.
Proof.
  revert ds. induction l as [|[n m] l IH]; intros ds ND; cbn [fold_left].
  - cbn. destruct (dict_find vars k); reflexivity.
  - cbn [map fst] in ND. inversion ND as [|? ? Nn Nl]; subst. rewrite (IH _ Nl). cbn [fst snd dict_find].
    destruct (String.eqb_spec n k) as [->|Nk].
    + assert (L : dict_find l k = None) by (apply find_none; exact Nn). rewrite L.
      destruct (dict_find vars k) as [v|]; [|reflexivity]. rewrite find_set, String.eqb_refl. reflexivity.
    + destruct (dict_find vars k) as [v|], (dict_find l k) as [m'|]; try reflexivity;
        (destruct (dict_find vars n); [|reflexivity]; rewrite find_set; destruct (String.eqb_spec n k); [contradiction|reflexivity]).
Qed.

Lemma spatial_nodup : NoDup (map fst metadata_spatial).
Proof. repeat constructor; cbn; intros I; repeat (destruct I as [I|I]; [discriminate|]); exact I. Qed.
Lemma spatiotemporal_nodup : NoDup (map fst metadata_spatiotemporal).
Proof. repeat constructor; cbn; intros I; repeat (destruct I as [I|I]; [discriminate|]); exact I. Qed.

Lemma nan_block_none b : no_number (nan_block b).
Proof.
  destruct b as [l|rows]; cbn.
  - apply Forall_forall. intros v I. apply in_map_iff in I as (w & <- & _). reflexivity.
  - apply Forall_forall. intros r I. apply in_map_iff in I as (w & <- & _). apply Forall_forall.
    intros v I. apply in_map_iff in I as (u & <- & _). reflexivity.
Qed.

Lemma nan_cells a y x : cell_at (map (map nan_block) a) y x = option_map nan_block (cell_at a y x).
Proof.
  unfold cell_at. destruct ((0 <=? y)%Z && (0 <=? x)%Z)%bool; [|reflexivity].
  rewrite nth_error_map. destruct (nth_error a (Z.to_nat y)) as [r|]; [|reflexivity]. cbn. apply nth_error_map.
Qed.

(** the result dataset before the simulation *)
Lemma starts_with cfg data io io1 : init_result_dataset cfg data io = Ok io1 ->
  (forall name units long, In (name, (units, long)) repeated_static ->
     dict_find (io_RESULT io1) name =
       option_map (fun a => mkVariable [rc_northing cfg; rc_easting cfg] a units long) (dict_find (g_vars data) name)) /\
  (forall name units long, In (name, (units, long)) repeated_series ->
     match dict_find (g_vars data) name with
     | Some a => dict_find (io_RESULT io1) name =
         Some (mkVariable ["time"%string; rc_northing cfg; rc_easting cfg] a units long)
     | None =>
         if in_names name ["RRR"; "N"]%string
         then exists T2, dict_find (g_vars data) "T2" = Some T2 /\
           dict_find (io_RESULT io1) name =
             Some (mkVariable ["time"%string; rc_northing cfg; rc_easting cfg] (map (map nan_block) T2) long units)
         else dict_find (io_RESULT io1) name = None
     end).
Proof.
  intros H. unfold init_result_dataset in H.
  match type of H with context [fold_left ?f metadata_spatiotemporal ?z] =>
    set (r2 := fold_left f metadata_spatiotemporal z) in H end.
  assert (S2 : forall k, dict_find r2 k =
    match dict_find (g_vars data) k, dict_find metadata_spatiotemporal k with
    | Some v, Some m => Some (mkVariable ["time"%string; rc_northing cfg; rc_easting cfg] v (fst m) (snd m))
    | Some v, None => match dict_find metadata_spatial k with
                      | Some m => Some (mkVariable [rc_northing cfg; rc_easting cfg] v (fst m) (snd m))
                      | None => None end
    | None, _ => None
    end).
  { intros k. unfold r2, add_variable_along_latlontime, add_variable_along_latlon.
    rewrite (fold_present (g_vars data) (fun v u l => mkVariable ["time"%string; rc_northing cfg; rc_easting cfg] v u l)
      metadata_spatiotemporal _ k spatiotemporal_nodup).
    rewrite (fold_present (g_vars data) (fun v u l => mkVariable [rc_northing cfg; rc_easting cfg] v u l)
      metadata_spatial [] k spatial_nodup).
    destruct (dict_find (g_vars data) k), (dict_find metadata_spatiotemporal k), (dict_find metadata_spatial k); reflexivity. }
  clearbody r2.
  apply bind_ok in H as (r3 & E3 & H). apply bind_ok in H as (r4 & E4 & H). injection H as <-.
  cbn [with_RESULT io_RESULT].
  assert (F : forall name m ds ds', dict_find metadata_spatiotemporal name = Some m ->
    (if dict_mem (g_vars data) name then Ok ds
     else T2 <- attr_get (g_vars data) "T2"%string ;; m <- dict_get metadata_spatiotemporal name ;;
          Ok (add_variable_along_latlontime cfg ds (map (map nan_block) T2) name (snd m) (fst m)))
    = Ok ds' -> (forall k, k <> name -> dict_find ds' k = dict_find ds k) /\
      match dict_find (g_vars data) name with
      | Some _ => dict_find ds' name = dict_find ds name
      | None => exists T2, dict_find (g_vars data) "T2" = Some T2 /\ dict_find ds' name =
             Some (mkVariable ["time"%string; rc_northing cfg; rc_easting cfg] (map (map nan_block) T2) (snd m) (fst m))
      end).
  { intros name m ds ds' Em E. unfold dict_mem in E. destruct (dict_find (g_vars data) name) as [v|].
    - injection E as <-. auto.
    - apply bind_ok in E as (T2 & ET & E). unfold dict_get in E. rewrite Em in E. cbn [bind] in E. injection E as <-.
      unfold attr_get in ET. destruct (dict_find (g_vars data) "T2") as [T|]; [|discriminate]. injection ET as <-.
      split.
      + intros k Nk. unfold add_variable_along_latlontime. rewrite find_set. destruct (String.eqb_spec name k); [congruence|reflexivity].
      + exists T. split; [reflexivity|]. unfold add_variable_along_latlontime. rewrite find_set, String.eqb_refl. reflexivity. }
  destruct (F "RRR"%string _ _ _ eq_refl E3) as (A1 & A2). destruct (F "N"%string _ _ _ eq_refl E4) as (B1 & B2).
  clear F E3 E4.
  assert (O : forall k, k <> "RRR"%string -> k <> "N"%string -> dict_find r4 k = dict_find r2 k).
  { intros k N1 N2. rewrite B1, A1 by assumption. reflexivity. }
  split.
  - intros name units long I. cbn [repeated_static In] in I.
    repeat (destruct I as [I|I]; [injection I as <- <- <-; rewrite O, S2 by discriminate; cbn; destruct (dict_find (g_vars data) _); reflexivity|]).
    destruct I.
  - intros name units long I.
    assert (M : dict_find metadata_spatiotemporal name = Some (units, long)).
    { cbn [repeated_series In] in I. repeat (destruct I as [I|I]; [injection I as <- <- <-; reflexivity|]). destruct I. }
    clear I. unfold in_names. cbn [existsb].
    destruct (String.eqb_spec name "RRR") as [->|N1].
    { cbn in M. injection M as <- <-. rewrite B1 by discriminate. cbn [orb].
      destruct (dict_find (g_vars data) "RRR") as [a|] eqn:E; [|exact A2]. rewrite A2, S2, E. reflexivity. }
    destruct (String.eqb_spec name "N") as [->|N2].
    { cbn in M. injection M as <- <-. cbn [orb].
      destruct (dict_find (g_vars data) "N") as [a|] eqn:E; [|exact B2]. rewrite B2, A1, S2, E by discriminate. reflexivity. }
    cbn [orb]. rewrite O, S2, M by assumption. destruct (dict_find (g_vars data) name); reflexivity.
Qed.

Lemma not_listed cfg name : ~ listed cfg name -> ~ In name (io_atm (io_init cfg)) /\ ~ In name (io_internal (io_init cfg)).
Proof.
  intros N. split; intros I; apply N.
  - right. cbn [io_init io_atm] in I. unfold input_names in I. cbn [fold_left] in I.
    rewrite !filter_In in I. decompose [and] I. split; [assumption|]. cbn [In].
    intros K. repeat (destruct K as [<-|K]; [rewrite String.eqb_refl in *; discriminate|]). exact K.
  - left. exact I.
Qed.

(*@ C117 The result file of a completed run repeats the input: a field of the input that the simulation does not write itself stands in the file with its own numbers, its dimensions, its unit and its long name; a field that the input lacks is not in the file.  Exceptions are precipitation and cloud cover that the input lacks: they stand in the file without a number, and with unit and long name exchanged. *)
Lemma inputs_repeated_lem :
  forall parse cfg c work arrivals file open_restart stakes measured w whole ms,
  (forall data, answers_for_its_cell (work data)) -> schedule arrivals -> rc_restart cfg = false ->
  cosipy_main parse cfg c work arrivals file open_restart stakes measured = Ok w ->
  init_data_dataset parse cfg file None = Ok (whole, ms) ->
  let data := if rc_tile cfg then cut_tile cfg whole else whole in
  (forall name units long, In (name, (units, long)) repeated_static -> ~ listed cfg name ->
     dict_find (w_result w) name =
       option_map (fun a => mkVariable [rc_northing cfg; rc_easting cfg] a units long) (dict_find (g_vars data) name)) /\
  (forall name units long, In (name, (units, long)) repeated_series -> ~ listed cfg name ->
     match dict_find (g_vars data) name with
     | Some a => dict_find (w_result w) name =
         Some (mkVariable ["time"%string; rc_northing cfg; rc_easting cfg] a units long)
     | None =>
         if in_names name ["RRR"; "N"]%string
         then exists v, dict_find (w_result w) name = Some v /\ v_units v = long /\ v_long_name v = units /\
           forall y x b, cell_at (v_data v) y x = Some b -> no_number b
         else dict_find (w_result w) name = None
     end).
Proof.
  intros parse cfg c work arrivals file open_restart stakes measured w whole ms W Sc Rs H Ed data.
  unfold cosipy_main in H.
  apply bind_ok in H as ([[[io data'] gr] ms'] & E1 & H). apply bind_ok in H as (io1 & E2 & H).
  apply bind_ok in H as (last & E3 & H). apply bind_ok in H as (col & E4 & H).
  apply bind_ok in H as (nm & E5 & H). injection H as <-. cbn [w_result].
  unfold create_data_file in E1. rewrite Rs, Ed in E1. cbn [bind] in E1.
  apply bind_ok in E1 as ([] & _ & E1). apply bind_ok in E1 as ([ny nx] & _ & E1). injection E1 as <- <- _ _.
  fold data in E2, E4. 
  pose proof (starts_with _ _ _ _ E2) as (S1 & S2).
  apply init_result_nodup in E2 as (_ & _ & N & _). injection N as N1 N2 N3.
  apply run_parts in E4 as (ny' & nx' & jobs & _ & _ & Hc).
  assert (U : forall name, ~ listed cfg name -> prefix "LAYER_" name = false ->
    dict_find (io_RESULT (col_io col)) name = dict_find (io_RESULT io1) name).
  { intros name L P. apply not_listed in L as [L1 L2].
    rewrite (collect_untouched _ _ _ _ _ name (W data)) with (4 := Hc); [reflexivity|..|exact P].
    - change (~ In name (io_atm io1)). rewrite N1. exact L1.
    - change (~ In name (io_internal io1)). rewrite N2. exact L2. }
  split.
  - intros name units long I L. rewrite U; [apply S1; exact I|exact L|].
    cbn [repeated_static In] in I. repeat (destruct I as [I|I]; [injection I as <- _ _; reflexivity|]). destruct I.
  - intros name units long I L. specialize (S2 name units long I).
    rewrite U; [|exact L|cbn [repeated_series In] in I; repeat (destruct I as [I|I]; [injection I as <- _ _; reflexivity|]); destruct I].
    destruct (dict_find (g_vars data) name) as [a|]; [exact S2|].
    destruct (in_names name ["RRR"; "N"]%string); [|exact S2].
    destruct S2 as (T2 & _ & E). eexists. split; [exact E|]. split; [reflexivity|]. split; [reflexivity|].
    cbn [v_data]. intros y x b Hb. rewrite nan_cells in Hb. destruct (cell_at T2 y x); [|discriminate].
    cbn in Hb. injection Hb as <-. apply nan_block_none.
Qed.

(*@ C117 With the shipped lists of the output the file repeats the four static fields and the seven meteorological ones, and the simulation writes snowfall and incoming longwave radiation. *)
Lemma shipped_repeats_lem :
  forall cfg name,
  rc_output_atm cfg = "T2,RH2,U2,RAIN,SNOWFALL,RRR,PRES,N,G,LWin,LWout,H,LE,B,QRR,Z0,ALBEDO,TS"%string ->
  rc_output_internal cfg =
    "ME,MB,surfMB,intMB,EVAPORATION,SUBLIMATION,CONDENSATION,DEPOSITION,surfM,subM,Q,REFREEZE,SNOWHEIGHT,TOTALHEIGHT,LAYERS"%string ->
  In name (map fst (repeated_static ++ repeated_series)) ->
  (listed cfg name <-> In name ["SNOWFALL"; "LWin"]%string).
Proof.
  intros cfg name E1 E2 I. unfold listed. rewrite E1, E2.
  assert (L1 : get_output_variables "T2,RH2,U2,RAIN,SNOWFALL,RRR,PRES,N,G,LWin,LWout,H,LE,B,QRR,Z0,ALBEDO,TS" =
    ["T2"; "RH2"; "U2"; "RAIN"; "SNOWFALL"; "RRR"; "PRES"; "N"; "G"; "LWin"; "LWout"; "H"; "LE"; "B"; "QRR"; "Z0"; "ALBEDO"; "TS"]%string)
    by reflexivity.
  assert (L2 : get_output_variables "ME,MB,surfMB,intMB,EVAPORATION,SUBLIMATION,CONDENSATION,DEPOSITION,surfM,subM,Q,REFREEZE,SNOWHEIGHT,TOTALHEIGHT,LAYERS" =
    ["ME"; "MB"; "surfMB"; "intMB"; "EVAPORATION"; "SUBLIMATION"; "CONDENSATION"; "DEPOSITION"; "surfM"; "subM"; "Q"; "REFREEZE"; "SNOWHEIGHT"; "TOTALHEIGHT"; "LAYERS"]%string)
    by reflexivity.
  rewrite L1, L2. clear L1 L2 E1 E2.
  assert (D : forall l, In name l <-> in_names name l = true).
  { intros l. unfold in_names. rewrite existsb_exists. split.
    - intros H. exists name. split; [exact H|apply String.eqb_refl].
    - intros (n & H & K). apply String.eqb_eq in K. subst. exact H. }
  rewrite !D. cbn [map fst repeated_static repeated_series app In] in I.
  repeat (destruct I as [<-|I]; [vm_compute; split;
    [intros [H|[H K]]; [discriminate H|]; first [reflexivity|discriminate H|destruct (K eq_refl)]
    |intros H; first [discriminate H|right; split; [reflexivity|discriminate]]]|]).
  destruct I.
Qed.

(*@ex C117 The run of the calm night: the file repeats the air temperature of both cells, and has no cloud cover: unit and long name of the empty field are exchanged. *)
Lemma repeated_case_lem : exists fuel, forall sd, exists w,
  cosipy_main calm_parse (calm_config false) calm_constants
    (cell_work fuel (calm_config false) calm_constants calm_switches calm_solvers sd) (@rev Job)
    (Some calm_file) (fun _ => None) [] [] = Ok w /\
  dict_find (w_result w) "T2" =
    Some (mkVariable ["time"; "lat"; "lon"]%string [[Series [Some 220]; Series [None]]] "K" "Air temperature at 2 m") /\
  exists v, dict_find (w_result w) "N" = Some v /\ v_units v = "Cloud fraction"%string /\ v_long_name v = "-"%string.
Proof.
  destruct calm_run_lem as (fuel & R). exists fuel. intros sd. destruct (R sd) as (w & _ & H & _). exists w.
  split; [exact H|]. destruct (calm_opened false) as [ms Ed].
  destruct (inputs_repeated_lem calm_parse (calm_config false) calm_constants
    (cell_work fuel (calm_config false) calm_constants calm_switches calm_solvers sd) (@rev Job)
    (Some calm_file) (fun _ => None) [] [] w calm_file ms) as (_ & P).
  - intros data. apply worker_answers_lem.
  - intros l. apply Permutation_rev.
  - reflexivity.
  - exact H.
  - exact Ed.
  - assert (L : forall name, In name ["T2"; "N"]%string -> ~ listed (calm_config false) name).
    { intros name I K. apply shipped_repeats_lem in K; [|reflexivity|reflexivity|].
      - cbn in I, K. destruct I as [<-|[<-|[]]]; destruct K as [K|[K|[]]]; discriminate.
      - cbn in I |- *. destruct I as [<-|[<-|[]]]; tauto. }
    split.
    + specialize (P "T2"%string "K"%string "Air temperature at 2 m"%string ltac:(cbn; tauto) (L "T2"%string ltac:(cbn; tauto))). exact P.
    + specialize (P "N"%string "-"%string "Cloud fraction"%string ltac:(cbn; tauto) (L "N"%string ltac:(cbn; tauto))).
      cbn [g_vars calm_file dict_find String.eqb Ascii.eqb Bool.eqb in_names existsb orb] in P.
      destruct P as (v & V1 & V2 & V3 & _). eauto.
Qed.

(** ** Units *)

(*@ C118 Every simulated variable in the result file and every variable of the restart file of a run with a glacier cell carries its own unit and long name.  Snowfall that the simulation writes is in metres of water, snowfall that the file repeats (C117) in metres. *)
Lemma units_of_files_lem :
  forall cfg c work arrivals data restart stakes measured io col,
    run_cosipy cfg c work arrivals data restart stakes measured io = Ok col ->
    schedule arrivals -> answers_as_core (rc_full_field cfg) (c_max_layers c) work ->
    sizes data = Ok (io_ny io, io_nx io) -> some_glacier data (io_ny io) (io_nx io) ->
    (forall name units long, In (name, (units, long)) simulated_units ->
       In name (io_atm io) /\ atm_field name <> None \/ In name (io_internal io) /\ internal_field name <> None ->
       exists v, dict_find (io_RESULT (col_io col)) name = Some v /\ v_units v = units /\ v_long_name v = long) /\
    (forall name units long, In (name, (units, long)) layer_units -> rc_full_field cfg = true -> In name (io_full io) ->
       exists v, dict_find (io_RESULT (col_io col)) ("LAYER_" ++ name)%string = Some v /\ v_units v = units /\ v_long_name v = long) /\
    (forall name units long, In (name, (units, long)) restart_units ->
       exists v, dict_find (io_RESTART (col_io col)) name = Some v /\ v_units v = units /\ v_long_name v = long).
Proof.
  intros cfg c work arrivals data restart stakes measured io col Hrun Hs Hw Hz G. split; [|split].
  - intros name units long I L.
    assert (M : dict_find result_metadata name = Some (units, long)).
    { cbn [simulated_units In] in I. repeat (destruct I as [I|I]; [injection I as <- <- <-; reflexivity|]). destruct I. }
    assert (E : exists v m, dict_find (io_RESULT (col_io col)) name = Some v /\
      dict_find result_metadata name = Some m /\ v_units v = fst m /\ v_long_name v = snd m).
    { destruct L as [[L F]|[L F]].
      - destruct (atm_field name) as [f|] eqn:Ef; [|destruct (F eq_refl)].
        destruct (result_atm_lem _ _ _ _ _ _ _ _ _ _ name f Hrun Hs Hw Hz G L Ef) as (v & m & V1 & V2 & V3 & V4 & _).
        exists v, m. auto.
      - destruct (internal_field name) as [f|] eqn:Ef; [|destruct (F eq_refl)].
        destruct (result_internal_lem _ _ _ _ _ _ _ _ _ _ name f Hrun Hs Hw Hz G L Ef) as (v & m & V1 & V2 & V3 & V4 & _).
        exists v, m. auto. }
    destruct E as (v & m & V1 & V2 & V3 & V4). rewrite M in V2. injection V2 as <-. exists v. auto.
  - intros name units long I Ff L.
    assert (M : dict_find result_metadata ("LAYER_" ++ name)%string = Some (units, long) /\ exists f, layer_field name = Some f).
    { cbn [layer_units In] in I. repeat (destruct I as [I|I]; [injection I as <- <- <-; split; [reflexivity|eexists; reflexivity]|]). destruct I. }
    destruct M as (M & f & Ef).
    destruct (result_layers_lem _ _ _ _ _ _ _ _ _ _ name f Hrun Hs Hw Hz G Ff L Ef) as (v & m & V1 & V2 & V3 & V4 & _).
    rewrite M in V2. injection V2 as <-. exists v. auto.
  - destruct (restart_of _ _ _ _ _ _ _ _ _ _ Hrun Hs Hw Hz G) as [R1 R2].
    destruct (first_restart cfg c io) as [F1 F2].
    assert (A : forall n, In n restart_scalars -> exists v m, dict_find (io_RESTART (col_io col)) n = Some v /\
      dict_find restart_metadata n = Some m /\ v_units v = fst m /\ v_long_name v = snd m).
    { intros name I. destruct (run_filled _ _ _ _ _ _ _ _ _ _ Hrun Hs Hw Hz ("RES_" ++ name)%string
        (fun d _ => restart_variable d name) (nan_series 1)) as (arr & A1 & A2).
      + apply F1; exact I.
      + intros r os y x d outs names stat df Eo Er.
        destruct (restart_assigns _ _ _ _ d Eo) as [G1 _]; [subst r; reflexivity|].
        destruct (G1 _ I) as (v & V1 & V2). exists (Series v). split; [|exact V2].
        unfold restart_variable. rewrite (ds_get_find _ _ _ V1). reflexivity.
      + destruct (R1 _ _ I A1) as (v & m & V1 & V2 & ->). eexists. exists m. split; [exact V1|]. auto. }
    assert (B : forall n, In n restart_layers -> exists v m, dict_find (io_RESTART (col_io col)) ("LAYER_" ++ n)%string = Some v /\
      dict_find restart_metadata ("LAYER_" ++ n)%string = Some m /\ v_units v = fst m /\ v_long_name v = snd m).
    { intros name I. destruct (run_filled _ _ _ _ _ _ _ _ _ _ Hrun Hs Hw Hz ("RES_LAYER_" ++ name)%string
        (fun d _ => restart_variable d ("LAYER_" ++ name)%string) (nan_series (c_max_layers c))) as (arr & A1 & A2).
      + apply F2; exact I.
      + intros r os y x d outs names stat df Eo Er.
        destruct (restart_assigns _ _ _ _ d Eo) as [_ G1]; [subst r; reflexivity|].
        destruct (G1 _ I) as (v & V1 & V2). exists (Series v). split; [|exact V2].
        unfold restart_variable. rewrite (ds_get_find _ _ _ V1). reflexivity.
      + destruct (R2 _ _ I A1) as (v & m & V1 & V2 & ->). eexists. exists m. split; [exact V1|]. auto. }
    intros name units long I. cbn [restart_units In] in I.
    do 4 (destruct I as [I|I]; [injection I as <- <- <-;
      match goal with |- exists v, dict_find _ ?n = _ /\ _ => destruct (A n ltac:(cbn; tauto)) as (v & m & V1 & V2 & V3 & V4) end;
      cbn in V2; injection V2 as <-; exists v; auto|]).
    destruct I as [I|I]; [injection I as <- <- <-; destruct (B "HEIGHT"%string ltac:(cbn; tauto)) as (v & m & V1 & V2 & V3 & V4);
      cbn in V2; injection V2 as <-; exists v; auto|].
    destruct I as [I|I]; [injection I as <- <- <-; destruct (B "RHO"%string ltac:(cbn; tauto)) as (v & m & V1 & V2 & V3 & V4);
      cbn in V2; injection V2 as <-; exists v; auto|].
    destruct I as [I|I]; [injection I as <- <- <-; destruct (B "T"%string ltac:(cbn; tauto)) as (v & m & V1 & V2 & V3 & V4);
      cbn in V2; injection V2 as <-; exists v; auto|].
    destruct I as [I|I]; [injection I as <- <- <-; destruct (B "LWC"%string ltac:(cbn; tauto)) as (v & m & V1 & V2 & V3 & V4);
      cbn in V2; injection V2 as <-; exists v; auto|].
    destruct I as [I|I]; [injection I as <- <- <-; destruct (B "IF"%string ltac:(cbn; tauto)) as (v & m & V1 & V2 & V3 & V4);
      cbn in V2; injection V2 as <-; exists v; auto|].
    destruct I.
Qed.

(*@ C118 The unit of the liquid water of the layers is wrong: what is stored is the share of the volume, not kilograms per square metre, which would be this share times the height times 1000. *)
Lemma stored_water_unit_refuted_lem :
  exists c m g p h share,
    store_profiles c m g = Ok p /\ map n_height (g_nodes g) = [h] /\ map n_lwc (g_nodes g) = [share] /\
    lf_LWC p = [share] /\ share = 0.02 /\ h * share * 1000 = 2.
Proof.
  pose (n := mkNode 0.1 270 0.02 0.5 0).
  exists default_constants, 10%Z, (mkGrid [n] 1 0 0 0).
  pose proof (irreducible_ok n ltac:(cbn; lra)) as Ir.
  eexists. exists 0.1, 0.02. split.
  - unfold store_profiles. change (10 <? get_number_layers _)%Z with false. cbv iota.
    assert (Ig : get_irreducible_water_content (mkGrid [n] 1 0 0 0) = Ok [irreducible_content (n_ice n)]).
    { change (get_irreducible_water_content (mkGrid [n] 1 0 0 0)) with
        (y <- layer_irreducible n ;; ys <- Ok [] ;; Ok (y :: ys)). rewrite Ir. reflexivity. }
    rewrite Ig. reflexivity.
  - split; [reflexivity|]. split; [reflexivity|]. split; [reflexivity|]. split; [reflexivity|lra].
Qed.
