(** * Answers, tables and values that are read, and commands that fail *)
From Verif Require Import ModelPy ModelConstants ModelNode ModelGrid ModelHeat ModelSurface ModelInit
  ModelCore ModelConfig ModelIO ModelMain ModelFiles ModelRadCor ModelSetup ModelStatic ModelConvert
  SpecConfig SpecSetup SpecStatic SpecConvert.
From Verif Require Import LemPy LemDict LemConvert LemStatic LemFinConfig.
From Coq Require Import Ascii.

(** ** Answers *)

(** the blank, the characters 9 to 13 (tabulator to carriage return) and 28 to 31 (separators) *)
Definition blanks : list ascii := map ascii_of_nat [9; 10; 11; 12; 13; 28; 29; 30; 31; 32]%nat.
Definition blank_text (s : string) : Prop := forall ch, In ch (list_ascii_of_string s) -> In ch blanks.
(** a word with blanks around it *)
Definition the_word (words : list string) (a : string) : Prop :=
  exists before w after, a = (before ++ w ++ after)%string /\ blank_text before /\ blank_text after /\ In w words.

Lemma is_space_blanks ch : is_space ch = true <-> In ch blanks.
Proof.
  destruct ch as [[|] [|] [|] [|] [|] [|] [|] [|]]; split; intros H; vm_compute in H |- *;
    first [discriminate H | reflexivity | tauto | (repeat (destruct H as [H|H]; [discriminate H|]); destruct H)].
Qed.
Lemma space_lower ch : is_space (lower_char ch) = is_space ch.
Proof. destruct ch as [[|] [|] [|] [|] [|] [|] [|] [|]]; vm_compute; reflexivity. Qed.

Lemma drop_split l : exists b, l = b ++ drop_spaces l /\ Forall (fun ch => is_space ch = true) b.
Proof.
  induction l as [|ch l (b & E & F)]; [exists []; auto|]. cbn [drop_spaces]. destruct (is_space ch) eqn:S1.
  - exists (ch :: b). split; [rewrite E at 1; reflexivity|constructor; assumption].
  - exists []. auto.
Qed.
Lemma drop_app b l : Forall (fun ch => is_space ch = true) b -> drop_spaces (b ++ l) = drop_spaces l.
Proof. induction 1 as [|ch b H _ IH]; [reflexivity|]. cbn [app drop_spaces]. rewrite H. exact IH. Qed.

Definition strip_list (l : list ascii) : list ascii := rev (drop_spaces (rev (drop_spaces l))).

Lemma strip_list_split l : exists b e, l = b ++ strip_list l ++ e /\
  Forall (fun ch => is_space ch = true) b /\ Forall (fun ch => is_space ch = true) e.
Proof.
  destruct (drop_split l) as (b & E & F). destruct (drop_split (rev (drop_spaces l))) as (e & E2 & F2).
  exists b, (rev e). split; [|split; [exact F|apply Forall_rev, F2]].
  unfold strip_list. rewrite E at 1. f_equal. rewrite <- rev_app_distr, <- E2, rev_involutive. reflexivity.
Qed.

Lemma strip_list_word b w e : Forall (fun ch => is_space ch = true) b -> Forall (fun ch => is_space ch = true) e ->
  Forall (fun ch => is_space ch = false) w -> strip_list (b ++ w ++ e) = w.
Proof.
  intros B E W. unfold strip_list. rewrite drop_app by exact B.
  assert (K : forall l, Forall (fun ch => is_space ch = false) l -> drop_spaces l = l).
  { intros l H. destruct H as [|ch l H _]; [reflexivity|]. cbn [drop_spaces]. rewrite H. reflexivity. }
  assert (K0 : forall l, Forall (fun ch => is_space ch = true) l -> drop_spaces l = []).
  { intros l H. rewrite <- (app_nil_r l). rewrite drop_app by exact H. reflexivity. }
  destruct W as [|ch w H W]; [cbn [app]; rewrite (K0 e E); reflexivity|].
  cbn [app drop_spaces]. rewrite H. change (ch :: w ++ e) with ((ch :: w) ++ e). rewrite rev_app_distr.
  rewrite drop_app by (apply Forall_rev, E).
  rewrite K by (apply Forall_rev; constructor; assumption). apply rev_involutive.
Qed.

Lemma string_app_list a b : list_ascii_of_string (a ++ b) = list_ascii_of_string a ++ list_ascii_of_string b.
Proof. induction a as [|ch a IH]; [reflexivity|]. cbn. rewrite IH. reflexivity. Qed.
Lemma list_app_string a b : string_of_list_ascii (a ++ b) = (string_of_list_ascii a ++ string_of_list_ascii b)%string.
Proof. induction a as [|ch a IH]; [reflexivity|]. cbn. rewrite IH. reflexivity. Qed.

Lemma blank_forall s : blank_text s <-> Forall (fun ch => is_space ch = true) (list_ascii_of_string s).
Proof. unfold blank_text. rewrite Forall_forall. split; intros H ch I; apply is_space_blanks, H, I. Qed.

Lemma strip_lower a w : Forall (fun ch => is_space ch = false) (list_ascii_of_string w) ->
  (strip (lower a) = w <->
   exists before v after, a = (before ++ v ++ after)%string /\ blank_text before /\ blank_text after /\ lower v = w).
Proof.
  intros NS. unfold strip, lower. rewrite list_ascii_of_string_of_list_ascii.
  change (rev (drop_spaces (rev (drop_spaces (map lower_char (list_ascii_of_string a))))))
    with (strip_list (map lower_char (list_ascii_of_string a))).
  split.
  - intros E. destruct (strip_list_split (map lower_char (list_ascii_of_string a))) as (b & e & S1 & B & F).
    apply map_eq_app in S1 as (b' & r & A & MB & S2). apply map_eq_app in S2 as (v' & e' & -> & MV & ME).
    exists (string_of_list_ascii b'), (string_of_list_ascii v'), (string_of_list_ascii e').
    rewrite !blank_forall, !list_ascii_of_string_of_list_ascii. subst b e.
    split; [rewrite <- !list_app_string, <- A, string_of_list_ascii_of_string; reflexivity|].
    assert (K : forall l, Forall (fun ch => is_space ch = true) (map lower_char l) -> Forall (fun ch => is_space ch = true) l).
    { intros l H. apply Forall_map in H. apply (Forall_impl _ (fun ch X => eq_trans (eq_sym (space_lower ch)) X) H). }
    split; [apply K, B|]. split; [apply K, F|]. rewrite MV. exact E.
  - intros (b & v & e & -> & B & F & <-). rewrite !string_app_list, !map_app.
    rewrite strip_list_word; [reflexivity| | |].
    + apply blank_forall in B. apply Forall_map. apply (Forall_impl _ (fun ch X => eq_trans (space_lower ch) X) B).
    + apply blank_forall in F. apply Forall_map. apply (Forall_impl _ (fun ch X => eq_trans (space_lower ch) X) F).
    + rewrite list_ascii_of_string_of_list_ascii in NS. exact NS.
Qed.

Lemma lower_inv ch (d : ascii) : lower_char ch = d -> In d (list_ascii_of_string "yesno") ->
  ch = d \/ ch = ascii_of_N (N_of_ascii d - 32).
Proof.
  intros <- I.
  destruct ch as [[|] [|] [|] [|] [|] [|] [|] [|]]; vm_compute in I |- *;
    first [left; reflexivity | right; reflexivity | (repeat (destruct I as [I|I]; [discriminate I|]); destruct I)].
Qed.

Ltac one_letter H E :=
  pose proof (f_equal (@hd ascii "0"%char) H) as E; apply (f_equal (@tl ascii)) in H; cbn [hd tl] in E, H;
  apply lower_inv in E; [|vm_compute; tauto].

(*@ C55 What counts as an answer: yes is one of the words y and yes in any capitals, no is one of the words n and no in any capitals or nothing at all, each with any blanks, tabulators or ends of line around it and with nothing else. *)
Lemma answers_read_lem :
  forall a,
  (says_yes a <-> the_word ["y"; "Y"; "yes"; "yeS"; "yEs"; "yES"; "Yes"; "YeS"; "YEs"; "YES"]%string a) /\
  (says_no a <-> the_word [""; "n"; "N"; "no"; "nO"; "No"; "NO"]%string a).
Proof.
  intros a.
  assert (ONE : forall ws vs, Forall (fun w => Forall (fun ch => is_space ch = false) (list_ascii_of_string w)) ws ->
      (forall v, In (lower v) ws <-> In v vs) -> (In (strip (lower a)) ws <-> the_word vs a)).
  { intros ws vs NS V. unfold the_word. split.
    - intros I. rewrite Forall_forall in NS. pose proof (NS _ I) as N.
      destruct (proj1 (strip_lower a _ N) eq_refl) as (b & v & e & A & B & F & L).
      exists b, v, e. repeat split; try assumption. apply V. rewrite L. exact I.
    - intros (b & v & e & A & B & F & I). apply V in I. rewrite Forall_forall in NS. pose proof (NS _ I) as N.
      rewrite (proj2 (strip_lower a (lower v) N)); [exact I|]. exists b, v, e. auto. }
  assert (L : forall v w, lower v = w -> map lower_char (list_ascii_of_string v) = list_ascii_of_string w).
  { intros v w <-. unfold lower. rewrite list_ascii_of_string_of_list_ascii. reflexivity. }
  assert (BACK : forall v l, list_ascii_of_string v = l -> v = string_of_list_ascii l).
  { intros v l <-. symmetry. apply string_of_list_ascii_of_string. }
  split; apply ONE.
  - repeat constructor.
  - intros v. split.
    + intros [I|[I|[]]]; symmetry in I; apply L in I; destruct (list_ascii_of_string v) as [|c1 r] eqn:E;
        try discriminate I; apply BACK in E; cbn [map list_ascii_of_string] in I.
      * destruct r; [|discriminate I]. one_letter I LQ0. destruct LQ0 as [->| ->]; subst v; vm_compute; tauto.
      * destruct r as [|c2 r]; [discriminate I|]. destruct r as [|c3 r]; [discriminate I|].
        destruct r; [|discriminate I]. cbn [map] in I. one_letter I LQ0. one_letter I LQ1. one_letter I LQ2.
        destruct LQ0 as [->| ->], LQ1 as [->| ->], LQ2 as [->| ->]; subst v; vm_compute; tauto.
    + intros I. cbn [In] in I. repeat (destruct I as [<-|I]; [vm_compute; tauto|]). destruct I.
  - repeat constructor.
  - intros v. split.
    + intros [I|[I|[I|[]]]]; symmetry in I; apply L in I; destruct (list_ascii_of_string v) as [|c1 r] eqn:E;
        try discriminate I; apply BACK in E; cbn [map list_ascii_of_string] in I.
      * destruct r; [|discriminate I]. one_letter I LQ0. destruct LQ0 as [->| ->]; subst v; vm_compute; tauto.
      * destruct r as [|c2 r]; [discriminate I|].
        destruct r; [|discriminate I]. cbn [map] in I. one_letter I LQ0. one_letter I LQ1.
        destruct LQ0 as [->| ->], LQ1 as [->| ->]; subst v; vm_compute; tauto.
      * subst v. left. reflexivity.
    + intros I. cbn [In] in I. repeat (destruct I as [<-|I]; [vm_compute; tauto|]). destruct I.
Qed.

(** ** The static file *)

Lemma append_inj f : forall a b, (f ++ a)%string = (f ++ b)%string -> a = b.
Proof. induction f as [|ch f IH]; intros a b H; cbn in H; [exact H|]. injection H. apply IH. Qed.

(*@ C96 If one of the three conversions (elevations, slope, mask) writes nothing and its file was not there before, the run ends with an error and without an output: FileMissing, or already LoadGDALError if the elevations cannot be read for the aspect, which for a DEM that is there and can be read without tiling and averaging does not happen. *)
Lemma missing_conversion_lem :
  forall gdal aspect_of cfg fs fs' r failing name,
    static_main gdal aspect_of cfg fs = (fs', r) ->
    let folder := sc_folder cfg in
    In (failing, name) [(ToNetcdf, "dem.nc"); (Slope, "slope.nc"); (Cutline (folder ++ sc_shape cfg), "mask.nc")]%string ->
    (forall fs source target, gdal fs failing source target = None) ->
    dict_find fs (folder ++ name)%string = None ->
    (r = inr FileMissing \/ r = inr LoadGDALError) /\
    (sc_tile cfg = false -> sc_aggregate cfg = false ->
     ~ temporary folder (folder ++ sc_dem cfg) ->
     forall dem aspect, dict_find fs (folder ++ sc_dem cfg)%string = Some dem -> aspect_of dem = Some aspect ->
     r = inr FileMissing).
Proof.
  intros gdal aspect_of cfg fs fs' r failing name H folder I FAIL NONE.
  unfold static_main in H. fold folder in H.
  destruct (do_tile gdal cfg fs _) as [fsa ta] eqn:Ta. destruct (do_aggregate gdal cfg fsa ta) as [fsb tb] eqn:Tb.
  set (fsc := system gdal fsb ToNetcdf tb _) in *. set (fsd := system gdal fsc Slope _ _) in *.
  set (fse := system gdal fsd (Cutline _) tb _) in *.
  assert (PLAIN : sc_tile cfg = false -> sc_aggregate cfg = false ->
     ~ temporary folder (folder ++ sc_dem cfg) -> tb = (folder ++ sc_dem cfg)%string /\
     dict_find fsd tb = dict_find fs tb).
  { intros T1 T2 NT. unfold do_tile in Ta. rewrite T1 in Ta. injection Ta as <- <-.
    unfold do_aggregate in Tb. rewrite T2 in Tb. injection Tb as <- <-. split; [reflexivity|].
    unfold temporary in NT. cbn [map In] in NT. unfold fsd, fsc.
    rewrite !system_other; [reflexivity| |]; intro E; apply NT; rewrite E; unfold dem_nc, slope_nc; tauto. }
  assert (NOT : dict_find fsb (folder ++ name)%string = None).
  { replace fsb with (fst (do_aggregate gdal cfg fsa ta)) by (rewrite Tb; reflexivity).
    assert (N2 : (folder ++ name)%string <> temp2_tif folder /\ (folder ++ name)%string <> temp_tif folder).
    { unfold temp2_tif, temp_tif. destruct I as [I|[I|[I|[]]]]; injection I as _ <-; split; intro E; apply append_inj in E; discriminate. }
    rewrite aggregate_other by apply N2.
    replace fsa with (fst (do_tile gdal cfg fs (folder ++ sc_dem cfg)%string)) by (rewrite Ta; reflexivity).
    rewrite tile_other by apply N2. exact NONE. }
  assert (MISS : dict_find fse (folder ++ name)%string = None).
  { assert (OFF : forall g s t, system gdal g failing s t = g) by (intros; unfold system; rewrite FAIL; reflexivity).
    unfold fse, fsd, fsc. destruct I as [I|[I|[I|[]]]]; injection I as <- <-.
    - rewrite OFF. rewrite !system_other; [exact NOT| |]; unfold slope_nc, mask_nc; intro E; apply append_inj in E; discriminate.
    - rewrite OFF. rewrite !system_other; [exact NOT| |]; unfold dem_nc, mask_nc; intro E; apply append_inj in E; discriminate.
    - rewrite OFF. rewrite !system_other; [exact NOT| |]; unfold dem_nc, slope_nc; intro E; apply append_inj in E; discriminate. }
  assert (GONE : exists_file fse (folder ++ name)%string = false).
  { unfold exists_file, dict_mem. rewrite MISS. reflexivity. }
  assert (ALL : (exists_file fse (dem_nc folder) && exists_file fse (mask_nc folder) && exists_file fse (slope_nc folder))%bool = false).
  { destruct I as [I|[I|[I|[]]]]; injection I as _ <-; unfold dem_nc, mask_nc, slope_nc; rewrite GONE;
      rewrite ?andb_false_r; reflexivity. }
  rewrite ALL in H. cbn [negb] in H.
  destruct (match dict_find fsd tb with Some t => aspect_of t | None => None end) as [asp|] eqn:A.
  - injection H as _ <-. split; [left; reflexivity|reflexivity].
  - injection H as _ <-. split; [right; reflexivity|]. intros T1 T2 NT dem aspect D AS. exfalso.
    destruct (PLAIN T1 T2 NT) as [-> E]. rewrite E, D, AS in A. discriminate.
Qed.

(** ** Tables *)

Lemma same_shape (t t' : toml) :
  map (fun ht => (fst ht, map fst (snd ht))) t = map (fun ht => (fst ht, map fst (snd ht))) t' ->
  forall h k, entry t h k = None <-> entry t' h k = None.
Proof.
  revert t'. induction t as [|[n s] t IH]; intros [|[n' s'] t'] E h k; try discriminate; [tauto|].
  cbn [map fst snd] in E. injection E as EN ES ET. subst n'. specialize (IH _ ET h k). unfold entry in *.
  cbn [dict_find]. destruct (String.eqb n h); [|exact IH].
  rewrite !find_none, ES. tauto.
Qed.

(*@ C97 The converted files have exactly the tables and the keys of the shipped ones: the file of the constants for any old module, the file of the configuration whenever it is written. *)
Lemma converted_tables_lem :
  forall module variables h k,
  (entry (get_constants_params module) h k = None <-> entry shipped_constants h k = None) /\
  (forall t, get_config_params module variables = Ok t ->
     (entry t h k = None <-> entry shipped_config h k = None)).
Proof.
  intros module variables h k. split; [apply same_shape; reflexivity|].
  intros t H. apply same_shape. unfold get_config_params in H.
  apply bind_ok in H as (out & _ & H). apply bind_ok in H as (name & _ & H).
  apply bind_ok in H as (ps & P & H). apply bind_ok in H as (outs & O & H). injection H as <-.
  unfold get_output_params in O. apply bind_ok in O as (atm & _ & O). apply bind_ok in O as (int & _ & O).
  apply bind_ok in O as (full & _ & O). injection O as <-. cbv - [converted output_prefix] in P. injection P as <-.
  reflexivity.
Qed.

(*@ C97 The tables of the output: the prefix of the output is in the table FILENAMES, the lists of variables in the table OUTPUT_VARIABLES; a name of the output that is not a text is refused. *)
Lemma converted_output_lem :
  forall module variables,
  (forall t, get_config_params module variables = Ok t ->
     exists name, dict_find module "output_netcdf"%string = Some (VStr name) /\
       entry t "FILENAMES" "output_prefix" = Some (VStr (output_prefix name)) /\
       entry t "OUTPUT_VARIABLES" "output_atm" = dict_find variables "atm"%string /\
       entry t "OUTPUT_VARIABLES" "output_internal" = dict_find variables "internal"%string /\
       entry t "OUTPUT_VARIABLES" "output_full" = dict_find variables "full"%string) /\
  (forall v, dict_find module "output_netcdf"%string = Some v -> (forall s, v <> VStr s) ->
     get_config_params module variables = Err TypeError).
Proof.
  intros module variables. split.
  - intros t H. unfold get_config_params in H.
    apply bind_ok in H as (out & F & H). apply bind_ok in H as (name & N & H).
    apply bind_ok in H as (ps & P & H). apply bind_ok in H as (outs & O & H). injection H as <-.
    unfold get_output_params in O. apply bind_ok in O as (atm & G1 & O). apply bind_ok in O as (int & G2 & O).
    apply bind_ok in O as (full & G3 & O). injection O as <-. cbv - [converted output_prefix] in P. injection P as <-.
    unfold attr_get in F. unfold dict_get in G1, G2, G3.
    destruct (dict_find module "output_netcdf"%string) as [v|]; [|discriminate]. injection F as ->.
    destruct out; try discriminate. injection N as ->. exists name.
    destruct (dict_find variables "atm"%string) as [v1|]; [|discriminate]. injection G1 as ->.
    destruct (dict_find variables "internal"%string) as [v2|]; [|discriminate]. injection G2 as ->.
    destruct (dict_find variables "full"%string) as [v3|]; [|discriminate]. injection G3 as ->.
    repeat split.
  - intros v E N. unfold get_config_params. unfold attr_get. rewrite E. cbn [bind].
    destruct v; try reflexivity. destruct (N s eq_refl).
Qed.

(** ** Values *)

(*@ C50 What counts as switched off: false, the numbers 0 and 0.0, an empty text, an empty list and None; everything else counts as switched on. *)
Lemma switched_off_lem :
  forall v, truthy v = false <->
    v = VBool false \/ v = VInt 0 \/ v = VFloat 0 \/ v = VStr "" \/ v = VList [] \/ v = VNone.
Proof.
  intros v. split.
  - destruct v as [b|z|r|s|l|d|]; cbn [truthy]; intros H; try discriminate H.
    + left. destruct b; [discriminate|reflexivity].
    + right. left. apply negb_false_iff, Z.eqb_eq in H. rewrite H. reflexivity.
    + right. right. left. destruct (Req_EM_T r 0) as [->|]; [reflexivity|discriminate].
    + right. right. right. left. apply negb_false_iff, String.eqb_eq in H. rewrite H. reflexivity.
    + destruct l; [tauto|discriminate].
    + tauto.
  - intros [->|[->|[->|[->|[->| ->]]]]]; try reflexivity. cbn. destruct (Req_EM_T 0 0); [reflexivity|contradiction].
Qed.

(*@ C50 The shipped slurm file: as it is, a job gets the memory it names; with any other whole number of gigabytes per process it gets that many, since it has one core; nothing else changes. *)
Lemma slurm_file_lem :
  forall m attrs,
  exists a,
    (t <- set2 shipped_slurm "OVERRIDES" "memory_per_process" (VInt m) ;; slurm_load t attrs) = Ok a /\
    dict_find a "memory"%string = Some (VStr (if (m =? 0)%Z then "4G" else decimal m ++ "GB")%string) /\
    (forall k v, In (k, v) [("account", VStr ""); ("name", VStr "test_cosipy_slurm"); ("queue", VStr "work");
       ("slurm_parameters", VList [VStr "--nodes=1"; VStr "--error=slurm.err"; VStr "--output=slurm.out";
                                   VStr "--time=00:10:00"; VStr "--mem='4G'"]);
       ("shebang", VStr "#!/bin/bash -l"); ("local_directory", VStr "./logs/dask-worker-space");
       ("port", VInt 8786); ("cores", VInt 1); ("nodes", VInt 1); ("processes", VInt 20);
       ("memory_per_process", VInt m)]%string -> dict_find a k = Some v) /\
    (forall k, (forall h, entry shipped_slurm h k = None) -> dict_find a k = dict_find attrs k).
Proof.
  intros m attrs.
  assert (T : exists t, (t <- set2 shipped_slurm "OVERRIDES" "memory_per_process" (VInt m) ;; slurm_load t attrs) =
                        Ok (set_config_values t attrs) /\
              entries t = [("account", VStr ""); ("name", VStr "test_cosipy_slurm"); ("queue", VStr "work");
                ("slurm_parameters", VList [VStr "--nodes=1"; VStr "--error=slurm.err"; VStr "--output=slurm.out";
                                   VStr "--time=00:10:00"; VStr "--mem='4G'"]);
                ("shebang", VStr "#!/bin/bash -l"); ("local_directory", VStr "./logs/dask-worker-space");
                ("port", VInt 8786); ("cores", VInt 1); ("nodes", VInt 1); ("processes", VInt 20);
                ("memory", VStr (if (m =? 0)%Z then "4G" else decimal m ++ "GB"));
                ("memory_per_process", VInt m)]%string).
  { destruct (Z.eqb_spec m 0) as [->|N].
    - eexists. split; reflexivity.
    - apply Z.eqb_neq in N. unfold slurm_load, slurm_correct.
      cbn [set2 shipped_slurm dict_get dict_find String.eqb Ascii.eqb Bool.eqb dict_set bind get2 truthy].
      unfold set2, get2, dict_get. cbn [shipped_slurm dict_find String.eqb Ascii.eqb Bool.eqb dict_set bind truthy].
      rewrite N. cbn [negb whole bind]. rewrite Z.mul_1_r.
      cbn [shipped_slurm dict_find String.eqb Ascii.eqb Bool.eqb dict_set bind truthy].
      eexists. split; reflexivity. }
  destruct T as (t & L & E). eexists. split; [exact L|]. split; [|split].
  - rewrite last_setting_wins_lem. unfold last_setting. rewrite E. reflexivity.
  - intros k v I. rewrite last_setting_wins_lem. unfold last_setting. rewrite E. cbn [In] in I.
    repeat (destruct I as [I|I]; [apply pair_equal_spec in I as [<- <-]; reflexivity|]). destruct I.
  - intros k N. rewrite last_setting_wins_lem. unfold last_setting. rewrite E.
    replace (dict_find _ k) with (@None value); [reflexivity|]. symmetry. apply find_none. intros I.
    rewrite map_rev, <- in_rev in I. cbn [map fst In] in I.
    unfold entry in N.
    pose proof (N "LABELS"%string) as N1. pose proof (N "PARAMETERS"%string) as N2. pose proof (N "MEMORY"%string) as N3.
    pose proof (N "OVERRIDES"%string) as N4. clear N.
    repeat (destruct I as [<-|I]; [first [discriminate N1|discriminate N2|discriminate N3|discriminate N4]|]). destruct I.
Qed.

(*@ex C50,C55,C96,C97 An answer with a tabulator and capitals; a run whose mask cannot be cut; the file of a module without settings. *)
Lemma reading_example_lem :
  says_yes (String "009" "YeS ") /\
  static_main (fun _ cmd _ _ => match cmd with Cutline _ => None | _ => Some (Band [1] [1] [[Some 100]]) end)
    (fun _ => Some [[Some 45]]) (mkStaticConfig "d/" "dem.tif" "s.shp" "out.nc" false false "" "" "" "" "")
    [("d/dem.tif", Tif [[Some 100]])]%string =
  ([("d/dem.tif", Tif [[Some 100]]); ("d/dem.nc", Band [1] [1] [[Some 100]]); ("d/slope.nc", Band [1] [1] [[Some 100]])]%string,
   inr FileMissing) /\
  entry (get_constants_params []) "REMESHING" "merge_max" = Some (VInt 0).
Proof.
  split; [|split; reflexivity]. apply answers_read_lem.
  exists (String "009" ""), "YeS"%string, " "%string. split; [reflexivity|].
  repeat split; [| |cbn; tauto]; intros ch I; cbn in I; destruct I as [<-|[]]; vm_compute; tauto.
Qed.
