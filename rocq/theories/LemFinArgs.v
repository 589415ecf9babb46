(** * Command line and start of the programs *)
From Verif Require Import ModelPy ModelConfig ModelFiles ModelArgs SpecConfig SpecArgs LemPy LemDict LemFinConfig.
From Coq Require Import Ascii.

(** ** The parser *)

Lemma undashed_plain v : undashed v -> classify option_strings v = Some (Plain v).
Proof.
  destruct v as [|a t]; intros H; [reflexivity|]. cbn in H. unfold classify.
  assert (E : is_dash a = false). { unfold is_dash, dash. apply Ascii.eqb_neq. exact H. }
  rewrite E. reflexivity.
Qed.

Lemma undashed_not_dd v : undashed v -> String.eqb v "--" = false.
Proof.
  intros H. apply String.eqb_neq. intros ->. cbn in H. congruence.
Qed.

Lemma classify_all_app pre : ~ In "--"%string pre -> forall post ws,
  classify_all option_strings pre = Some ws ->
  classify_all option_strings (pre ++ post) = match classify_all option_strings post with Some us => Some (ws ++ us) | None => None end.
Proof.
  induction pre as [|s pre IH]; intros N post ws E.
  - cbn in E. injection E as <-. cbn. destruct (classify_all option_strings post); reflexivity.
  - cbn [classify_all option_strings app] in *. destruct (String.eqb_spec s "--") as [->|D]; [exfalso; apply N; left; reflexivity|].
    destruct (classify option_strings s) as [w|]; [|discriminate].
    destruct (classify_all option_strings pre) as [ws'|] eqn:E'; [|discriminate]. injection E as <-.
    rewrite (IH (fun H => N (or_intror H)) post ws' eq_refl). destruct (classify_all option_strings post); reflexivity.
Qed.

Lemma consume_app ws us : forall a b, consume ws a = Some b -> consume (ws ++ us) a = consume us b.
Proof.
  assert (G : forall n ws, (length ws <= n)%nat -> forall a b, consume ws a = Some b -> consume (ws ++ us) a = consume us b).
  { induction n as [|n IH]; intros l L a b E.
    - destruct l; [|cbn in L; lia]. cbn in *. congruence.
    - destruct l as [|[v| |[o|] at_] t]; cbn [app length] in *.
      + cbn in *. congruence.
      + cbn [consume] in *. apply IH; [lia|exact E].
      + cbn [consume] in *. apply IH; [lia|exact E].
      + destruct o; cbn [consume] in *; try discriminate;
          (destruct at_ as [x|]; [apply IH; [lia|exact E]|]);
          (destruct t as [|[v| |] t]; [discriminate| |discriminate|discriminate]);
          cbn [app length] in *; apply IH; try lia; exact E.
      + cbn [consume] in *. apply IH; [lia|exact E]. }
  apply (G (length ws)). lia.
Qed.

Lemma parse_app pre post a : ~ In "--"%string pre -> parse_known_args pre = Some a ->
  parse_known_args (pre ++ post) = match classify_all option_strings post with Some us => consume us a | None => None end.
Proof.
  intros N E. unfold parse_known_args in *. destruct (classify_all option_strings pre) as [ws|] eqn:W; [|discriminate].
  rewrite (classify_all_app pre N post ws W). destruct (classify_all option_strings post) as [us|]; [|reflexivity].
  apply consume_app. exact E.
Qed.

Ltac cases_in H := cbn [short_spellings long_spellings app] in H;
  repeat (destruct H as [H|H]; [injection H as <- <-|]); try contradiction.

Lemma spelling_alone s o : In (s, o) (short_spellings ++ long_spellings) ->
  String.eqb s "--" = false /\ classify option_strings s = Some (Option_ (Some o) None) /\ o <> Help.
Proof. intros H. cases_in H; (split; [reflexivity|split; [reflexivity|discriminate]]). Qed.

Lemma spelling_equals s o v : In (s, o) (short_spellings ++ long_spellings) ->
  String.eqb (s ++ "=" ++ v) "--" = false /\
  classify option_strings (s ++ "=" ++ v) = Some (Option_ (Some o) (Some v)) /\ o <> Help.
Proof. intros H. cases_in H; (split; [reflexivity|split; [reflexivity|discriminate]]). Qed.

Lemma spelling_attached s o v : In (s, o) short_spellings -> attachable v ->
  String.eqb (s ++ v) "--" = false /\
  classify option_strings (s ++ v) = Some (Option_ (Some o) (Some v)) /\ o <> Help.
Proof.
  intros H A. destruct v as [|a v]; [destruct A|]. cbn in A.
  assert (E : Ascii.eqb a "=" = false) by (apply Ascii.eqb_neq; exact A).
  cases_in H; (split; [reflexivity|split; [|discriminate]]);
    unfold classify; cbn; rewrite E; destruct (split_equals v) as [[l r]|]; reflexivity.
Qed.

Lemma consume_attached o v t a : o <> Help ->
  consume (Option_ (Some o) (Some v) :: t) a = consume t (give o v a).
Proof. destruct o; [congruence| | |]; reflexivity. Qed.
Lemma consume_next o v t a : o <> Help ->
  consume (Option_ (Some o) None :: Plain v :: t) a = consume t (give o v a).
Proof. destruct o; [congruence| | |]; reflexivity. Qed.

Lemma give_spec o v a : o <> Help -> file_given o (give o v a) = Some v /\
  forall o', o' <> o -> file_given o' (give o v a) = file_given o' a.
Proof. intros H. destruct o; [congruence| | |]; (split; [reflexivity|]); intros []; intros; try congruence; reflexivity. Qed.

(*@ C124 Every way of naming a file works, and the last one wins: after any words that were
    understood, an option in full, abbreviated or short, with the file behind it, attached or after
    an equals sign, sets this file and nothing else. *)
Lemma last_file_wins_lem :
  forall (pre words : list string) (o : opt) (v : string) (a : given),
    ~ In "--"%string pre -> parse_known_args pre = Some a -> names_file o words v ->
    exists a', parse_known_args (pre ++ words) = Some a' /\ file_given o a' = Some v /\
      forall o', o' <> o -> file_given o' a' = file_given o' a.
Proof.
  intros pre words o v a N E S.
  assert (O : o <> Help /\ parse_known_args (pre ++ words) = Some (give o v a)).
  { rewrite (parse_app pre words a N E). destruct S as [o s v H U|o s v H A|o s v H].
    - destruct (spelling_alone s o H) as (D & C & O). cbn [classify_all].
      rewrite D, C, (undashed_not_dd v U), (undashed_plain v U). split; [exact O|]. apply consume_next. exact O.
    - destruct (spelling_attached s o v H A) as (D & C & O). cbn [classify_all]. rewrite D, C.
      split; [exact O|]. apply consume_attached. exact O.
    - destruct (spelling_equals s o v H) as (D & C & O). cbn [classify_all]. rewrite D, C.
      split; [exact O|]. apply consume_attached. exact O. }
  destruct O as [O P]. exists (give o v a). split; [exact P|]. apply give_spec. exact O.
Qed.

Lemma consume_plain ws a : consume (map Plain ws) a = Some a.
Proof. induction ws; [reflexivity|exact IHws]. Qed.

(*@ C124 After a word of two hyphens nothing is an option any more; directly behind an option it makes
    the program exit, even if a file follows. *)
Lemma after_two_hyphens_lem :
  forall (pre post : list string) (o : opt) (s : string) (a : given),
    ~ In "--"%string pre -> parse_known_args pre = Some a ->
    In (s, o) (short_spellings ++ long_spellings) ->
    parse_known_args (pre ++ "--"%string :: post) = Some a /\
    parse_known_args (pre ++ s :: "--"%string :: post) = None.
Proof.
  intros pre post o s a N E H. rewrite !(parse_app pre _ a N E).
  destruct (spelling_alone s o H) as (D & C & O). cbn [classify_all]. rewrite D, C, String.eqb_refl.
  split; [apply consume_plain|]. destruct o; [congruence| | |]; reflexivity.
Qed.

Lemma classify_all_bad pre s post : ~ In "--"%string pre -> String.eqb s "--" = false ->
  classify option_strings s = None -> classify_all option_strings (pre ++ s :: post) = None.
Proof.
  intros N D C. induction pre as [|x pre IH]; cbn [app classify_all].
  - rewrite D, C. reflexivity.
  - destruct (String.eqb_spec x "--") as [->|Dx]; [exfalso; apply N; left; reflexivity|].
    rewrite IH by (intros H; apply N; right; exact H). destruct (classify option_strings x); reflexivity.
Qed.

(*@ C124 Shorter abbreviations, of which --config and --constants both are the continuation, stop
    the program wherever they stand. *)
Lemma abbreviation_refused_lem :
  forall (pre post : list string) (s v : string), ~ In "--"%string pre ->
    In s ["--c"; "--co"; "--con"]%string ->
    parse_known_args (pre ++ s :: post) = None /\
    parse_known_args (pre ++ (s ++ "=" ++ v)%string :: post) = None.
Proof.
  intros pre post s v N H. unfold parse_known_args.
  cbn [In] in H. destruct H as [<-|[<-|[<-|[]]]];
    (split; rewrite (classify_all_bad pre _ post N); reflexivity).
Qed.

(*@ C124 The program stops for help, for an option without a file at the end of the line, and for an
    option directly in front of another one. *)
Lemma option_refused_lem :
  forall (pre post : list string) (a : given) (s t : string) (o o' : opt),
    ~ In "--"%string pre -> parse_known_args pre = Some a ->
    In (s, o) (short_spellings ++ long_spellings) -> In (t, o') option_strings ->
    parse_known_args (pre ++ [s]) = None /\
    parse_known_args (pre ++ s :: t :: post) = None /\
    parse_known_args (pre ++ "-h"%string :: post) = None /\
    parse_known_args (pre ++ "--help"%string :: post) = None.
Proof.
  intros pre post a s t o o' N E H T. rewrite !(parse_app pre _ a N E).
  destruct (spelling_alone s o H) as (D & C & O). cbn [classify_all]. rewrite D, C.
  assert (Ct : String.eqb t "--" = false /\ classify option_strings t = Some (Option_ (Some o') None)).
  { unfold option_strings in T. cbn [In] in T. repeat (destruct T as [T|T]; [injection T as <- <-; split; reflexivity|]). contradiction. }
  destruct Ct as [Dt Ct]. rewrite Dt, Ct. split; [destruct o; reflexivity|]. split.
  - destruct (classify_all option_strings post); [|reflexivity]. destruct o; reflexivity.
  - split; cbn; destruct (classify_all option_strings post); reflexivity.
Qed.

Lemma no_equals_split s : ~ In "="%char (list_ascii_of_string s) -> split_equals s = None /\
  forall v, split_equals (s ++ "=" ++ v) = Some (s, v).
Proof.
  induction s as [|a s IH]; intros N; [split; reflexivity|]. cbn in N.
  destruct IH as [I1 I2]; [tauto|]. cbn [append split_equals].
  assert (E : Ascii.eqb a "=" = false) by (apply Ascii.eqb_neq; intros ->; tauto).
  rewrite E, I1. split; [reflexivity|]. intros v. specialize (I2 v). cbn in I2. cbn. rewrite I2. reflexivity.
Qed.

Lemma classify_skipped b t : dict_find option_strings (String "-" (String b t)) = None ->
  match split_equals (String "-" (String b t)) with
  | Some (l, r) => dict_find option_strings l = None | None => True end ->
  option_tuples option_strings (String "-" (String b t)) = [] ->
  classify option_strings (String "-" (String b t)) = Some (Plain (String "-" (String b t))) \/
  classify option_strings (String "-" (String b t)) = Some (Option_ None None).
Proof.
  intros F S OT. unfold classify. change (negb (is_dash "-")) with false. cbn iota. rewrite F.
  destruct (split_equals (String "-" (String b t))) as [[l r]|].
  - rewrite S, OT. destruct (_ || _); [left|right]; reflexivity.
  - rewrite OT. destruct (_ || _); [left|right]; reflexivity.
Qed.

Lemma foreign_skipped u : foreign u -> String.eqb u "--" = false /\
  (classify option_strings u = Some (Plain u) \/ classify option_strings u = Some (Option_ None None)).
Proof.
  intros (n & ((t & En & Ht) & NE & NP) & U).
  destruct (no_equals_split n NE) as [S0 S1].
  assert (P1 := NP "--help"%string ltac:(cbn; tauto)). assert (P2 := NP "--config"%string ltac:(cbn; tauto)).
  assert (P3 := NP "--constants"%string ltac:(cbn; tauto)). assert (P4 := NP "--slurm"%string ltac:(cbn; tauto)).
  assert (Q : forall k, String.prefix n k = false -> String.eqb n k = false).
  { intros k H. apply String.eqb_neq. intros ->. rewrite (proj2 (prefix_correct k k)) in H; [discriminate|].
    clear. induction k; cbn; [reflexivity|]. rewrite IHk. reflexivity. }
  assert (F : dict_find option_strings n = None).
  { unfold option_strings. cbn [dict_find]. rewrite (String.eqb_sym "--help"), (String.eqb_sym "--config"),
      (String.eqb_sym "--constants"), (String.eqb_sym "--slurm"), !Q by assumption. rewrite En. reflexivity. }
  assert (FT : filter (fun no : string * opt => String.prefix n (fst no)) option_strings = []).
  { unfold option_strings. cbn [filter fst]. rewrite P1, P2, P3, P4. rewrite En. reflexivity. }
  destruct U as [->|(v & ->)].
  - split. { rewrite En. destruct t; [congruence|reflexivity]. }
    assert (OT : option_tuples option_strings n = []).
    { unfold option_tuples. rewrite S0, FT. rewrite En. reflexivity. }
    rewrite En in F, S0, OT |- *. apply classify_skipped; [exact F|rewrite S0; exact I|exact OT].
  - split. { rewrite En. destruct t; [congruence|reflexivity]. }
    assert (OT : option_tuples option_strings (n ++ "=" ++ v) = []).
    { unfold option_tuples. rewrite S1, FT. rewrite En. reflexivity. }
    assert (F' : dict_find option_strings (n ++ "=" ++ v) = None).
    { destruct (dict_find option_strings (n ++ "=" ++ v)) as [o|] eqn:G; [|reflexivity]. exfalso.
      apply find_in in G. apply (in_map fst) in G. cbn [fst] in G.
      assert (X : In "="%char (list_ascii_of_string (n ++ "=" ++ v))) by (clear; induction n; cbn; auto).
      assert (Y : Forall (fun k => ~ In "="%char (list_ascii_of_string k)) (map fst option_strings)).
      { repeat constructor; cbn; intuition discriminate. }
      rewrite Forall_forall in Y. exact (Y _ G X). }
    assert (S' : match split_equals (n ++ "=" ++ v) with
      | Some (l, r) => dict_find option_strings l = None | None => True end) by (rewrite S1; exact F).
    rewrite En in F', S', OT |- *. apply classify_skipped; assumption.
Qed.

(*@ C124 Anything else is ignored without a word: a misspelt option and its value, or a file name without an
    option, leave the result as it would be without them. *)
Lemma unknown_words_ignored_lem :
  forall (pre post : list string) (u w : string) (a : given),
    ~ In "--"%string pre -> parse_known_args pre = Some a -> foreign u -> undashed w ->
    parse_known_args (pre ++ u :: post) = parse_known_args (pre ++ post) /\
    parse_known_args (pre ++ w :: post) = parse_known_args (pre ++ post) /\
    parse_known_args (pre ++ u :: w :: post) = parse_known_args (pre ++ post).
Proof.
  intros pre post u w a N E U W. rewrite !(parse_app pre _ a N E). cbn [classify_all].
  destruct (foreign_skipped u U) as [D C].
  rewrite D, (undashed_not_dd w W), (undashed_plain w W).
  split; [|split].
  - destruct C as [-> | ->]; destruct (classify_all option_strings post); reflexivity.
  - destruct (classify_all option_strings post); reflexivity.
  - destruct C as [-> | ->]; destruct (classify_all option_strings post); reflexivity.
Qed.

Lemma foreign_words ws : Forall (fun s => undashed s \/ foreign s) ws -> parse_known_args ws = Some nothing_given.
Proof.
  intros H. unfold parse_known_args.
  assert (G : exists us, classify_all option_strings ws = Some us /\ forall a, consume us a = Some a).
  { induction H as [|s ws S _ (us & IH1 & IH2)]; [exists []; split; reflexivity|].
    cbn [classify_all]. rewrite IH1. destruct S as [S|S].
    - rewrite (undashed_not_dd s S), (undashed_plain s S). eexists. split; [reflexivity|]. intros a. apply IH2.
    - destruct (foreign_skipped s S) as [-> [-> | ->]]; eexists; (split; [reflexivity|]); intros a; apply IH2. }
  destruct G as (us & -> & G). apply G.
Qed.

(** ** The start *)

Definition chosen (p : process) (d : string) (a : given) : string * string * string :=
  (match a_config a with Some f => f | None => join_path d "config.toml" end,
   match a_constants a with Some f => f | None => join_path d "constants.toml" end,
   match a_slurm a with Some f => f | None => join_path d "slurm_config.toml" end)%string.

Lemma arguments_ok p a : is_dir p (home p) = true -> parse_known_args (argv p) = Some a ->
  get_user_arguments p = Started (chosen p (home p) a).
Proof.
  intros D E. unfold get_user_arguments, get_cosipy_path_from_env. fold (home p). rewrite D. cbn [andthen].
  rewrite E. reflexivity.
Qed.

(*@ C124 A variable COSIPY_DIR that names no directory stops every start, even if all files are named
    on the command line; without it the working directory takes its place. *)
Lemma directory_needed_lem :
  forall (p : process), is_dir p (home p) = false ->
    start_main p = NoDirectory (home p) /\ start_worker p = NoDirectory (home p).
Proof.
  intros p D. unfold start_main, start_worker, import_constants, import_config, load_config,
    get_user_arguments, get_cosipy_path_from_env. fold (home p). rewrite D. split; reflexivity.
Qed.

Lemma started_lift {A} (m : res A) x : lift m = Started x -> m = Ok x.
Proof. destruct m; cbn; congruence. Qed.

Lemma andthen_ok {A B} (m : started A) (k : A -> started B) y : andthen m k = Started y ->
  exists x, m = Started x /\ k x = Started y.
Proof. destruct m; cbn; try discriminate. eauto. Qed.

Lemma raw_ok p f t : get_raw_toml p f = Started t -> toml_at p f = Some t.
Proof. unfold get_raw_toml. destruct (toml_at p f); congruence. Qed.

Lemma worker_inv p a l : is_dir p (home p) = true -> parse_known_args (argv p) = Some a ->
  start_worker p = Started l ->
  let '(f, x, s) := chosen p (home p) a in
  exists t u use, toml_at p f = Some t /\ toml_at p x = Some u /\ config_load t [] = Ok (l_config l) /\
    constants_load (l_config l) u [] = Ok (l_constants l) /\ attr_get (l_config l) "slurm_use" = Ok use /\
    (truthy use = false -> l_slurm l = []) /\
    (truthy use = true -> exists v, toml_at p s = Some v /\ slurm_load v [] = Ok (l_slurm l)).
Proof.
  intros D E H. destruct (chosen p (home p) a) as [[f x] s] eqn:EC.
  assert (G := arguments_ok p a D E). rewrite EC in G.
  unfold start_worker, import_constants, import_config in H.
  apply andthen_ok in H as (l2 & H & H2). apply andthen_ok in H as (l1 & H1 & H).
  unfold load_config in H1. rewrite G in H1. cbn [andthen] in H1.
  apply andthen_ok in H1 as (t & T & H1). apply andthen_ok in H1 as (ca & CA & H1). apply started_lift in CA.
  injection H1 as <-. cbn [l_config l_slurm l_constants nothing_loaded] in *.
  apply andthen_ok in H as (use & US & H). apply started_lift in US.
  unfold load_constants in H2. rewrite G in H2. cbn [andthen] in H2.
  apply andthen_ok in H2 as (u & T2 & H2). apply andthen_ok in H2 as (xa & XA & H2). apply started_lift in XA.
  injection H2 as <-. cbn [l_config l_slurm l_constants] in *.
  apply raw_ok in T, T2. exists t, u, use.
  destruct (truthy use) eqn:TU.
  - unfold load_slurm in H. rewrite G in H. cbn [andthen] in H.
    apply andthen_ok in H as (v & T3 & H). apply andthen_ok in H as (sa & SA & H). apply started_lift in SA.
    injection H as <-. cbn [l_config l_slurm l_constants] in *. apply raw_ok in T3.
    repeat split; try assumption; [discriminate|]. intros _. exists v. split; assumption.
  - injection H as <-. cbn [l_config l_slurm l_constants] in *.
    repeat split; try assumption. discriminate.
Qed.

(*@ C124 What a started program works with: the configuration of the file that was chosen for it,
    the constants of the chosen file, both as if they had been loaded once, although they are loaded
    on import and again by main. *)
Lemma start_files_lem :
  forall (p : process) (a : given) (l : loaded),
    is_dir p (home p) = true -> parse_known_args (argv p) = Some a -> start_main p = Started l ->
    exists t u config constants,
      toml_at p (file_of p (a_config a) "config.toml") = Some t /\
      toml_at p (file_of p (a_constants a) "constants.toml") = Some u /\
      config_load t [] = Ok config /\ constants_load config u [] = Ok constants /\
      (forall k, dict_find (l_config l) k = dict_find config k) /\
      (forall k, dict_find (l_constants l) k = dict_find constants k).
Proof.
  intros p a l D E H. unfold start_main in H. apply andthen_ok in H as (l0 & W & H).
  assert (I := worker_inv p a l0 D E W). destruct (chosen p (home p) a) as [[f x] s] eqn:EC.
  assert (G := arguments_ok p a D E). rewrite EC in G. unfold chosen in EC.
  destruct I as (t & u & use & T & U & CL & XL & _).
  apply andthen_ok in H as (l1 & H1 & H2).
  unfold load_config in H1. rewrite G in H1. cbn [andthen] in H1. unfold get_raw_toml in H1. rewrite T in H1. cbn [andthen] in H1.
  apply andthen_ok in H1 as (ca & CA & H1). apply started_lift in CA. injection H1 as <-.
  unfold load_constants in H2. rewrite G in H2. cbn [andthen] in H2. unfold get_raw_toml in H2. rewrite U in H2. cbn [andthen] in H2.
  apply andthen_ok in H2 as (xa & XA & H2). apply started_lift in XA. injection H2 as <-.
  cbn [l_config l_constants l_slurm] in *.
  destruct (load_twice_lem t [] (l_config l0) CL) as (ca' & CA' & _ & FC).
  rewrite CA' in CA. injection CA as ->.
  exists t, u, (l_config l0), (l_constants l0). unfold file_of. injection EC as <- <- <-.
  repeat (split; [assumption|]).
  intros k. unfold constants_load in XL, XA.
  assert (EX : constants_correct ca u = constants_correct (l_config l0) u).
  { unfold constants_correct, attr_get. rewrite FC. reflexivity. }
  rewrite EX in XA. destruct (constants_correct (l_config l0) u) as [u'|]; [|discriminate]. cbn [bind] in *.
  assert (E1 : l_constants l0 = set_config_values u' []) by congruence.
  assert (E2 : xa = set_config_values u' (l_constants l0)) by congruence.
  rewrite E2, E1, !last_setting_wins_lem. destruct (last_setting u' k); reflexivity.
Qed.

Lemma start_same p p' : argv p' = argv p -> env_dir p' = env_dir p -> cwd p' = cwd p ->
  is_dir p' (home p) = is_dir p (home p) ->
  (forall a, parse_known_args (argv p) = Some a ->
     toml_at p' (file_of p (a_config a) "config.toml") = toml_at p (file_of p (a_config a) "config.toml") /\
     toml_at p' (file_of p (a_constants a) "constants.toml") = toml_at p (file_of p (a_constants a) "constants.toml") /\
     toml_at p' (file_of p (a_slurm a) "slurm_config.toml") = toml_at p (file_of p (a_slurm a) "slurm_config.toml")) ->
  forall l, load_config p' l = load_config p l /\ load_constants p' l = load_constants p l /\ load_slurm p' l = load_slurm p l.
Proof.
  intros EA EE EW ED HF l. assert (EH : home p' = home p) by (unfold home; rewrite EE, EW; reflexivity).
  unfold load_config, load_constants, load_slurm, get_user_arguments, get_cosipy_path_from_env.
  fold (home p) (home p'). rewrite EH, ED, EA. destruct (is_dir p (home p)); cbn [andthen]; [|auto].
  destruct (parse_known_args (argv p)) as [a|]; cbn [andthen]; [|auto].
  destruct (HF a eq_refl) as (F1 & F2 & F3). unfold file_of in *. unfold get_raw_toml. rewrite F1, F2, F3. auto.
Qed.

(*@ C124 No other file matters: processes with the same words, directory and chosen files start alike. *)
Lemma only_chosen_files_lem :
  forall (p p' : process), argv p' = argv p -> env_dir p' = env_dir p -> cwd p' = cwd p ->
    is_dir p' (home p) = is_dir p (home p) ->
    (forall a, parse_known_args (argv p) = Some a ->
       toml_at p' (file_of p (a_config a) "config.toml") = toml_at p (file_of p (a_config a) "config.toml") /\
       toml_at p' (file_of p (a_constants a) "constants.toml") = toml_at p (file_of p (a_constants a) "constants.toml") /\
       toml_at p' (file_of p (a_slurm a) "slurm_config.toml") = toml_at p (file_of p (a_slurm a) "slurm_config.toml")) ->
    start_main p' = start_main p /\ start_worker p' = start_worker p.
Proof.
  intros p p' EA EE EW ED HF. assert (G := start_same p p' EA EE EW ED HF).
  assert (W : start_worker p' = start_worker p).
  { unfold start_worker, import_constants, import_config. rewrite (proj1 (G _)).
    destruct (load_config p nothing_loaded) as [l1| | | |]; cbn [andthen]; try reflexivity.
    destruct (lift _) as [s| | | |]; cbn [andthen]; try reflexivity. destruct (truthy s).
    - rewrite (proj2 (proj2 (G _))). destruct (load_slurm p l1) as [l2| | | |]; cbn [andthen]; try reflexivity.
      apply (G l2).
    - cbn [andthen]. apply (G l1). }
  split; [|exact W]. unfold start_main. rewrite W. destruct (start_worker p) as [l| | | |]; cbn [andthen]; try reflexivity.
  rewrite (proj1 (G l)). destruct (load_config p l) as [l1| | | |]; cbn [andthen]; try reflexivity. apply (G l1).
Qed.

(*@ C124 A chosen file that does not exist stops the program with its name: the configuration first, then
    the Slurm file if the configuration asks for Slurm, then the constants. *)
Lemma missing_file_lem :
  forall (p : process) (a : given),
    is_dir p (home p) = true -> parse_known_args (argv p) = Some a ->
    let f := file_of p (a_config a) "config.toml" in
    let x := file_of p (a_constants a) "constants.toml" in
    let s := file_of p (a_slurm a) "slurm_config.toml" in
    (toml_at p f = None -> start_main p = NoFile f) /\
    (forall t config use, toml_at p f = Some t -> config_load t [] = Ok config ->
       dict_find config "slurm_use" = Some use ->
       (truthy use = true -> toml_at p s = None -> start_main p = NoFile s) /\
       (truthy use = false -> toml_at p x = None -> start_main p = NoFile x)).
Proof.
  intros p a D E f x s. assert (G := arguments_ok p a D E).
  change (chosen p (home p) a) with (f, x, s) in G.
  split.
  - intros T. unfold start_main, start_worker, import_constants, import_config, load_config. rewrite G. cbn [andthen].
    unfold get_raw_toml. rewrite T. reflexivity.
  - intros t config use T CL US.
    assert (L1 : load_config p nothing_loaded = Started (mkLoaded config [] [])).
    { unfold load_config. rewrite G. cbn [andthen]. unfold get_raw_toml. rewrite T. cbn [andthen nothing_loaded l_config].
      rewrite CL. reflexivity. }
    assert (L2 : attr_get config "slurm_use" = Ok use) by (unfold attr_get; rewrite US; reflexivity).
    split; intros TU N; unfold start_main, start_worker, import_constants, import_config; rewrite L1; cbn [andthen l_config];
      rewrite L2; cbn [lift andthen]; rewrite TU.
    + unfold load_slurm. rewrite G. cbn [andthen]. unfold get_raw_toml. rewrite N. reflexivity.
    + cbn [andthen]. unfold load_constants. rewrite G. cbn [andthen]. unfold get_raw_toml. rewrite N. reflexivity.
Qed.

(*@ C124 A process whose own command line has none of these options uses the default files, whatever
    the program that started it was told: it agrees with a process without any words. *)
Lemma worker_default_files_lem :
  forall (p : process) (l : loaded), Forall (fun s => undashed s \/ foreign s) (argv p) ->
    is_dir p (home p) = true -> start_worker p = Started l ->
    exists t u, toml_at p (join_path (home p) "config.toml") = Some t /\
      toml_at p (join_path (home p) "constants.toml") = Some u /\
      config_load t [] = Ok (l_config l) /\ constants_load (l_config l) u [] = Ok (l_constants l).
Proof.
  intros p l H D W. assert (I := worker_inv p nothing_given l D (foreign_words _ H) W).
  cbn in I. destruct I as (t & u & use & T & U & C & X & _). exists t, u. auto.
Qed.

(** the shipped files in the directory /cosipy, and constants with a shorter time step beside them *)
Definition other_constants : toml :=
  map (fun hd => (fst hd, if String.eqb (fst hd) "GENERAL" then dict_set (snd hd) "dt" (VInt 600) else snd hd)) shipped_constants.
Definition some_files (path : string) : option toml :=
  dict_find [("/cosipy/config.toml", shipped_config); ("/cosipy/constants.toml", shipped_constants);
             ("/cosipy/slurm_config.toml", shipped_slurm); ("other.toml", other_constants)]%string path.
Definition user_process : process :=
  mkProcess ["-x"; "other.toml"]%string None "/cosipy" (String.eqb "/cosipy") some_files.
Definition batch_worker : process :=
  mkProcess ["tcp://10.0.0.1:8786"; "--nthreads"; "1"; "--name"; "SLURMCluster-0"; "--death-timeout"; "60"]%string
    None "/cosipy" (String.eqb "/cosipy") some_files.

Lemma batch_worker_words : Forall (fun s => undashed s \/ foreign s) (argv batch_worker).
Proof.
  assert (F : forall t, t <> EmptyString -> ~ In "="%char (list_ascii_of_string t) ->
    (forall k, In k ["--help"; "--config"; "--constants"; "--slurm"]%string -> String.prefix (String "-" (String "-" t)) k = false) ->
    foreign (String "-" (String "-" t))).
  { intros t T N P. exists (String "-" (String "-" t)). split; [|left; reflexivity].
    split; [exists t; split; [reflexivity|exact T]|]. split; [|exact P]. cbn. intuition discriminate. }
  cbn [argv batch_worker].
  repeat (apply Forall_cons; [first [left; cbn; discriminate
    |right; apply F; [discriminate|cbn; intuition discriminate|
     cbn [In]; intros k K; repeat (destruct K as [<-|K]; [reflexivity|]); contradiction]]|]).
  apply Forall_nil.
Qed.

(*@ C124 That all processes of a run work with the same constants is refuted: the main program is told to use
    other constants, with a time step of ten minutes; a worker that a batch system starts with a command line
    of its own computes with the default file and steps of an hour. *)
Lemma workers_agree_refuted_lem :
  exists (main worker : process) (l l' : loaded),
    env_dir worker = env_dir main /\ cwd worker = cwd main /\ is_dir worker = is_dir main /\
    toml_at worker = toml_at main /\ Forall (fun s => undashed s \/ foreign s) (argv worker) /\
    start_main main = Started l /\ start_worker worker = Started l' /\
    l_config l' = l_config l /\
    dict_find (l_constants l) "dt" = Some (VInt 600) /\ dict_find (l_constants l') "dt" = Some (VInt 3600).
Proof.
  exists user_process, batch_worker. eexists _, _. do 4 (split; [reflexivity|]).
  split; [exact batch_worker_words|].
  split; [reflexivity|]. split; [reflexivity|]. split; [reflexivity|]. split; reflexivity.
Qed.

(*@ C124 The conversion of WRF data starts like COSIPY itself before it reads its own command line: asking it
    for help ends in COSIPY's parser, and it does not run without a configuration of COSIPY. *)
Lemma wrf2cosipy_start_lem :
  forall (A : Type) (p : process) (own : loaded -> started A), is_dir p (home p) = true ->
    (forall pre post a, ~ In "--"%string pre -> parse_known_args pre = Some a ->
       argv p = pre ++ "-h"%string :: post \/ argv p = pre ++ "--help"%string :: post ->
       start_wrf2cosipy p own = Exits) /\
    (forall a, parse_known_args (argv p) = Some a ->
       toml_at p (file_of p (a_config a) "config.toml") = None ->
       start_wrf2cosipy p own = NoFile (file_of p (a_config a) "config.toml")).
Proof.
  intros A p own D. split.
  - intros pre post a N E W.
    assert (P : parse_known_args (argv p) = None).
    { destruct (option_refused_lem pre post a "-c" "-c" ConfigPath ConfigPath N E) as (_ & _ & H1 & H2);
        [cbn; tauto|cbn; tauto|]. destruct W as [-> | ->]; assumption. }
    unfold start_wrf2cosipy, import_constants, import_config, load_config, get_user_arguments, get_cosipy_path_from_env.
    fold (home p). rewrite D. cbn [andthen]. rewrite P. reflexivity.
  - intros a E T. assert (G := arguments_ok p a D E).
    unfold start_wrf2cosipy, import_constants, import_config, load_config. rewrite G. cbn [andthen].
    unfold chosen, get_raw_toml. unfold file_of in *. rewrite T. reflexivity.
Qed.

(*@ C124 Of the installed scripts all are listed by cosipy-shortcuts and all but one name a function that exists:
    cosipy-plot-profile cannot start. *)
Lemma installed_scripts_lem :
  get_entry_points (map fst console_scripts) = map fst console_scripts /\
  forall n, In n (map fst console_scripts) ->
    (script_function n = None <-> n = "cosipy-plot-profile"%string).
Proof.
  split; [reflexivity|]. intros n H. cbn [map fst console_scripts In] in H.
  repeat (destruct H as [<-|H]; [split; intros E; try reflexivity; discriminate|]). contradiction.
Qed.

(*@ex C124 A command line with a misspelt option: the file behind it is not used, the others are. *)
Lemma misspelt_case_lem :
  foreign "--konfig" /\
  parse_known_args ["-xb.toml"; "--konfig"; "mine.toml"; "--slu=q.toml"; "-x"; "c.toml"]%string
  = Some (mkGiven None (Some "c.toml") (Some "q.toml"))%string /\
  parse_known_args ["--con"; "mine.toml"]%string = None /\
  exists l, start_main user_process = Started l /\ dict_find (l_constants l) "dt" = Some (VInt 600).
Proof.
  split.
  { exists "--konfig"%string. split; [|left; reflexivity]. split; [exists "konfig"%string; split; [reflexivity|discriminate]|].
    split; [cbn; intuition discriminate|]. cbn [In]. intros k K. repeat (destruct K as [<-|K]; [reflexivity|]). contradiction. }
  split; [reflexivity|]. split; [reflexivity|]. eexists. split; reflexivity.
Qed.
