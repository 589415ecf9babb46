(** * Installation of configuration files *)
From Verif Require Import ModelPy ModelConfig ModelSetup SpecSetup.
From Verif Require Import LemPy LemDict LemAws2.

Lemma one_of_in s l : one_of s l = true <-> In s l.
Proof.
  unfold one_of. rewrite existsb_exists. split; [intros (x & H & E); apply String.eqb_eq in E; subst; exact H|].
  intros H. exists s. split; [exact H|apply String.eqb_refl].
Qed.

(*@ C55 The question about a file: unclear answers are skipped; the first clear answer decides, whatever comes later. *)
Lemma confirmation_answers_lem :
  forall answers,
    (Forall unclear answers /\ get_user_confirmation answers = (None, [])) \/
    exists skipped a rest, answers = skipped ++ a :: rest /\ Forall unclear skipped /\
      ((says_yes a /\ get_user_confirmation answers = (Some true, rest)) \/
       (says_no a /\ ~ says_yes a /\ get_user_confirmation answers = (Some false, rest))).
Proof.
  induction answers as [|a l IH]; [left; split; [constructor|reflexivity]|]. cbn [get_user_confirmation].
  destruct (one_of (strip (lower a)) ["y"; "yes"; "n"; "no"; ""]%string) eqn:E; cbn [negb].
  - right. exists [], a, l. split; [reflexivity|]. split; [constructor|].
    apply one_of_in in E. destruct (one_of (strip (lower a)) ["y"; "yes"]%string) eqn:Y.
    + left. apply one_of_in in Y. split; [exact Y|reflexivity].
    + right. assert (NY : ~ says_yes a) by (intros H; apply one_of_in in H; congruence).
      split; [|split; [exact NY|reflexivity]]. unfold says_no, says_yes in *. cbn in *. tauto.
  - assert (U : unclear a).
    { split; intros H; [unfold says_yes in H|unfold says_no in H]; assert (X : In (strip (lower a)) ["y"; "yes"; "n"; "no"; ""]%string) by (cbn in *; tauto);
        apply one_of_in in X; congruence. }
    destruct IH as [[F ->]|(sk & b & rest & -> & F & D)]; [left; split; [constructor; auto|reflexivity]|].
    right. exists (a :: sk), b, rest. split; [reflexivity|]. split; [constructor; auto|exact D].
Qed.

(*@ C55 One file that exists, without -y: it is replaced only after a clear yes to its question; after a clear no, or if the input ends, everything stays as it is. *)
Lemma existing_file_needs_yes_lem :
  forall resolve basename source_dir target_dir fs answers,
    let target := resolve (target_dir ++ "/" ++ basename)%string in
    dict_find fs target <> None ->
    let r := copy_file_to_target resolve basename source_dir target_dir false fs answers in
    (Forall unclear answers /\ r = (fs, [], Some EOFError)) \/
    exists skipped a rest, answers = skipped ++ a :: rest /\ Forall unclear skipped /\
      ((says_no a /\ ~ says_yes a /\ r = (fs, rest, None)) \/
       (says_yes a /\ snd (fst r) = rest /\
        (fst (fst r) = fs \/
         exists text, dict_find fs (resolve (source_dir ++ "/" ++ basename)%string) = Some text /\ fst (fst r) = dict_set fs target text))).
Proof.
  intros resolve n sd td fs answers target HT r. subst r. unfold copy_file_to_target, isfile, path_in. cbv zeta.
  change (resolve (td ++ "/" ++ n)%string) with target. rewrite mem_find. destruct (dict_find fs target) eqn:EF; [|congruence]. cbn [negb andb].
  destruct (confirmation_answers_lem answers) as [[F ->]|(sk & a & rest & EQ & F & [[Y ->]|(NO & NY & ->)])]; [left; auto| |].
  - right. exists sk, a, rest. split; [exact EQ|]. split; [exact F|]. right. unfold copyfile.
    change (resolve (td ++ "/" ++ n)%string) with target.
    destruct (String.eqb _ target); [cbn; auto|]. destruct (dict_find fs (resolve (sd ++ "/" ++ n)%string)) as [text|] eqn:ES; cbn; [|auto].
    split; [exact Y|]. split; [reflexivity|]. right. exists text. auto.
  - right. exists sk, a, rest. split; [exact EQ|]. split; [exact F|]. left. auto.
Qed.

Lemma copy_step resolve n sd td silent fs answers :
  let r := copy_file_to_target resolve n sd td silent fs answers in
  exists used, answers = used ++ snd (fst r) /\ (silent = true -> used = []) /\
    forall p, dict_find (fst (fst r)) p = dict_find fs p \/
      (p = resolve (path_in td n) /\ dict_find (fst (fst r)) p <> None /\ dict_find (fst (fst r)) p = dict_find fs (resolve (path_in sd n)) /\
       (silent = true \/ dict_find fs p = None \/ exists a, In a used /\ says_yes a)).
Proof.
  cbv zeta. unfold copy_file_to_target, isfile. rewrite mem_find.
  assert (CP : forall p, let q := copyfile resolve fs (path_in sd n) (path_in td n) in
    dict_find (fst q) p = dict_find fs p \/ (p = resolve (path_in td n) /\ dict_find (fst q) p <> None /\ dict_find (fst q) p = dict_find fs (resolve (path_in sd n)))).
  { intros p. unfold copyfile. destruct (String.eqb _ _); [left; reflexivity|]. destruct (dict_find fs (resolve (path_in sd n))) as [text|] eqn:ES; [|left; reflexivity].
    cbv zeta. cbn [fst]. rewrite find_set. destruct (String.eqb_spec (resolve (path_in td n)) p) as [<-|]; [right|left; reflexivity]. repeat split; discriminate. }
  cbv zeta in CP. destruct (copyfile resolve fs (path_in sd n) (path_in td n)) as [fs' e] eqn:EC. cbn [fst] in CP.
  destruct silent; cbn [negb andb].
  - exists []. cbn. split; [reflexivity|]. split; [auto|]. intros p. destruct (CP p) as [H|H]; [auto|right; tauto].
  - destruct (dict_find fs (resolve (path_in td n))) eqn:ET.
    + destruct (confirmation_answers_lem answers) as [[F ->]|(sk & a & rest & -> & F & [[Y ->]|(NO & NY & ->)])].
      * exists answers. cbn. rewrite app_nil_r. split; [reflexivity|]. split; [discriminate|auto].
      * exists (sk ++ [a]). cbn. rewrite <- app_assoc. split; [reflexivity|]. split; [discriminate|]. intros p.
        destruct (CP p) as [H|(H1 & H2 & H3)]; [auto|]. right. repeat split; auto. right. right. exists a. split; [apply in_or_app; right; left; reflexivity|exact Y].
      * exists (sk ++ [a]). cbn. rewrite <- app_assoc. split; [reflexivity|]. split; [discriminate|auto].
    + exists []. cbn. split; [reflexivity|]. split; [auto|]. intros p. destruct (CP p) as [H|(H1 & H2 & H3)]; [auto|]. right. subst p. tauto.
Qed.

Lemma copy_all_step resolve sd td silent names : forall fs answers,
  let r := copy_all resolve names sd td silent fs answers in
  exists used, answers = used ++ snd (fst r) /\ (silent = true -> used = []) /\
    forall p, dict_find (fst (fst r)) p = dict_find fs p \/
      ((exists n, In n names /\ p = resolve (path_in td n)) /\ dict_find (fst (fst r)) p <> None /\
       (silent = true \/ dict_find fs p = None \/ exists a, In a used /\ says_yes a)).
Proof.
  induction names as [|n t IH]; intros fs answers; cbv zeta; cbn [copy_all].
  - exists []. split; [reflexivity|]. split; [auto|]. intros p. left. reflexivity.
  - destruct (isfile resolve fs (path_in sd n)).
    2:{ exists []. split; [reflexivity|]. split; [auto|]. intros p. left. reflexivity. }
    destruct (copy_step resolve n sd td silent fs answers) as (u1 & A1 & B1 & C1). cbv zeta in *.
    destruct (copy_file_to_target resolve n sd td silent fs answers) as [[fs1 ans1] e1]. cbn [fst snd] in *. destruct e1 as [e1|].
    + exists u1. cbn [fst snd]. split; [exact A1|]. split; [exact B1|]. intros p. destruct (C1 p) as [H|(H1 & H2 & _ & H3)]; [auto|].
      right. split; [exists n; split; [left; reflexivity|exact H1]|]. auto.
    + destruct (IH fs1 ans1) as (u2 & A2 & B2 & C2). cbv zeta in *. exists (u1 ++ u2). split; [rewrite <- app_assoc, <- A2; exact A1|].
      split; [intros HS; rewrite B1, B2 by exact HS; reflexivity|]. intros p.
      destruct (C1 p) as [H|(H1 & H2 & _ & H3)].
      * destruct (C2 p) as [K|((m & M1 & M2) & K2 & K3)]; [left; congruence|]. right.
        split; [exists m; split; [right; exact M1|exact M2]|]. split; [exact K2|]. rewrite <- H.
        destruct K3 as [K3|[K3|(a & I & Y)]]; [auto|auto|]. right. right. exists a. split; [apply in_or_app; auto|exact Y].
      * right. split; [exists n; split; [left; reflexivity|exact H1]|].
        split; [destruct (C2 p) as [->|(_ & K2 & _)]; [exact H2|exact K2]|].
        destruct H3 as [H3|[H3|(a & I & Y)]]; [auto|auto|]. right. right. exists a. split; [apply in_or_app; auto|exact Y].
Qed.

Lemma main_cases resolve cwd sample ow out fs answers :
  (exists e, setup_main resolve cwd sample ow out fs answers = (fs, answers, Some e)) \/
  setup_main resolve cwd sample ow out fs answers = copy_all resolve config_files sample (goes_to cwd out) ow fs answers.
Proof.
  unfold setup_main, goes_to. destruct (negb _); [left; eauto|]. destruct (String.eqb _ sample); [left; eauto|]. right. reflexivity.
Qed.

(*@ C55 A run of the installer, whatever the files, paths, links, options and answers, and also if it stops half-way: files are never deleted; only the four configuration files in the target directory can change; an existing one changes only with -y or after a clear yes; with -y nothing is asked. *)
Lemma setup_consent_lem :
  forall resolve cwd sample overwrite out fs answers fs' left e,
    setup_main resolve cwd sample overwrite out fs answers = (fs', left, e) ->
    exists used, answers = used ++ left /\ (overwrite = true -> used = []) /\
      forall p,
        (dict_find fs p <> None -> dict_find fs' p <> None) /\
        (dict_find fs' p <> dict_find fs p -> is_target resolve cwd out p) /\
        (dict_find fs p <> None -> dict_find fs' p <> dict_find fs p ->
         overwrite = true \/ exists a, In a used /\ says_yes a).
Proof.
  intros resolve cwd sample ow out fs answers fs' left e H.
  destruct (main_cases resolve cwd sample ow out fs answers) as [(e' & E)|E]; rewrite H in E.
  - injection E as -> -> _. exists []. split; [reflexivity|]. split; [auto|]. intros p. split; [auto|]. split; [congruence|congruence].
  - destruct (copy_all_step resolve sample (goes_to cwd out) ow config_files fs answers) as (used & A & B & C). cbv zeta in *.
    rewrite <- E in *. cbn [fst snd] in *. exists used. split; [exact A|]. split; [exact B|]. intros p. split; [|split].
    + intros N. destruct (C p) as [->|(_ & K & _)]; auto.
    + intros N. destruct (C p) as [K|((n & I & P) & _)]; [contradiction|]. exists n. split; [exact I|exact P].
    + intros N D. destruct (C p) as [K|(_ & _ & [K|[K|K]])]; [contradiction|auto|contradiction|auto].
Qed.

(*@ C55 Without -y and without any clear yes among the answers, every existing file keeps its content. *)
Lemma setup_declined_lem :
  forall resolve cwd sample out fs answers fs' left e p text,
    setup_main resolve cwd sample false out fs answers = (fs', left, e) ->
    (forall a, In a answers -> ~ says_yes a) ->
    dict_find fs p = Some text -> dict_find fs' p = Some text.
Proof.
  intros resolve cwd sample out fs answers fs' left e p text H NA HP.
  destruct (setup_consent_lem _ _ _ _ _ _ _ _ _ _ H) as (used & A & _ & C). destruct (C p) as (_ & _ & C3). rewrite HP in C3.
  destruct (dict_find fs' p) as [t'|] eqn:E.
  - destruct (String.eqb_spec t' text) as [->|N]; [reflexivity|exfalso].
    destruct C3 as [C3|(a & I & Y)]; [discriminate|congruence|discriminate|]. apply (NA a); [|exact Y]. rewrite A. apply in_or_app. left. exact I.
  - exfalso. destruct C3 as [C3|(a & I & Y)]; [discriminate|discriminate|discriminate|]. apply (NA a); [|exact Y]. rewrite A. apply in_or_app. left. exact I.
Qed.

Lemma copy_all_done resolve sd td silent names : NoDup names -> separate resolve sd td names ->
  forall fs answers fs' rest, copy_all resolve names sd td silent fs answers = (fs', rest, None) ->
  (forall m, dict_find fs' (resolve (path_in sd m)) = dict_find fs (resolve (path_in sd m)) \/ ~ In m names) /\
  forall n, In n names ->
    dict_find fs' (resolve (path_in td n)) <> None /\
    (dict_find fs' (resolve (path_in td n)) = dict_find fs (resolve (path_in sd n)) \/
     (silent = false /\ dict_find fs' (resolve (path_in td n)) = dict_find fs (resolve (path_in td n)))).
Proof.
  intros ND AP. cut (forall l, NoDup l -> (forall n, In n l -> In n names) -> forall fs answers fs' rest, copy_all resolve l sd td silent fs answers = (fs', rest, None) ->
    (forall m, In m names -> dict_find fs' (resolve (path_in sd m)) = dict_find fs (resolve (path_in sd m))) /\
    (forall p, (forall n, In n l -> p <> resolve (path_in td n)) -> dict_find fs' p = dict_find fs p) /\
    forall n, In n l -> dict_find fs' (resolve (path_in td n)) <> None /\
    (dict_find fs' (resolve (path_in td n)) = dict_find fs (resolve (path_in sd n)) \/
     (silent = false /\ dict_find fs' (resolve (path_in td n)) = dict_find fs (resolve (path_in td n))))).
  { intros X fs answers fs' rest H. destruct (X names ND (fun n I => I) fs answers fs' rest H) as (X1 & _ & X2). split; [|exact X2].
    intros m. destruct (in_dec string_dec m names); auto. }
  induction l as [|n t IH]; intros NL SUB fs answers fs' rest H; cbn [copy_all] in H.
  - injection H as <- _. split; [auto|]. split; [auto|]. intros n [].
  - destruct (isfile resolve fs (path_in sd n)); [|discriminate].
    pose proof (copy_step resolve n sd td silent fs answers) as (u & _ & _ & C). cbv zeta in C.
    destruct (copy_file_to_target resolve n sd td silent fs answers) as [[fs1 ans1] e1] eqn:E1. cbn [fst snd] in C. destruct e1; [discriminate|].
    inversion NL as [|? ? NI NT]; subst.
    destruct (IH NT ltac:(intros m M; apply SUB; right; exact M) _ _ _ _ H) as (I1 & I2 & I3).
    assert (K : forall p, p <> resolve (path_in td n) -> dict_find fs1 p = dict_find fs p) by (intros p P; destruct (C p) as [?|(? & _)]; [assumption|contradiction]).
    assert (S1 : forall m, In m names -> dict_find fs1 (resolve (path_in sd m)) = dict_find fs (resolve (path_in sd m))).
    { intros m M. apply K. intros X. apply (proj1 (AP n m (SUB n (or_introl eq_refl)) M)). auto. }
    split; [intros m M; rewrite I1, S1 by exact M; reflexivity|]. split.
    + intros p P. rewrite I2, K; [reflexivity|apply P; left; reflexivity|intros m M; apply P; right; exact M].
    + intros m [<-|M].
      * rewrite I2. 2:{ intros q Q X. apply (proj2 (AP n q (SUB n (or_introl eq_refl)) (SUB q (or_intror Q)))) in X. subst q. contradiction. }
        clear - C E1. unfold copy_file_to_target, isfile in E1. rewrite mem_find in E1.
        assert (CF : forall ans, (let '(fs0, e) := copyfile resolve fs (path_in sd n) (path_in td n) in (fs0, ans, e)) = (fs1, ans1, None) ->
           dict_find fs1 (resolve (path_in td n)) = dict_find fs (resolve (path_in sd n)) /\ dict_find fs1 (resolve (path_in td n)) <> None).
        { intros ans X. unfold copyfile in X. destruct (String.eqb _ _); [discriminate|]. destruct (dict_find fs (resolve (path_in sd n))) as [text|] eqn:ES; [|discriminate].
          injection X as <- _. rewrite find_set, String.eqb_refl. split; [reflexivity|discriminate]. }
        destruct silent; cbn [negb andb] in E1; [apply CF in E1; tauto|].
        destruct (dict_find fs (resolve (path_in td n))) as [old|] eqn:EO; [|apply CF in E1; tauto].
        destruct (get_user_confirmation answers) as [[[|]|] r0]; [apply CF in E1; tauto| |discriminate].
        injection E1 as <- _. rewrite EO. split; [discriminate|right; auto].
      * destruct (I3 m M) as (J1 & J2). split; [exact J1|]. rewrite <- (S1 m (SUB m (or_intror M))).
        assert (Q : resolve (path_in td m) <> resolve (path_in td n)).
        { intros X. apply (proj2 (AP m n (SUB m (or_intror M)) (SUB n (or_introl eq_refl)))) in X. subst m. contradiction. }
        rewrite <- (K _ Q). exact J2.
Qed.

Lemma config_nodup : NoDup config_files.
Proof. repeat constructor; cbn; intuition discriminate. Qed.

(*@ C55 After a run without exception every configuration file is in the target directory, either the sample or, without -y, the file that was there. *)
Lemma setup_complete_lem :
  forall resolve cwd sample overwrite out fs answers fs' left,
    setup_main resolve cwd sample overwrite out fs answers = (fs', left, None) ->
    separate resolve sample (goes_to cwd out) config_files ->
    forall n, In n ["config.toml"; "constants.toml"; "slurm_config.toml"; "utilities_config.toml"]%string ->
      let target := resolve (goes_to cwd out ++ "/" ++ n)%string in
      dict_find fs' target <> None /\
      (dict_find fs' target = dict_find fs (resolve (sample ++ "/" ++ n)%string) \/
       (overwrite = false /\ dict_find fs' target = dict_find fs target)).
Proof.
  intros resolve cwd sample ow out fs answers fs' left H AP n HN target.
  destruct (main_cases resolve cwd sample ow out fs answers) as [(e' & E)|E]; rewrite H in E; [discriminate|]. symmetry in E.
  destruct (copy_all_done _ _ _ _ _ config_nodup AP _ _ _ _ E) as (_ & C). apply (C n). exact HN.
Qed.

(*@ C55 With -y the installation succeeds if the samples are there and the target is another directory. *)
Lemma setup_succeeds_lem :
  forall resolve cwd sample out fs answers,
    separate resolve sample (goes_to cwd out) config_files -> goes_to cwd out <> sample ->
    (forall p, out = Some p -> p <> ""%string -> dict_find fs (resolve p) = None) ->
    (forall n, In n config_files -> dict_find fs (resolve (sample ++ "/" ++ n)%string) <> None) ->
    exists fs', setup_main resolve cwd sample true out fs answers = (fs', answers, None).
Proof.
  intros resolve cwd sample out fs answers AP NE NF HS.
  assert (X : forall l fs, (forall n, In n l -> In n config_files) -> (forall n, In n config_files -> dict_find fs (resolve (path_in sample n)) <> None) ->
    exists fs', copy_all resolve l sample (goes_to cwd out) true fs answers = (fs', answers, None)).
  { induction l as [|n t IH]; intros fs0 SUB H0; cbn [copy_all]; [eauto|]. unfold isfile. rewrite mem_find.
    destruct (dict_find fs0 (resolve (path_in sample n))) as [text|] eqn:ES; [|exfalso; apply (H0 n); auto; apply SUB; left; reflexivity].
    unfold copy_file_to_target. cbn [negb andb]. unfold copyfile. rewrite ES.
    destruct (String.eqb_spec (resolve (path_in sample n)) (resolve (path_in (goes_to cwd out) n))) as [EQ|_].
    { exfalso. apply (proj1 (AP n n (SUB n (or_introl eq_refl)) (SUB n (or_introl eq_refl)))). auto. }
    cbn. apply IH; [intros m M; apply SUB; right; exact M|]. intros m M. rewrite find_set. destruct (String.eqb _ _); [discriminate|auto]. }
  destruct (X config_files fs (fun n I => I) HS) as (fs' & E). exists fs'. unfold setup_main. fold (goes_to cwd out).
  match goal with |- (if negb ?b then _ else _) = _ => assert (B : b = true) end.
  { destruct out as [p|]; [|reflexivity]. destruct (String.eqb_spec p ""); [reflexivity|]. unfold isfile. rewrite mem_find, NF by auto. reflexivity. }
  rewrite B. cbn [negb]. destruct (String.eqb_spec (goes_to cwd out) sample); [contradiction|]. exact E.
Qed.

(*@ C55 The sample directory under another name is not recognised beforehand, but nothing is overwritten: the run stops at the first file. *)
Lemma setup_same_directory_lem :
  forall resolve cwd sample out fs answers,
    goes_to cwd out <> sample ->
    (forall p, out = Some p -> p <> ""%string -> dict_find fs (resolve p) = None) ->
    resolve (goes_to cwd out ++ "/config.toml")%string = resolve (sample ++ "/config.toml")%string ->
    dict_find fs (resolve (sample ++ "/config.toml")%string) <> None ->
    setup_main resolve cwd sample true out fs answers = (fs, answers, Some SameFileError).
Proof.
  intros resolve cwd sample out fs answers NE NF EQ HS. unfold setup_main. fold (goes_to cwd out).
  match goal with |- (if negb ?b then _ else _) = _ => assert (B : b = true) end.
  { destruct out as [p|]; [|reflexivity]. destruct (String.eqb_spec p ""); [reflexivity|]. unfold isfile. rewrite mem_find, NF by auto. reflexivity. }
  rewrite B. cbn [negb]. destruct (String.eqb_spec (goes_to cwd out) sample); [contradiction|].
  unfold config_files. cbn [copy_all]. unfold isfile, path_in. cbn [append]. rewrite mem_find.
  destruct (dict_find fs (resolve (sample ++ "/config.toml")%string)); [|congruence].
  unfold copy_file_to_target. cbn [negb andb]. unfold copyfile, path_in. cbn [append]. rewrite EQ, String.eqb_refl. reflexivity.
Qed.

(*@ex The four samples installed over one existing file: a clear no keeps it, an unclear answer is asked again. *)
Lemma setup_example_lem :
  let fs := [("s/config.toml", "c"); ("s/constants.toml", "k"); ("s/slurm_config.toml", "l"); ("s/utilities_config.toml", "u");
             ("t/config.toml", "mine"); ("t/constants.toml", "old")]%string in
  setup_main (fun p => p) "t" "s" false None fs ["perhaps"; " NO "; "Yes"]%string =
  (dict_set (dict_set (dict_set fs "t/constants.toml" "k") "t/slurm_config.toml" "l") "t/utilities_config.toml" "u", [], None)%string.
Proof. reflexivity. Qed.
