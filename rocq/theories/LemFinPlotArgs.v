(** * Command lines with switches *)
From Verif Require Import ModelPy ModelConstants ModelNode ModelGrid ModelHeat ModelSurface ModelInit
  ModelCore ModelConfig ModelIO ModelMain ModelRadCor ModelAws ModelSetup ModelPost ModelPlots ModelArgs ModelPlotArgs
  SpecConfig SpecSetup SpecArgs SpecPlotArgs.
From Verif Require Import LemPy LemDict LemFinArgs LemFinConvert LemFinUtilArgs LemFinSetup.
From Coq Require Import Ascii.

(** ** Classification *)

Definition no_digit_names {O} (table : dict O) : Prop :=
  forall c, digit c \/ c = "."%char -> dict_find table (String "-" (String c EmptyString)) = None.

Lemma digit_is c : digit c -> is_digit c = true /\ c <> "-"%char /\ c <> "="%char /\ c <> "."%char.
Proof.
  unfold digit. cbn [In]. intros H. repeat (destruct H as [<-|H]; [repeat split; (reflexivity || discriminate)|]). contradiction.
Qed.

Lemma digits_all s : digits s -> all_digits s = true.
Proof.
  unfold digits. induction s as [|c s IH]; intros H; [reflexivity|]. cbn in H. inversion H; subst. cbn [all_digits].
  rewrite (proj1 (digit_is c ltac:(assumption))), IH by assumption. reflexivity.
Qed.

Lemma digits_decimal s t : digits s -> t <> EmptyString -> digits t -> digits_dot_digits (s ++ "." ++ t) = true.
Proof.
  intros DS NT DT. induction s as [|c s IH].
  - cbn. destruct t; [congruence|]. apply digits_all, DT.
  - unfold digits in DS. cbn in DS. inversion DS; subst. cbn [append digits_dot_digits].
    destruct (digit_is c ltac:(assumption)) as (D & _ & _ & P). apply Ascii.eqb_neq in P. rewrite P, D. apply IH. assumption.
Qed.

Lemma argument_plain {O} (table : dict O) v : well_formed table -> no_digit_names table -> argument v ->
  String.eqb v "--" = false /\ classify table v = Some (Plain v).
Proof.
  intros W N A. destruct A as [v U| |s NE D|s t D NE DT].
  - split; [apply undashed_not_dd, U|apply plain_word, U].
  - split; [reflexivity|]. unfold classify. change (negb (is_dash "-")) with false. cbn iota.
    destruct (dict_find table "-") eqn:E; [|reflexivity]. apply find_in in E. apply (name_form table W) in E.
    destruct E as [(b & E & _)|(b & E & _)]; discriminate.
  - destruct s as [|c s]; [congruence|]. assert (AL := digits_all _ D). unfold digits in D. cbn in D. inversion D as [|? ? Dc Ds]; subst.
    destruct (digit_is c Dc) as (_ & B & BE & _). cbn [append]. split.
    + apply String.eqb_neq. intros H. injection H. intros. congruence.
    + rewrite (classify_short table W c B BE), N by (left; exact Dc).
      assert (NN : negative_number (String c s) = true) by (unfold negative_number; rewrite AL; reflexivity).
      rewrite NN. reflexivity.
  - assert (NN : negative_number (s ++ "." ++ t) = true).
    { unfold negative_number. rewrite (digits_decimal s t D NE DT). apply Bool.orb_true_r. }
    assert (X : exists c r, (s ++ "." ++ t)%string = String c r /\ c <> "-"%char /\ c <> "="%char /\ (digit c \/ c = "."%char)).
    { destruct s as [|c s]; cbn [append].
      - eexists _, _. split; [reflexivity|]. repeat split; try discriminate. right. reflexivity.
      - unfold digits in D. cbn in D. inversion D; subst. destruct (digit_is c ltac:(assumption)) as (_ & B & BE & _).
        eexists _, _. split; [reflexivity|]. auto. }
    destruct X as (c & r & E & B & BE & C). rewrite E in *. cbn [append]. split.
    + apply String.eqb_neq. intros H. injection H. intros. congruence.
    + rewrite (classify_short table W c B BE), N by exact C. rewrite NN. reflexivity.
Qed.

Lemma string_letters a b : list_ascii_of_string (a ++ b) = list_ascii_of_string a ++ list_ascii_of_string b.
Proof. induction a as [|c a IH]; cbn; [reflexivity|]. rewrite IH. reflexivity. Qed.

Lemma is_digit_digit c : is_digit c = true -> digit c.
Proof.
  unfold is_digit. intros H. apply andb_true_iff in H as [A B]. apply Nat.leb_le in A, B.
  rewrite <- (ascii_nat_embedding c). set (n := nat_of_ascii c) in *. clearbody n.
  do 48 (destruct n as [|n]; [lia|]). do 10 (destruct n as [|n]; [cbn; tauto|]). lia.
Qed.

Lemma all_digits_digits s : all_digits s = true -> digits s.
Proof.
  unfold digits. induction s as [|c s IH]; intros H; [constructor|]. cbn in H. apply andb_true_iff in H as [A B].
  cbn. constructor; [apply is_digit_digit, A|apply IH, B].
Qed.

Lemma decimal_digits s : digits_dot_digits s = true -> exists l r, s = (l ++ "." ++ r)%string /\ digits l /\ r <> EmptyString /\ digits r.
Proof.
  induction s as [|c s IH]; intros H; [discriminate|]. cbn in H. destruct (Ascii.eqb_spec c ".") as [->|N].
  - destruct s as [|d s]; [discriminate|]. exists EmptyString, (String d s). split; [reflexivity|].
    split; [constructor|]. split; [discriminate|]. apply all_digits_digits, H.
  - apply andb_true_iff in H as [A B]. destruct (IH B) as (l & r & -> & L & R0 & R). exists (String c l), r.
    split; [reflexivity|]. split; [|auto]. unfold digits. cbn. constructor; [apply is_digit_digit, A|exact L].
Qed.

(** a word that argparse takes for an argument *)
Lemma plain_argument {O} (table : dict O) w v : classify table w = Some (Plain v) ->
  argument w \/ has_space w = true.
Proof.
  intros E. destruct w as [|a t]; [left; apply a_undashed; exact I|]. unfold classify in E.
  destruct (Ascii.eqb_spec a "-") as [->|A]; [|left; apply a_undashed; exact A].
  change (negb (is_dash "-")) with false in E. cbn iota in E.
  destruct (dict_find table (String "-" t)); [discriminate|]. destruct t as [|b t]; [left; apply a_hyphen|].
  destruct (match split_equals (String "-" (String b t)) with Some _ => _ | None => _ end) as [w|] eqn:X.
  - exfalso. destruct (split_equals (String "-" (String b t))) as [[l r]|]; [|discriminate].
    destruct (dict_find table l); [|discriminate]. injection X as <-. discriminate.
  - clear X. destruct (option_tuples table (String "-" (String b t))) as [|[o att] [|]]; [|discriminate|discriminate].
    destruct (negative_number (String b t)) eqn:NN.
    + left. unfold negative_number in NN. apply Bool.orb_true_iff in NN as [H|H].
      * apply (a_integer (String b t)); [discriminate|apply all_digits_digits, H].
      * apply decimal_digits in H as (l & r & -> & L & R0 & R). apply (a_decimal l r); assumption.
    + cbn [orb] in E. right. destruct (has_space (String "-" (String b t))); [reflexivity|discriminate].
Qed.

Lemma spaces w : has_space w = true -> In " "%char (list_ascii_of_string w).
Proof.
  induction w as [|c w IH]; intros H; [discriminate|]. cbn in H. apply Bool.orb_true_iff in H as [H|H].
  - apply Ascii.eqb_eq in H. left. exact H.
  - right. apply IH, H.
Qed.

Section Groups.
Context (table : dict action) (W : well_formed table) (N : no_digit_names table).
Context (convertible : string -> string -> bool).

Definition fits_setting (dv : string * list string) : bool := forallb (convertible (fst dv)) (snd dv).
Definition apply_all (st : list (string * list string)) (a : parsed) : parsed :=
  fold_left (fun a dv => dict_set a (fst dv) (snd dv)) st a.

Lemma letter_form c o : In (String "-" (String c EmptyString), o) table -> c <> "-"%char /\ c <> "="%char.
Proof.
  intros I. apply (name_form table W) in I. destruct I as [(b & E & B & BE)|(t & E & T & _)].
  - injection E as ->. auto.
  - injection E as -> E. subst t. congruence.
Qed.

(** the letters after the first one *)
Lemma bundle_letters letters names :
  Forall2 (fun c d => In (String "-" (String c EmptyString), ASwitch d) table) (list_ascii_of_string letters) names ->
  forall rest ds e, bundle table rest = Some (ds, e) -> bundle table (letters ++ rest) = Some (names ++ ds, e).
Proof.
  revert names. induction letters as [|c l IH]; intros names F rest ds e B; cbn in F; inversion F; subst; [exact B|].
  cbn [append bundle app]. unfold dash. erewrite (name_found table W) by eassumption.
  erewrite IH by eassumption. reflexivity.
Qed.

Lemma switch_fold names a : fold_left switch_on names a = apply_all (map on names) a.
Proof. unfold apply_all. revert a. induction names as [|d l IH]; intros a; cbn; [reflexivity|]. apply IH. Qed.

Lemma on_fits names : forallb fits_setting (map on names) = true.
Proof. induction names; [reflexivity|]. cbn. exact IHnames. Qed.

(** a word of switches *)
Lemma switches_word letters names rest ds e : switches table letters names -> bundle table rest = Some (ds, e) ->
  (rest <> EmptyString -> exists c r, rest = String c r /\ c <> "="%char) ->
  String.eqb (String "-" (letters ++ rest)) "--" = false /\
  exists o att, classify table (String "-" (letters ++ rest)) = Some (Option_ (Some o) att) /\
    forall a, option_word table convertible (String "-" (letters ++ rest)) o att a =
      match e with
      | Done => Some (Idle, apply_all (map on (names ++ ds)) a)
      | Attached o v => act convertible o (Some v) (apply_all (map on (names ++ ds)) a)
      | Next o => act convertible o None (apply_all (map on (names ++ ds)) a)
      end.
Proof.
  intros [NE F] B R. destruct letters as [|c l]; [congruence|]. cbn in F. inversion F as [|? d ? names' I F']; subst.
  destruct (letter_form _ _ I) as [C CE]. cbn [append]. split.
  { apply String.eqb_neq. intros H. injection H. intros. congruence. }
  assert (BB := bundle_letters l names' F' rest ds e B).
  rewrite (classify_short table W c C CE), (name_found table W _ _ I).
  destruct (l ++ rest)%string as [|x r] eqn:E.
  - destruct l; [|discriminate]. cbn in E, F'. subst rest. inversion F'; subst. cbn in B. injection B as <- <-.
    eexists _, _. split; [reflexivity|]. intros a. reflexivity.
  - assert (X : x <> "="%char).
    { destruct l as [|y l].
      - cbn in E. subst rest. destruct R as (x' & r' & E & X); [discriminate|]. injection E as <- _. exact X.
      - cbn in E, F'. injection E as -> _. inversion F'; subst. eapply letter_form; eassumption. }
    assert (XE := X). apply Ascii.eqb_neq in XE. rewrite XE. eexists _, _. split; [reflexivity|]. intros a.
    assert (C' := C). apply Ascii.eqb_neq in C'. unfold option_word, no_bundle, is_dash, dash. rewrite C', XE. cbn [orb].
    rewrite BB. cbn [app fold_left]. cbn [map app]. rewrite switch_fold. unfold apply_all at 1. reflexivity.
Qed.

Definition starts_plain (r : list (string * word action)) : Prop := exists s v t, r = (s, Plain v) :: t.
Definition many_free (st : list (string * list string)) : Prop :=
  forall d, In d (map fst st) -> ~ In (AMany d) (map snd table).

Lemma store_if d vs a : store convertible d vs a = if fits_setting (d, vs) then Some (dict_set a d vs) else None.
Proof. reflexivity. Qed.

Lemma apply_app s t a : apply_all (s ++ t) a = apply_all t (apply_all s a).
Proof. apply fold_left_app. Qed.

Lemma plain_words vs : Forall argument vs -> forall post,
  classify_all table (vs ++ post) =
    match classify_all table post with Some r => Some (map Plain vs ++ r) | None => None end.
Proof.
  induction 1 as [|v vs A F IH]; intros post.
  - cbn. destruct (classify_all table post); reflexivity.
  - destruct (argument_plain table v W N A) as [D C]. cbn [app classify_all]. rewrite D, C, IH.
    destruct (classify_all table post); reflexivity.
Qed.

Lemma loop_many d vs : forall got r a,
  loop table convertible (combine vs (map Plain vs) ++ r) (WaitsMany d got) a = loop table convertible r (WaitsMany d (got ++ vs)) a.
Proof.
  induction vs as [|v vs IH]; intros got r a; [rewrite app_nil_r; reflexivity|].
  cbn [map combine app loop]. rewrite IH, <- app_assoc. reflexivity.
Qed.

Lemma loop_settle d vs r a : vs <> [] -> ~ starts_plain r ->
  loop table convertible r (WaitsMany d vs) a =
  if fits_setting (d, vs) then loop table convertible r Idle (dict_set a d vs) else None.
Proof.
  intros NE P. assert (ST : settle convertible (WaitsMany d vs) a = if fits_setting (d, vs) then Some (dict_set a d vs) else None).
  { destruct vs; [congruence|]. cbn [settle]. apply store_if. }
  destruct r as [|[s [v| |[o|] att]] t].
  - cbn [loop]. rewrite ST. reflexivity.
  - exfalso. apply P. exists s, v, t. reflexivity.
  - cbn [loop]. destruct (fits_setting (d, vs)); reflexivity.
  - cbn [loop]. rewrite ST. destruct (fits_setting (d, vs)); reflexivity.
  - cbn [loop]. destruct (fits_setting (d, vs)); reflexivity.
Qed.

Lemma group_reads ws st : group table ws st ->
  exists us, length us = length ws /\
    (forall post, classify_all table (ws ++ post) =
      match classify_all table post with Some r => Some (us ++ r) | None => None end) /\
    (forall r, ~ starts_plain (combine ws us ++ r)) /\
    forall r a, ~ starts_plain r \/ many_free st ->
      loop table convertible (combine ws us ++ r) Idle a =
      if forallb fits_setting st then loop table convertible r Idle (apply_all st a) else None.
Proof.
  assert (NP : forall s o att r, ~ starts_plain ((s, Option_ (Some o) att) :: r)).
  { intros s o att r (s' & v & t & E). discriminate. }
  intros G. destruct G as [s d S|letters names S|s d v S A|s d v S|s d v SN I A|letters names c d v S I A|letters names c d v S I|letters names c d v S I A|s d vs S NE A].
  - destruct (classify_spelling table W s _ S) as (D & C & _). exists [Option_ (Some (ASwitch d)) None].
    split; [reflexivity|]. split; [|split; [intros r; apply NP|]].
    + intros post. cbn [app classify_all]. rewrite D, C. destruct (classify_all table post); reflexivity.
    + intros r a _. reflexivity.
  - destruct (switches_word letters names "" [] Done S eq_refl ltac:(congruence)) as (D & o & att & C & L).
    rewrite app_nil_r in L. replace (letters ++ "")%string with letters in *
      by (clear; induction letters as [|x l IH]; cbn; [reflexivity|rewrite <- IH; reflexivity]).
    exists [Option_ (Some o) att]. split; [reflexivity|]. split; [|split; [intros r; apply NP|]].
    + intros post. cbn [app classify_all]. rewrite D, C. destruct (classify_all table post); reflexivity.
    + intros r a _. cbn [combine app loop settle]. rewrite L, on_fits. reflexivity.
  - destruct (classify_spelling table W s _ S) as (D & C & _). destruct (argument_plain table v W N A) as [D' C'].
    exists [Option_ (Some (AOne d)) None; Plain v]. split; [reflexivity|]. split; [|split; [intros r; apply NP|]].
    + intros post. cbn [app classify_all]. rewrite D, C, D', C'. destruct (classify_all table post); reflexivity.
    + intros r a _. cbn [combine app loop settle option_word act]. rewrite store_if. cbn [forallb apply_all fold_left fst snd].
      rewrite Bool.andb_true_r. destruct (fits_setting (d, [v])); reflexivity.
  - assert (X : exists o, spelling table s o /\ (o = AOne d \/ o = AMany d)) by (destruct S; eauto).
    destruct X as (o & S' & O). destruct (classify_spelling table W s _ S') as (_ & _ & E). destruct (E v) as [D C].
    exists [Option_ (Some o) (Some v)]. split; [reflexivity|]. split; [|split; [intros r; apply NP|]].
    + intros post. cbn [app classify_all]. rewrite D, C. destruct (classify_all table post); reflexivity.
    + intros r a _. cbn [combine app loop settle]. destruct O as [-> | ->]; cbn [option_word act]; rewrite store_if;
        cbn [forallb apply_all fold_left fst snd]; rewrite Bool.andb_true_r; destruct (fits_setting (d, [v])); reflexivity.
  - destruct (classify_attached table W s _ v SN I A) as [D C].
    exists [Option_ (Some (AOne d)) (Some v)]. split; [reflexivity|]. split; [|split; [intros r; apply NP|]].
    + intros post. cbn [app classify_all]. rewrite D, C. destruct (classify_all table post); reflexivity.
    + intros r a _. cbn [combine app loop settle option_word act]. rewrite store_if. cbn [forallb apply_all fold_left fst snd].
      rewrite Bool.andb_true_r. destruct (fits_setting (d, [v])); reflexivity.
  - assert (B : bundle table (String c EmptyString) = Some ([], Next (AOne d))).
    { cbn [bundle]. unfold dash. rewrite (name_found table W _ _ I). reflexivity. }
    destruct (letter_form _ _ I) as [C0 CE].
    destruct (switches_word letters names _ _ _ S B ltac:(intros _; eauto)) as (D & o & att & C & L).
    destruct (argument_plain table v W N A) as [D' C'].
    exists [Option_ (Some o) att; Plain v]. split; [reflexivity|]. split; [|split; [intros r; apply NP|]].
    + intros post. cbn [app classify_all]. rewrite D, C, D', C'. destruct (classify_all table post); reflexivity.
    + intros r a _. cbn [combine app loop settle]. rewrite L. cbn [act loop]. rewrite store_if, app_nil_r, forallb_app, on_fits, apply_app.
      cbn [forallb andb apply_all fold_left fst snd]. rewrite Bool.andb_true_r. destruct (fits_setting (d, [v])); reflexivity.
  - assert (B : bundle table (String c (String "=" v)) = Some ([], Attached (AOne d) v)).
    { cbn [bundle]. unfold dash. rewrite (name_found table W _ _ I). reflexivity. }
    destruct (letter_form _ _ I) as [C0 CE].
    destruct (switches_word letters names _ _ _ S B ltac:(intros _; eauto)) as (D & o & att & C & L).
    exists [Option_ (Some o) att]. split; [reflexivity|]. split; [|split; [intros r; apply NP|]].
    + intros post. cbn [app classify_all]. rewrite D, C. destruct (classify_all table post); reflexivity.
    + intros r a _. cbn [combine app loop settle]. rewrite L. cbn [act loop]. rewrite store_if, app_nil_r, forallb_app, on_fits, apply_app.
      cbn [forallb andb apply_all fold_left fst snd]. rewrite Bool.andb_true_r. destruct (fits_setting (d, [v])); reflexivity.
  - assert (B : bundle table (String c v) = Some ([], Attached (AOne d) v)).
    { cbn [bundle]. unfold dash. rewrite (name_found table W _ _ I). destruct v as [|x v]; [destruct A|]. cbn in A.
      apply Ascii.eqb_neq in A. rewrite A. reflexivity. }
    destruct (letter_form _ _ I) as [C0 CE].
    destruct (switches_word letters names _ _ _ S B ltac:(intros _; eauto)) as (D & o & att & C & L).
    exists [Option_ (Some o) att]. split; [reflexivity|]. split; [|split; [intros r; apply NP|]].
    + intros post. cbn [app classify_all]. rewrite D, C. destruct (classify_all table post); reflexivity.
    + intros r a _. cbn [combine app loop settle]. rewrite L. cbn [act loop]. rewrite store_if, app_nil_r, forallb_app, on_fits, apply_app.
      cbn [forallb andb apply_all fold_left fst snd]. rewrite Bool.andb_true_r. destruct (fits_setting (d, [v])); reflexivity.
  - destruct (classify_spelling table W s _ S) as (D & C & _).
    exists (Option_ (Some (AMany d)) None :: map Plain vs). split; [cbn; rewrite map_length; reflexivity|]. split; [|split; [intros r; apply NP|]].
    + intros post. cbn [app classify_all]. rewrite D, C, (plain_words vs A). destruct (classify_all table post); reflexivity.
    + intros r a P. cbn [combine app loop settle option_word act]. rewrite loop_many. cbn [app].
      assert (P' : ~ starts_plain r).
      { destruct P as [P|P]; [exact P|]. exfalso. apply (P d); [left; reflexivity|].
        destruct S as [I|n I _ _ _]; apply (in_map snd) in I; exact I. }
      rewrite (loop_settle d vs r a NE P'). cbn [forallb apply_all fold_left fst snd]. rewrite Bool.andb_true_r. reflexivity.
Qed.

Lemma combine_app {A B} (l l' : list A) (r r' : list B) : length l = length r -> combine (l ++ l') (r ++ r') = combine l r ++ combine l' r'.
Proof. revert r. induction l as [|x l IH]; intros [|y r] E; try discriminate; [reflexivity|]. cbn. f_equal. apply IH. injection E as E. exact E. Qed.

Lemma groups_read words st : groups table words st ->
  exists us, length us = length words /\
    (forall post, classify_all table (words ++ post) =
      match classify_all table post with Some r => Some (us ++ r) | None => None end) /\
    (forall r, ~ starts_plain r -> ~ starts_plain (combine words us ++ r)) /\
    forall r a, ~ starts_plain r \/ many_free st ->
      loop table convertible (combine words us ++ r) Idle a =
      if forallb fits_setting st then loop table convertible r Idle (apply_all st a) else None.
Proof.
  induction 1 as [|ws words s st G H IH].
  - exists []. split; [reflexivity|]. split; [intros post; cbn [app]; destruct (classify_all table post); reflexivity|]. split; [auto|]. reflexivity.
  - destruct (group_reads ws s G) as (us1 & L1 & C1 & P1 & R1). destruct IH as (us2 & L2 & C2 & P2 & R2).
    exists (us1 ++ us2). split; [rewrite !app_length; congruence|]. split; [|split].
    + intros post. rewrite <- app_assoc, C1, C2. destruct (classify_all table post); [|reflexivity]. rewrite app_assoc. reflexivity.
    + intros r P. rewrite combine_app, <- app_assoc by congruence. apply P1.
    + intros r a P. rewrite combine_app, <- app_assoc by congruence. rewrite R1.
      * rewrite forallb_app. destruct (forallb fits_setting s); [|reflexivity]. cbn [andb]. rewrite R2.
        -- rewrite apply_app. reflexivity.
        -- destruct P as [P|P]; [left; exact P|right]. intros d D. apply P. rewrite map_app. apply in_or_app. right. exact D.
      * destruct P as [P|P]; [left; apply P2, P|right]. intros d D. apply P. rewrite map_app. apply in_or_app. left. exact D.
Qed.

Lemma apply_find st : forall a d,
  dict_find (apply_all st a) d = match dict_find (rev st) d with Some v => Some v | None => dict_find a d end.
Proof.
  unfold apply_all. induction st as [|[k v] l IH] using rev_ind; intros a d; [reflexivity|].
  rewrite fold_left_app, rev_app_distr. cbn [fold_left rev app fst snd dict_find].
  rewrite find_set, IH. destruct (String.eqb k d); reflexivity.
Qed.

Lemma reads_settings_gen required (wrong : string * list string -> Prop) :
  (forall dv, ~ wrong dv -> fits_setting dv = true) ->
  (forall dv, wrong dv -> fits_setting dv = false) ->
  reads_settings table required wrong (parse_actions table convertible required).
Proof.
  intros C1 C2 words st G. destruct (groups_read words st G) as (us & L & C & _ & R).
  assert (E : parse_actions table convertible required words =
    if forallb fits_setting st then (let a := apply_all st [] in if forallb (dict_mem a) required then Some a else None) else None).
  { unfold parse_actions. specialize (C []). rewrite app_nil_r in C. cbn [classify_all] in C. rewrite C, app_nil_r.
    assert (P : ~ starts_plain []) by (intros (s & v & t & E); discriminate).
    specialize (R [] [] (or_introl P)). rewrite app_nil_r in R. rewrite R. destruct (forallb fits_setting st); reflexivity. }
  rewrite E. clear E. assert (A : forall d, dict_find (apply_all st []) d = dict_find (rev st) d).
  { intros d. rewrite apply_find. cbn [dict_find]. destruct (dict_find (rev st) d); reflexivity. }
  assert (RI : forall d, dict_mem (apply_all st []) d = true <-> In d (map fst st)).
  { intros d. unfold dict_mem. rewrite A. split.
    - intros H. destruct (dict_find (rev st) d) eqn:F; [|discriminate]. apply find_in in F. rewrite <- in_rev in F. exact (in_map fst _ _ F).
    - intros H. destruct (dict_find (rev st) d) eqn:F; [reflexivity|]. apply find_none in F. exfalso. apply F.
      rewrite map_rev, <- in_rev. exact H. }
  split; [|split].
  - intros F Q. assert (X : forallb fits_setting st = true).
    { apply forallb_forall. intros dv I. apply C1. rewrite Forall_forall in F. apply F, I. }
    rewrite X. cbv zeta. assert (Y : forallb (dict_mem (apply_all st [])) required = true).
    { apply forallb_forall. intros d D. apply RI. rewrite Forall_forall in Q. apply Q, D. }
    rewrite Y. eauto.
  - intros F. apply Exists_exists in F as (dv & I & F). destruct (forallb fits_setting st) eqn:X; [|reflexivity].
    rewrite forallb_forall in X. specialize (X dv I). rewrite (C2 dv F) in X. discriminate X.
  - intros d D ND. destruct (forallb fits_setting st); [|reflexivity]. cbv zeta.
    destruct (forallb (dict_mem (apply_all st [])) required) eqn:Y; [|reflexivity].
    rewrite forallb_forall in Y. apply Y, RI in D. contradiction.
Qed.

Lemma refused_settings required pre st : groups table pre st ->
  (forall w post, refused AHelp table w ->
     many_free st \/ (~ argument w /\ ~ In " "%char (list_ascii_of_string w)) ->
     parse_actions table convertible required (pre ++ w :: post) = None) /\
  (forall s o, spelling table s o -> (exists d, o = AOne d \/ o = AMany d) ->
     parse_actions table convertible required (pre ++ [s]) = None /\
     forall w post, (w = "--"%string \/ exists o', spelling table w o') ->
       parse_actions table convertible required (pre ++ s :: w :: post) = None) /\
  (forall s d v post, spelling table s (ASwitch d) -> parse_actions table convertible required (pre ++ (s ++ "=" ++ v)%string :: post) = None).
Proof.
  intros G. destruct (groups_read pre st G) as (us & L & C & _ & R).
  assert (P : forall post, (forall r, classify_all table post = Some r -> ~ starts_plain (combine post r) \/ many_free st) ->
    (forall r a, classify_all table post = Some r -> loop table convertible (combine post r) Idle a = None) ->
    parse_actions table convertible required (pre ++ post) = None).
  { intros post Q H. unfold parse_actions. rewrite C. destruct (classify_all table post) as [r|] eqn:E; [|reflexivity].
    rewrite combine_app by congruence. rewrite R by (apply Q; reflexivity). destruct (forallb fits_setting st); [|reflexivity].
    rewrite H by reflexivity. reflexivity. }
  split; [|split].
  - intros w post F M. apply P.
    { intros r E. destruct M as [M|[NA NS]]; [right; exact M|left]. cbn [classify_all] in E.
      destruct (String.eqb_spec w "--") as [->|D]; [injection E as <-; intros (s & v & t & X); discriminate|].
      destruct (classify table w) as [u|] eqn:CW; [|discriminate]. destruct (classify_all table post); [|discriminate]. injection E as <-.
      intros (s & v & t & X). cbn in X. injection X as _ -> _. destruct (plain_argument table w v CW) as [X|X]; [contradiction|].
      apply spaces in X. contradiction. }
    intros r a E. cbn [classify_all] in E.
    destruct (String.eqb_spec w "--") as [->|D]; [injection E as <-; reflexivity|].
    destruct (refused_word AHelp table w W F) as [X|[X|(u & X & U)]]; [congruence|rewrite X in E; discriminate|]. rewrite X in E.
    destruct (classify_all table post) as [r'|]; [|discriminate]. injection E as <-.
    destruct U as [-> |[-> |(att & ->)]]; [reflexivity|reflexivity|]. destruct att; reflexivity.
  - intros s o S O. destruct (classify_spelling table W s o S) as (D & K & _).
    assert (X : forall a r, loop table convertible (combine [s] [Option_ (Some o) None] ++ r) Idle a =
      loop table convertible r (match o with AMany d => WaitsMany d [] | AOne d => WaitsOne d | _ => Idle end) a).
    { intros a r. destruct O as (d & [-> | ->]); reflexivity. }
    assert (NP : forall t r, ~ starts_plain ((t, Option_ (Some o) None) :: r)).
    { intros t r (s' & v & t' & E). discriminate. }
    split.
    + apply P; intros r; [intros E|intros a E]; cbn [classify_all] in E; rewrite D, K in E; injection E as <-; [left; apply NP|].
      rewrite <- (app_nil_r (combine _ _)), X. destruct O as (d & [-> | ->]); reflexivity.
    + intros w post H. apply P; intros r; [intros E|intros a E]; cbn [classify_all] in E; rewrite D, K in E;
        (destruct H as [-> |(o' & S')];
         [rewrite String.eqb_refl in E|destruct (classify_spelling table W w o' S') as (D' & K' & _); rewrite D', K' in E;
          destruct (classify_all table post); [|discriminate]]); injection E as <-; try (left; apply NP).
      * change (combine (s :: "--"%string :: post) (Option_ (Some o) None :: Separator :: map Plain post)) with
          (combine [s] [Option_ (Some o) None] ++ ("--"%string, Separator) :: combine post (map (@Plain action) post)). rewrite X.
        destruct O as (d & [-> | ->]); reflexivity.
      * change (combine (s :: w :: post) (Option_ (Some o) None :: Option_ (Some o') None :: l)) with
          (combine [s] [Option_ (Some o) None] ++ (w, Option_ (Some o') None) :: combine post l). rewrite X.
        destruct O as (d & [-> | ->]); reflexivity.
  - intros s d v post S. destruct (classify_spelling table W s _ S) as (_ & _ & K). destruct (K v) as [D K'].
    assert (NB : no_bundle (s ++ "=" ++ v) = true).
    { destruct (spelling_name table W s _ S) as [(b & -> & B & _)|(t & -> & T & _)]; cbn.
      - rewrite Bool.orb_true_r. reflexivity.
      - destruct t; [congruence|]. reflexivity. }
    apply P; intros r; [intros E|intros a E]; cbn [classify_all] in E; rewrite D, K' in E;
      (destruct (classify_all table post); [|discriminate]); injection E as <-.
    + left. intros (s' & v' & t' & E). discriminate.
    + cbn [combine loop settle option_word]. rewrite NB. reflexivity.
Qed.
End Groups.

(** ** The tables *)

Ltac table_well_formed :=
  split;
  [repeat (apply NoDup_cons; [cbn; intuition discriminate|]); apply NoDup_nil|
   cbn [setup_usage fields_usage vtk_usage profile_usage map fst]; repeat (apply Forall_cons;
    [first [left; eexists; split; [reflexivity|split; discriminate]|
            right; eexists; split; [reflexivity|split; [discriminate|unfold free_of_equals; cbn; intuition discriminate]]]|]);
    apply Forall_nil].

Ltac table_no_digits :=
  intros c [D|D]; [unfold digit in D; cbn [In] in D; repeat (destruct D as [<-|D]; [reflexivity|]); contradiction|subst c; reflexivity].

Lemma setup_table : well_formed setup_usage /\ no_digit_names setup_usage.
Proof. split; [table_well_formed|table_no_digits]. Qed.
Lemma fields_table : well_formed fields_usage /\ no_digit_names fields_usage.
Proof. split; [table_well_formed|table_no_digits]. Qed.
Lemma vtk_table : well_formed vtk_usage /\ no_digit_names vtk_usage.
Proof. split; [table_well_formed|table_no_digits]. Qed.
Lemma profile_table : well_formed profile_usage /\ no_digit_names profile_usage.
Proof. split; [table_well_formed|table_no_digits]. Qed.

Lemma always_fits (dv : string * list string) : fits_setting (fun _ _ => true) dv = true.
Proof. unfold fits_setting. apply forallb_forall. auto. Qed.

Lemma types_fit int_of dv : fits_setting (fields_types int_of) dv = false <-> wrong_type int_of dv.
Proof.
  destruct dv as [d vs]. unfold fits_setting, wrong_type. cbn [fst snd]. unfold fields_types.
  destruct (String.eqb_spec d "plot_type") as [->|N].
  - split.
    + intros H. split; [reflexivity|]. induction vs as [|v vs IH]; [discriminate|]. cbn [forallb] in H.
      destruct (match int_of v with Some n => ((n =? 1) || (n =? 2))%Z | None => false end) eqn:E.
      * destruct (IH H) as (x & I & X). exists x. split; [right; exact I|exact X].
      * exists v. split; [left; reflexivity|]. destruct (int_of v) as [n|]; [|split; discriminate].
        apply Bool.orb_false_iff in E as [E1 E2]. apply Z.eqb_neq in E1, E2. split; congruence.
    + intros (_ & v & I & A & B). destruct (forallb _ vs) eqn:F; [|reflexivity]. rewrite forallb_forall in F.
      specialize (F v I). cbn beta in F. destruct (int_of v) as [n|]; [|discriminate]. apply Bool.orb_true_iff in F.
      rewrite !Z.eqb_eq in F. destruct F as [-> | ->]; congruence.
  - split; [|intros [H _]; contradiction]. intros H. rewrite (proj2 (forallb_forall _ _)) in H; [discriminate|auto].
Qed.

Lemma numbers_fit float_of dv : fits_setting (profile_types float_of) dv = false <-> wrong_number float_of dv.
Proof.
  destruct dv as [d vs]. unfold fits_setting, wrong_number. cbn [fst snd]. unfold profile_types.
  destruct (existsb (String.eqb d) ["lat"; "lon"; "d"]%string) eqn:E.
  - apply existsb_exists in E as (n & I & E). apply String.eqb_eq in E. subst n. split.
    + intros H. split; [exact I|]. induction vs as [|v vs IH]; [discriminate|]. cbn [forallb] in H.
      destruct (float_of v) eqn:F.
      * destruct (IH H) as (x & J & X). exists x. split; [right; exact J|exact X].
      * exists v. split; [left; reflexivity|exact F].
    + intros (_ & v & J & A). destruct (forallb _ vs) eqn:F; [|reflexivity]. rewrite forallb_forall in F.
      specialize (F v J). cbn beta in F. rewrite A in F. discriminate.
  - split.
    + intros H. rewrite (proj2 (forallb_forall _ _)) in H; [discriminate|auto].
    + intros [H _]. exfalso. assert (X : existsb (String.eqb d) ["lat"; "lon"; "d"]%string = true); [|congruence].
      apply existsb_exists. exists d. split; [exact H|apply String.eqb_refl].
Qed.

(*@ C128 The four programs read their command lines as their usage texts say: every way of writing the options
    in full, abbreviated, with the argument in the next word, after an equals sign or attached, and switches
    together behind one hyphen.  The last setting of each name counts, in any order.  A missing required
    option, a kind of plot other than 1 and 2, and a position or depth that is no number end the program. *)
Lemma switch_settings_lem :
  forall (int_of : string -> option Z) (float_of : string -> option R),
    reads_settings setup_usage [] (fun _ => False) setup_arguments /\
    reads_settings fields_usage ["file"; "pdate"]%string (wrong_type int_of) (fields_arguments int_of) /\
    reads_settings vtk_usage ["input_file"; "timestamp"]%string (fun _ => False) vtk_arguments /\
    reads_settings profile_usage [] (wrong_number float_of) (profile_arguments float_of).
Proof.
  intros int_of float_of. destruct setup_table as [S1 S2], fields_table as [F1 F2], vtk_table as [V1 V2], profile_table as [P1 P2].
  split; [|split; [|split]].
  - apply (reads_settings_gen setup_usage S1 S2); [intros dv _; apply always_fits|contradiction].
  - apply (reads_settings_gen fields_usage F1 F2); intros dv H.
    + destruct (fits_setting (fields_types int_of) dv) eqn:E; [reflexivity|]. apply types_fit in E. contradiction.
    + apply types_fit. exact H.
  - apply (reads_settings_gen vtk_usage V1 V2); [intros dv _; apply always_fits|contradiction].
  - apply (reads_settings_gen profile_usage P1 P2); intros dv H.
    + destruct (fits_setting (profile_types float_of) dv) eqn:E; [reflexivity|]. apply numbers_fit in E. contradiction.
    + apply numbers_fit. exact H.
Qed.

(*@ C128 Nothing else is accepted: a word that can be an argument or has a blank, unless depths were given,
    an unknown or ambiguous option, a lone pair of hyphens, the wish for help, an option without its argument and a switch
    with an argument end the program. *)
Lemma switch_refusals_lem :
  forall (int_of : string -> option Z) (float_of : string -> option R) (table : dict action)
         (arguments : list string -> option parsed),
    In (table, arguments) [(setup_usage, setup_arguments); (fields_usage, fields_arguments int_of);
                           (vtk_usage, vtk_arguments); (profile_usage, profile_arguments float_of)] ->
    forall pre settings, groups table pre settings ->
      (forall w post, refused AHelp table w ->
         ~ In "d"%string (map fst settings) \/ (~ argument w /\ ~ In " "%char (list_ascii_of_string w)) ->
         arguments (pre ++ w :: post) = None) /\
      (forall s o, spelling table s o -> (exists d, o = AOne d \/ o = AMany d) ->
         arguments (pre ++ [s]) = None /\
         forall w post, (w = "--"%string \/ exists o', spelling table w o') -> arguments (pre ++ s :: w :: post) = None) /\
      (forall s d v post, spelling table s (ASwitch d) -> arguments (pre ++ (s ++ "=" ++ v)%string :: post) = None).
Proof.
  intros int_of float_of table arguments I pre settings G.
  destruct setup_table as [S1 S2], fields_table as [F1 F2], vtk_table as [V1 V2], profile_table as [P1 P2].
  assert (M : ~ In "d"%string (map fst settings) -> many_free table settings).
  { intros N d D X. assert (E : d = "d"%string); [|subst d; contradiction].
    destruct I as [I|[I|[I|[I|[]]]]]; injection I as <- _; cbn in X; intuition congruence. }
  destruct I as [I|[I|[I|[I|[]]]]]; injection I as <- <-;
    [destruct (refused_settings setup_usage S1 S2 (fun _ _ => true) [] pre settings G) as (A & B & C)
    |destruct (refused_settings fields_usage F1 F2 (fields_types int_of) ["file"; "pdate"]%string pre settings G) as (A & B & C)
    |destruct (refused_settings vtk_usage V1 V2 (fun _ _ => true) ["input_file"; "timestamp"]%string pre settings G) as (A & B & C)
    |destruct (refused_settings profile_usage P1 P2 (profile_types float_of) [] pre settings G) as (A & B & C)];
    (split; [intros w post R N; apply A; [exact R|destruct N as [N|N]; [left; apply M, N|right; exact N]]|split; [exact B|exact C]]).
Qed.

(** ** The programs *)

Lemma last_of a (settings : list (string * list string)) d : (forall d, dict_find a d = dict_find (rev settings) d) -> given_text a d = last_text settings d.
Proof. intros H. unfold given_text, last_text. rewrite H. reflexivity. Qed.

Lemma on_of a (settings : list (string * list string)) d : (forall d, dict_find a d = dict_find (rev settings) d) -> dict_mem a d = is_on settings d.
Proof.
  intros H. unfold is_on, dict_mem. rewrite H. destruct (dict_find (rev settings) d) eqn:E.
  - apply find_in in E. rewrite <- in_rev in E. apply (in_map fst) in E. cbn in E.
    destruct (dict_find settings d) eqn:F; [reflexivity|]. apply find_none in F. contradiction.
  - apply find_none in E. rewrite map_rev, <- in_rev in E. apply find_none in E. rewrite E. reflexivity.
Qed.

Lemma last_in (settings : list (string * list string)) d v : last_text settings d = Some v -> In d (map fst settings) /\ In (d, [v]) settings.
Proof.
  unfold last_text. destruct (dict_find (rev settings) d) as [[|x [|]]|] eqn:E; try discriminate. intros H. injection H as ->.
  apply find_in in E. rewrite <- in_rev in E. split; [exact (in_map fst _ _ E)|exact E].
Qed.

(*@ C128 The installation of the configuration files overwrites without asking exactly if the switch is
    given, and installs into the directory given last. *)
Lemma setup_from_words_lem :
  forall resolve cwd sample words settings fs answers, groups setup_usage words settings ->
    setup_program resolve cwd sample words fs answers =
    Some (setup_main resolve cwd sample (is_on settings "overwrite") (last_text settings "output_path") fs answers).
Proof.
  intros resolve cwd sample words settings fs answers G.
  destruct (switch_settings_lem (fun _ => None) (fun _ => None)) as (H & _). destruct (H words settings G) as (A & _).
  destruct A as (a & E & F); [apply Forall_forall; tauto|apply Forall_nil|].
  unfold setup_program. rewrite E. rewrite (on_of _ _ _ F), (last_of _ _ _ F). reflexivity.
Qed.

(** ** No switch, no overwriting *)

Lemma classify_in {O} (table : dict O) s o att : classify table s = Some (Option_ (Some o) att) -> In o (map snd table).
Proof.
  unfold classify. destruct s as [|a t]; [discriminate|]. destruct (negb (is_dash a)); [discriminate|].
  destruct (dict_find table (String a t)) as [x|] eqn:D.
  { intros H. injection H as -> _. apply find_in in D. exact (in_map snd _ _ D). }
  destruct t as [|b t]; [discriminate|].
  destruct (match split_equals (String a (String b t)) with Some _ => _ | None => _ end) as [w|] eqn:X.
  - destruct (split_equals (String a (String b t))) as [[l r]|]; [|discriminate].
    destruct (dict_find table l) as [x|] eqn:D'; [|discriminate]. injection X as <-. intros H. injection H as -> _.
    apply find_in in D'. exact (in_map snd _ _ D').
  - clear X. destruct (option_tuples table (String a (String b t))) as [|[x at'] [|]] eqn:T; [| |discriminate].
    + destruct (_ || _); discriminate.
    + intros H. injection H as -> _. cbn [option_tuples] in T.
      assert (I : In (o, at') [(o, at')]) by (left; reflexivity). rewrite <- T in I. clear T.
      destruct (is_dash b).
      * destruct (match split_equals (String a (String b t)) with Some (l, r) => (l, Some r) | None => (String a (String b t), None) end) as [p at2].
        apply in_map_iff in I as (no & E & I). apply filter_In in I as [I _]. injection E as <- _. apply in_map. exact I.
      * apply in_flat_map in I as (no & I & E). destruct (String.eqb _ _); [|destruct (String.prefix _ _)]; cbn in E;
          try contradiction; destruct E as [E|[]]; injection E as <- _; apply in_map; exact I.
Qed.

Lemma switch_word s d att : classify setup_usage s = Some (Option_ (Some (ASwitch d)) att) ->
  String.prefix "-y" s = true \/ String.prefix "--y" s = true.
Proof.
  destruct setup_table as [WF _]. intros E. destruct s as [|a t]; [discriminate|].
  destruct (Ascii.eqb_spec a "-") as [->|A].
  2:{ exfalso. unfold classify, is_dash in E. apply Ascii.eqb_neq in A. unfold dash in E. rewrite A in E. discriminate. }
  destruct t as [|b t]; [discriminate|].
  destruct (Ascii.eqb_spec b "-") as [->|B].
  - destruct (long_word setup_usage t _ _ _ E eq_refl) as (p & n & I & P & F). apply prefix_in in P.
    assert (N : n = "-y"%string \/ n = "--yes"%string).
    { cbn [setup_usage In] in I. repeat (destruct I as [I|I]; [first [discriminate I|injection I as <- _; auto]|]). contradiction. }
    clear I. destruct N as [-> | ->]; cbn [prefixes map In] in P; repeat (destruct P as [<-|P]); try contradiction.
    all: destruct F as [[-> F]|(v & -> & F)]; try discriminate F.
    all: cbn [append] in F; try (injection F as F; subst t); try discriminate F.
    all: try (right; first [reflexivity|destruct v; reflexivity]).
    all: try discriminate E.
  - destruct (Ascii.eqb_spec b "=") as [->|BE].
    + exfalso. cbn in E. destruct (_ || _) in E; discriminate.
    + rewrite (classify_short setup_usage WF b B BE) in E.
      destruct (dict_find setup_usage (String "-" (String b EmptyString))) as [o|] eqn:D.
      * injection E as -> _. apply find_in in D. cbn [setup_usage In] in D. left.
        destruct D as [D|[D|[D|[D|[D|[D|[]]]]]]]; try discriminate D. injection D as <- _. destruct t; reflexivity.
      * destruct (_ || _) in E; discriminate.
Qed.

Lemma loop_keeps table convertible d : ~ In (AOne d) (map snd table) -> ~ In (AMany d) (map snd table) ->
  forall ws p a a',
    (forall s o att, In (s, Option_ (Some o) att) ws -> In o (map snd table) /\ forall d', o <> ASwitch d') ->
    (match p with Idle => True | WaitsOne e | WaitsMany e _ => e <> d end) ->
    loop table convertible ws p a = Some a' -> dict_find a' d = dict_find a d.
Proof.
  intros N1 N2. assert (ST : forall e vs a a', store convertible e vs a = Some a' -> e <> d -> dict_find a' d = dict_find a d).
  { intros e vs a a' H D. unfold store in H. destruct (forallb _ _); [|discriminate]. injection H as <-. rewrite find_set.
    destruct (String.eqb_spec e d); [contradiction|reflexivity]. }
  assert (SE : forall p a a', settle convertible p a = Some a' -> match p with Idle => True | WaitsOne e | WaitsMany e _ => e <> d end ->
    dict_find a' d = dict_find a d).
  { intros p a a' H P. destruct p as [|e|e got]; cbn in H; [congruence|discriminate|]. destruct got; [discriminate|]. eapply ST; eassumption. }
  induction ws as [|[s [v| |[o|] att]] t IH]; intros p a a' K P H; cbn [loop] in H.
  - eapply SE; eassumption.
  - assert (K' : forall s o att, In (s, Option_ (Some o) att) t -> In o (map snd table) /\ forall d', o <> ASwitch d')
      by (intros; eapply K; right; eassumption).
    destruct p as [|e|e got]; [discriminate| |].
    + destruct (store convertible e [v] a) as [a1|] eqn:E; [|discriminate]. rewrite (IH Idle a1 a' K' I H). eapply ST; eassumption.
    + exact (IH (WaitsMany e (got ++ [v])) a a' K' P H).
  - discriminate.
  - assert (K' : forall s o att, In (s, Option_ (Some o) att) t -> In o (map snd table) /\ forall d', o <> ASwitch d')
      by (intros; eapply K; right; eassumption).
    destruct (settle convertible p a) as [a1|] eqn:E; [|discriminate]. apply SE in E; [|exact P]. rewrite <- E.
    destruct (K s o att (or_introl eq_refl)) as [IO NS].
    destruct (option_word table convertible s o att a1) as [[p2 a2]|] eqn:OW; [|discriminate].
    assert (X : match p2 with Idle => True | WaitsOne e | WaitsMany e _ => e <> d end /\ dict_find a2 d = dict_find a1 d).
    { destruct o as [|e|e|e]; [destruct att; discriminate|exfalso; exact (NS e eq_refl)| |];
        (assert (D : e <> d) by (intros ->; contradiction)); destruct att as [v|]; cbn [option_word act] in OW.
      - destruct (store convertible e [v] a1) as [a3|] eqn:Q; [|discriminate]. injection OW as <- <-. split; [exact I|]. eapply ST; eassumption.
      - injection OW as <- <-. auto.
      - destruct (store convertible e [v] a1) as [a3|] eqn:Q; [|discriminate]. injection OW as <- <-. split; [exact I|]. eapply ST; eassumption.
      - injection OW as <- <-. auto. }
    destruct X as [X1 X2]. rewrite (IH p2 a2 a' K' X1 H). exact X2.
  - discriminate.
Qed.

Lemma classified {O} (table : dict O) argv : forall ws s o att, classify_all table argv = Some ws -> In (s, Option_ (Some o) att) (combine argv ws) ->
  In s argv /\ classify table s = Some (Option_ (Some o) att).
Proof.
  induction argv as [|w t IH]; intros ws s o att E I; [cbn in I; contradiction|]. cbn [classify_all] in E.
  destruct (String.eqb w "--").
  - injection E as <-. exfalso. cbn in I. destruct I as [I|I]; [discriminate|]. clear -I.
    induction t as [|x t IH]; [contradiction|]. cbn in I. destruct I as [I|I]; [discriminate|auto].
  - destruct (classify table w) as [u|] eqn:C; [|discriminate]. destruct (classify_all table t) as [us|] eqn:R; [|discriminate].
    injection E as <-. cbn in I. destruct I as [I|I].
    + injection I as <- ->. split; [left; reflexivity|exact C].
    + destruct (IH us s o att eq_refl I) as [A B]. split; [right; exact A|exact B].
Qed.

(*@ C128 Whatever the command line and the files: if no word starts with -y or --y and none of the answers is
    a clear yes, the installation leaves the text of every existing file as it is. *)
Lemma nothing_overwritten_lem :
  forall resolve cwd sample argv fs answers fs' left e,
    (forall w, In w argv -> String.prefix "-y" w = false /\ String.prefix "--y" w = false) ->
    (forall a, In a answers -> ~ says_yes a) ->
    setup_program resolve cwd sample argv fs answers = Some (fs', left, e) ->
    forall p text, dict_find fs p = Some text -> dict_find fs' p = Some text.
Proof.
  intros resolve cwd sample argv fs answers fs' left e NW NA H p text HP. unfold setup_program in H.
  destruct (setup_arguments argv) as [a|] eqn:E; [|discriminate]. injection H as H.
  assert (O : dict_mem a "overwrite" = false).
  { unfold setup_arguments, parse_actions in E. destruct (classify_all setup_options argv) as [ws|] eqn:C; [|discriminate].
    destruct (loop setup_options (fun _ _ => true) (combine argv ws) Idle []) as [a'|] eqn:L; [|discriminate]. cbn [forallb] in E. injection E as ->.
    unfold dict_mem. erewrite (loop_keeps setup_options _ "overwrite") with (p := Idle) (a := []); [reflexivity| | | |exact I|exact L].
    - cbn. intuition discriminate.
    - cbn. intuition discriminate.
    - intros s o att J. destruct (classified _ _ _ _ _ _ C J) as [IA CL]. split; [eapply classify_in; exact CL|].
      intros d' ->. destruct (NW s IA) as [Y1 Y2]. destruct (switch_word s d' att CL); congruence. }
  rewrite O in H. eapply setup_declined_lem; eassumption.
Qed.

(*@ C128 The program for fields draws what the settings of its command line say: the file and the date given
    last, all variables unless one is named, the kind 1 unless another is given.  It exits without a file or
    a date, and a file that does not exist is an error. *)
Lemma fields_from_words_lem :
  forall int_of names files words settings, groups fields_usage words settings ->
    Forall (fun dv => ~ wrong_type int_of dv) settings ->
    (forall path date, last_text settings "file" = Some path -> last_text settings "pdate" = Some date ->
       (files path = None -> fields_program int_of names files words = NoFile path) /\
       (forall data kind, files path = Some data ->
          (match last_text settings "plot_type" with Some v => int_of v = Some kind | None => kind = 1%Z end) ->
          fields_program int_of names files words =
          lift (fields_main names data date (last_text settings "variable") (is_on settings "mean") (is_on settings "save") kind))) /\
    (forall d, In d ["file"; "pdate"]%string -> ~ In d (map fst settings) -> fields_program int_of names files words = Exits).
Proof.
  intros int_of names files words settings G NW.
  destruct (switch_settings_lem int_of (fun _ => None)) as (_ & H & _). destruct (H words settings G) as (A & _ & Q). split.
  - intros path date P D. destruct (last_in _ _ _ P) as [P1 _], (last_in _ _ _ D) as [D1 _].
    destruct A as (a & E & F); [exact NW|apply Forall_cons; [exact P1|apply Forall_cons; [exact D1|apply Forall_nil]]|].
    unfold fields_program. rewrite E, !(last_of _ _ _ F), P, D. split.
    + intros ->. reflexivity.
    + intros data kind -> K. rewrite !(on_of _ _ _ F). destruct (last_text settings "plot_type"); [rewrite K|rewrite <- K]; reflexivity.
  - intros d I N. unfold fields_program. rewrite (Q d I N). reflexivity.
Qed.

(*@ C128 The program for profiles draws what the settings of its command line say: a date, a position, a
    first and a last time and depths only if given, with the numbers that were written, also negative ones,
    and the density unless another variable is named. *)
Lemma profiles_from_words_lem :
  forall float_of names np_int files words settings, groups profile_usage words settings ->
    Forall (fun dv => ~ wrong_number float_of dv) settings ->
    forall path, last_text settings "file" = Some path ->
      (files path = None -> profile_program float_of names np_int files words = NoFile path) /\
      (forall f lat lon depths, files path = Some f ->
         option_map float_of (last_text settings "lat") = option_map Some lat ->
         option_map float_of (last_text settings "lon") = option_map Some lon ->
         option_map (map float_of) (dict_find (rev settings) "d") = option_map (map Some) depths ->
         profile_program float_of names np_int files words =
         lift (profile_main names np_int f (last_text settings "pdate")
                 (match last_text settings "var" with Some v => v | None => "RHO"%string end)
                 lat lon (last_text settings "start") (last_text settings "end") depths)).
Proof.
  intros float_of names np_int files words settings G NW path P.
  destruct (switch_settings_lem (fun _ => None) float_of) as (_ & _ & _ & H). destruct (H words settings G) as (A & _).
  destruct A as (a & E & F); [exact NW|apply Forall_nil|].
  unfold profile_program. rewrite E. unfold given_number, given_numbers. rewrite !(last_of _ _ _ F), P, F. split.
  - intros ->. reflexivity.
  - intros f lat lon depths -> LA LO DE. f_equal.
    assert (X : forall d (o : option R), option_map float_of (last_text settings d) = option_map Some o ->
      match last_text settings d with Some v => float_of v | None => None end = o).
    { intros d o K. destruct (last_text settings d), o; cbn in K; congruence. }
    rewrite (X _ _ LA), (X _ _ LO). f_equal.
    destruct (dict_find (rev settings) "d") as [vs|], depths as [ds|]; cbn in DE; try discriminate; [|reflexivity]. f_equal.
    injection DE as DE. clear -DE. revert ds DE. induction vs as [|v vs IH]; intros [|x ds] DE; try discriminate; [reflexivity|].
    cbn in DE. injection DE as D1 D2. cbn [flat_map]. rewrite D1. cbn [app]. f_equal. apply IH. exact D2.
Qed.

(*@ C128 The program for three-dimensional plots is content with a file and a time: the name of the variable,
    which its documentation lists as required (plot_cosipy_fields_vtk.py:483-486), can be left out. *)
Lemma vtk_name_optional_lem :
  forall words settings, groups vtk_usage words settings ->
    In "input_file"%string (map fst settings) -> In "timestamp"%string (map fst settings) ->
    exists a, vtk_arguments words = Some a /\
      forall d, dict_find a d = dict_find (rev settings) d.
Proof.
  intros words settings G I T. destruct (switch_settings_lem (fun _ => None) (fun _ => None)) as (_ & _ & H & _).
  destruct (H words settings G) as (A & _). apply A; [apply Forall_forall; tauto|].
  apply Forall_cons; [exact I|apply Forall_cons; [exact T|apply Forall_nil]].
Qed.

Ltac full_name := apply in_full; cbn; tauto.

(*@ex C128 The program for fields with the switches for the mean and for saving, the variable and the kind of
    plot behind shared hyphens. *)
Lemma switch_settings_ex_lem :
  exists words settings, words = ["-i"; "out.nc"; "-msvT"; "--date=2009-01-01"; "-t"; "2"]%string /\
    groups fields_usage words settings /\
    last_text settings "file" = Some "out.nc"%string /\ last_text settings "pdate" = Some "2009-01-01"%string /\
    is_on settings "mean" = true /\ is_on settings "save" = true /\
    last_text settings "variable" = Some "T"%string /\ last_text settings "plot_type" = Some "2"%string.
Proof.
  exists ["-i"; "out.nc"; "-msvT"; "--date=2009-01-01"; "-t"; "2"]%string,
    [("file", ["out.nc"]); ("mean", []); ("save", []); ("variable", ["T"]); ("pdate", ["2009-01-01"]); ("plot_type", ["2"])]%string.
  split; [reflexivity|]. split.
  - eapply (more_groups _ ["-i"; "out.nc"]%string _ _ _ (g_two_words fields_usage "-i" "file" "out.nc" ltac:(full_name) ltac:(apply a_undashed; discriminate))).
    eapply (more_groups _ ["-msvT"]%string _ _ _ (g_switches_attached fields_usage "ms" ["mean"; "save"]%string "v" "variable" "T"
             ltac:(split; [discriminate|repeat constructor; cbn; tauto]) ltac:(cbn; tauto) ltac:(discriminate))).
    eapply (more_groups _ ["--date=2009-01-01"]%string _ _ _ (g_equals fields_usage "--date" "pdate" "2009-01-01" ltac:(left; full_name))).
    eapply (more_groups _ ["-t"; "2"]%string [] _ _ (g_two_words fields_usage "-t" "plot_type" "2" ltac:(full_name) ltac:(apply a_undashed; discriminate))).
    apply no_group.
  - repeat split; reflexivity.
Qed.

(*@ex C128 Depths and a position in the southern hemisphere; the letters -oy name the directory y and are no
    consent, while -yo names the directory and consents; --d is refused because it could be the date or the
    depths. *)
Lemma switch_words_ex_lem :
  (exists settings, groups profile_usage ["--depth"; "0.1"; "-1"; "-n"; "-33.4"; "--pit"; "a"]%string settings /\
     dict_find (rev settings) "d" = Some ["0.1"; "-1"]%string /\ last_text settings "lat" = Some "-33.4"%string) /\
  setup_arguments ["-oy"]%string = Some [("output_path", ["y"])]%string /\
  setup_arguments ["-yo"; "x"]%string = Some [("overwrite", []); ("output_path", ["x"])]%string /\
  refused AHelp profile_usage "--d" /\ refused AHelp setup_usage "-x".
Proof.
  split.
  - exists [("d", ["0.1"; "-1"]); ("lat", ["-33.4"]); ("pit_name", ["a"])]%string. split.
    + eapply (more_groups _ ["--depth"; "0.1"; "-1"]%string _ _ _ (g_several profile_usage "--depth" "d" ["0.1"; "-1"]%string ltac:(full_name)
        ltac:(discriminate) ltac:(apply Forall_cons; [apply a_undashed; discriminate|apply Forall_cons; [apply (a_integer "1"); [discriminate|repeat constructor; cbn; tauto]|apply Forall_nil]]))).
      eapply (more_groups _ ["-n"; "-33.4"]%string _ _ _ (g_two_words profile_usage "-n" "lat" "-33.4" ltac:(full_name)
        ltac:(apply (a_decimal "33" "4"); [repeat constructor; cbn; tauto|discriminate|repeat constructor; cbn; tauto]))).
      eapply (more_groups _ ["--pit"; "a"]%string [] _ _ (g_two_words profile_usage "--pit" "pit_name" "a" ltac:(full_name) ltac:(apply a_undashed; discriminate))).
      apply no_group.
    + split; reflexivity.
  - split; [reflexivity|]. split; [reflexivity|]. split.
    + apply (r_ambiguous _ _ "--d" "--date" "--depth"); try reflexivity; try discriminate; cbn; try tauto.
      * exists "d"%string. split; [reflexivity|]. split; [discriminate|unfold free_of_equals; cbn; intuition discriminate].
      * intuition discriminate.
    + apply (r_short _ _ "x" ""); [discriminate|discriminate|]. cbn. intuition discriminate.
Qed.
