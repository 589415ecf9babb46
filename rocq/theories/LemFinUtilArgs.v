(** * Command lines of the utilities *)
From Verif Require Import ModelPy ModelConfig ModelArgs ModelUtilArgs SpecConfig SpecArgs LemPy LemDict LemFinArgs LemFinConvert.
From Coq Require Import Ascii.

(** ** Classification *)

Lemma prefix_refl k : String.prefix k k = true.
Proof. induction k as [|a k IH]; cbn; [reflexivity|]. destruct (ascii_dec a a); [exact IH|congruence]. Qed.

Lemma prefix_app p n : String.prefix p n = true -> exists r, n = (p ++ r)%string.
Proof.
  revert n. induction p as [|a p IH]; intros n H; [exists n; reflexivity|].
  destruct n as [|b n]; [discriminate|]. cbn in H. destruct (ascii_dec a b) as [->|]; [|discriminate].
  destruct (IH n H) as [r ->]. exists r. reflexivity.
Qed.

Lemma in_app_chars c s t : In c (list_ascii_of_string (s ++ t)) <->
  In c (list_ascii_of_string s) \/ In c (list_ascii_of_string t).
Proof. induction s as [|a s IH]; cbn; [tauto|]. rewrite IH. tauto. Qed.

Lemma name_free n : short_name n \/ long_name n -> free_of_equals n.
Proof.
  intros [(b & -> & B & E)|(t & -> & _ & F)]; intros H; cbn in H.
  - destruct H as [H|[H|H]]; [discriminate|congruence|contradiction].
  - destruct H as [H|[H|H]]; [discriminate|discriminate|exact (F H)].
Qed.

Lemma name_not_dd n : short_name n \/ long_name n -> String.eqb n "--" = false.
Proof.
  intros [(b & -> & B & E)|(t & -> & T & F)]; apply String.eqb_neq; intros H.
  - injection H as ->. congruence.
  - injection H as ->. congruence.
Qed.

Section Table.
Context {O : Type} (table : dict O) (W : well_formed table).

Lemma name_form n o : In (n, o) table -> short_name n \/ long_name n.
Proof.
  intros H. destruct W as [_ F]. rewrite Forall_forall in F. apply F.
  apply in_map_iff. exists (n, o). split; [reflexivity|exact H].
Qed.

Lemma name_found n o : In (n, o) table -> dict_find table n = Some o.
Proof. intros H. apply in_find; [exact (proj1 W)|exact H]. Qed.

Lemma not_found s : ~ (short_name s \/ long_name s) -> dict_find table s = None.
Proof.
  intros N. destruct (dict_find table s) as [o|] eqn:E; [|reflexivity].
  apply find_in in E. destruct (N (name_form _ _ E)).
Qed.

Lemma filter_one n o s : In (n, o) table -> String.prefix s n = true ->
  (forall m, In m (map fst table) -> String.prefix s m = true -> m = n) ->
  filter (fun no : string * O => String.prefix s (fst no)) table = [(n, o)].
Proof.
  destruct W as [ND _]. clear W. revert ND. induction table as [|[m x] l IH]; intros ND I P U; [contradiction|].
  cbn [map fst] in ND. inversion ND as [|? ? N ND']; subst. cbn [filter fst]. destruct I as [I|I].
  - injection I as -> ->. rewrite P. f_equal.
    assert (G : forall l', (forall m, In m (map fst l') -> String.prefix s m = true -> m = n) -> ~ In n (map fst l') ->
      filter (fun no : string * O => String.prefix s (fst no)) l' = []).
    { clear. induction l' as [|[m x] l' IH]; intros U N; [reflexivity|]. cbn [filter fst].
      destruct (String.prefix s m) eqn:E.
      - exfalso. apply N. left. symmetry. cbn. symmetry. apply U; [left; reflexivity|exact E].
      - apply IH; [intros k K; apply U; right; exact K|intros K; apply N; right; exact K]. }
    apply G; [intros k K; apply U; right; exact K|exact N].
  - destruct (String.prefix s m) eqn:E.
    + exfalso. apply N. rewrite (U m (or_introl eq_refl) E). apply in_map_iff. exists (n, o). split; [reflexivity|exact I].
    + apply IH; [exact ND'|exact I|exact P|]. intros k K. apply U. right. exact K.
Qed.

Lemma spelling_name s o : spelling table s o -> (short_name s \/ long_name s) .
Proof.
  intros [I|n I (t & -> & T) P U]; [exact (name_form _ _ I)|]. right. exists t. split; [reflexivity|]. split; [exact T|].
  apply prefix_app in P as [r ->]. intros H.
  apply (name_free _ (name_form _ _ I)). apply in_app_chars. left. right. right. exact H.
Qed.

(** a word that starts with two hyphens *)
Lemma classify_long t o s n : s = String "-" (String "-" t) -> free_of_equals s ->
  In (n, o) table -> String.prefix s n = true ->
  (forall m, In m (map fst table) -> String.prefix s m = true -> m = n) ->
  classify table s = Some (Option_ (Some o) None) /\
  forall v, classify table (s ++ "=" ++ v) = Some (Option_ (Some o) (Some v)).
Proof.
  intros Es F I P U. destruct (no_equals_split s F) as [S0 S1].
  assert (FT := filter_one n o s I P U).
  assert (SF : dict_find table s = None \/ dict_find table s = Some o).
  { destruct (dict_find table s) as [x|] eqn:E; [right|left; reflexivity].
    apply find_in in E. assert (Q := U s (in_map fst _ _ E) (prefix_refl s)). cbn in Q. subst n.
    rewrite <- (name_found _ _ E). apply name_found. exact I. }
  split.
  - assert (OT : option_tuples table s = [(o, None)]).
    { unfold option_tuples. rewrite S0, FT, Es. reflexivity. }
    rewrite Es in *. unfold classify. change (negb (is_dash "-")) with false. cbn iota.
    destruct SF as [-> | ->]; [|reflexivity]. rewrite S0, OT. reflexivity.
  - intros v. assert (D : dict_find table (s ++ "=" ++ v) = None).
    { apply not_found. intros H. apply name_free in H. apply H. apply in_app_chars. right. left. reflexivity. }
    assert (OT : option_tuples table (s ++ "=" ++ v) = [(o, Some v)]).
    { unfold option_tuples. rewrite S1, FT, Es. reflexivity. }
    specialize (S1 v). rewrite Es in *. cbn [append] in *. unfold classify. change (negb (is_dash "-")) with false. cbn iota.
    rewrite D, S1, OT. destruct SF as [-> | ->]; reflexivity.
Qed.

Lemma short_prefix b m : b <> "-"%char -> short_name m \/ long_name m ->
  forall t, t <> EmptyString -> String.prefix (String "-" (String b t)) m = false.
Proof.
  intros B [(c & -> & _)|(r & -> & _)] t T; cbn.
  - destruct (ascii_dec b c); [|reflexivity]. destruct t; [congruence|reflexivity].
  - destruct (ascii_dec b "-"); [congruence|reflexivity].
Qed.

(** a word that starts with one hyphen *)
Lemma classify_short b : b <> "-"%char -> b <> "="%char ->
  forall t, classify table (String "-" (String b t)) =
    match dict_find table (String "-" (String b EmptyString)) with
    | Some o => Some (Option_ (Some o)
        (match t with EmptyString => None | String c r => Some (if Ascii.eqb c "=" then r else t) end))
    | None => if negative_number (String b t) || has_space (String b t)
              then Some (Plain (String "-" (String b t))) else Some (Option_ None None)
    end.
Proof.
  intros B BE t.
  assert (EB : Ascii.eqb b "-" = false) by (apply Ascii.eqb_neq; exact B).
  assert (EE : Ascii.eqb b "=" = false) by (apply Ascii.eqb_neq; exact BE).
  assert (NF : forall r, r <> EmptyString -> dict_find table (String "-" (String b r)) = None).
  { intros r R. apply not_found. intros [(c & H & _)|(c & H & _)]; injection H; intros; congruence. }
  assert (OT : t <> EmptyString \/ dict_find table (String "-" (String b EmptyString)) = None ->
    option_tuples table (String "-" (String b t)) =
    match dict_find table (String "-" (String b EmptyString)) with Some o => [(o, Some t)] | None => [] end).
  { intros T. unfold option_tuples. unfold is_dash, dash. rewrite EB.
    destruct W as [ND FA]. clear W NF. revert ND FA T.
    induction table as [|[m x] l IH]; intros ND FA T; [reflexivity|].
    cbn [map fst] in ND, FA. inversion ND as [|? ? N ND']; subst. inversion FA as [|? ? F1 FA']; subst.
    cbn [flat_map fst snd dict_find] in *. rewrite (String.eqb_sym m) in *.
    destruct (String.eqb_spec (String "-" (String b EmptyString)) m) as [<-|NE].
    - destruct T as [T|T]; [|discriminate]. cbn [app]. f_equal.
      rewrite IH; [|exact ND'|exact FA'|left; exact T].
      destruct (dict_find l _) eqn:E; [|reflexivity]. apply find_in in E. apply (in_map fst) in E. contradiction.
    - assert (PF : String.prefix (String "-" (String b t)) m = false).
      { destruct t as [|c t]; [|apply short_prefix; [exact B|exact F1|discriminate]].
        destruct F1 as [(c & -> & _)|(r & -> & _)]; cbn.
        - destruct (ascii_dec b c); [subst; congruence|reflexivity].
        - destruct (ascii_dec b "-"); [congruence|reflexivity]. }
      rewrite PF. cbn [app]. apply IH; assumption. }
  unfold classify. change (negb (is_dash "-")) with false. cbn iota.
  destruct t as [|c t].
  - destruct (dict_find table (String "-" (String b EmptyString))) as [o|] eqn:E; [reflexivity|].
    rewrite OT by (right; reflexivity). cbn [split_equals]. change (Ascii.eqb "-" "=") with false. rewrite EE. 
    cbn [has_space]. change (Ascii.eqb "-" " ") with false. reflexivity.
  - rewrite NF by discriminate. rewrite OT by (left; discriminate).
    cbn [split_equals]. change (Ascii.eqb "-" "=") with false. rewrite EE. cbn iota.
    destruct (Ascii.eqb c "=") eqn:EC.
    + destruct (dict_find table (String "-" (String b EmptyString))) as [o|] eqn:E; [reflexivity|].
      cbn [has_space]. change (Ascii.eqb "-" " ") with false. reflexivity.
    + destruct (split_equals t) as [[l r]|].
      * rewrite NF by discriminate.
        destruct (dict_find table (String "-" (String b EmptyString))) as [o|] eqn:E; [reflexivity|].
        cbn [has_space]. change (Ascii.eqb "-" " ") with false. reflexivity.
      * destruct (dict_find table (String "-" (String b EmptyString))) as [o|] eqn:E; [reflexivity|].
        cbn [has_space]. change (Ascii.eqb "-" " ") with false. reflexivity.
Qed.

Lemma classify_full s o : In (s, o) table -> classify table s = Some (Option_ (Some o) None) /\
  forall v, classify table (s ++ "=" ++ v) = Some (Option_ (Some o) (Some v)).
Proof.
  intros I. assert (N := name_form _ _ I). assert (E := name_found _ _ I).
  destruct (no_equals_split s (name_free s N)) as [S0 S1].
  assert (D : forall v, dict_find table (s ++ "=" ++ v) = None).
  { intros v. apply not_found. intros H. apply name_free in H. apply H. apply in_app_chars. right. left. reflexivity. }
  assert (X : exists r, s = String "-" r /\ r <> EmptyString).
  { destruct N as [(b & -> & _)|(t & -> & _)]; eexists; (split; [reflexivity|discriminate]). }
  destruct X as (r & -> & R). split.
  - unfold classify. change (negb (is_dash "-")) with false. cbn iota. rewrite E. reflexivity.
  - intros v. specialize (D v). specialize (S1 v). cbn [append] in *. unfold classify. change (negb (is_dash "-")) with false.
    cbn iota. rewrite D, S1, E. destruct r as [|c r]; [congruence|]. reflexivity.
Qed.

Lemma classify_spelling s o : spelling table s o -> String.eqb s "--" = false /\
  classify table s = Some (Option_ (Some o) None) /\
  forall v, String.eqb (s ++ "=" ++ v) "--" = false /\
    classify table (s ++ "=" ++ v) = Some (Option_ (Some o) (Some v)).
Proof.
  intros S. assert (N := spelling_name s o S).
  assert (G : forall v, String.eqb (s ++ "=" ++ v) "--" = false).
  { intros v. destruct N as [(b & -> & B & _)|(t & -> & T & _)].
    - cbn [append]. destruct (Ascii.eqb_spec b "-"); [congruence|]. apply String.eqb_neq. intros H. injection H. intros. congruence.
    - apply String.eqb_neq. intros H. injection H. destruct t; [congruence|]. discriminate. }
  split; [exact (name_not_dd s N)|]. destruct S as [I|n I (t & Es & T) P U].
  - destruct (classify_full s o I) as [A B]. split; [exact A|]. intros v. split; [apply G|apply B].
  - destruct (classify_long t o s n Es (name_free s N) I P U) as [A B]. split; [exact A|]. intros v. split; [apply G|apply B].
Qed.

Lemma classify_attached s o v : short_name s -> In (s, o) table -> attachable v ->
  String.eqb (s ++ v) "--" = false /\ classify table (s ++ v) = Some (Option_ (Some o) (Some v)).
Proof.
  intros (b & -> & B & BE) I A. destruct v as [|c v]; [destruct A|]. cbn in A. cbn [append]. split.
  - apply String.eqb_neq. intros H. injection H. intros. congruence.
  - rewrite (classify_short b B BE), (name_found _ _ I).
    destruct (Ascii.eqb_spec c "="); [congruence|]. reflexivity.
Qed.

Lemma plain_word v : undashed v -> classify table v = Some (Plain v).
Proof.
  destruct v as [|a t]; intros H; [reflexivity|]. cbn in H. unfold classify.
  assert (E : is_dash a = false). { unfold is_dash, dash. apply Ascii.eqb_neq. exact H. }
  rewrite E. reflexivity.
Qed.

(** the words of one value *)
Lemma classify_group o ws v : names_value table o ws v -> exists us, (forall post,
    classify_all table (ws ++ post) =
    match classify_all table post with Some r => Some (us ++ r) | None => None end) /\
  (us = [Option_ (Some o) None; Plain v] \/ us = [Option_ (Some o) (Some v)]).
Proof.
  intros [s w S V|s w N I V|s w S].
  - destruct (classify_spelling s o S) as (D & C & _). eexists. split; [|left; reflexivity].
    intros post. cbn [app classify_all]. rewrite D, C, (undashed_not_dd w V), (plain_word w V).
    destruct (classify_all table post); reflexivity.
  - destruct (classify_attached s o w N I V) as (D & C). eexists. split; [|right; reflexivity].
    intros post. cbn [app classify_all]. rewrite D, C. destruct (classify_all table post); reflexivity.
  - destruct (classify_spelling s o S) as (_ & _ & G). destruct (G w) as [D C]. eexists. split; [|right; reflexivity].
    intros post. cbn [app classify_all]. rewrite D, C. destruct (classify_all table post); reflexivity.
Qed.
End Table.

Lemma collect_group convertible d v us : us = [Option_ (Some (Store d)) None; Plain v] \/ us = [Option_ (Some (Store d)) (Some v)] ->
  forall r a, collect convertible (us ++ r) a =
    if convertible d v then collect convertible r (dict_set a d v) else None.
Proof. intros [-> | ->] r a; reflexivity. Qed.

Lemma collect_none_or convertible table ws settings : well_formed table -> names_values table ws settings ->
  forall post a,
    match classify_all table (ws ++ post) with Some us => collect convertible us a | None => None end =
    if forallb (fun dv => convertible (fst dv) (snd dv)) settings then
      match classify_all table post with
      | Some us => collect convertible us (fold_left (fun a dv => dict_set a (fst dv) (snd dv)) settings a)
      | None => None
      end
    else None.
Proof.
  intros W H. induction H as [|d v ws words settings G H IH]; intros post a; [reflexivity|].
  destruct (classify_group table W (Store d) ws v G) as (us & C & U).
  rewrite <- app_assoc, C. cbn [forallb fst snd fold_left]. specialize (IH post (dict_set a d v)).
  destruct (classify_all table (words ++ post)) as [r|].
  - rewrite (collect_group convertible d v us U). destruct (convertible d v); [exact IH|reflexivity].
  - destruct (convertible d v); [exact IH|reflexivity].
Qed.

Lemma fold_set_find (settings : list (string * string)) : forall a d,
  dict_find (fold_left (fun a dv => dict_set a (fst dv) (snd dv)) settings a) d =
  match dict_find (rev settings) d with Some v => Some v | None => dict_find a d end.
Proof.
  induction settings as [|[k v] l IH] using rev_ind; intros a d; [reflexivity|].
  rewrite fold_left_app, rev_app_distr. cbn [fold_left rev app fst snd dict_find].
  rewrite find_set, IH. destruct (String.eqb k d); reflexivity.
Qed.

Lemma option_tables : well_formed aws_options /\ well_formed wrf_options /\ well_formed utilities_options.
Proof.
  assert (SH : forall b, b <> "-"%char -> b <> "="%char -> short_name (String "-" (String b EmptyString)) \/ long_name (String "-" (String b EmptyString))).
  { intros b B E. left. exists b. auto. }
  assert (LO : forall t, t <> EmptyString -> free_of_equals t -> short_name (String "-" (String "-" t)) \/ long_name (String "-" (String "-" t))).
  { intros t T F. right. exists t. auto. }
  split; [|split]; (split;
    [repeat (apply NoDup_cons; [cbn; intuition discriminate|]); apply NoDup_nil|
     cbn [aws_options wrf_options utilities_options map fst app]; repeat (apply Forall_cons;
      [first [apply SH; discriminate|apply LO; [discriminate|unfold free_of_equals; cbn; intuition discriminate]]|]);
      apply Forall_nil]).
Qed.

Lemma find_rev_in (l : list (string * string)) d : In d (map fst l) -> exists v, dict_find (rev l) d = Some v.
Proof.
  intros H. destruct (dict_find (rev l) d) as [v|] eqn:E; [exists v; reflexivity|].
  apply find_none in E. exfalso. apply E. rewrite map_rev, <- in_rev. exact H.
Qed.

Lemma reads_values_gen table required convertible (wrong : string * string -> Prop) : well_formed table ->
  (forall dv, ~ wrong dv -> convertible (fst dv) (snd dv) = true) ->
  (forall dv, wrong dv -> convertible (fst dv) (snd dv) = false) ->
  reads_values table required wrong (parse_args table required convertible).
Proof.
  intros W C1 C2 words settings H. assert (G := collect_none_or convertible table words settings W H [] []).
  rewrite app_nil_r in G. cbn [classify_all] in G. unfold parse_args.
  destruct (forallb (fun dv => convertible (fst dv) (snd dv)) settings) eqn:F.
  - destruct (classify_all table words) as [us|]; [|discriminate]. cbn [collect] in G. rewrite G.
    set (a := fold_left _ _ _).
    assert (A : forall d, dict_find a d = dict_find (rev settings) d).
    { intros d. unfold a. rewrite fold_set_find. cbn [dict_find]. destruct (dict_find (rev settings) d); reflexivity. }
    split; [|split].
    + intros _ R. exists a. split; [|exact A].
      assert (X : forallb (dict_mem a) required = true); [|rewrite X; reflexivity].
      apply forallb_forall. intros d D. rewrite Forall_forall in R. unfold dict_mem. rewrite A.
      destruct (find_rev_in settings d (R d D)) as [v ->]. reflexivity.
    + intros E. apply Exists_exists in E as (dv & I & E). rewrite forallb_forall in F. specialize (F dv I).
      rewrite (C2 dv E) in F. discriminate.
    + intros d D N. destruct (forallb (dict_mem a) required) eqn:X; [|reflexivity]. exfalso.
      rewrite forallb_forall in X. specialize (X d D). unfold dict_mem in X. rewrite A in X.
      destruct (dict_find (rev settings) d) as [v|] eqn:E; [|discriminate]. apply find_in in E. rewrite <- in_rev in E.
      apply N. exact (in_map fst _ _ E).
  - assert (R : match classify_all table words with Some ws => match collect convertible ws [] with
      | Some a => if forallb (dict_mem a) required then Some a else None | None => None end | None => None end = None).
    { destruct (classify_all table words) as [us|]; [|reflexivity]. rewrite G. reflexivity. }
    rewrite R. split; [|split; intros; reflexivity].
    intros N. exfalso. assert (X : forallb (fun dv => convertible (fst dv) (snd dv)) settings = true); [|congruence].
    apply forallb_forall. intros dv I. rewrite Forall_forall in N. apply C1. exact (N dv I).
Qed.

Lemma aws_wrong is_float dv : (~ wrong_value is_float dv -> aws_types is_float (fst dv) (snd dv) = true) /\
  (wrong_value is_float dv -> aws_types is_float (fst dv) (snd dv) = false).
Proof.
  unfold wrong_value, aws_types. destruct (existsb (String.eqb (fst dv)) ["xl"; "xr"; "yl"; "yu"]%string) eqn:E.
  - assert (I : In (fst dv) ["xl"; "xr"; "yl"; "yu"]%string).
    { apply existsb_exists in E as (x & X & Q). apply String.eqb_eq in Q. subst x. exact X. }
    split; intros H; [|tauto]. destruct (is_float (snd dv)); [reflexivity|]. exfalso. tauto.
  - split; intros H; [reflexivity|]. exfalso. destruct H as [I _].
    assert (X : existsb (String.eqb (fst dv)) ["xl"; "xr"; "yl"; "yu"]%string = true); [|congruence].
    apply existsb_exists. exists (fst dv). split; [exact I|apply String.eqb_refl].
Qed.

(*@ C125 Words that name values give the last value of every option, in full, abbreviated, attached or with
    an equals sign; the conversions exit if the input or the output is missing, and the one for stations
    if a corner of the region is no number.  The static file is not required. *)
Lemma utility_values_lem :
  forall is_float : string -> bool,
    reads_values aws_usage ["csv_file"; "cosipy_file"]%string (wrong_value is_float) (aws_arguments is_float) /\
    reads_values wrf_usage ["wrf_file"; "cosipy_file"]%string (fun _ => False) wrf_arguments /\
    reads_values static_usage [] (fun _ => False) static_arguments.
Proof.
  intros is_float. destruct option_tables as (A & B & C). split; [|split].
  - apply reads_values_gen; [exact A|intros dv; apply aws_wrong|intros dv; apply aws_wrong].
  - apply reads_values_gen; [exact B|reflexivity|tauto].
  - apply reads_values_gen; [exact C|reflexivity|tauto].
Qed.

Lemma filter_none {O} (l : dict O) n : (forall m, In m (map fst l) -> String.prefix n m = false) ->
  filter (fun no : string * O => String.prefix n (fst no)) l = [].
Proof.
  induction l as [|[m x] l IH]; intros H; [reflexivity|]. cbn [filter fst].
  rewrite (H m (or_introl eq_refl)). apply IH. intros k K. apply H. right. exact K.
Qed.

Lemma filter_two {O} (l : dict O) n m m' : In m (map fst l) -> In m' (map fst l) -> m <> m' ->
  String.prefix n m = true -> String.prefix n m' = true ->
  exists x y r, filter (fun no : string * O => String.prefix n (fst no)) l = x :: y :: r.
Proof.
  intros I I' D P P'.
  assert (X : forall k, In k (map fst l) -> String.prefix n k = true ->
    In k (map fst (filter (fun no : string * O => String.prefix n (fst no)) l))).
  { intros k K Q. apply in_map_iff in K as ([k' o] & E & K). cbn in E. subst k'.
    apply in_map_iff. exists (k, o). split; [reflexivity|]. apply filter_In. split; [exact K|exact Q]. }
  assert (X1 := X m I P). assert (X2 := X m' I' P').
  destruct (filter _ l) as [|x [|y r]]; [contradiction| |exists x, y, r; reflexivity].
  destruct X1 as [X1|[]], X2 as [X2|[]]. congruence.
Qed.

(** what becomes of such a word *)
Lemma refused_word {O} (help : O) table w : well_formed table -> refused help table w ->
  (w = "--"%string \/ classify table w = None \/
   exists u, classify table w = Some u /\ (u = Plain w \/ u = Option_ None None \/ exists att, u = Option_ (Some help) att)).
Proof.
  intros W R. destruct R as [w U| |s S|b t B BE N|n L P|n v L P|n m m' L N I I' D P P'].
  - right. right. exists (Plain w). split; [apply plain_word; exact U|left; reflexivity].
  - left. reflexivity.
  - right. right. destruct (classify_spelling table W s help S) as (_ & C & _). eexists. split; [exact C|].
    right. right. exists None. reflexivity.
  - right. right. rewrite (classify_short table W b B BE). rewrite (proj2 (find_none _ _) N).
    destruct (_ || _); eexists; (split; [reflexivity|]); tauto.
  - right. right. assert (F := name_free n (or_intror L)). destruct (no_equals_split n F) as [S0 _].
    assert (D : dict_find table n = None).
    { apply find_none. intros H. specialize (P n H). rewrite prefix_refl in P. discriminate. }
    destruct L as (t & -> & T & _).
    assert (OT : option_tuples table (String "-" (String "-" t)) = []).
    { unfold option_tuples. rewrite S0, (filter_none table _ P). reflexivity. }
    unfold classify. change (negb (is_dash "-")) with false. cbn iota. rewrite D, S0, OT.
    destruct (_ || _); eexists; (split; [reflexivity|]); tauto.
  - right. right. assert (F := name_free n (or_intror L)). destruct (no_equals_split n F) as [_ S1]. specialize (S1 v).
    assert (D : dict_find table n = None).
    { apply find_none. intros H. specialize (P n H). rewrite prefix_refl in P. discriminate. }
    assert (D' : dict_find table (n ++ "=" ++ v) = None).
    { apply (not_found table W). intros H. apply name_free in H. apply H. apply in_app_chars. right. left. reflexivity. }
    assert (OT : option_tuples table (n ++ "=" ++ v) = []).
    { unfold option_tuples. rewrite S1, (filter_none table _ P). destruct L as (t & -> & T & _). reflexivity. }
    destruct L as (t & -> & T & _). cbn [append] in *.
    unfold classify. change (negb (is_dash "-")) with false. cbn iota. rewrite D', S1, D, OT.
    destruct (_ || _); eexists; (split; [reflexivity|]); tauto.
  - right. left. assert (F := name_free n (or_intror L)). destruct (no_equals_split n F) as [S0 _].
    assert (D' : dict_find table n = None) by (apply find_none; exact N).
    destruct (filter_two table n m m' I I' D P P') as (x & y & r & FT).
    destruct L as (t & -> & T & _).
    assert (OT : exists p q, option_tuples table (String "-" (String "-" t)) = p :: q :: map (fun no : string * O => (snd no, None)) r).
    { unfold option_tuples. rewrite S0, FT. eexists _, _. reflexivity. }
    destruct OT as (p & q & OT).
    unfold classify. change (negb (is_dash "-")) with false. cbn iota. rewrite D', S0, OT. destruct p as [o att]. reflexivity.
Qed.

Lemma refused_gen table required convertible : well_formed table -> forall pre settings, names_values table pre settings ->
  (forall w post, refused UHelp table w -> parse_args table required convertible (pre ++ w :: post) = None) /\
  (forall s d, spelling table s (Store d) ->
     parse_args table required convertible (pre ++ [s]) = None /\
     forall w post, (w = "--"%string \/ exists o, spelling table w o) ->
       parse_args table required convertible (pre ++ s :: w :: post) = None).
Proof.
  intros W pre settings H.
  assert (P : forall post, (forall a, match classify_all table post with Some us => collect convertible us a | None => None end = None) ->
    parse_args table required convertible (pre ++ post) = None).
  { intros post N. unfold parse_args.
    assert (G := collect_none_or convertible table pre settings W H post []). rewrite N in G.
    destruct (classify_all table (pre ++ post)) as [us|]; [|reflexivity].
    destruct (forallb _ settings); rewrite G; reflexivity. }
  split.
  - intros w post R. apply P. intros a. cbn [classify_all].
    destruct (String.eqb_spec w "--") as [->|D]; [reflexivity|].
    destruct (refused_word UHelp table w W R) as [E|[-> |(u & -> & U)]]; [congruence|reflexivity|].
    destruct (classify_all table post) as [r|]; [|reflexivity].
    destruct U as [-> |[-> |(att & ->)]]; reflexivity.
  - intros s d S. destruct (classify_spelling table W s (Store d) S) as (D & C & _). split.
    + apply P. intros a. cbn [classify_all]. rewrite D, C. reflexivity.
    + intros w post X. apply P. intros a. cbn [classify_all]. rewrite D, C. destruct X as [-> |(o & X)].
      * reflexivity.
      * destruct (classify_spelling table W w o X) as (D' & C' & _). rewrite D', C'.
        destruct (classify_all table post); reflexivity.
Qed.

(*@ C125 Nothing else is accepted: a word without an option, an unknown or ambiguous option, a lone pair of
    hyphens or the wish for help ends the program, as does an option without its argument. *)
Lemma utility_refusals_lem :
  forall (is_float : string -> bool) (table : dict uopt) (arguments : list string -> option (dict string)),
    In (table, arguments) [(aws_usage, aws_arguments is_float); (wrf_usage, wrf_arguments); (static_usage, static_arguments)] ->
    forall pre settings, names_values table pre settings ->
      (forall w post, refused UHelp table w -> arguments (pre ++ w :: post) = None) /\
      (forall s d, spelling table s (Store d) ->
         arguments (pre ++ [s]) = None /\
         forall w post, (w = "--"%string \/ exists o, spelling table w o) -> arguments (pre ++ s :: w :: post) = None).
Proof.
  intros is_float table arguments I pre settings H. destruct option_tables as (A & B & C).
  destruct I as [I|[I|[I|[]]]]; injection I as <- <-.
  - exact (refused_gen aws_options _ _ A pre settings H).
  - exact (refused_gen wrf_options _ _ B pre settings H).
  - exact (refused_gen utilities_options _ _ C pre settings H).
Qed.

(** ** The conversion of WRF data and the files of COSIPY *)

Fixpoint prefixes (n : string) : list string :=
  match n with
  | EmptyString => [EmptyString]
  | String a t => EmptyString :: map (String a) (prefixes t)
  end.
Lemma prefix_in p n : String.prefix p n = true -> In p (prefixes n).
Proof.
  revert n. induction p as [|a p IH]; intros n H; [destruct n; left; reflexivity|].
  destruct n as [|b n]; [discriminate|]. cbn in H. destruct (ascii_dec a b) as [->|]; [|discriminate].
  right. apply in_map. apply IH. exact H.
Qed.

Lemma split_back s l r : split_equals s = Some (l, r) -> s = (l ++ "=" ++ r)%string.
Proof.
  revert l r. induction s as [|a s IH]; intros l r H; [discriminate|]. cbn in H.
  destruct (Ascii.eqb_spec a "=") as [->|N]; [injection H as <- <-; reflexivity|].
  destruct (split_equals s) as [[l' r']|]; [|discriminate]. injection H as <- <-.
  rewrite (IH l' r' eq_refl). reflexivity.
Qed.

Lemma cosipy_table : well_formed option_strings.
Proof.
  assert (SH : forall b, b <> "-"%char -> b <> "="%char -> short_name (String "-" (String b EmptyString)) \/ long_name (String "-" (String b EmptyString))).
  { intros b B E. left. exists b. auto. }
  assert (LO : forall t, t <> EmptyString -> free_of_equals t -> short_name (String "-" (String "-" t)) \/ long_name (String "-" (String "-" t))).
  { intros t T F. right. exists t. auto. }
  split;
    [repeat (apply NoDup_cons; [cbn; intuition discriminate|]); apply NoDup_nil|
     cbn [option_strings map fst app]; repeat (apply Forall_cons;
      [first [apply SH; discriminate|apply LO; [discriminate|unfold free_of_equals; cbn; intuition discriminate]]|]);
      apply Forall_nil].
Qed.

(** a word that starts with two hyphens, of which a beginning is in the table *)
Lemma long_word {O} (table : dict O) t w o att : classify table (String "-" (String "-" t)) = Some w ->
  w = Option_ (Some o) att ->
  exists p n, In (n, o) table /\ String.prefix p n = true /\
    ((att = None /\ String "-" (String "-" t) = p) \/
     (exists v, att = Some v /\ String "-" (String "-" t) = (p ++ "=" ++ v)%string)).
Proof.
  set (s := String "-" (String "-" t)). intros E Ew. subst w. unfold classify in E. unfold s in E at 1.
  change (negb (is_dash "-")) with false in E. cbn iota in E.
  destruct (dict_find table s) as [x|] eqn:D.
  { injection E as -> <-. exists s, s. split; [apply find_in; exact D|]. split; [apply prefix_refl|]. left. auto. }
  destruct (split_equals s) as [[l r]|] eqn:S.
  - destruct (dict_find table l) as [x|] eqn:D'.
    + injection E as -> <-. exists l, l. split; [apply find_in; exact D'|]. split; [apply prefix_refl|]. right. exists r.
      split; [reflexivity|]. apply split_back. exact S.
    + assert (OT : option_tuples table s = map (fun no : string * O => (snd no, Some r)) (filter (fun no => String.prefix l (fst no)) table)).
      { unfold option_tuples. rewrite S. reflexivity. }
      rewrite OT in E. destruct (filter (fun no : string * O => String.prefix l (fst no)) table) as [|[n x] [|]] eqn:F; cbn [map snd] in E.
      * destruct (_ || _); discriminate.
      * injection E as -> <-. assert (I : In (n, o) (filter (fun no : string * O => String.prefix l (fst no)) table)) by (rewrite F; left; reflexivity).
        apply filter_In in I as [I P]. exists l, n. split; [exact I|]. split; [exact P|]. right. exists r. split; [reflexivity|apply split_back; exact S].
      * discriminate.
  - assert (OT : option_tuples table s = map (fun no : string * O => (snd no, None)) (filter (fun no => String.prefix s (fst no)) table)).
    { unfold option_tuples. rewrite S. reflexivity. }
    rewrite OT in E. destruct (filter (fun no : string * O => String.prefix s (fst no)) table) as [|[n x] [|]] eqn:F; cbn [map snd] in E.
    * destruct (_ || _); discriminate.
    * injection E as -> <-. assert (I : In (n, o) (filter (fun no : string * O => String.prefix s (fst no)) table)) by (rewrite F; left; reflexivity).
      apply filter_In in I as [I P]. exists s, n. split; [exact I|]. split; [exact P|]. left. auto.
    * discriminate.
Qed.

Lemma long_plain {O} (table : dict O) t v : classify table (String "-" (String "-" t)) = Some (Plain v) ->
  t = EmptyString \/ has_space t = true.
Proof.
  intros E. destruct t as [|c t]; [left; reflexivity|right]. unfold classify in E. change (negb (is_dash "-")) with false in E. cbn iota in E.
  destruct (dict_find table _); [discriminate|].
  destruct (match split_equals (String "-" (String "-" (String c t))) with Some _ => _ | None => _ end) as [w|] eqn:X.
  - destruct (split_equals (String "-" (String "-" (String c t)))) as [[l r]|]; [|discriminate].
    destruct (dict_find table l); [|discriminate]. injection X as <-. discriminate.
  - destruct (option_tuples table _) as [|[o att] [|]]; [|discriminate|discriminate].
    change (negative_number (String "-" (String c t))) with false in E.
    change (has_space (String "-" (String "-" (String c t)))) with (has_space (String c t)) in E.
    destruct (has_space (String c t)); [reflexivity|discriminate].
Qed.

Lemma wrf_word s w : has_space s = false -> String.eqb s "--" = false ->
  classify wrf_options s = Some w ->
  match w with
  | Plain _ => classify option_strings s = Some (Plain s) /\ w = Plain s
  | Option_ (Some (Store _)) att =>
      classify option_strings s = Some (Option_ None None) \/
      classify option_strings s = Some (Option_ (Some SlurmPath) att)
  | _ => True
  end.
Proof.
  intros SP DD E. destruct s as [|a s]; [injection E as <-; split; reflexivity|].
  destruct (is_dash a) eqn:EA.
  2:{ unfold classify in *. rewrite EA in *. cbn in E. injection E as <-. split; reflexivity. }
  apply Ascii.eqb_eq in EA. unfold dash in EA. subst a. destruct s as [|b s].
  { injection E as <-. split; reflexivity. }
  destruct option_tables as (_ & WF & _). assert (WC := cosipy_table).
  cbn [has_space] in SP. change (Ascii.eqb "-" " ") with false in SP. cbn [orb] in SP.
  destruct (Ascii.eqb_spec b "-") as [->|B].
  - destruct w as [v| |[[|d]|] att]; try exact I.
    + exfalso. change (Ascii.eqb "-" " ") with false in SP. cbn [orb] in SP.
      destruct (long_plain _ _ _ E) as [-> |H]; [discriminate|congruence].
    + destruct (long_word wrf_options s _ (Store d) att E eq_refl) as (p & n & I & P & F).
      apply prefix_in in P. cbn [wrf_options utilities_options app In] in I.
      repeat (destruct I as [I|I]; [injection I as <- _; cbn [prefixes map In] in P;
        repeat (destruct P as [P|P]; [subst p|]); [..|contradiction]|]); [..|contradiction].
      all: match goal with |- ?g => idtac end.
      all: destruct F as [[-> F]|(v & -> & F)]; try discriminate F.
      all: try (cbn [append] in F; injection F as F).
      all: rewrite F in *.
      all: try discriminate DD.
      all: try (right; reflexivity).
      all: try (left; cbn in SP |- *; rewrite ?SP; reflexivity).
      all: try (cbn -[has_space] in E; discriminate E).
  - destruct (Ascii.eqb_spec b "=") as [->|BE].
    + destruct w as [v| |[[|d]|] att]; try exact I; exfalso; cbn in E, SP; rewrite ?SP in E; discriminate E.
    + rewrite (classify_short wrf_options WF b B BE) in E. rewrite (classify_short option_strings WC b B BE).
      destruct (dict_find wrf_options _) as [o|] eqn:D.
      * injection E as <-. destruct o as [|d]; [exact I|]. left. apply find_in in D.
        cbn [wrf_options utilities_options app In] in D.
        repeat (destruct D as [D|D]; [first [discriminate D|injection D as <- <-; cbn in SP |- *; rewrite ?SP; reflexivity]|]).
        contradiction.
      * destruct (negative_number (String b s)) eqn:NN.
        -- cbn [orb] in E. injection E as <-. 
           assert (X : dict_find option_strings (String "-" (String b EmptyString)) = None).
           { destruct (dict_find option_strings _) as [o|] eqn:X; [|reflexivity]. exfalso. apply find_in in X.
             cbn [option_strings In] in X. repeat (destruct X as [X|X]; [first [discriminate X|injection X as <- <-; discriminate NN]|]). contradiction. }
           rewrite X. split; reflexivity.
        -- cbn [orb] in E. change (has_space (String b s)) with (Ascii.eqb b " " || has_space s)%bool in E. rewrite SP in E.
           injection E as <-. exact I.
Qed.

Lemma no_blank_space s : no_blank s -> has_space s = false.
Proof.
  induction s as [|a s IH]; intros N; [reflexivity|]. cbn. unfold no_blank in *. cbn in N.
  assert (E : Ascii.eqb a " " = false) by (apply Ascii.eqb_neq; intros ->; tauto). rewrite E. apply IH. tauto.
Qed.

Lemma wrf_other_files ws : Forall no_blank ws -> forall a vals b us,
  classify_all wrf_options ws = Some us -> collect texts us vals = Some b ->
  exists vs, classify_all option_strings ws = Some vs /\
    exists a', consume vs a = Some a' /\ a_config a' = a_config a /\ a_constants a' = a_constants a.
Proof.
  assert (G : forall n ws, (length ws <= n)%nat -> Forall no_blank ws -> forall a vals b us,
    classify_all wrf_options ws = Some us -> collect texts us vals = Some b ->
    exists vs, classify_all option_strings ws = Some vs /\
      exists a', consume vs a = Some a' /\ a_config a' = a_config a /\ a_constants a' = a_constants a).
  { induction n as [|n IH]; intros l L F a vals b us C H.
    - destruct l; [|cbn in L; lia]. exists []. split; [reflexivity|]. exists a. auto.
    - destruct l as [|s l]; [exists []; split; [reflexivity|]; exists a; auto|].
      inversion F as [|? ? F1 F2]; subst. apply no_blank_space in F1. cbn [length] in L. cbn [classify_all] in C |- *.
      destruct (String.eqb s "--") eqn:D; [injection C as <-; discriminate H|].
      destruct (classify wrf_options s) as [w|] eqn:K; [|discriminate].
      destruct (classify_all wrf_options l) as [r|] eqn:R; [|discriminate]. injection C as <-.
      assert (X := wrf_word s w F1 D K). destruct w as [v| |[[|d]|] att]; try discriminate H.
      destruct att as [v|].
      + cbn [collect texts] in H. change (texts d v) with true in H. cbn iota in H.
        destruct X as [-> | ->].
        * destruct (IH l ltac:(lia) F2 a _ b r R H) as (vs & -> & a' & C1 & C2). eexists. split; [reflexivity|]. exists a'. auto.
        * destruct (IH l ltac:(lia) F2 (give SlurmPath v a) _ b r R H) as (vs & -> & a' & C1 & C2). eexists. split; [reflexivity|]. exists a'. auto.
      + destruct l as [|s' l]; [injection R as <-; discriminate H|].
        inversion F2 as [|? ? G1 G2]; subst. apply no_blank_space in G1. cbn [length] in L. cbn [classify_all] in R |- *.
        destruct (String.eqb s' "--") eqn:D'; [injection R as <-; discriminate H|].
        destruct (classify wrf_options s') as [w'|] eqn:K'; [|discriminate].
        destruct (classify_all wrf_options l) as [r'|] eqn:R'; [|discriminate]. injection R as <-.
        assert (X' := wrf_word s' w' G1 D' K'). destruct w' as [v| |o att]; try discriminate H.
        destruct X' as [-> E]. cbn [collect] in H. change (texts d v) with true in H. cbn iota in H.
        destruct X as [-> | ->].
        * destruct (IH l ltac:(lia) G2 a _ b r' R' H) as (vs & -> & a' & C1 & C2). eexists. split; [reflexivity|]. exists a'. auto.
        * destruct (IH l ltac:(lia) G2 (give SlurmPath s' a) _ b r' R' H) as (vs & -> & a' & C1 & C2). eexists. split; [reflexivity|]. exists a'. auto. }
  intros F. apply (G (length ws)); [lia|exact F].
Qed.

Lemma wrf_given words vals : Forall no_blank words -> wrf_arguments words = Some vals ->
  exists a, parse_known_args words = Some a /\ a_config a = None /\ a_constants a = None.
Proof.
  intros F H. unfold wrf_arguments, parse_args in H.
  destruct (classify_all wrf_options words) as [us|] eqn:C; [|discriminate].
  destruct (collect texts us []) as [b|] eqn:K; [|discriminate].
  destruct (wrf_other_files words F nothing_given [] b us C K) as (vs & V & a & A & A1 & A2).
  exists a. unfold parse_known_args. rewrite V. auto.
Qed.

(*@ C125 The conversion of WRF data cannot be told which configuration and constants of COSIPY to use: its own
    parser refuses the words for them, so that a conversion that starts works with the default files of the
    directory.  Words with blanks are left out; see the example. *)
Lemma wrf_default_files_lem :
  forall (T : Type) (p : process) (files : string -> option (dict T)) (l : loaded) (vals : dict string) (x : T),
    Forall no_blank (argv p) -> is_dir p (home p) = true ->
    start_wrf p files = Started (l, (vals, x)) ->
    exists t u,
      toml_at p (join_path (home p) "config.toml") = Some t /\
      toml_at p (join_path (home p) "constants.toml") = Some u /\
      config_load t [] = Ok (l_config l) /\ constants_load (l_config l) u [] = Ok (l_constants l).
Proof.
  intros T p files l vals x F D H. unfold start_wrf, start_wrf2cosipy in H.
  apply andthen_ok in H as (l0 & W & H). apply andthen_ok in H as ([v y] & U & H). injection H as -> _ _.
  unfold load_utility in U. destruct (wrf_arguments (argv p)) as [vals'|] eqn:A; [|discriminate].
  destruct (wrf_given _ _ F A) as (a & P & A1 & A2).
  assert (I := worker_inv p a l D P W). unfold chosen in I. rewrite A1, A2 in I.
  destruct I as (t & u & use & T1 & T2 & C1 & C2 & _). exists t, u. auto.
Qed.

(*@ C125 The two parsers clash on one abbreviation: the conversion takes --s for its start date and COSIPY for
    the Slurm file, so that with a configuration for Slurm the program ends because there is no file of
    the name of the date.  With the full name it goes on. *)
Lemma start_date_clash_lem :
  forall (T : Type) (p : process) (files : string -> option (dict T)) (i o date : string) (t : toml) config use,
    undashed i -> undashed o -> undashed date ->
    is_dir p (home p) = true -> toml_at p (join_path (home p) "config.toml") = Some t ->
    config_load t [] = Ok config -> dict_find config "slurm_use" = Some use -> truthy use = true ->
    (exists a, wrf_arguments ["-i"; i; "-o"; o; "--s"; date]%string = Some a /\ dict_find a "start_date" = Some date) /\
    (argv p = ["-i"; i; "-o"; o; "--s"; date]%string -> toml_at p date = None -> start_wrf p files = NoFile date) /\
    (argv p = ["-i"; i; "-o"; o; "--start_date"; date]%string ->
     parse_known_args (argv p) = Some (mkGiven None None None)).
Proof.
  intros T p files i o date t config use I O DA D TO CL SU TR.
  assert (P : parse_known_args ["-i"; i; "-o"; o; "--s"; date]%string = Some (mkGiven None None (Some date))).
  { unfold parse_known_args. cbn [classify_all].
    rewrite (undashed_not_dd i I), (undashed_not_dd o O), (undashed_not_dd date DA),
      (undashed_plain i I), (undashed_plain o O), (undashed_plain date DA). reflexivity. }
  assert (P' : parse_known_args ["-i"; i; "-o"; o; "--start_date"; date]%string = Some (mkGiven None None None)).
  { unfold parse_known_args. cbn [classify_all].
    rewrite (undashed_not_dd i I), (undashed_not_dd o O), (undashed_not_dd date DA),
      (undashed_plain i I), (undashed_plain o O), (undashed_plain date DA). reflexivity. }
  split; [|split].
  - unfold wrf_arguments, parse_args. cbn [classify_all].
    rewrite (undashed_not_dd i I), (undashed_not_dd o O), (undashed_not_dd date DA),
      (plain_word wrf_options i I), (plain_word wrf_options o O), (plain_word wrf_options date DA).
    eexists. split; reflexivity.
  - intros A N. rewrite <- A in P. assert (G := arguments_ok p _ D P).
    unfold start_wrf, start_wrf2cosipy, import_constants, import_config, load_config. rewrite G. cbn [andthen chosen a_config a_constants a_slurm].
    unfold get_raw_toml. rewrite TO. cbn [andthen l_config nothing_loaded]. rewrite CL. cbn [lift andthen l_config].
    unfold attr_get. rewrite SU. cbn [lift andthen]. rewrite TR.
    unfold load_slurm. rewrite G. cbn [andthen chosen a_config a_constants a_slurm]. unfold get_raw_toml. rewrite N. reflexivity.
  - intros ->. exact P'.
Qed.

(*@ C125 The file of the utilities is the one named, or utilities_config.toml of the working directory: without
    it the program ends with its name, without a table of the utility with an AttributeError; a refused command
    line ends it before any file is opened. *)
Lemma utilities_file_lem :
  forall (T : Type) (is_float : string -> bool) (argv : list string) (files : string -> option (dict T)) (name : string)
         (arguments : list string -> option (dict string)) (start : started (dict string * T)),
    In (name, arguments, start)
      [("aws2cosipy"%string, aws_arguments is_float, start_aws is_float argv files);
       ("create_static"%string, static_arguments, start_static argv files)] ->
    (arguments argv = None -> start = Exits) /\
    (forall a, arguments argv = Some a ->
       let path := match dict_find a "utilities_path" with Some f => f | None => "utilities_config.toml"%string end in
       (files path = None -> start = NoFile path) /\
       (forall t, files path = Some t -> NoDup (map fst t) ->
          (~ In name (map fst t) -> start = Raises AttributeError) /\
          (forall x, In (name, x) t -> start = Started (a, x)))).
Proof.
  intros T is_float argv files name arguments start I.
  assert (G : start = load_utility (arguments argv) files name).
  { destruct I as [I|[I|[]]]; injection I as <- <- <-; reflexivity. }
  clear I. subst start. unfold load_utility. split; [intros ->; reflexivity|].
  intros a E. rewrite E. set (path := match dict_find a "utilities_path" with Some f => f | None => "utilities_config.toml"%string end).
  clearbody path. split; [intros F; rewrite F; reflexivity|]. intros t F ND. rewrite F.
  assert (G := utility_section_lem T t [] name ND). split.
  - intros N. rewrite (proj2 (find_none _ _) N) in G. cbn [dict_find] in G. rewrite G. reflexivity.
  - intros x X. rewrite (in_find t name x ND X) in G. rewrite G. reflexivity.
Qed.

(*@ex C125 A conversion of station data with a date and an abbreviated option, and the same with a misspelt
    option; and a file name with a hyphen and a blank, which the conversion of WRF data takes for its input and
    COSIPY for a configuration. *)
Lemma utility_case_lem :
  names_values aws_usage ["-i"; "a.csv"; "--outp=b.nc"; "-e2020"; "-i"; "c.csv"]%string
    [("csv_file", "a.csv"); ("cosipy_file", "b.nc"); ("end_date", "2020"); ("csv_file", "c.csv")]%string /\
  aws_arguments (fun _ => false) ["-i"; "a.csv"; "--outp=b.nc"; "-e2020"; "-i"; "c.csv"]%string
  = Some [("csv_file", "c.csv"); ("cosipy_file", "b.nc"); ("end_date", "2020")]%string /\
  refused UHelp aws_usage "--outptu=b.nc" /\
  aws_arguments (fun _ => false) ["-i"; "a.csv"; "--outptu=b.nc"]%string = None /\
  wrf_arguments ["-i"; "-cmy data.nc"; "-o"; "b.nc"]%string = Some [("wrf_file", "-cmy data.nc"); ("cosipy_file", "b.nc")]%string /\
  parse_known_args ["-i"; "-cmy data.nc"; "-o"; "b.nc"]%string = Some (mkGiven (Some "my data.nc"%string) None None).
Proof.
  assert (SP : forall s o, In (s, o) aws_usage -> spelling aws_usage s o) by (intros s o H; apply in_full; exact H).
  split; [|split; [reflexivity|split; [|split; [reflexivity|split; reflexivity]]]].
  - apply (more_words aws_usage "csv_file" "a.csv" ["-i"; "a.csv"]%string ["--outp=b.nc"; "-e2020"; "-i"; "c.csv"]%string).
    { apply two_words; [apply SP; cbn; tauto|discriminate]. }
    apply (more_words aws_usage "cosipy_file" "b.nc" ["--outp=b.nc"]%string ["-e2020"; "-i"; "c.csv"]%string).
    { apply (with_equals aws_usage _ "--outp" "b.nc"). apply (abbreviated _ _ _ "--output"); [cbn; tauto|eexists; split; [reflexivity|discriminate]|reflexivity|].
      cbn [aws_usage static_usage app map fst In]. intros m M. repeat (destruct M as [<-|M]; [cbn; congruence|]). contradiction. }
    apply (more_words aws_usage "end_date" "2020" ["-e2020"]%string ["-i"; "c.csv"]%string).
    { apply (one_word aws_usage _ "-e" "2020"); [exists "e"%char; split; [reflexivity|split; discriminate]|cbn; tauto|discriminate]. }
    apply (more_words aws_usage "csv_file" "c.csv" ["-i"; "c.csv"]%string []); [|apply no_words].
    apply two_words; [apply SP; cbn; tauto|discriminate].
  - apply (r_long_equals _ aws_usage "--outptu" "b.nc").
    + eexists. split; [reflexivity|]. split; [discriminate|]. unfold free_of_equals. cbn. intuition discriminate.
    + cbn [aws_usage static_usage app map fst In]. intros m M. repeat (destruct M as [<-|M]; [reflexivity|]). contradiction.
Qed.
