(** * Conversion of WRF output: warnings and units *)
From Verif Require Import ModelPy ModelConstants ModelNode ModelGrid ModelHeat ModelSurface ModelInit
  ModelCore ModelConfig ModelIO ModelMain ModelRadCor SpecIO SpecRadCor ModelAws ModelWrf SpecWrf.
From Verif Require Import LemPy LemDict LemIO LemIO4 LemIO5 LemShad LemShad2 LemShad3 LemShad4 LemShad5 LemAws LemAws2 LemAws5 LemWrf LemWrf2
  LemFinInput LemFinWrf LemFinWarn.

(** the ranges checked after the conversion: name, smallest and largest value without a warning *)
Definition wrf_ranges : list (string * (R * R)) :=
  [("T2", (223.16, 316.16)); ("RH2", (0, 100)); ("SNOWFALL", (0, 1)); ("U2", (0, 50)); ("G", (0, 1600));
   ("PRES", (200, 1080)); ("LWin", (100, 500))]%string.

(** a number of a variable of the file is out of the range *)
Definition wrf_outside (f : cosipy_file) (n : string) (mn mx : R) : Prop :=
  exists k y x v, written f n k y x = Some (Some v) /\ (v < mn \/ mx < v).

(** units and descriptions in the file *)
Definition wrf_units : list (string * (string * string)) :=
  [("HGT", ("m", "Elevation")); ("T2", ("m", "Temperature at 2 m")); ("RH2", ("%", "Relative humidity at 2 m"));
   ("G", ("W m^-2", "Incoming shortwave radiation")); ("LWin", ("W m^-2", "Incoming longwave radiation"));
   ("PRES", ("hPa", "Atmospheric Pressure")); ("SNOWHEIGHT", ("m", "Initial snowheight"));
   ("SWE", ("kg m^-2", "Snow Water Equivalent"));
   ("SNOWC", ("-", "Flag indicating snow coverage (1 for snow cover)")); ("LU_INDEX", ("-", "Land use category"));
   ("TSK", ("K", "Skin temperature")); ("U2", ("m s^-1", "Wind velocity at 2 m")); ("MASK", ("-", "Glacier mask"));
   ("RRR", ("mm", "Total precipitation")); ("SNOWFALL", ("m", "Snowfall")); ("SLOPE", ("degrees", "Slope"));
   ("ASPECT", ("degrees", "Aspect"))]%string.

(*@ C113 Names, units and descriptions of the seventeen variables converted from WRF output, in the order of the file.  Finding: the temperature is given the unit m. *)
Lemma wrf_file_units_lem :
  forall c cfg slope aspect w sd ed f chk,
    create_input c cfg slope aspect w sd ed = Ok (f, chk) ->
    map (fun nv => (fst nv, (wv_units (snd nv), wv_long_name (snd nv)))) (cf_vars f) = wrf_units.
Proof.
  intros c cfg slope aspect w sd ed f chk H. unfold create_input in H. cbv zeta in H.
  repeat (apply bind_ok in H as (? & _ & H)).
  destruct (w_DX _); [|discriminate]. destruct (w_DY _); [|discriminate]. injection H as <- _. reflexivity.
Qed.

Lemma timed_values l v : In v (field_values (Timed l)) <-> exists k y x, at_time l k y x = Some v.
Proof.
  cbn [field_values]. rewrite in_flat_map. split.
  - intros (r & I & J). apply In_nth_error in I as (k & K). apply in_concat in J as (row & I & J).
    apply In_nth_error in I as (y & Y). apply In_nth_error in J as (x & X).
    exists k, (Z.of_nat y), (Z.of_nat x). unfold at_time, raster, number in *. rewrite K. unfold cell_at.
    rewrite (proj2 (Z.leb_le 0 (Z.of_nat y))) by lia. rewrite (proj2 (Z.leb_le 0 (Z.of_nat x))) by lia. cbn [andb].
    rewrite !Nat2Z.id, Y. exact X.
  - intros (k & y & x & E). unfold at_time in E. destruct (nth_error l k) as [r|] eqn:K; [|discriminate].
    exists r. split; [apply (nth_error_In _ _ K)|]. unfold cell_at in E.
    destruct (_ && _); [|discriminate]. destruct (nth_error r (Z.to_nat y)) as [row|] eqn:Y; [|discriminate].
    apply in_concat. exists row. split; [apply (nth_error_In _ _ Y)|apply (nth_error_In _ _ E)].
Qed.

Lemma wrf_checks_ok (vars : dict wrf_variable) l : forall ws0 ws,
  for_each l (fun (nb : string * (R * R)) ws =>
       let '(n, (mx, mn)) := nb in
       v <- attr_get vars n ;;
       w <- check (field_values (wv_data v)) mx mn ;;
       Ok (if w : bool then ws ++ [n] else ws)) ws0 = Ok ws ->
  exists bs, ws = ws0 ++ map fst (filter snd (combine (map fst l) bs)) /\ length bs = length l /\
   Forall2 (fun (nb : string * (R * R)) b => exists var, dict_find vars (fst nb) = Some var /\
      (b = true <-> exists v, In (Some v) (field_values (wv_data var)) /\ (v < snd (snd nb) \/ fst (snd nb) < v))) l bs.
Proof.
  induction l as [|[n [mx mn]] t IH]; intros ws0 ws H; cbn [for_each] in H.
  - injection H as <-. exists []. rewrite app_nil_r. repeat split; constructor.
  - apply bind_ok in H as (ws1 & E & H). apply IH in H as (bs & -> & L & A).
    apply bind_ok in E as (var & V & E). apply bind_ok in E as (b & W & E). injection E as <-.
    exists (b :: bs). split; [destruct b; cbn; rewrite <- ?app_assoc; reflexivity|]. split; [cbn; lia|].
    constructor; [|exact A]. cbn [fst snd]. unfold attr_get in V. destruct (dict_find vars n) as [v0|] eqn:F; [|discriminate]. injection V as ->.
    exists var. split; [reflexivity|]. eapply check_exact; exact W.
Qed.

Lemma flagged_in {A} (Q : string * A -> Prop) l bs n : Forall2 (fun nb b => b = true <-> Q nb) l bs ->
  (In n (map fst (filter snd (combine (map fst l) bs))) <-> exists m, In (n, m) l /\ Q (n, m)).
Proof.
  induction 1 as [|[k m] b l bs H F IH]; cbn [map combine filter fst snd].
  - split; [intros []|intros (m & [] & _)].
  - destruct b; cbn [snd map fst In].
    + rewrite IH. split.
      * intros [<-|(m' & I & J)]; [exists m; split; [left; reflexivity|apply H; reflexivity]|exists m'; auto].
      * intros (m' & [I|I] & J); [left; congruence|right; eauto].
    + rewrite IH. split; [intros (m' & I & J); eauto|]. intros (m' & [I|I] & J); [|eauto].
      injection I as <- <-. apply H in J. discriminate.
Qed.

Lemma flagged_nodup (l : list string) bs : NoDup l -> NoDup (map fst (filter snd (combine l bs))).
Proof.
  intros ND. revert bs. induction ND as [|n l NI ND IH]; intros [|b bs]; cbn; try constructor.
  destruct b; cbn; [|apply IH]. constructor; [|apply IH]. intros I. apply NI.
  apply in_map_iff in I as ([m b] & <- & I). apply filter_In in I as [I _]. apply in_combine_l in I. exact I.
Qed.

(*@ C113 The conversion of WRF output prints a warning on a variable if and only if one of its values in the file is out of its range. *)
Lemma wrf_warnings_lem :
  forall c cfg slope aspect w sd ed f ws,
    create_input c cfg slope aspect w sd ed = Ok (f, Ok ws) ->
    NoDup ws /\
    forall n, In n ws <-> exists mn mx, In (n, (mn, mx)) wrf_ranges /\ wrf_outside f n mn mx.
Proof.
  intros c cfg slope aspect w sd ed f ws H.
  assert (C : wrf_checks (cf_vars f) = Ok ws /\ forall n, In n (map fst wrf_ranges) ->
    exists l u s, dict_find (cf_vars f) n = Some (mkWrfVariable (Timed l) u s)).
  { unfold create_input in H. cbv zeta in H. repeat (apply bind_ok in H as (? & _ & H)).
    destruct (w_DX _); [|discriminate]. destruct (w_DY _); [|discriminate]. injection H as <- H. split; [exact H|].
    intros n I. cbn in I. repeat (destruct I as [<-|I]; [do 3 eexists; reflexivity|]). destruct I. }
  destruct C as (C & FT). unfold wrf_checks in C. apply wrf_checks_ok in C as (bs & -> & L & A). cbn [app]. split.
  - apply flagged_nodup. cbn. repeat constructor; cbn; intuition discriminate.
  - intros n. rewrite (flagged_in (fun nb => wrf_outside f (fst nb) (snd (snd nb)) (fst (snd nb)))).
    + split.
      * intros ([mx mn] & I & J). cbn [fst snd] in J. exists mn, mx. split; [|exact J]. cbn [In] in I.
        destruct I as [I|[I|[I|[I|[I|[I|[I|[]]]]]]]]; apply pair_equal_spec in I as [<- I]; apply pair_equal_spec in I as [<- <-];
          unfold wrf_ranges; cbn [In]; repeat (first [left; repeat f_equal; lra|right]).
      * intros (mn & mx & I & J). exists (mx, mn). split; [|exact J]. cbn [wrf_ranges In] in I.
        destruct I as [I|[I|[I|[I|[I|[I|[I|[]]]]]]]]; apply pair_equal_spec in I as [<- I]; apply pair_equal_spec in I as [<- <-];
          cbn [In]; repeat (first [left; repeat f_equal; lra|right]).
    + assert (SUB : forall nb : string * (R * R), In nb [("T2", (316.16, 223.16)); ("RH2", (100.0, 0.0)); ("SNOWFALL", (1.0, 0.0)); ("U2", (50.0, 0.0));
            ("G", (1600.0, 0.0)); ("PRES", (1080.0, 200.0)); ("LWin", (500.0, 100.0))]%string -> In (fst nb) (map fst wrf_ranges)).
      { intros nb I. cbn [In] in I. cbn [wrf_ranges map fst In]. destruct I as [<-|[<-|[<-|[<-|[<-|[<-|[<-|[]]]]]]]]; cbn [fst]; tauto. }
      clear L H. revert SUB. induction A as [|nb b l bs H A IH]; intros SUB; constructor; [|apply IH; intros; apply SUB; right; assumption].
      destruct H as (var & V & W). rewrite W. destruct (FT (fst nb) (SUB nb (or_introl eq_refl))) as (tl & u & s & E).
      rewrite E in V. injection V as <-. cbn [wv_data]. unfold wrf_outside, written. rewrite E. split.
      * intros (v & I & J). apply timed_values in I as (k & y & x & K). exists k, y, x, v. auto.
      * intros (k & y & x & v & K & J). exists v. split; [|exact J]. apply timed_values. eauto.
Qed.

(*@ C113 Without the grid spacing in the WRF file the conversion, otherwise successful, ends with AttributeError. *)
Lemma wrf_no_spacing_lem :
  forall c (cfg : dict R) slope aspect w sd ed n ny nx,
    wrf_shape n ny nx (select_period sd ed w) -> (0 < n)%nat ->
    dict_find cfg "hu"%string <> None -> dict_find cfg "lu_class"%string <> None ->
    w_DX w = None \/ w_DY w = None ->
    c_densification_method c <> "constant"%string \/ c_constant_density c <> 0 ->
    create_input c cfg slope aspect w sd ed = Err AttributeError.
Proof.
  intros c cfg slope aspect w sd ed n ny nx SH N H1 H2 HDX HD.
  assert (DX : w_DX (select_period sd ed w) = w_DX w) by (destruct sd, ed; reflexivity).
  assert (DY : w_DY (select_period sd ed w) = w_DY w) by (destruct sd, ed; reflexivity).
  unfold create_input. cbv zeta. set (ds := select_period sd ed w) in *. destruct SH as [LT F].
  repeat (apply Forall_cons_iff in F; let X := fresh "SH" in destruct F as [X F]). clear F.
  destruct (shaped_first _ _ _ _ SH N) as (lat & -> & _). destruct (shaped_first _ _ _ _ SH0 N) as (lon & -> & _). destruct (shaped_first _ _ _ _ SH1 N) as (hgt & -> & _). cbn [bind].
  destruct (zip_array_total pair ny nx _ _ n SH2 SH3) as (tq & -> & ST). cbn [bind].
  destruct (zip_array_total (fun tq p => wrf_rh (fst tq) (snd tq) p) ny nx _ _ n ST SH4) as (rh & -> & _). cbn [bind].
  destruct (shaped_first _ _ _ _ SH7 N) as (a1 & -> & _). destruct (shaped_first _ _ _ _ SH8 N) as (a2 & -> & _). destruct (shaped_first _ _ _ _ SH9 N) as (a3 & -> & _). cbn [bind].
  destruct (shaped_first _ _ _ _ SH10 N) as (a4 & -> & _). destruct (shaped_first _ _ _ _ SH11 N) as (a5 & -> & _). cbn [bind].
  unfold dict_get. destruct (dict_find cfg "hu"%string); [|congruence]. destruct (dict_find cfg "lu_class"%string); [|congruence]. cbn [bind].
  destruct (zip_array_total (fun v u => wrf_wind u v) ny nx _ _ n SH13 SH12) as (U2 & -> & SU). cbn [bind].
  destruct (zip_array_total Rplus ny nx _ _ n SH14 SH15) as (rain & -> & SR). cbn [bind]. rewrite LT.
  assert (SZ : shaped n ny nx (map_array (fun _ : R => 0) (w_T2 ds))) by (apply map_array_shaped; exact SH2).
  destruct (increments_total n ny nx rain _ SR SZ) as (rrr & -> & _). destruct (increments_total n ny nx _ _ SH16 SZ) as (s0 & -> & SS). cbn [bind].
  assert (exists sf, wrf_snow c (w_T2 ds) U2 s0 = Ok sf) as (sf & ->).
  { unfold wrf_snow. destruct (String.eqb_spec (c_densification_method c) "constant"%string); cbn [negb].
    - unfold fdiv. destruct (Req_EM_T (c_constant_density c) 0); [destruct HD; congruence|]. cbn [bind]. eauto.
    - match goal with |- context [zip_array ?fn (w_T2 ds) U2] => destruct (zip_array_total fn ny nx _ _ n SH2 SU) as (d & -> & SD) end. cbn [bind].
      match goal with |- context [zip_array ?fn s0 d] => destruct (zip_array_total fn ny nx _ _ n SS SD) as (q & -> & _) end. eauto. }
  cbn [bind]. rewrite DX, DY. destruct (w_DX w) as [dx|]; [|reflexivity]. destruct (w_DY w) as [dy|]; [|reflexivity]. destruct HDX; discriminate.
Qed.
