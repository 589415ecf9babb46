(** * The parts of a step complete *)
From Verif Require Import ModelPy ModelConstants ModelNode ModelGrid ModelWater ModelHeat
  ModelDensification ModelRadiation ModelAlbedo ModelSurface ModelInit ModelCore Spec SpecSurface SpecRun SpecCore
  SpecProgress LemPy
  LemGridBase LemMerge LemCorrect LemLog LemGridOps LemGridMore LemFinGrid LemHeat LemFinHeat LemSurface LemFinSurface LemCore LemHealth
  LemWater LemFinWater LemRadiation LemFinRadiation LemFinAlbedo LemDensification LemFinDensification LemFinCore LemFinRun LemFirm LemMass LemFinFuel LemAdapt.

Lemma sonntag_300 T : 0.55 < T <= 330 -> sonntag T < 300.
Proof.
  intros H. apply Rle_lt_trans with (sonntag 330).
  - destruct (Req_dec T 330) as [->|]; [lra|]. left. apply sonntag_mono. lra.
  - unfold sonntag. destruct (Rle_dec 273.16 330); [|lra].
    set (x := 17.67 * (330 - 273.16) / (330 - 29.66)).
    assert (Hx : x < 3.5) by (unfold x; lra).
    assert (exp x < exp 3.5) by (apply exp_increasing; lra).
    assert (E : exp 3.5 * exp 3.5 <= 2187).
    { rewrite <- exp_plus. replace (3.5 + 3.5) with (1 + 1 + 1 + 1 + 1 + 1 + 1) by lra. rewrite !exp_plus.
      assert (E3 := exp_le_3). assert (EP := exp_pos 1). set (e := exp 1) in *.
      assert (e * e <= 9) by nra. assert (e * e * e <= 27) by nra. assert (e * e * e * e <= 81) by nra.
      assert (e * e * e * e * e <= 243) by nra. assert (e * e * e * e * e * e <= 729) by nra. nra. }
    assert (P := exp_pos 3.5). assert (exp 3.5 < 48) by nra. lra.
Qed.

(** ** Subsurface temperatures *)
Lemma subsurface_progress g zlt : Forall (fun n => 0 < n_height n) (g_nodes g) -> (2 <= length (g_nodes g))%nat ->
  0 < zlt < column_height (g_nodes g) ->
  exists t, get_subsurface_temperature g (cumsum (map n_height (g_nodes g))) zlt = Ok t.
Proof.
  intros HF L Hz.
  destruct (g_nodes g) as [|top r] eqn:El; [cbn in L; lia|].
  destruct (Rlt_dec zlt (n_height top)) as [A|A].
  - destruct (exists_last (l := r)) as (mid & bot & E); [intros ->; cbn in L; lia|].
    eexists. rewrite <- El. apply subsurface_thick with (top := top) (middle := mid) (bottom := bot); rewrite ?El; try assumption.
    + congruence.
    + lra.
  - assert (K : exists k, (S k < length (top :: r))%nat /\ depth_to (top :: r) k <= zlt < depth_to (top :: r) (S k)).
    { assert (D0 : depth_to (top :: r) 0 <= zlt) by (unfold depth_to, column_height, total; cbn; lra).
      assert (D1 : zlt < depth_to (top :: r) (pred (length (top :: r)))).
      { unfold depth_to. replace (S (pred (length (top :: r)))) with (length (top :: r)) by (cbn; lia). rewrite firstn_all. lra. }
      cbn [length pred] in D1. cbn [length] in *.
      assert (G : forall n, (n <= length r)%nat -> zlt < depth_to (top :: r) n ->
        exists k, (S k <= n)%nat /\ depth_to (top :: r) k <= zlt < depth_to (top :: r) (S k)).
      { induction n as [|n IH]; intros Ln Dn; [lra|].
        destruct (Rlt_dec zlt (depth_to (top :: r) n)) as [B|B].
        - destruct IH as (k & Lk & Dk); [lia|exact B|]. exists k. split; [lia|exact Dk].
        - exists n. split; [lia|lra]. }
      destruct (G (length r) ltac:(lia) D1) as (k & Lk & Dk). exists k. split; [lia|exact Dk]. }
    destruct K as (k & Lk & Dk).
    destruct (nth_error (top :: r) k) as [x|] eqn:Ex; [|apply nth_error_None in Ex; lia].
    destruct (nth_error (top :: r) (S k)) as [y|] eqn:Ey; [|apply nth_error_None in Ey; lia].
    eexists. rewrite <- El. apply subsurface_between with (k := k) (x := x) (y := y); rewrite El; assumption.
Qed.

Lemma subsurface_single g zlt : length (g_nodes g) = 1%nat -> zlt < column_height (g_nodes g) ->
  get_subsurface_temperature g (cumsum (map n_height (g_nodes g))) zlt = Err ZeroDivisionError.
Proof.
  intros L D. destruct (g_nodes g) as [|x [|y r]] eqn:El; try discriminate.
  unfold column_height, total in D; cbn in D.
  unfold get_subsurface_temperature. cbn [argmin argmin_from map cumsum cumsum_from bind].
  change (py_get [0 + n_height x] 0) with (Ok (0 + n_height x)). cbn [bind].
  rewrite Rltb_true by lra. unfold get_node. rewrite El. cbn [Z.sub Z.opp Z.add].
  change (py_get [x] 0) with (Ok x). change (py_get [x] (-1)) with (Ok x).
  change (py_get [0 + n_height x] 0) with (Ok (0 + n_height x)).
  change (py_get [0 + n_height x] (-1)) with (Ok (0 + n_height x)). cbn [bind].
  unfold fdiv. destruct (Req_EM_T _ _) as [E|E]; [reflexivity|exfalso; apply E; ring].
Qed.

Lemma interp_progress c g : flux_constants_ok c -> Forall (fun n => 0 < n_height n) (g_nodes g) ->
  ~ shallow c (g_nodes g) -> exists B, interp_subT c g = Ok B.
Proof.
  intros Hf HF N. assert (Z := fc_z c Hf).
  assert (L : (2 <= length (g_nodes g))%nat) by (destruct (le_lt_dec 2 (length (g_nodes g))); [assumption|exfalso; apply N; right; assumption]).
  assert (D : c_zlt2 c < column_height (g_nodes g)) by (apply Rnot_le_lt; intros X; apply N; left; exact X).
  destruct (subsurface_progress g (c_zlt1 c) HF L ltac:(lra)) as (t1 & E1).
  destruct (subsurface_progress g (c_zlt2 c) HF L ltac:(lra)) as (t2 & E2).
  exists (t1, t2). unfold interp_subT. rewrite E1. cbn [bind]. rewrite E2. reflexivity.
Qed.

Lemma interp_shallow c g : flux_constants_ok c -> Forall (fun n => 0 < n_height n) (g_nodes g) -> g_nodes g <> [] ->
  shallow c (g_nodes g) -> exists e, interp_subT c g = Err e /\ In e [IndexError; ZeroDivisionError].
Proof.
  intros Hf HF Ne N. assert (Z := fc_z c Hf). unfold interp_subT.
  destruct (Rle_dec (column_height (g_nodes g)) (c_zlt2 c)) as [D|D].
  - destruct (Rle_dec (column_height (g_nodes g)) (c_zlt1 c)) as [D1|D1].
    { rewrite (subsurface_thin g (c_zlt1 c) HF Ne D1). eexists; split; [reflexivity|cbn; auto]. }
    destruct (le_lt_dec 2 (length (g_nodes g))) as [L|L].
    + destruct (subsurface_progress g (c_zlt1 c) HF L ltac:(lra)) as (t1 & ->). cbn [bind].
      rewrite (subsurface_thin g (c_zlt2 c) HF Ne D). eexists; split; [reflexivity|cbn; auto].
    + rewrite (subsurface_single g (c_zlt1 c)) by (destruct (g_nodes g) as [|x [|y r]]; cbn in *; [congruence|lia|lia] || lra).
      eexists; split; [reflexivity|cbn; auto].
  - destruct N as [N|L]; [contradiction|].
    rewrite (subsurface_single g (c_zlt1 c)) by (destruct (g_nodes g) as [|x [|y r]]; cbn in *; [congruence|lia|lia] || lra).
    eexists; split; [reflexivity|cbn; auto].
Qed.

(** ** The surface temperature *)
Lemma surface_progress c wrf nw mn g a SWnet :
  flux_constants_ok c -> c_stability_correction c = "Ri"%string ->
  In (c_sfc_temperature_method c) ["L-BFGS-B"; "SLSQP"; "Newton"; "Secant"]%string -> 220 <= c_zero_temperature c <= 330 ->
  dependable mn -> Forall (fun n => 0 < n_height n) (g_nodes g) -> ~ shallow c (g_nodes g) ->
  (forall T0, 220 <= T0 <= 330 -> forcing_ok c a T0) ->
  (exists g' fn Ts f, update_surface_temperature c wrf nw mn g a SWnet = Ok (g', fn, Ts, f)) \/
  (exists B top e, interp_subT c g = Ok B /\ hd_error (g_nodes g) = Some top /\ ~ In e [RuntimeError; ValueError] /\
    ((c_sfc_temperature_method c = "Newton"%string /\ nw (eb_optim c wrf g a SWnet B) (Rmin (n_temperature top) 270) = Err e) \/
     (c_sfc_temperature_method c = "Secant"%string /\ secant (eb_optim c wrf g a SWnet B) (Rmin (n_temperature top) 270) 0.01 50 None 0 = Err e))).
Proof.
  intros Hf Hri Hm Hz (Hb & Hd) HF Ns Ho.
  destruct (interp_progress c g Hf HF Ns) as (B & EB).
  destruct (g_nodes g) as [|top r] eqn:El.
  { exfalso. apply Ns. right. cbn. lia. }
  destruct (conductivity_ok c top Hf) as (lam & El1).
  assert (Et : get_node g 0 = Ok top) by (apply (get_node_mid g [] top r El)).
  unfold update_surface_temperature. rewrite EB. cbn [bind]. rewrite Et. cbn [bind].
  set (func := eb_optim c wrf g a SWnet B). set (x0 := Rmin (n_temperature top) 270).
  assert (Hfunc : forall x, 220 <= x <= 330 -> exists y, func x = Ok y).
  { intros x Hx. unfold func, eb_optim. rewrite (eb_fluxes_ri c wrf g x a B top r lam Hf (Ho x Hx) Hri El El1). cbn [bind].
    destruct (root_finder c); eexists; reflexivity. }
  assert (F330 : forall m', exists y v, mn m' func x0 220 330 = Ok (Some y, v) /\ 220 <= y <= 330).
  { intros m'. destruct (Hd m' func x0 220 330 ltac:(lra) Hfunc) as ([x v] & E).
    destruct (Hb _ _ _ _ _ _ _ E) as (y & -> & Hy). exists y, v. auto. }
  assert (Fz : forall m', exists y v, mn m' func x0 220 (c_zero_temperature c) = Ok (Some y, v) /\ 220 <= y <= 330).
  { intros m'. destruct (Hd m' func x0 220 (c_zero_temperature c) ltac:(lra) ltac:(intros; apply Hfunc; lra)) as ([x v] & E).
    destruct (Hb _ _ _ _ _ _ _ E) as (y & -> & Hy). exists y, v. split; [exact E|lra]. }
  set (search := if String.eqb (c_sfc_temperature_method c) "L-BFGS-B"%string || String.eqb (c_sfc_temperature_method c) "SLSQP"%string then
       '(x, v) <- mn (c_sfc_temperature_method c) func x0 220 330 ;; Ok (x, Some v)
     else if String.eqb (c_sfc_temperature_method c) "Newton"%string then
       try_except
         (x <- nw func x0 ;; check_residual_clip x 220 ;; Ok (x, None))
         ('(x, v) <- mn "SLSQP"%string func x0 220 330 ;; Ok (x, Some v))
     else if String.eqb (c_sfc_temperature_method c) "Secant"%string then
       try_except
         (x <- call_secant_jitted func x0 220 ;;
          check_residual_clip (Some x) 220 ;; Ok (Some x, None))
         ('(x, v) <- mn "SLSQP"%string func x0 220 (c_zero_temperature c) ;; Ok (x, Some v))
     else Err NotImplementedError).
  assert (M : (exists (x : number) (v : option number), search = Ok (x, v) /\ forall y, x = Some y -> 220 <= y) \/
    (exists e, ~ In e [RuntimeError; ValueError] /\
    ((c_sfc_temperature_method c = "Newton"%string /\ nw func x0 = Err e) \/
     (c_sfc_temperature_method c = "Secant"%string /\ secant func x0 0.01 50 None 0 = Err e)))).
  { assert (Bad : forall e, In e [RuntimeError; ValueError] \/ ~ In e [RuntimeError; ValueError]).
    { intros e. destruct e; first [left; cbn; tauto | right; cbn; intros [X|[X|[]]]; discriminate]. }
    assert (Caught : forall e (h : res (number * option number)), In e [RuntimeError; ValueError] -> try_except (Err e) h = h).
    { intros e h [<-|[<-|[]]]; reflexivity. }
    destruct (F330 (c_sfc_temperature_method c)) as (y & v & E & Hy). destruct (F330 "SLSQP"%string) as (ya & va & Ea & Hya).
    destruct (Fz "SLSQP"%string) as (yb & vb & Eb & Hyb).
    unfold search. destruct Hm as [Hm|[Hm|[Hm|[Hm|[]]]]]; rewrite <- Hm; cbn [String.eqb Ascii.eqb Bool.eqb orb].
    - left. rewrite <- Hm in E. rewrite E. cbn [bind]. exists (Some y), (Some v). split; [reflexivity|]. intros ? X. injection X as <-. lra.
    - left. rewrite <- Hm in E. rewrite E. cbn [bind]. exists (Some y), (Some v). split; [reflexivity|]. intros ? X. injection X as <-. lra.
    - destruct (nw func x0) as [[x|]|e] eqn:En; cbn [bind].
      + unfold check_residual_clip. destruct (Rltb_spec x 220) as [L|L]; cbn [bind].
        * rewrite Caught by (cbn; tauto). rewrite Ea. left. exists (Some ya), (Some va). split; [reflexivity|]. intros ? X. injection X as <-. lra.
        * left. exists (Some x), None. split; [reflexivity|]. intros ? X. injection X as <-. lra.
      + left. exists None, None. split; [reflexivity|discriminate].
      + destruct (Bad e) as [K|K].
        * rewrite Caught by exact K. rewrite Ea. left. exists (Some ya), (Some va). split; [reflexivity|]. intros ? X. injection X as <-. lra.
        * right. exists e. split; [exact K|]. left. auto.
    - unfold call_secant_jitted. destruct (secant func x0 0.01 50 None 0) as [[x k]|e] eqn:En; cbn [bind].
      + destruct (Rltb_spec x 220) as [L|L]; cbn [bind].
        * rewrite Caught by (cbn; tauto). rewrite Eb. left. exists (Some yb), (Some vb). split; [reflexivity|]. intros ? X. injection X as <-. lra.
        * unfold check_residual_clip. rewrite Rltb_false by lra. left. exists (Some x), None. split; [reflexivity|]. intros ? X. injection X as <-. lra.
      + destruct (Bad e) as [K|K].
        * rewrite Caught by exact K. rewrite Eb. left. exists (Some yb), (Some vb). split; [reflexivity|]. intros ? X. injection X as <-. lra.
        * right. exists e. split; [exact K|]. right. auto. }
  destruct M as [(x & v & EM & Hx)|(e & K1 & K2)].
  2:{ right. exists B, top, e. auto. }
  left. cbv zeta. fold search. rewrite EM. cbn [bind].
  set (Ts := py_min_nan (c_zero_temperature c) x).
  assert (HTs : 220 <= Ts <= 330).
  { unfold Ts, py_min_nan. destruct x as [x|]; [|lra]. specialize (Hx x eq_refl). destruct (Rltb_spec x (c_zero_temperature c)); lra. }
  destruct (upd_node g 0 (set_layer_temperature Ts)) as [g'|e] eqn:EU.
  2:{ unfold upd_node, py_update in EU. rewrite El in EU. cbn in EU. discriminate. }
  cbn [bind].
  assert (El' : g_nodes g' = set_layer_temperature Ts top :: r).
  { unfold upd_node, py_update in EU. rewrite El in EU. cbn in EU. injection EU as <-. reflexivity. }
  rewrite (eb_fluxes_ri c wrf g' Ts a B (set_layer_temperature Ts top) r lam Hf (Ho Ts HTs) Hri El').
  - cbn [bind]. repeat eexists.
  - rewrite <- El1. reflexivity.
Qed.

(** ** Snowfall *)
Lemma laid_progress c dt d inp t s lo : progress_constants c lo ->
  (exists T2 U2 rho, py_get (d_T2 d) t = Ok T2 /\ py_get (d_U2 d) t = Ok U2 /\
    fresh_snow_density c T2 U2 = Ok rho /\ 0.05 * c_ice_density c + c_air_density c <= rho <= c_ice_density c /\ lo <= T2) ->
  (exists sn r, opt_get (i_SNOWF inp) t = Ok sn /\ opt_get (i_RRR inp) t = Ok (Some r)) ->
  counted (s_grid s) -> firm_column lo (c_zero_temperature c) (g_nodes (s_grid s)) ->
  exists g1 RAIN, laid c dt d inp t s g1 RAIN /\ 0 <= RAIN /\ counted g1 /\
    firm_column lo (c_zero_temperature c) (g_nodes g1).
Proof.
  intros Hp (T2 & U2 & rho & ET & EU & Er & Hr & HT) (sn & r & Es & Err) Hn Hg.
  destruct (pc_run _ _ Hp) as [Hc Hlo Hz Hcold Hair Hfresh].
  assert (Hi : 0 < c_ice_density c) by (destruct Hc; lra). assert (Ha := ok_rho_a _ Hc). assert (Hw := ok_rho_w _ Hc).
  assert (Hrho : 0 < rho) by lra.
  assert (E : exists raw, snow_and_rain c rho T2 sn (Some r) = Ok raw /\ exists q, snd raw = Some q).
  { unfold snow_and_rain. rewrite (fdiv_ok rho (c_water_density c)) by lra. rewrite (fdiv_ok (c_water_density c) rho) by lra.
    destruct sn; cbn [bind]; eexists; (split; [reflexivity|]); eexists; reflexivity. }
  destruct E as ([s0 q0] & Eraw & q & Eq). cbn in Eq. subst q0.
  assert (E : exists S0 R0, threshold_precipitation c rho (s0, Some q) = Ok (S0, R0)).
  { unfold threshold_precipitation. rewrite (fdiv_ok rho (c_water_density c)) by lra. cbn [bind]. eexists _, _. reflexivity. }
  destruct E as (S0 & R0 & Eth).
  destruct (rain_nonneg _ rho _ _ _ Hw (Rlt_le _ _ Hrho) (ok_minsnow _ Hc) Eth) as (H0 & H1).
  exists (lay_snow c (s_grid s) S0 rho T2 dt), R0.
  split. { exists T2, U2, rho, sn, (Some r), (s0, Some q), S0. auto 10. }
  split; [exact H1|].
  split. { unfold lay_snow. destruct (Rltb _ _); [apply add_fresh_snow_counted; exact Hn|exact Hn]. }
  assert (HH : healthy lo (c_zero_temperature c) (lay_snow c (s_grid s) S0 rho T2 dt)).
  { apply lay_snow_health; try assumption; try reflexivity; [lra|lra|]. eapply Forall_impl; [|exact Hg]. intros n Hnn. exact (proj1 Hnn). }
  assert (HI : Forall (fun n => 0.05 <= n_ice n <= 1) (g_nodes (lay_snow c (s_grid s) S0 rho T2 dt))).
  { unfold lay_snow. destruct (Rltb 0 S0).
    - unfold add_fresh_snow.
      assert (K : forall g0, g_nodes (if Rltb S0 (c_minimum_snowfall c) then set_fresh_snow_props_update_time g0 dt else set_fresh_snow_props g0 S0) = g_nodes g0)
        by (intros g0; destruct (Rltb _ _); reflexivity).
      cbv zeta. rewrite K. cbn [g_nodes with_number with_nodes]. apply py_insert_forall.
      + eapply Forall_impl; [|exact Hg]. intros n Hnn. exact (proj2 Hnn).
      + cbn [n_ice new_node].
        assert (Q : 0 <= 1 - rho / c_ice_density c <= 1).
        { assert (0 < rho / c_ice_density c) by (apply Rdiv_lt_0_compat; lra).
          assert (rho / c_ice_density c <= 1) by (apply Rmult_le_reg_r with (c_ice_density c); [lra|]; unfold Rdiv; rewrite Rmult_assoc, Rinv_l by lra; lra). lra. }
        split; apply Rmult_le_reg_r with (c_ice_density c); try lra; unfold Rdiv at 1; rewrite (Rmult_assoc _ (/ c_ice_density c)), Rinv_l by lra; nra.
    - eapply Forall_impl; [|exact Hg]. intros n Hnn. exact (proj2 Hnn). }
  unfold firm_column, firm_layer. apply Forall_and; [exact HH|exact HI].
Qed.

(** ** Remeshing *)
Lemma firm_sound lo hi l : firm_column lo hi l -> sound_column lo hi l.
Proof. intros H. eapply Forall_impl; [|exact H]. intros n Hn. exact (proj1 Hn). Qed.
Lemma firm_split lo hi l : firm_column lo hi l <-> sound_column lo hi l /\ Forall (fun n => 0.05 <= n_ice n <= 1) l.
Proof.
  split.
  - intros H. split; (eapply Forall_impl; [|exact H]); intros n Hn; apply Hn.
  - intros (A & B). unfold firm_column, firm_layer. apply Forall_and; assumption.
Qed.

Lemma firm_icy lo hi g : firm_column lo hi (g_nodes g) <-> healthy lo hi g /\ icy_grid 0.05 1 g.
Proof.
  rewrite firm_split. split; intros (A & B); (split; [exact A|]).
  - apply Forall_and; [|exact B]. eapply Forall_impl; [|exact A]. intros n Hn. exact (proj1 Hn).
  - eapply Forall_impl; [|exact B]. intros n Hn. exact (proj2 Hn).
Qed.

Lemma sound_column_ok lo hi l : sound_column lo hi l -> column_ok l.
Proof. intros H. eapply Forall_impl; [|exact H]. intros n (A & B & _). auto. Qed.
Lemma sound_layers_ok lo hi l : sound_column lo hi l -> layers_ok l.
Proof. intros H. eapply Forall_impl; [|exact H]. intros n (A & B & C & _). auto. Qed.
Lemma sound_positive lo hi l : sound_column lo hi l -> Forall (fun n => 0 < n_height n) l.
Proof. intros H. eapply Forall_impl; [|exact H]. intros n (A & _). exact A. Qed.

Lemma remesh_outcome c g1 lo : progress_constants c lo -> counted g1 ->
  firm_column lo (c_zero_temperature c) (g_nodes g1) ->
  exists N r, (forall fuel, (N <= fuel)%nat ->
      (if String.eqb (c_remesh_method c) "log_profile"%string then log_profile fuel c g1
       else if String.eqb (c_remesh_method c) "adaptive_profile"%string then adaptive_profile fuel c g1 else Ok g1) = r) /\
    ((r = Err IndexError /\ c_remesh_method c = "adaptive_profile"%string /\ (g_nodes g1 = [] \/ thinned_out c (g_nodes g1))) \/
     (exists g', r = Ok g' /\ counted g' /\ same_clock g1 g' /\
       (c_remesh_method c = "log_profile"%string -> (g_nodes g' <> [] -> conserved (g_nodes g1) (g_nodes g')) /\
          (g_nodes g1 <> [] -> c_first_layer_height c <= column_height (g_nodes g1) ->
           c_layer_stretching c * reported_snow c (g_nodes g1) <= column_height (g_nodes g1) -> g_nodes g' <> [])) /\
       (c_remesh_method c = "adaptive_profile"%string -> g_nodes g' <> [] /\
          exists removed, Forall (thin c) removed /\ conserved (g_nodes g1) (removed ++ g_nodes g')))).
Proof.
  intros Hp Hn Hg. destruct (pc_run _ _ Hp) as [Hc _ _ _ _ _].
  assert (Hf := ok_first _ Hc). assert (Hst := ok_stretch _ Hc).
  assert (Ok1 := sound_column_ok _ _ _ (firm_sound _ _ _ Hg)).
  assert (M := pc_remesh _ _ Hp). cbn [In] in M. destruct M as [M|[M|[]]]; rewrite <- M; cbn [String.eqb Ascii.eqb Bool.eqb].
  - destruct (log_profile_spec c g1 Hf Hst Hn Ok1) as (N & K).
    destruct (K N (le_n N)) as (g' & W & C1 & K1 & _ & Co & Ne).
    exists N, (Ok g'). split; [intros fuel L; exact (log_profile_more N fuel c g1 g' L W)|].
    right. exists g'. split; [reflexivity|]. split; [exact C1|]. split; [exact K1|]. split; [|discriminate].
    intros _. split; [exact Co|exact Ne].
  - destruct (g_nodes g1) as [|a t] eqn:E1.
    { exists 1%nat, (Err IndexError). split; [|left; auto].
      intros fuel L. destruct fuel as [|fuel]; [lia|]. unfold adaptive_profile, adaptive_snow. cbn [while_loop adapt_cond].
      rewrite get_number_snow_layers_counted by exact Hn. rewrite E1. cbn [bind nsnow Z.of_nat].
      cbn. rewrite get_number_snow_layers_counted by exact Hn. cbn [bind].
      unfold get_node_height, get_node. rewrite E1. reflexivity. }
    rewrite <- E1 in *. assert (Ne1 : g_nodes g1 <> []) by (rewrite E1; discriminate).
    set (N := (length (g_nodes g1) + 3)%nat).
    exists N, (adaptive_profile N c g1).
    assert (Sp := adaptive_profile_spec c g1 N Hf Hn Ok1 Ne1 ltac:(unfold N; lia)).
    split.
    + intros fuel L. destruct (adaptive_profile_refines N fuel c g1 L) as [X|X]; [|exact X].
      rewrite X in Sp. destruct Sp as [(g' & Y & _)|(Y & _)]; discriminate.
    + destruct Sp as [(g' & Y & [A1 A2 A3 A4 A5])|(Y & rm & x & T1 & T2 & T3)].
      * right. exists g'. split; [exact Y|]. split; [exact A1|]. split; [exact A2|]. split; [discriminate|]. auto.
      * left. split; [exact Y|]. split; [reflexivity|]. right. exists rm, x. auto.
Qed.

Lemma remesh_progress c g1 lo : progress_constants c lo -> counted g1 ->
  firm_column lo (c_zero_temperature c) (g_nodes g1) ->
  vanishes c g1 \/
  exists g2, remeshed c g1 g2 /\ counted g2 /\ firm_column lo (c_zero_temperature c) (g_nodes g2) /\
    same_clock g1 g2 /\ g_nodes g2 <> [].
Proof.
  intros Hp Hn Hg. destruct (remesh_outcome c g1 lo Hp Hn Hg) as (N & r & W & Why).
  destruct (pc_run _ _ Hp) as [Hc _ _ _ _ _]. assert (Hf := ok_first _ Hc). assert (Hst := ok_stretch _ Hc).
  destruct Why as [(-> & _)|(g' & -> & C1 & K1 & _)].
  { left. exists N. intros fuel L. left. unfold update_grid. rewrite (W fuel L). reflexivity. }
  assert (U : forall fuel, (N <= fuel)%nat -> update_grid fuel c g1 =
    (h <- get_node_height g' 0 ;; if Rltb h (c_minimum_snow_layer_height c) then remove_node g' (Some [0%Z]) else Ok g')).
  { intros fuel L. unfold update_grid. rewrite (W fuel L). reflexivity. }
  assert (Q : forall g2, (forall fuel, (N <= fuel)%nat -> update_grid fuel c g1 = Ok g2) -> firm_column lo (c_zero_temperature c) (g_nodes g2)).
  { intros g2 E. specialize (E N (le_n N)). apply firm_icy in Hg. destruct Hg as (G1 & G2). apply firm_icy. split.
    - eapply update_grid_health; [exact Hf| |exact E|exact G1]. lra.
    - eapply update_grid_icy; [exact Hf| |exact E|exact G2]. lra. }
  destruct (g_nodes g') as [|a t] eqn:E.
  { left. exists N. intros fuel L. left. rewrite (U fuel L). unfold get_node_height, get_node. rewrite E. reflexivity. }
  unfold get_node_height in U. rewrite (get_node_mid g' [] a t E : get_node g' 0 = _) in U. cbn [bind] in U.
  destruct (Rltb_spec (n_height a) (c_minimum_snow_layer_height c)) as [L|L].
  - rewrite (remove_one_mid g' [] a t E : remove_node g' (Some [0%Z]) = _) in U. cbn [app] in U.
    destruct t as [|b t].
    { left. exists N. intros fuel L'. right. eexists. split; [exact (U fuel L')|reflexivity]. }
    right. eexists. split; [exists N; exact U|]. split.
    { unfold counted in *; cbn [g_nodes with_nodes with_number g_number_nodes]. rewrite E in C1; cbn [length] in *; lia. }
    split; [exact (Q _ U)|]. split; [eapply same_clock_trans; [exact K1|repeat split]|discriminate].
  - right. exists g'. split; [exists N; exact U|]. split; [exact C1|]. split; [exact (Q _ U)|]. split; [exact K1|]. rewrite E. discriminate.
Qed.

Lemma albedo_empty c g Ts a : In (c_albedo_method c) ["Oerlemans98"; "Bougamont05"]%string -> g_nodes g = [] ->
  updateAlbedo c g Ts a = Err IndexError.
Proof.
  intros M E. unfold updateAlbedo. cbn [In] in M.
  assert (D : forall g', g_nodes g' = [] -> get_node_density c g' 0 = Err IndexError)
    by (intros g' E'; unfold get_node_density, get_node; rewrite E'; reflexivity).
  destruct (surface_props c g) as (g' & h & t & W & (E1 & _) & _).
  destruct M as [M|[M|[]]]; rewrite <- M; cbn [String.eqb Ascii.eqb Bool.eqb].
  - unfold method_Oerlemans. rewrite W. rewrite D by congruence. reflexivity.
  - unfold method_Bougamont. rewrite W. rewrite D by congruence. reflexivity.
Qed.

(** a column that vanishes stops the step *)
Lemma vanish_raises c sw sv dt ml z d inp t s lo g1 RAIN : progress_constants c lo ->
  (exists G, py_get (d_G d) t = Ok G) ->
  laid c dt d inp t s g1 RAIN -> vanishes c g1 ->
  exists N, forall fuel, (N <= fuel)%nat -> core_step fuel c sw sv (dt, ml, z) d inp t s = Err IndexError.
Proof.
  intros Hp (G & EG) (T2 & U2 & rho & sn & r & raw & SN & A1 & A2 & A3 & A4 & A5 & A6 & A7 & ->) (N & V).
  exists N. intros fuel L.
  unfold core_step. rewrite A1. cbn [bind]. rewrite A2. cbn [bind]. rewrite A3. cbn [bind]. rewrite A4. cbn [bind]. rewrite A5. cbn [bind].
  rewrite A6. cbn [bind]. rewrite A7. cbn [bind]. rewrite EG. cbn [bind]. cbv zeta.
  destruct (V fuel L) as [W|(g' & W & X)]; rewrite W; cbn [bind]; [reflexivity|].
  rewrite albedo_empty by (exact (pc_albedo _ _ Hp) || exact X). reflexivity.
Qed.

(** only short columns vanish *)
Lemma vanishes_short c g lo : progress_constants c lo -> counted g ->
  firm_column lo (c_zero_temperature c) (g_nodes g) -> vanishes c g ->
  (c_remesh_method c = "log_profile"%string -> too_short c (g_nodes g)) /\
  (c_remesh_method c = "adaptive_profile"%string -> g_nodes g = [] \/ thinned_out c (g_nodes g)).
Proof.
  intros Hp Hn Hg (N & V). destruct (remesh_outcome c g lo Hp Hn Hg) as (N' & r & W & Why).
  destruct (pc_run _ _ Hp) as [Hc _ _ _ _ _]. assert (Hf := ok_first _ Hc). assert (Hm := pc_first _ _ Hp).
  specialize (W (Nat.max N N') ltac:(lia)). specialize (V (Nat.max N N') ltac:(lia)).
  unfold update_grid in V. rewrite W in V. clear W.
  destruct Why as [(_ & M & X)|(g' & -> & _ & _ & Lo & Ad)].
  { split; [intros M'; rewrite M' in M; discriminate|intros _; exact X]. }
  cbn [bind] in V.
  assert (V' : g_nodes g' = [] \/ exists a, g_nodes g' = [a] /\ n_height a < c_minimum_snow_layer_height c).
  { destruct (g_nodes g') as [|a t] eqn:E; [left; reflexivity|right]. exists a.
    unfold get_node_height in V. rewrite (get_node_mid g' [] a t E : get_node g' 0 = _) in V. cbn [bind] in V.
    destruct (Rltb_spec (n_height a) (c_minimum_snow_layer_height c)) as [L|L].
    - rewrite (remove_one_mid g' [] a t E : remove_node g' (Some [0%Z]) = _) in V. cbn [app] in V.
      destruct V as [V|(g2 & V & V2)]; [discriminate|]. injection V as <-. cbn in V2. subst t. auto.
    - destruct V as [V|(g2 & V & V2)]; [discriminate|]. injection V as <-. congruence. }
  split; intros M.
  - destruct (Lo M) as (Co & Ne). clear Lo Ad.
    destruct (Rlt_dec (column_height (g_nodes g)) (c_first_layer_height c)) as [A|A]; [left; exact A|].
    destruct V' as [X|(a & X & La)].
    + destruct (Rlt_dec (column_height (g_nodes g)) (c_layer_stretching c * reported_snow c (g_nodes g))) as [B|B]; [right; exact B|].
      exfalso. apply Ne; try lra; [|exact X]. intros E. rewrite E in A. unfold column_height, total in A. cbn in A. lra.
    + exfalso. assert (C := cons_height _ _ (Co ltac:(rewrite X; discriminate))). rewrite X in C.
      unfold column_height at 1, total in C. cbn in C. lra.
  - destruct (Ad M) as (Ne & rm & Th & Co). right. destruct V' as [X|(a & X & La)]; [contradiction|].
    exists rm, a. rewrite X in Co. split; [exact Th|]. split; [lra|exact Co].
Qed.

(** ** Radiation *)
Lemma sunlit_ice c dt es l l' m : sunlit_column c dt es l l' m -> forall P : R -> Prop,
  Forall (fun n => P (n_ice n)) l -> Forall (fun n => P (n_ice n)) l'.
Proof.
  induction 1 as [|e es x l y l' m m' Hx Hl IH]; intros P HF; [constructor|].
  apply Forall_app. split; [|apply IH; exact (Forall_inv_tail HF)].
  assert (K := Forall_inv HF). cbv beta in K. inversion Hx; subst; repeat constructor; cbn; congruence.
Qed.

Lemma decay_timescale_positive c Ts : 0 < c_t_star_wet c -> 0 < c_t_star_dry c -> 0 <= c_t_star_K c ->
  c_t_star_cutoff c <= c_zero_temperature c -> 0 < decay_timescale c Ts.
Proof.
  intros H1 H2 H3 H4. unfold decay_timescale. destruct (Rleb_spec (c_zero_temperature c) Ts) as [L|L]; [exact H1|].
  destruct (Rltb_spec Ts (c_t_star_cutoff c)) as [L'|L'].
  - assert (0 <= (c_zero_temperature c - c_t_star_cutoff c) * c_t_star_K c) by (apply Rmult_le_pos; lra). lra.
  - assert (0 <= (c_zero_temperature c - Ts) * c_t_star_K c) by (apply Rmult_le_pos; lra). lra.
Qed.

Lemma albedo_progress c g Ts a lo top below : progress_constants c lo -> counted g -> g_nodes g = top :: below ->
  exists g' alpha a', updateAlbedo c g Ts a = Ok (g', alpha, a') /\ g_new_snow_timestamp g' / 3600 = albedo_age c g.
Proof.
  intros Hp Hn El. destruct (pc_run _ _ Hp) as [Hc _ _ _ _ _]. assert (Hs := pc_surface _ _ Hp).
  assert (M := pc_albedo _ _ Hp). cbn [In] in M. unfold updateAlbedo. destruct M as [M|[M|[]]].
  - rewrite <- M. cbn [String.eqb Ascii.eqb Bool.eqb].
    destruct (oerlemans_exact_lem c g top below Hs Hn El) as (g3 & alpha & E3 & Sc & Ts3 & _).
    exists g3, alpha, a. rewrite E3. auto.
  - destruct (pc_decay _ _ Hp (eq_sym M)) as (D1 & D2 & D3 & D4). assert (D := decay_timescale_positive c Ts D1 D2 D3 D4).
    rewrite <- M. cbn [String.eqb Ascii.eqb Bool.eqb]. destruct (surface_props c g) as (g' & h & t & W & SC & Et).
    unfold method_Bougamont. rewrite W. assert (SC' := SC). destruct SC as (E1 & E2 & _).
    rewrite (snow_density c g' top below) by congruence. cbn [bind].
    assert (Hn' : counted g') by (unfold counted in *; congruence).
    destruct (Rleb _ _); [|exists g', (c_albedo_ice c), a; auto].
    rewrite get_total_snowheight_counted by exact Hn'. cbn [bind]. cbv zeta.
    assert (Hdt := ok_dt _ Hc).
    rewrite fdiv_ok by (apply Rgt_not_eq; apply Rmult_lt_0_compat; [exact D|lra]).
    cbn [bind]. unfold get_albedo_with_decay. destruct Hs. rewrite fdiv_ok by lra. cbn [bind].
    eexists _, _, _. split; [reflexivity|exact Et].
Qed.

Lemma lit_progress c dt d t s lo z g2 : progress_constants c lo -> 0 < dt ->
  c_roughness_firn c / 1000 < z /\ c_roughness_ice c / 1000 < z ->
  (exists G, py_get (d_G d) t = Ok G) ->
  counted g2 -> firm_column lo (c_zero_temperature c) (g_nodes g2) -> g_nodes g2 <> [] ->
  0 <= g_new_snow_timestamp g2 -> 0 <= g_old_snow_timestamp g2 ->
  exists g4 swn z0, lit c dt d t s g2 g4 swn z0 /\ counted g4 /\
    firm_column lo (c_zero_temperature c) (g_nodes g4) /\ g_nodes g4 <> [] /\ 0 < z0 < z.
Proof.
  intros Hp Hdt Hz (G & EG) Hn Hg Ne H0 H1.
  destruct (pc_run _ _ Hp) as [Hc Hlo Hz0 _ _ _]. assert (Hs := pc_surface _ _ Hp).
  assert (HL := sound_layers_ok _ _ _ (firm_sound _ _ _ Hg)).
  destruct (g_nodes g2) as [|top below] eqn:El; [congruence|].
  destruct (albedo_progress c g2 (s_surface_temperature s) (s_albedo_snow s) lo top below Hp Hn El) as (g3 & alpha & as_ & U3 & Ts3).
  destruct (albedo_health _ _ _ _ _ _ _ U3) as (N3 & C3).
  assert (El3 : g_nodes g3 = top :: below) by congruence.
  assert (Hn3 : counted g3) by (unfold counted in *; rewrite N3, C3; exact Hn).
  assert (H03 : 0 <= g_new_snow_timestamp g3).
  { assert (0 <= albedo_age c g2); [|lra].
    unfold albedo_age. destruct (Rlt_dec _ _); [destruct (Rle_dec _ _)|]; lra. }
  destruct (roughness_range_lem c g3 top below Hs El3 H03) as (z0 & Ez & R1 & R2 & R3).
  assert (Uz : updateRoughness c g3 = Ok z0).
  { destruct (surface_dispatch_lem c g3 0 0) as (_ & _ & _ & _ & D). rewrite D; [exact Ez|exact (pc_roughness _ _ Hp)]. }
  assert (Z : 0 < z0 < z).
  { split; [exact R3|]. destruct (Rle_dec (layer_density c top) (c_snow_ice_threshold c)) as [L|L].
    - destruct (R1 L). lra.
    - rewrite R2 by lra. lra. }
  set (SW := Rmax G 0 * (1 - alpha)).
  assert (P : exists g4 sm Gp, shortwave_below c g3 SW dt = Ok (g4, sm, Gp) /\ counted g4 /\
      firm_column lo (c_zero_temperature c) (g_nodes g4) /\ g_nodes g4 <> []).
  { unfold shortwave_below. destruct (Rltb_spec 0 SW) as [L|L].
    - unfold penetrating_radiation. rewrite (pc_radiation _ _ Hp). cbn [String.eqb Ascii.eqb Bool.eqb].
      destruct (exists_last (l := g_nodes g3)) as (l & bot & Eb); [congruence|].
      destruct (bintanja_exact_lem c g3 SW dt top bot l Hc Hn3 ltac:(rewrite El3; exact HL) Eb ltac:(rewrite El3; reflexivity))
        as (g4 & l' & melt & E4 & V & N4 & C4 & _).
      exists g4, melt, (SW * penetrating_share c top). split; [exact E4|]. split; [exact C4|].
      split; [|rewrite N4; intros X; apply app_eq_nil in X; destruct X; discriminate].
      apply firm_split. split.
      + refine (proj1 (bintanja_health lo (c_zero_temperature c) c g3 SW dt g4 melt _ Hc eq_refl ltac:(lra) (Rlt_le _ _ L) (Rlt_le _ _ Hdt) E4 _)).
        unfold healthy. rewrite El3. apply firm_sound. exact Hg.
      + apply firm_split in Hg. destruct Hg as (_ & Hg). rewrite <- El3, Eb in Hg. apply Forall_app in Hg. destruct Hg as (Hg1 & Hg2).
        rewrite N4. apply Forall_app. split; [|exact Hg2].
        exact (sunlit_ice _ _ _ _ _ _ V (fun x => 0.05 <= x <= 1) Hg1).
    - exists g3, 0, 0. split; [reflexivity|]. split; [exact Hn3|]. rewrite El3. split; [exact Hg|congruence]. }
  destruct P as (g4 & sm & Gp & E4 & C4 & F4 & Ne4).
  exists g4, (SW - Gp), z0. split; [|auto].
  exists G, g3, alpha, as_, sm, Gp. auto 10.
Qed.

(** ** Melt, percolation, refreezing *)
Lemma water_fits_firm c g water lo : constants_ok c -> 11 * c_water_density c <= 12 * c_ice_density c ->
  0 <= lo -> (c_zero_temperature c - lo) * (c_spec_heat_water c - c_spec_heat_ice c) < c_lat_heat_melting c ->
  counted g -> g_nodes g <> [] -> 0 <= water -> firm_column lo (c_zero_temperature c) (g_nodes g) ->
  exists g1 q g2 r, percolation g water = Ok (g1, q) /\ refreezing c g1 = Ok (g2, r) /\ counted g2 /\
    firm_column lo (c_zero_temperature c) (g_nodes g2) /\ length (g_nodes g2) = length (g_nodes g).
Proof.
  intros Hc Hd Hlo Hcold Hn Ne Hw Hg.
  assert (Cold : forall n, sound_layer lo (c_zero_temperature c) n -> cold_ok c n).
  { intros n (X1 & X2 & X3 & X4). split; [lra|]. destruct Hc. nra. }
  destruct (percolation_then_refreezing_fits_lem c g water Hc Hd Hn Ne Hw) as (g1 & q & g2 & r & E1 & E2 & Q & Rr & F1 & F2 & _).
  { eapply Forall_impl; [|exact Hg]. intros n (X1 & X2). split; [apply X1|]. split; [exact X2|]. split; [apply X1|apply Cold, X1]. }
  destruct (percolation_conserves_water_lem g water Hn (sound_column_ok _ _ _ (firm_sound _ _ _ Hg)) Ne)
    as (g1' & q' & E1' & _ & OL & _ & _ & _ & C1 & _).
  rewrite E1 in E1'. injection E1' as <- <-.
  assert (H1 := percolation_health lo (c_zero_temperature c) g water g1 q E1 Hw (firm_sound _ _ _ Hg)). destruct H1 as (H1 & _).
  assert (I1 : Forall (fun n => 0.05 <= n_ice n <= 1) (g_nodes g1)).
  { apply firm_split in Hg. destruct Hg as (_ & Hg). clear - OL Hg. induction OL as [|x x' l l' Hx _ IH]; constructor.
    - destruct Hx as (_ & _ & Hx & _). rewrite Hx. exact (Forall_inv Hg).
    - apply IH. exact (Forall_inv_tail Hg). }
  assert (FC : freezing_column c (g_nodes g1)).
  { unfold freezing_column. eapply Forall_impl; [|apply Forall_and; [exact H1|exact F1]]. intros n (X1 & X2).
    split; [left; apply X1|]. split; [exact X2|]. split; [apply X1|apply Cold, X1]. }
  destruct (refreezing_stays_frozen_lem c g1 Hc C1 FC) as (g2' & r' & E2' & _ & FZ).
  rewrite E2 in E2'. injection E2' as <- <-.
  destruct (refreezing_conserves_mass_lem c g1 Hc C1 FC) as (g2' & r' & E2' & _ & _ & _ & _ & _ & C2 & _).
  rewrite E2 in E2'. injection E2' as <- <-.
  exists g1, q, g2, r. split; [exact E1|]. split; [exact E2|].
  split; [exact C2|]. split.
  - apply firm_split. split; [exact (proj1 (refreezing_health lo (c_zero_temperature c) c g1 g2 r Hc eq_refl Hcold E2 H1))|].
    clear - FZ I1. induction FZ as [|x x' l l' Hx _ IH]; constructor.
    + assert (K := Forall_inv I1). cbv beta in K. destruct Hx as (_ & K1 & K2 & _). lra.
    + apply IH. exact (Forall_inv_tail I1).
  - rewrite (Forall2_len _ _ _ FZ). eapply Forall2_len; exact OL.
Qed.

Lemma weq_app c l1 l2 : column_weq c (l1 ++ l2) = column_weq c l1 + column_weq c l2.
Proof. unfold column_weq, column_weight. rewrite total_app. unfold Rdiv. ring. Qed.
Lemma weq_nonneg c l : 0 < c_water_density c -> weighty c l -> 0 <= column_weq c l.
Proof.
  intros Hw Hl. unfold column_weq, column_weight. apply Rmult_le_pos; [|apply Rlt_le, Rinv_0_lt_compat; lra].
  apply total_nonneg. eapply Forall_impl; [|exact Hl]. intros n [Hn1 Hn2]; unfold layer_weight; nra.
Qed.
Lemma weq_one c x : 0 < c_water_density c -> 0 < n_height x -> 0 < layer_density c x -> 0 < column_weq c [x].
Proof.
  intros Hw A B. unfold column_weq, column_weight, total, layer_weight; cbn.
  apply Rdiv_lt_0_compat; [|lra]. nra.
Qed.
Lemma weighty_firstn c n l : weighty c l -> weighty c (firstn n l).
Proof. intros H. rewrite <- (firstn_skipn n l) in H. apply Forall_app in H. apply H. Qed.
Lemma weighty_skipn c n l : weighty c l -> weighty c (skipn n l).
Proof. intros H. rewrite <- (firstn_skipn n l) in H. apply Forall_app in H. apply H. Qed.
Lemma weq_firstn_mono c l a b : 0 < c_water_density c -> weighty c l -> (a <= b)%nat ->
  column_weq c (firstn a l) <= column_weq c (firstn b l).
Proof.
  intros Hw Hl L. replace (firstn a l) with (firstn a (firstn b l)) by (rewrite firstn_firstn, Nat.min_l by lia; reflexivity).
  rewrite <- (firstn_skipn a (firstn b l)) at 2. rewrite weq_app.
  assert (K := weq_nonneg c (skipn a (firstn b l)) Hw ltac:(apply weighty_skipn, weighty_firstn, Hl)). lra.
Qed.

Lemma sound_weighty c lo hi l : constants_ok c -> sound_column lo hi l -> weighty c l.
Proof.
  intros Hc H. eapply Forall_impl; [|exact H]. intros n (A & B & C & _). split; [exact A|]. apply density_positive; assumption.
Qed.

(** [k] layers go *)
Lemma melt_progress c g m lo hi : constants_ok c -> counted g -> firm_column lo hi (g_nodes g) ->
  exists g' w k, (forall fuel, (length (g_nodes g) + 2 <= fuel)%nat -> remove_melt_weq fuel c g m 0 = Ok (g', w)) /\
    counted g' /\ firm_column lo hi (g_nodes g') /\ 0 <= w /\ (k <= length (g_nodes g))%nat /\
    length (g_nodes g') = (length (g_nodes g) - k)%nat /\
    (forall j, (j < length (g_nodes g))%nat -> (m < column_weq c (firstn (S j) (g_nodes g)) <-> (k <= j)%nat)).
Proof.
  intros Hc Hn Hg. assert (Hw := ok_rho_w _ Hc).
  assert (Wt := sound_weighty c _ _ _ Hc (firm_sound _ _ _ Hg)).
  assert (U : forall f g' w, remove_melt_weq f c g m 0 = Ok (g', w) -> forall fuel, (f <= fuel)%nat -> remove_melt_weq fuel c g m 0 = Ok (g', w)).
  { intros f g' w E fuel L. destruct (remove_melt_refines f fuel c g m 0 L) as [X|X]; [rewrite E in X; discriminate|congruence]. }
  destruct (Rlt_dec m 0) as [Neg|Pos].
  - destruct (negative_melt_only_raises_fresh_snow_lem c g m 1 Neg ltac:(lia)) as (g' & E & N & C & _).
    exists g', 0, 0%nat. split; [intros fuel L; apply (U 1%nat _ _ E); lia|]. split; [unfold counted in *; rewrite N, C; exact Hn|].
    rewrite N. split; [exact Hg|]. split; [lra|]. split; [lia|]. split; [lia|].
    intros j _. split; [lia|]. intros _. assert (K := weq_nonneg c (firstn (S j) (g_nodes g)) Hw (weighty_firstn _ _ _ Wt)). lra.
  - destruct (remove_melt_spec c g m (length (g_nodes g) + 2) Hw ltac:(lra) Hn Wt ltac:(lia)) as (g' & w & m' & E & C & M & _).
    destruct (remove_melt_health lo hi _ c g m g' w Hc E (firm_sound _ _ _ Hg)) as (S' & W').
    assert (HG := Hg). apply firm_split in HG. destruct HG as (_ & HI).
    destruct M as [(gone & x & x' & below & E1 & E2 & E3 & E4 & E5 & E6 & E7)|(E1 & E2 & E3 & E4)].
    + exists g', w, (length gone). split; [intros fuel L; apply (U _ _ _ E); lia|]. split; [exact C|].
      split. { apply firm_split. split; [exact S'|]. rewrite E2. rewrite E1 in HI. apply Forall_app in HI. destruct HI as (_ & HI).
        constructor; [|exact (Forall_inv_tail HI)]. destruct E3 as (_ & E3 & _). rewrite E3. exact (Forall_inv HI). }
      split; [exact W'|]. rewrite E1, E2, app_length. cbn [length]. split; [lia|]. split; [lia|].
      rewrite E1 in Wt.
      assert (Wx := proj2 (proj1 (Forall_app _ _ _) Wt)). assert (Wx1 := Forall_inv Wx). destruct Wx1 as (Wx1 & Wx2).
      assert (Dx : layer_density c x' = layer_density c x).
      { destruct E3 as (_ & E3a & E3b & _). unfold layer_density, layer_air_porosity. rewrite E3a, E3b. reflexivity. }
      assert (P1 : 0 < column_weq c [x']) by (apply weq_one; [exact Hw|lra|rewrite Dx; exact Wx2]).
      assert (P2 : column_weq c [x'] <= column_weq c [x]).
      { unfold column_weq, column_weight, total, layer_weight; cbn. rewrite Dx. apply Rmult_le_compat_r; [left; apply Rinv_0_lt_compat; lra|nra]. }
      rewrite weq_app in E5.
      intros j Lj. split.
      * intros X. destruct (le_lt_dec (length gone) j) as [L|L]; [exact L|exfalso].
        assert (K := weq_firstn_mono c (gone ++ x :: below) (S j) (length gone) Hw Wt ltac:(lia)).
        rewrite (firstn_app (length gone)), Nat.sub_diag, firstn_all in K. change (firstn 0 (x :: below)) with (@nil Node) in K. rewrite app_nil_r in K. lra.
      * intros L. assert (K := weq_firstn_mono c (gone ++ x :: below) (S (length gone)) (S j) Hw Wt ltac:(lia)).
        rewrite (firstn_app (S (length gone))) in K. replace (S (length gone) - length gone)%nat with 1%nat in K by lia.
        rewrite (firstn_all2 (n := S (length gone)) gone) in K by lia. change (firstn 1 (x :: below)) with [x] in K. rewrite weq_app in K. lra.
    + exists g', w, (length (g_nodes g)). split; [intros fuel L; apply (U _ _ _ E); lia|]. split; [exact C|].
      split. { rewrite E1. constructor. }
      split; [exact W'|]. split; [lia|]. rewrite E1. cbn [length]. split; [lia|].
      intros j Lj. split; [|lia]. intros X. exfalso.
      assert (K := weq_firstn_mono c (g_nodes g) (S j) (length (g_nodes g)) Hw Wt ltac:(lia)). rewrite firstn_all in K. lra.
Qed.

Lemma molten_iff c l m k : (forall j, (j < length l)%nat -> (m < column_weq c (firstn (S j) l) <-> (k <= j)%nat)) ->
  (molten c l m <-> (length l - k < 3)%nat).
Proof.
  intros H. unfold molten. split.
  - intros [L|L]; [lia|]. destruct (le_lt_dec 3 (length l)) as [A|A]; [|lia].
    specialize (H (length l - 3)%nat ltac:(lia)). replace (S (length l - 3)) with (length l - 2)%nat in H by lia.
    destruct (le_lt_dec k (length l - 3)) as [B|B]; [|lia]. apply H in B. lra.
  - intros L. destruct (le_lt_dec 3 (length l)) as [A|A]; [right|left; lia].
    specialize (H (length l - 3)%nat ltac:(lia)). replace (S (length l - 3)) with (length l - 2)%nat in H by lia.
    apply Rnot_lt_le. intros X. apply H in X. lia.
Qed.

Lemma crowded_iff c ml l m k : (k < length l)%nat ->
  (forall j, (j < length l)%nat -> (m < column_weq c (firstn (S j) l) <-> (k <= j)%nat)) ->
  (crowded c ml l m <-> (ml < Z.of_nat (length l - k))%Z).
Proof.
  intros L H. unfold crowded. split.
  - intros (j & Lj & X & Y). apply H in X; [|exact Lj]. lia.
  - intros X. exists k. split; [exact L|]. split; [apply H; [exact L|lia]|exact X].
Qed.

(** ** Storing the profiles *)
Lemma map_res_total {A B} (f : A -> res B) l : Forall (fun x => exists y, f x = Ok y) l -> exists ys, map_res f l = Ok ys.
Proof.
  induction 1 as [|x l (y & E) _ (ys & IH)]; [exists []; reflexivity|].
  exists (y :: ys). cbn. rewrite E. cbn [bind]. rewrite IH. reflexivity.
Qed.

Lemma profile_total {A} (f : Node -> res A) g : counted g -> Forall (fun x => exists y, f x = Ok y) (g_nodes g) ->
  exists p, get_profile f g = Ok p.
Proof. intros Hn H. rewrite get_profile_counted by exact Hn. apply map_res_total. exact H. Qed.

Lemma irreducible_total n : 0 < n_ice n -> exists e, layer_irreducible n = Ok e.
Proof.
  intros H. unfold layer_irreducible. destruct (Rleb _ _); [|destruct (_ && _); eexists; reflexivity].
  rewrite fdiv_ok by lra. eexists; reflexivity.
Qed.

(** ** Heat conduction, densification *)
Lemma tail_progress c g8 slope dt lo : progress_constants c lo -> 0 < dt ->
  (c_densification_method c = "Vionnet"%string -> 0 <= cos slope) -> counted g8 ->
  firm_column lo (c_zero_temperature c) (g_nodes g8) -> (3 <= length (g_nodes g8))%nat ->
  exists N g9 g10, (forall fuel, (N <= fuel)%nat -> solveHeatEquation fuel c g8 dt = Ok g9) /\
    densification c g9 slope dt = Ok g10 /\ counted g10 /\ length (g_nodes g10) = length (g_nodes g8) /\
    Forall (fun n => 0 < n_ice n) (g_nodes g10) /\
    (c_densification_method c = "constant"%string -> firm_column lo (c_zero_temperature c) (g_nodes g10)).
Proof.
  intros Hp Hdt Hcs Hn Hg L3. destruct (pc_run _ _ Hp) as [Hc _ _ _ _ _].
  assert (Hk := fc_cond _ (pc_flux _ _ Hp)).
  destruct (heat_maximum_principle_lem c g8 dt Hc Hn) as (g9 & N & E9 & OT & MP & _ & _ & C9 & _).
  { split; [|cbn in Hk; destruct Hk as [K|[K|[]]]; rewrite <- K; auto].
    eapply Forall_impl; [|exact Hg]. intros n ((X1 & X2 & X3 & _) & _). auto. }
  { exact L3. }
  assert (F9 : firm_column lo (c_zero_temperature c) (g_nodes g9)).
  { assert (T9 := MP lo (c_zero_temperature c) ltac:(eapply Forall_impl; [|exact Hg]; intros n ((_ & _ & _ & X) & _); exact X)).
    clear - OT Hg T9. induction OT as [|x x' l l' Hx _ IH]; constructor.
    - destruct (Forall_inv Hg) as ((X1 & X2 & X3 & X4) & X5). assert (T := Forall_inv T9). cbv beta in T.
      destruct Hx as (K1 & K2 & K3 & K4). unfold firm_layer, sound_layer. rewrite K1, K2, K3. auto 10.
    - apply IH; [exact (Forall_inv_tail Hg)|exact (Forall_inv_tail T9)]. }
  assert (L9 := Forall2_len _ _ _ OT).
  assert (HD := pc_densification _ _ Hp). cbn in HD.
  destruct (densification_dispatch_lem c g9 slope dt) as (D1 & D2 & D3 & D4 & _).
  assert (HL9 := sound_layers_ok _ _ _ (firm_sound _ _ _ F9)).
  set (k := nsnow c (g_nodes g9)) in *. assert (Hk9 : (k <= length (g_nodes g9))%nat) by apply nsnow_le.
  assert (Fin : forall top, length top = k -> Forall (fun n => 0 < n_ice n) top ->
    counted (with_nodes g9 (top ++ skipn k (g_nodes g9))) /\
    length (g_nodes (with_nodes g9 (top ++ skipn k (g_nodes g9)))) = length (g_nodes g8) /\
    Forall (fun n => 0 < n_ice n) (g_nodes (with_nodes g9 (top ++ skipn k (g_nodes g9))))).
  { intros top Lt Ft. assert (Le : length (top ++ skipn k (g_nodes g9)) = length (g_nodes g9)) by (rewrite app_length, skipn_length; lia).
    split; [|split].
    - unfold counted in *. cbn [g_nodes g_number_nodes with_nodes]. rewrite Le. exact C9.
    - cbn [g_nodes with_nodes]. rewrite Le. exact L9.
    - cbn [g_nodes with_nodes]. apply Forall_app. split; [exact Ft|].
      assert (F9' := F9). unfold firm_column in F9'. rewrite <- (firstn_skipn k (g_nodes g9)) in F9'. apply Forall_app in F9'.
      destruct F9' as (_ & F9'). eapply Forall_impl; [|exact F9']. intros n ((_ & X & _) & _). exact X. }
  destruct HD as [HD|[HD|[HD|[HD|[]]]]].
  - destruct (boone_only_thins_lem c g9 dt Hc C9 (sound_layers_ok _ _ _ (firm_sound _ _ _ F9)) Hdt) as (g10 & E & B & _ & _ & C10 & _).
    exists N, g9, g10. split; [exact E9|]. split; [rewrite D1 by (symmetry; exact HD); exact E|]. split; [exact C10|].
    split; [rewrite (Forall2_len _ _ _ B); exact L9|]. split; [|intros X; rewrite X in HD; discriminate].
    clear - B F9. induction B as [|x x' l l' Hx _ IH]; constructor.
    + destruct (Forall_inv F9) as ((_ & X & _) & _). lra.
    + apply IH. exact (Forall_inv_tail F9).
  - destruct (vionnet_exact_lem c g9 slope dt Hc C9 HL9) as (top & st & E & Sw). fold k in E, Sw.
    assert (HLk := layers_ok_firstn k _ HL9).
    assert (F := vionnet_layers c slope dt _ _ st Hc Hdt HLk Sw).
    destruct (Fin top) as (A1 & A2 & A3).
    { rewrite (swept_length _ _ _ _ _ _ Sw), firstn_length_le by exact Hk9. reflexivity. }
    { assert (Hcos := Hcs (eq_sym HD)). clear - F HLk Hcos. induction F as [|x x' l l' Hx _ IH]; constructor.
      - destruct (Forall_inv HLk) as (_ & X & _). destruct Hx as [(_ & ->)|(_ & q & Hq & Cd)]; [exact X|].
        assert (0 <= cos slope * q) by (apply Rmult_le_pos; lra).
        destruct Cd as (Cd1 & Cd2). destruct (Req_dec (n_lwc x) 0) as [Z|Z].
        + destruct (Cd1 Z) as (-> & _). apply Rmult_lt_0_compat; lra.
        + destruct (Cd2 Z) as (-> & _). apply Rmult_lt_0_compat; lra.
      - apply IH. exact (Forall_inv_tail HLk). }
    eexists N, g9, _. split; [exact E9|]. split; [rewrite D2 by (symmetry; exact HD); exact E|]. split; [exact A1|]. split; [exact A2|].
    split; [exact A3|]. intros X. rewrite X in HD. discriminate.
  - destruct (empirical_exact_lem c g9 dt Hc Hdt C9 HL9) as (top & E & F). fold k in E, F.
    assert (HLk := layers_ok_firstn k _ HL9).
    destruct (Fin top) as (A1 & A2 & A3).
    { rewrite (Forall2_len _ _ _ F), firstn_length_le by exact Hk9. reflexivity. }
    { clear - F HLk Hc Hdt. induction F as [|x x' l l' Hx _ IH]; constructor.
      - destruct (Forall_inv HLk) as (Y & X & Z). destruct (empirical_step_jump c dt x x' Hc Hdt (conj X Z) Hx) as [(_ & ->)|(J & _)]; [exact X|].
        assert (P := density_positive c x Hc X Z). assert (Hi : 0 < c_ice_density c) by (destruct Hc; lra).
        apply Rmult_lt_reg_l with (c_ice_density c); [exact Hi|]. lra.
      - apply IH. exact (Forall_inv_tail HLk). }
    eexists N, g9, _. split; [exact E9|]. split; [rewrite D3 by (symmetry; exact HD); exact E|]. split; [exact A1|]. split; [exact A2|].
    split; [exact A3|]. intros X. rewrite X in HD. discriminate.
  - exists N, g9, g9. split; [exact E9|]. split; [apply D4; symmetry; exact HD|]. split; [exact C9|]. split; [exact L9|].
    split; [|auto]. eapply Forall_impl; [|exact F9]. intros n ((_ & X & _) & _). exact X.
Qed.

(** ** Storing *)
Lemma simple_profile {A} (f : Node -> A) g : counted g -> exists p, get_profile (fun n => Ok (f n)) g = Ok p.
Proof. intros Hn. apply profile_total; [exact Hn|]. apply Forall_forall. intros x _. eexists; reflexivity. Qed.

Lemma stored_progress c (sw : Switches) ml g : counted g -> Forall (fun n => 0 < n_ice n) (g_nodes g) ->
  ~ ((sw_WRF_X_CSPY sw = true \/ sw_full_field sw = true) /\ (ml < Z.of_nat (length (g_nodes g)))%Z) ->
  exists p, (if sw_WRF_X_CSPY sw then check_profiles c ml g ;; Ok None
     else if sw_full_field sw then p <- store_profiles c ml g ;; Ok (Some p)
     else Ok None) = Ok p.
Proof.
  intros Hn Hi Nc.
  assert (P1 : exists p, get_height g = Ok p) by (apply simple_profile; exact Hn).
  assert (P2 : exists p, get_density c g = Ok p) by (apply simple_profile; exact Hn).
  assert (P3 : exists p, get_temperature g = Ok p) by (apply simple_profile; exact Hn).
  assert (P4 : exists p, get_liquid_water_content g = Ok p) by (apply simple_profile; exact Hn).
  assert (P5 : exists p, get_cold_content c g = Ok p) by (apply simple_profile; exact Hn).
  assert (P6 : exists p, get_porosity g = Ok p) by (apply simple_profile; exact Hn).
  assert (P7 : exists p, get_ice_fraction g = Ok p) by (apply simple_profile; exact Hn).
  assert (P8 : exists p, get_irreducible_water_content g = Ok p).
  { apply profile_total; [exact Hn|]. eapply Forall_impl; [|exact Hi]. intros n X. apply irreducible_total. exact X. }
  assert (P9 : exists p, get_refreeze g = Ok p) by (apply simple_profile; exact Hn).
  destruct P1 as (p1 & P1), P2 as (p2 & P2), P3 as (p3 & P3), P4 as (p4 & P4), P5 as (p5 & P5), P6 as (p6 & P6), P7 as (p7 & P7), P8 as (p8 & P8), P9 as (p9 & P9).
  unfold check_profiles, store_profiles, get_number_layers. rewrite P1, P2, P3, P4, P5, P6, P7, P8, P9. cbn [bind].
  unfold counted in Hn. rewrite Hn.
  destruct (sw_WRF_X_CSPY sw), (sw_full_field sw), (Z.ltb_spec ml (Z.of_nat (length (g_nodes g)))) as [A|A]; cbn [bind];
    first [eexists; reflexivity | exfalso; apply Nc; auto].
Qed.

Lemma stored_crowded c (sw : Switches) ml g : counted g ->
  sw_WRF_X_CSPY sw = true \/ sw_full_field sw = true -> (ml < Z.of_nat (length (g_nodes g)))%Z ->
  (if sw_WRF_X_CSPY sw then check_profiles c ml g ;; Ok None
     else if sw_full_field sw then p <- store_profiles c ml g ;; Ok (Some p)
     else Ok None) = Err ValueError.
Proof.
  intros Hn Hs L. unfold check_profiles, store_profiles, get_number_layers. unfold counted in Hn. rewrite Hn.
  destruct (Z.ltb_spec ml (Z.of_nat (length (g_nodes g)))); [|lia].
  destruct (sw_WRF_X_CSPY sw); [reflexivity|]. destruct (sw_full_field sw); [reflexivity|]. destruct Hs; discriminate.
Qed.

(** ** The whole step *)

(** what the first half of the step makes of the grid *)
Record ready (c : Consts) (dt : R) (lo z : R) (d : Data) (inp : Inputs) (t : Z) (s : State)
  (g1 : Grid) (RAIN : R) (g2 g4 : Grid) (swn z0 : R) : Prop := {
  rd_laid : laid c dt d inp t s g1 RAIN;
  rd_remeshed : remeshed c g1 g2;
  rd_lit : lit c dt d t s g2 g4 swn z0;
  rd_rain : 0 <= RAIN;
  rd_counted : counted g4;
  rd_firm : firm_column lo (c_zero_temperature c) (g_nodes g4);
  rd_some : g_nodes g4 <> [];
  rd_z0 : 0 < z0 < z
}.

Lemma first_half c dt lo z d inp t s : progress_constants c lo -> forcing_fits c dt z d inp t lo ->
  counted (s_grid s) -> clock_ok (s_grid s) -> firm_column lo (c_zero_temperature c) (g_nodes (s_grid s)) ->
  (exists g1 RAIN, laid c dt d inp t s g1 RAIN /\ vanishes c g1) \/
  exists g1 RAIN g2 g4 swn z0, ready c dt lo z d inp t s g1 RAIN g2 g4 swn z0.
Proof.
  intros Hp Hf Hn Hk Hg. destruct Hf as [Hdt Hz Hsl Hair Hhum Hsun Hpr Hlw Hvi].
  destruct Hair as (T2 & U2 & rho & ET & EU & HT & HU & Er & Hr).
  assert (HT1 := Rmax_l lo 0.56). assert (HT2 := Rmax_r lo 0.56).
  destruct (laid_progress c dt d inp t s lo Hp) as (g1 & RAIN & L1 & R0 & C1 & F1); try assumption.
  { exists T2, U2, rho. split; [exact ET|]. split; [exact EU|]. split; [exact Er|]. split; [exact Hr|lra]. }
  assert (K1 : 0 <= g_new_snow_timestamp g1 /\ 0 <= g_old_snow_timestamp g1).
  { destruct L1 as (T2' & U2' & rho' & sn & r & raw & SN & _ & _ & _ & _ & _ & _ & _ & ->).
    destruct Hk as ((K1 & K2) & _). unfold lay_snow, add_fresh_snow.
    destruct (Rltb 0 SN); [destruct (Rltb SN (c_minimum_snowfall c))|]; cbn; lra. }
  destruct (remesh_progress c g1 lo Hp C1 F1) as [D|(g2 & R2 & C2 & F2 & (_ & S2 & S3) & Ne2)];
    [left; exists g1, RAIN; auto|right].
  destruct (lit_progress c dt d t s lo z g2 Hp Hdt Hz Hsun C2 F2 Ne2) as (g4 & swn & z0 & L4 & C4 & F4 & Ne4 & Z0).
  { rewrite S2. apply K1. } { rewrite S3. apply K1. }
  exists g1, RAIN, g2, g4, swn, z0. constructor; assumption.
Qed.

(** what the step must have for the surface temperature *)
Lemma forcing_here c dt z z0 T2 RH2 PRES U2 RAIN sl lw n T0 :
  0 < dt -> 0 < z0 < z -> 0.56 <= T2 <= 330 -> 0 <= U2 -> 0 <= RH2 -> 300 <= PRES -> 0 <= RAIN -> 0 <= sl <= 90 ->
  lw <> None \/ n <> None -> 220 <= T0 <= 330 -> forcing_ok c (mkAtm dt z z0 T2 RH2 PRES U2 RAIN sl lw n) T0.
Proof.
  intros. assert (A := sonntag_300 T2 ltac:(lra)). assert (B := sonntag_300 T0 ltac:(lra)).
  constructor; cbn; try assumption; try lra.
Qed.

(** the rest of the step, from the surface temperature on *)
Definition second_half (fuel : nat) (c : Consts) (sw : Switches) (sv : Solvers) (dt : R) (max_layers : Z) (z : R)
  (d : Data) (inp : Inputs) (t : Z) (s : State) (T2 U2 rho SNOWFALL RAIN alpha albedo_snow z0 sw_net subsurface_melt : R)
  (g4 : Grid) : res (State * Output) :=
  RH2 <- py_get (d_RH2 d) t ;;
  PRES <- py_get (d_PRES d) t ;;
  lwin <- opt_get (i_LWin inp) t ;;
  n <- opt_get (i_N inp) t ;;
  '(g5, fn, Ts, f) <-
    update_surface_temperature c (sw_WRF_X_CSPY sw) (sv_newton sv) (sv_minimize sv) g4
      (mkAtm dt z z0 T2 RH2 PRES U2 RAIN (i_SLOPE inp) lwin n) sw_net ;;
  m <- mass_fluxes c Ts (f_LE f) dt ;;
  let melt_energy := available_melt_energy sw_net f in
  melt <- fdiv (melt_energy * dt) (1000 * c_lat_heat_melting c) ;;
  '(g8, Q, water_refreezed) <- water_step fuel c g5 melt m RAIN ;;
  g9 <- solveHeatEquation fuel c g8 dt ;;
  g10 <- densification c g9 (i_SLOPE inp) dt ;;
  ratio <- fdiv rho (c_water_density c) ;;
  let surfMB := SNOWFALL * ratio - melt + m_sublimation m + m_deposition m + m_evaporation m in
  let intMB := water_refreezed - subsurface_melt in
  let MB := surfMB + intMB in
  let MB_cum := s_MB_cum s + MB in
  snowheight <- get_total_snowheight c g10 ;;
  totalheight <- get_total_height g10 ;;
  let '(nsh, nst, ost) := get_fresh_snow_props g10 in
  profiles <-
    (if sw_WRF_X_CSPY sw then check_profiles c max_layers g10 ;; Ok None
     else if sw_full_field sw then p <- store_profiles c max_layers g10 ;; Ok (Some p)
     else Ok None) ;;
  Ok (mkState g10 Ts albedo_snow MB_cum,
      mkOutput RAIN (SNOWFALL * ratio) (f_Li f) (f_Lo f) (f_H f) (f_LE f) (f_B f) (f_QRR f)
        MB surfMB Q snowheight totalheight Ts alpha (get_number_layers g10) melt_energy intMB
        (m_evaporation m) (m_sublimation m) (m_condensation m) (m_deposition m) water_refreezed
        subsurface_melt z0 melt (f_MOL f) nsh nst ost profiles).

Lemma halves c sw sv dt ml z d inp t s lo g1 RAIN g2 g4 swn z0 :
  ready c dt lo z d inp t s g1 RAIN g2 g4 swn z0 ->
  exists N T2 U2 rho SN alpha as_ sm, py_get (d_T2 d) t = Ok T2 /\ py_get (d_U2 d) t = Ok U2 /\
    fresh_snow_density c T2 U2 = Ok rho /\
    forall fuel, (N <= fuel)%nat -> core_step fuel c sw sv (dt, ml, z) d inp t s
      = second_half fuel c sw sv dt ml z d inp t s T2 U2 rho SN RAIN alpha as_ z0 swn sm g4.
Proof.
  intros [H1 (N & H2) H3 _ _ _ _ _].
  destruct H1 as (T2 & U2 & rho & sn & r & raw & SN & A1 & A2 & A3 & A4 & A5 & A6 & A7 & ->).
  destruct H3 as (G & g3 & alpha & as_ & sm & Gp & B1 & B2 & B3 & B4 & ->).
  exists N, T2, U2, rho, SN, alpha, as_, sm. split; [exact A1|]. split; [exact A2|]. split; [exact A3|]. intros fuel L.
  unfold core_step. rewrite A1. cbn [bind]. rewrite A2. cbn [bind]. rewrite A3. cbn [bind]. rewrite A4. cbn [bind].
  rewrite A5. cbn [bind]. rewrite A6. cbn [bind]. rewrite A7. cbn [bind]. rewrite B1. cbn [bind].
  cbv zeta. rewrite (H2 fuel L). cbn [bind]. rewrite B2. cbn [bind]. rewrite B3. cbn [bind]. rewrite B4. cbn [bind].
  reflexivity.
Qed.

Lemma surface_icy a0 a1 c wrf nw mn g a SWnet g' fn Ts f :
  update_surface_temperature c wrf nw mn g a SWnet = Ok (g', fn, Ts, f) -> icy_grid a0 a1 g -> icy_grid a0 a1 g'.
Proof.
  intros W Hg. unfold update_surface_temperature in W. apply bind_ok in W. destruct W as (BT & _ & W).
  apply bind_ok in W. destruct W as (tp & _ & W). apply bind_ok in W. destruct W as ((x & fv) & _ & W).
  apply bind_ok in W. destruct W as (g5 & EU & W). apply bind_ok in W. destruct W as (f5 & _ & W). injection W as <- <- <- <-.
  eapply upd_icy; [exact EU|exact Hg|]. intros n (X1 & X2). split; cbn; lra.
Qed.

Lemma mass_fluxes_total c Ts LE dt : constants_ok c -> exists m, mass_fluxes c Ts LE dt = Ok m.
Proof.
  intros []. unfold mass_fluxes. destruct (Rltb _ _); rewrite fdiv_ok by (apply Rmult_integral_contrapositive; split; lra);
    cbn [bind]; eexists; reflexivity.
Qed.

Lemma step_completes_core c sw sv dt ml z d inp t s lo :
  progress_constants c lo -> forcing_fits c dt z d inp t lo -> dependable (sv_minimize sv) ->
  counted (s_grid s) -> clock_ok (s_grid s) -> firm_column lo (c_zero_temperature c) (g_nodes (s_grid s)) ->
  (exists s' o N, (forall fuel, (N <= fuel)%nat -> core_step fuel c sw sv (dt, ml, z) d inp t s = Ok (s', o)) /\
     (c_densification_method c = "constant"%string -> firm_column lo (c_zero_temperature c) (g_nodes (s_grid s')))) \/
  stuck c sw sv dt ml z d inp t s.
Proof.
  intros Hp Hf Hd Hn Hk Hg.
  destruct (first_half c dt lo z d inp t s Hp Hf Hn Hk Hg) as [(g1 & RAIN & A & B)|(g1 & RAIN & g2 & g4 & swn & z0 & Hr)].
  { right. eapply stuck_vanished; eassumption. }
  destruct (halves c sw sv dt ml z d inp t s lo g1 RAIN g2 g4 swn z0 Hr) as (N1 & T2 & U2 & rho & SN & alpha & as_ & sm & ET & EU & Er & HH).
  destruct Hr as [R1 R2 R3 R4 R5 R6 R7 R8].
  assert (D : shallow c (g_nodes g4) \/ ~ shallow c (g_nodes g4)).
  { unfold shallow. destruct (Rle_dec (column_height (g_nodes g4)) (c_zlt2 c)); [auto|].
    destruct (le_lt_dec 2 (length (g_nodes g4))); [|auto]. right. intros [X|X]; [contradiction|lia]. }
  destruct D as [D|D]; [right; eapply stuck_shallow; eassumption|].
  destruct (pc_run _ _ Hp) as [Hc Hlo Hz0 Hcold Hair Hfresh].
  destruct Hf as [Hdt Hz Hsl Ha Hhum Hsun Hpr Hlw Hvi].
  destruct Ha as (T2' & U2' & rho' & ET' & EU' & HT & HU & Er' & Hr').
  rewrite ET in ET'. injection ET' as <-. rewrite EU in EU'. injection EU' as <-. rewrite Er in Er'. injection Er' as <-.
  destruct Hhum as (RH2 & PRES & EH & EP & HR & HP). destruct Hlw as (lw & n & Elw & En & Hln).
  assert (HT1 := Rmax_l lo 0.56). assert (HT2 := Rmax_r lo 0.56).
  set (a := mkAtm dt z z0 T2 RH2 PRES U2 RAIN (i_SLOPE inp) lw n).
  destruct (surface_progress c (sw_WRF_X_CSPY sw) (sv_newton sv) (sv_minimize sv) g4 a swn (pc_flux _ _ Hp) (pc_stability _ _ Hp)
    (pc_search _ _ Hp) (conj Hz0 (pc_zero _ _ Hp)) Hd (sound_positive _ _ _ (firm_sound _ _ _ R6)) D)
    as [(g5 & fn & Ts & f & ES)|(B & top & e & EB & Etop & Ne & Why)].
  { intros T0 H0. apply forcing_here; try assumption; lra. }
  2:{ right. eapply stuck_search with (e := e); try eassumption. exists T2, U2, RH2, PRES, lw, n, B, top. auto 20. }
  destruct (surface_health lo (c_zero_temperature c) c (sw_WRF_X_CSPY sw) (sv_newton sv) (sv_minimize sv) g4 a swn g5 fn Ts f
    eq_refl (proj2 Hlo) Hz0 (proj1 Hd) ES (firm_sound _ _ _ R6)) as (G5 & HTs).
  assert (F5 : firm_column lo (c_zero_temperature c) (g_nodes g5)).
  { apply firm_icy. split; [exact G5|]. eapply surface_icy; [exact ES|]. apply firm_icy in R6. apply R6. }
  assert (C5 : counted g5) by (destruct (update_surface_ev _ _ _ _ _ _ _ _ _ _ _ ES) as (_ & X); exact (X R5)).
  destruct (mass_fluxes_total c Ts (f_LE f) dt Hc) as (mf & EM).
  destruct (fluxes_signs _ _ _ _ _ Hc (Rlt_le _ _ Hdt) EM) as (M1 & M2 & M3 & M4).
  set (me := available_melt_energy swn f).
  assert (Hme : 0 <= me) by apply Rmax_l.
  assert (HL := ok_Lm _ Hc).
  set (melt := me * dt / (1000 * c_lat_heat_melting c)).
  assert (Emelt : fdiv (me * dt) (1000 * c_lat_heat_melting c) = Ok melt) by (apply fdiv_ok; lra).
  assert (Hmelt : 0 <= melt) by (apply div_nonneg; [apply Rmult_le_pos; lra|lra]).
  set (m := melt - m_sublimation mf - m_deposition mf).
  assert (W5 : wanted c sw sv dt z d inp t RAIN g4 swn z0 g5 m).
  { exists T2, U2, RH2, PRES, lw, n, fn, Ts, f, mf. auto 20. }
  destruct (melt_progress c g5 m lo (c_zero_temperature c) Hc C5 F5) as (g6 & w & k & E6 & C6 & F6 & Hw6 & Lk & L6 & Wk).
  destruct (le_lt_dec 3 (length (g_nodes g5) - k)) as [L3|L3].
  2:{ right. eapply stuck_molten; try eassumption. apply (molten_iff _ _ _ k Wk). exact L3. }
  assert (Hwater : 0 <= melt + m_condensation mf + RAIN / 1000 + w) by lra.
  destruct (water_fits_firm c g6 _ lo Hc (pc_densities _ _ Hp) (proj1 Hlo) Hcold C6 ltac:(intros X; rewrite X in L6; cbn in L6; lia) Hwater F6)
    as (g7 & q & g8 & wr & E7 & E8 & C8 & F8 & L8).
  destruct (tail_progress c g8 (i_SLOPE inp) dt lo Hp Hdt Hvi C8 F8 ltac:(lia)) as (N9 & g9 & g10 & E9 & E10 & C10 & L10 & I10 & F10).
  assert (Dc : crowded c ml (g_nodes g5) m \/ ~ crowded c ml (g_nodes g5) m).
  { rewrite (crowded_iff c ml (g_nodes g5) m k) by (assumption || lia). lia. }
  assert (Dsw : (sw_WRF_X_CSPY sw = true \/ sw_full_field sw = true) \/ ~ (sw_WRF_X_CSPY sw = true \/ sw_full_field sw = true)).
  { destruct (sw_WRF_X_CSPY sw), (sw_full_field sw); auto. right. intros [X|X]; discriminate. }
  assert (Dx : ((sw_WRF_X_CSPY sw = true \/ sw_full_field sw = true) /\ crowded c ml (g_nodes g5) m) \/
     ~ ((sw_WRF_X_CSPY sw = true \/ sw_full_field sw = true) /\ crowded c ml (g_nodes g5) m)) by tauto.
  destruct Dx as [(Dx1 & Dx2)|Dx]; [right; eapply stuck_crowded; eassumption|].
  rewrite (crowded_iff c ml (g_nodes g5) m k) in Dx by (assumption || lia).
  rewrite <- L6, <- L8, <- L10 in Dx.
  destruct (stored_progress c sw ml g10 C10 I10 Dx) as (p & EPr).
  left. eexists (mkState g10 Ts as_ _), _, (Nat.max N1 (Nat.max (length (g_nodes g5) + 2) N9)). split; [|exact F10].
  intros fuel Lf. rewrite HH by lia. unfold second_half.
  rewrite EH. cbn [bind]. rewrite EP. cbn [bind]. rewrite Elw. cbn [bind]. rewrite En. cbn [bind]. fold a. rewrite ES. cbn [bind].
  rewrite EM. cbn [bind]. cbv zeta. fold me. rewrite Emelt. cbn [bind].
  unfold water_step. fold m. rewrite (E6 fuel) by lia. cbn [bind]. rewrite E7. cbn [bind]. rewrite E8. cbn [bind].
  rewrite (E9 fuel) by lia. cbn [bind]. rewrite E10. cbn [bind].
  rewrite (fdiv_ok rho (c_water_density c)) by (destruct Hc; lra). cbn [bind].
  rewrite (get_total_snowheight_counted c g10 C10), (get_total_height_counted g10 C10). cbn [bind]. unfold get_fresh_snow_props.
  rewrite EPr. cbn [bind]. reflexivity.
Qed.

(** ** A stuck step raises *)
Lemma stuck_raises_core c sw sv dt ml z d inp t s lo :
  progress_constants c lo -> forcing_fits c dt z d inp t lo -> respects_bounds (sv_minimize sv) ->
  counted (s_grid s) -> clock_ok (s_grid s) -> firm_column lo (c_zero_temperature c) (g_nodes (s_grid s)) ->
  stuck c sw sv dt ml z d inp t s ->
  exists N e, (forall fuel, (N <= fuel)%nat -> core_step fuel c sw sv (dt, ml, z) d inp t s = Err e) /\
    (In e [IndexError; ZeroDivisionError; ValueError] \/ In (c_sfc_temperature_method c) ["Newton"; "Secant"]%string).
Proof.
  intros Hp Hf Hd Hn Hk Hg Hs.
  destruct (first_half c dt lo z d inp t s Hp Hf Hn Hk Hg) as [(g1 & RAIN & A & B)|(g1 & RAIN & g2 & g4 & swn & z0 & Hr)].
  { destruct (vanish_raises c sw sv dt ml z d inp t s lo g1 RAIN Hp (ff_sun _ _ _ _ _ _ _ Hf) A B) as (N & K).
    exists N, IndexError. split; [exact K|left; cbn; auto]. }
  assert (UL : forall g1' RAIN', laid c dt d inp t s g1' RAIN' -> g1' = g1 /\ RAIN' = RAIN).
  { intros g1' RAIN' (T2' & U2' & rho' & sn & r & raw & SN & B1 & B2 & B3 & B4 & B5 & B6 & B7 & B8).
    destruct (rd_laid _ _ _ _ _ _ _ _ _ _ _ _ _ _ Hr) as (T2 & U2 & rho & sn0 & r0 & raw0 & SN0 & A1 & A2 & A3 & A4 & A5 & A6 & A7 & A8).
    rewrite A1 in B1. injection B1 as <-. rewrite A2 in B2. injection B2 as <-. rewrite A3 in B3. injection B3 as <-.
    rewrite A4 in B4. injection B4 as <-. rewrite A5 in B5. injection B5 as <-. rewrite A6 in B6. injection B6 as <-.
    rewrite A7 in B7. injection B7 as <- <-. subst. auto. }
  assert (UR : forall g2', remeshed c g1 g2' -> g2' = g2).
  { intros g2' (N' & H'). destruct (rd_remeshed _ _ _ _ _ _ _ _ _ _ _ _ _ _ Hr) as (N & H).
    specialize (H (Nat.max N N') ltac:(lia)). specialize (H' (Nat.max N N') ltac:(lia)). congruence. }
  assert (UI : forall g4' swn' z0', lit c dt d t s g2 g4' swn' z0' -> g4' = g4 /\ swn' = swn /\ z0' = z0).
  { intros g4' swn' z0' (G' & g3' & al' & as' & sm' & Gp' & B1 & B2 & B3 & B4 & B5).
    destruct (rd_lit _ _ _ _ _ _ _ _ _ _ _ _ _ _ Hr) as (G & g3 & al & as_ & sm & Gp & A1 & A2 & A3 & A4 & A5).
    rewrite A1 in B1. injection B1 as <-. rewrite A2 in B2. injection B2 as <- <- <-. rewrite A3 in B3. injection B3 as <-.
    rewrite A4 in B4. injection B4 as <- <- <-. subst. auto. }
  destruct (halves c sw sv dt ml z d inp t s lo g1 RAIN g2 g4 swn z0 Hr) as (N1 & T2 & U2 & rho & SN & alpha & as_ & sm & ET & EU & Er & HH).
  destruct (pc_run _ _ Hp) as [Hc Hlo Hz0 Hcold Hair Hfresh].
  destruct Hf as [Hdt Hz Hsl Ha Hhum Hsun Hpr Hlw Hvi].
  destruct Hhum as (RH2 & PRES & EH & EP & HR & HP). destruct Hlw as (lw & n & Elw & En & Hln).
  destruct Hr as [R1 R2 R3 R4 R5 R6 R7 R8].
  assert (WW : forall g5 m, wanted c sw sv dt z d inp t RAIN g4 swn z0 g5 m -> molten c (g_nodes g5) m \/
      ((sw_WRF_X_CSPY sw = true \/ sw_full_field sw = true) /\ crowded c ml (g_nodes g5) m) ->
    exists N e, (forall fuel, (N <= fuel)%nat -> core_step fuel c sw sv (dt, ml, z) d inp t s = Err e) /\
      In e [IndexError; ZeroDivisionError; ValueError]).
  { intros g5 m (T2' & U2' & RH2' & PRES' & lw' & n' & fn & Ts & f & mf & B1 & B2 & B3 & B4 & B5 & B6 & ES & EM & Em) Why.
    rewrite ET in B1. injection B1 as <-. rewrite EU in B2. injection B2 as <-. rewrite EH in B3. injection B3 as <-.
    rewrite EP in B4. injection B4 as <-. rewrite Elw in B5. injection B5 as <-. rewrite En in B6. injection B6 as <-.
    set (a := mkAtm dt z z0 T2 RH2 PRES U2 RAIN (i_SLOPE inp) lw n) in *.
    destruct (surface_health lo (c_zero_temperature c) c (sw_WRF_X_CSPY sw) (sv_newton sv) (sv_minimize sv) g4 a swn g5 fn Ts f
      eq_refl (proj2 Hlo) Hz0 Hd ES (firm_sound _ _ _ R6)) as (G5 & HTs).
    assert (F5 : firm_column lo (c_zero_temperature c) (g_nodes g5)).
    { apply firm_icy. split; [exact G5|]. eapply surface_icy; [exact ES|]. apply firm_icy in R6. apply R6. }
    assert (C5 : counted g5) by (destruct (update_surface_ev _ _ _ _ _ _ _ _ _ _ _ ES) as (_ & X); exact (X R5)).
    destruct (fluxes_signs _ _ _ _ _ Hc (Rlt_le _ _ Hdt) EM) as (M1 & M2 & M3 & M4).
    set (me := available_melt_energy swn f) in *.
    assert (Hme : 0 <= me) by apply Rmax_l.
    assert (HL := ok_Lm _ Hc).
    set (melt := me * dt / (1000 * c_lat_heat_melting c)) in *.
    assert (Emelt : fdiv (me * dt) (1000 * c_lat_heat_melting c) = Ok melt) by (apply fdiv_ok; lra).
    assert (Hmelt : 0 <= melt) by (apply div_nonneg; [apply Rmult_le_pos; lra|lra]).
    destruct (melt_progress c g5 m lo (c_zero_temperature c) Hc C5 F5) as (g6 & w & k & E6 & C6 & F6 & Hw6 & Lk & L6 & Wk).
    assert (Pre : forall fuel, (Nat.max N1 (length (g_nodes g5) + 2) <= fuel)%nat ->
      forall e,
      (forall X (K : Grid * R * R -> res X),
       bind ('(g2, Q) <- percolation g6 (melt + m_condensation mf + RAIN / 1000 + w) ;;
             '(g3, water_refreezed) <- refreezing c g2 ;; Ok (g3, Q, water_refreezed)) K = Err e) ->
      core_step fuel c sw sv (dt, ml, z) d inp t s = Err e).
    { intros fuel Lf e Hyp. rewrite HH by lia. unfold second_half.
      rewrite EH. cbn [bind]. rewrite EP. cbn [bind]. rewrite Elw. cbn [bind]. rewrite En. cbn [bind]. fold a. rewrite ES. cbn [bind].
      rewrite EM. cbn [bind]. cbv zeta. fold me. rewrite Emelt. cbn [bind].
      unfold water_step. rewrite <- Em. rewrite (E6 fuel) by lia. cbn [bind]. apply Hyp. }
    destruct (g_nodes g6) as [|x6 r6] eqn:El6.
    { exists (Nat.max N1 (length (g_nodes g5) + 2)), IndexError. split; [|cbn; auto].
      intros fuel Lf. apply (Pre fuel Lf). intros X K. unfold percolation, get_node_height, get_node. rewrite El6. reflexivity. }
    rewrite <- El6 in *.
    assert (Ne6 : g_nodes g6 <> []) by (rewrite El6; discriminate).
    assert (Hwater : 0 <= melt + m_condensation mf + RAIN / 1000 + w) by lra.
    destruct (water_fits_firm c g6 _ lo Hc (pc_densities _ _ Hp) (proj1 Hlo) Hcold C6 Ne6 Hwater F6)
      as (g7 & q & g8 & wr & E7 & E8 & C8 & F8 & L8).
    assert (Post : forall fuel, (Nat.max N1 (length (g_nodes g5) + 2) <= fuel)%nat -> forall e,
      (forall X (K : Grid -> res X), (solveHeatEquation fuel c g8 dt = Err e -> bind (solveHeatEquation fuel c g8 dt) K = Err e)) /\
      (solveHeatEquation fuel c g8 dt = Err e -> core_step fuel c sw sv (dt, ml, z) d inp t s = Err e)).
    { intros fuel Lf e. split; [intros X K ->; reflexivity|]. intros EE. rewrite HH by lia. unfold second_half.
      rewrite EH. cbn [bind]. rewrite EP. cbn [bind]. rewrite Elw. cbn [bind]. rewrite En. cbn [bind]. fold a. rewrite ES. cbn [bind].
      rewrite EM. cbn [bind]. cbv zeta. fold me. rewrite Emelt. cbn [bind].
      unfold water_step. rewrite <- Em. rewrite (E6 fuel) by lia. cbn [bind]. rewrite E7. cbn [bind]. rewrite E8. cbn [bind]. rewrite EE. reflexivity. }
    assert (Hk' := fc_cond _ (pc_flux _ _ Hp)).
    assert (Cond : conductive c (g_nodes g8)).
    { split; [|cbn in Hk'; destruct Hk' as [K|[K|[]]]; rewrite <- K; auto].
      eapply Forall_impl; [|exact F8]. intros n0 ((X1 & X2 & X3 & _) & _). auto. }
    destruct (le_lt_dec 3 (length (g_nodes g5) - k)) as [L3|L3].
    2:{ exists (Nat.max N1 (length (g_nodes g5) + 2)), ValueError. split; [|cbn; auto].
        intros fuel Lf. apply (proj2 (Post fuel Lf ValueError)). apply heat_needs_three_layers_lem; try assumption. lia. }
    destruct Why as [Why|(Why1 & Why2)]; [apply (molten_iff _ _ _ k Wk) in Why; lia|].
    apply (crowded_iff c ml (g_nodes g5) m k) in Why2; [|lia|exact Wk].
    destruct (tail_progress c g8 (i_SLOPE inp) dt lo Hp Hdt Hvi C8 F8 ltac:(lia)) as (N9 & g9 & g10 & E9 & E10 & C10 & L10 & I10 & F10).
    exists (Nat.max N9 (Nat.max N1 (length (g_nodes g5) + 2))), ValueError. split; [|cbn; auto].
    intros fuel Lf. rewrite HH by lia. unfold second_half.
    rewrite EH. cbn [bind]. rewrite EP. cbn [bind]. rewrite Elw. cbn [bind]. rewrite En. cbn [bind]. fold a. rewrite ES. cbn [bind].
    rewrite EM. cbn [bind]. cbv zeta. fold me. rewrite Emelt. cbn [bind].
    unfold water_step. rewrite <- Em. rewrite (E6 fuel) by lia. cbn [bind]. rewrite E7. cbn [bind]. rewrite E8. cbn [bind].
    rewrite (E9 fuel) by lia. cbn [bind]. rewrite E10. cbn [bind].
    rewrite (fdiv_ok rho (c_water_density c)) by (destruct Hc; lra). cbn [bind].
    rewrite (get_total_snowheight_counted c g10 C10), (get_total_height_counted g10 C10). cbn [bind]. unfold get_fresh_snow_props.
    rewrite (stored_crowded c sw ml g10 C10 Why1) by lia. reflexivity. }
  destruct Hs as [g1' RAIN' L' S'|g1' RAIN' g2' g4' swn' z0' L' Rm' I' S'|g1' RAIN' g2' g4' swn' z0' e L' Rm' I' S'|g1' RAIN' g2' g4' swn' z0' g5 m L' Rm' I' W' S'|g1' RAIN' g2' g4' swn' z0' g5 m L' Rm' I' W' X' S'].
  - destruct (vanish_raises c sw sv dt ml z d inp t s lo g1' RAIN' Hp Hsun L' S') as (N & K).
    exists N, IndexError. split; [exact K|left; cbn; auto].
  - destruct (UL _ _ L') as (-> & ->). rewrite (UR _ Rm') in I'. destruct (UI _ _ _ I') as (-> & -> & ->).
    destruct (interp_shallow c g4 (pc_flux _ _ Hp) (sound_positive _ _ _ (firm_sound _ _ _ R6)) R7 S') as (e & Ei & He).
    exists N1, e. split; [|left; cbn in *; tauto]. intros fuel Lf. rewrite HH by lia. unfold second_half.
    rewrite EH. cbn [bind]. rewrite EP. cbn [bind]. rewrite Elw. cbn [bind]. rewrite En. cbn [bind].
    unfold update_surface_temperature. rewrite Ei. reflexivity.
  - destruct (UL _ _ L') as (-> & ->). rewrite (UR _ Rm') in I'. destruct (UI _ _ _ I') as (-> & -> & ->).
    destruct S' as (T2' & U2' & RH2' & PRES' & lw' & n' & B & top & B1 & B2 & B3 & B4 & B5 & B6 & EB & Etop & Ne & Why).
    rewrite ET in B1. injection B1 as <-. rewrite EU in B2. injection B2 as <-. rewrite EH in B3. injection B3 as <-.
    rewrite EP in B4. injection B4 as <-. rewrite Elw in B5. injection B5 as <-. rewrite En in B6. injection B6 as <-.
    cbv zeta in Why. set (a := mkAtm dt z z0 T2 RH2 PRES U2 RAIN (i_SLOPE inp) lw n) in *.
    exists N1, e. split; [|right; destruct Why as [(-> & _)|(-> & _)]; cbn; auto]. intros fuel Lf. rewrite HH by lia. unfold second_half.
    rewrite EH. cbn [bind]. rewrite EP. cbn [bind]. rewrite Elw. cbn [bind]. rewrite En. cbn [bind]. fold a.
    assert (Uncaught : forall A (h : res A), try_except (Err e) h = Err e) by (intros A h; destruct e; try reflexivity; exfalso; apply Ne; cbn; auto).
    destruct (g_nodes g4) as [|tp r] eqn:El; [discriminate|]. injection Etop as ->.
    unfold update_surface_temperature. rewrite EB. cbn [bind]. rewrite (get_node_mid g4 [] top r El : get_node g4 0 = Ok top). cbn [bind].
    destruct Why as [(Wm & Wh)|(Wm & Wh)]; rewrite Wm; cbn [String.eqb Ascii.eqb Bool.eqb orb].
    + rewrite Wh. cbn [bind]. rewrite Uncaught. reflexivity.
    + unfold call_secant_jitted. rewrite Wh. cbn [bind]. rewrite Uncaught. reflexivity.
  - destruct (UL _ _ L') as (-> & ->). rewrite (UR _ Rm') in I'. destruct (UI _ _ _ I') as (-> & -> & ->).
    destruct (WW _ _ W' (or_introl S')) as (N & e & K1 & K2). exists N, e. auto.
  - destruct (UL _ _ L') as (-> & ->). rewrite (UR _ Rm') in I'. destruct (UI _ _ _ I') as (-> & -> & ->).
    destruct (WW _ _ W' (or_intror (conj X' S'))) as (N & e & K1 & K2). exists N, e. auto.
Qed.
