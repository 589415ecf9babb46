(** * What every part of the time step leaves alone *)
From Verif Require Import ModelPy ModelConstants ModelNode ModelGrid ModelWater ModelHeat
  ModelDensification ModelRadiation ModelAlbedo ModelSurface ModelInit ModelCore Spec LemPy
  LemGridBase LemMerge LemCorrect LemLog LemGridOps.

(** the snow clock stays and the layer counter stays right, without any assumption on
    the layers *)
Definition evolves (g g' : Grid) : Prop := same_clock g g' /\ (counted g -> counted g').

Lemma evolves_refl g : evolves g g.
Proof. split; [apply same_clock_refl|auto]. Qed.
Lemma evolves_trans g1 g2 g3 : evolves g1 g2 -> evolves g2 g3 -> evolves g1 g3.
Proof. intros (A & B) (C & D). split; [eapply same_clock_trans; eassumption|auto]. Qed.

Ltac crunch :=
  repeat match goal with
  | H : bind _ _ = Ok _ |- _ => apply bind_ok in H; destruct H as (? & ? & H)
  | H : Ok _ = Ok _ |- _ => injection H; clear H; intros; subst
  | H : Err _ = Ok _ |- _ => discriminate H
  | H : (if ?b then _ else _) = Ok _ |- _ => destruct b eqn:?
  | H : (let '(_, _) := ?x in _) = Ok _ |- _ => destruct x eqn:?
  | H : (match ?x with Some _ => _ | None => _ end) = Ok _ |- _ => destruct x eqn:?
  | H : (match ?x with nil => _ | cons _ _ => _ end) = Ok _ |- _ => destruct x eqn:?
  end.

Lemma upd_node_ev g i f g' : upd_node g i f = Ok g' -> evolves g g'.
Proof.
  intros H. split; [|intros; eapply upd_node_counted; eassumption].
  unfold upd_node in H. crunch. apply same_clock_nodes.
Qed.
Lemma remove_node_ev g ids g' : remove_node g ids = Ok g' -> evolves g g'.
Proof.
  intros H. split; [|intros; eapply remove_node_counted; eassumption].
  unfold remove_node in H. destruct (g_nodes g); [injection H as <-; apply same_clock_refl|].
  destruct ids as [[|]|]; crunch; repeat split.
Qed.

Ltac chain :=
  match goal with
  | |- evolves ?g ?g => apply evolves_refl
  | H : evolves ?g ?g' |- evolves ?g ?g' => exact H
  | H : evolves ?g ?x |- evolves ?g ?g' =>
      apply (evolves_trans g x g' H); clear H; chain
  end.

Ltac ev1 :=
  match goal with
  | H : upd_node _ _ _ = Ok _ |- _ => apply upd_node_ev in H
  | H : set_node_height _ _ _ = Ok _ |- _ => apply upd_node_ev in H
  | H : set_node_temperature _ _ _ = Ok _ |- _ => apply upd_node_ev in H
  | H : set_node_lwc _ _ _ = Ok _ |- _ => apply upd_node_ev in H
  | H : set_node_ice_fraction _ _ _ = Ok _ |- _ => apply upd_node_ev in H
  | H : set_node_refreeze _ _ _ = Ok _ |- _ => apply upd_node_ev in H
  | H : remove_node _ _ = Ok _ |- _ => apply remove_node_ev in H
  end.

Lemma update_node_ev g i h t f w g' : update_node g i h t f w = Ok g' -> evolves g g'.
Proof. unfold update_node; intros H. crunch. repeat ev1. chain. Qed.

Lemma merge_nodes_ev g i g' : merge_nodes g i = Ok g' -> evolves g g'.
Proof.
  intros H. split; [|intros; eapply merge_nodes_counted'; eassumption].
  unfold merge_nodes in H. crunch. ev1.
  match goal with H : update_node _ _ _ _ _ _ = Ok _ |- _ => apply update_node_ev in H end.
  match goal with A : evolves _ _, B : evolves _ _ |- _ =>
    destruct A as (A & _); destruct B as (B & _); eapply same_clock_trans; eassumption end.
Qed.

Lemma while_ev {S} (pr : S -> Grid) fuel cond body (s s' : S) :
  (forall t t', body t = Ok t' -> evolves (pr t) (pr t')) ->
  while_loop fuel cond body s = Ok s' -> evolves (pr s) (pr s').
Proof.
  intros Hb H. apply (while_inv (fun t => evolves (pr s) (pr t))) in H; [exact (proj1 H)| |apply evolves_refl].
  intros t t' A _ B. eapply evolves_trans; [exact A|apply Hb; exact B].
Qed.
Lemma for_ev {S} (pr : S -> Grid) lo hi body (s s' : S) :
  (forall i t t', body i t = Ok t' -> evolves (pr t) (pr t')) ->
  for_range lo hi body s = Ok s' -> evolves (pr s) (pr s').
Proof.
  intros Hb H. unfold for_range in H.
  apply (for_loop_inv (fun _ t => evolves (pr s) (pr t))) in H; [exact H| |apply evolves_refl].
  intros j t t' _ A B. eapply evolves_trans; [exact A|eapply Hb; exact B].
Qed.

Lemma correct_layer_ev fuel c g i h g' : correct_layer fuel c g i h = Ok g' -> evolves g g'.
Proof.
  intros H. split; [|intros; eapply correct_layer_counted; eassumption].
  unfold correct_layer in H. apply bind_ok in H. destruct H as (th & _ & H).
  apply bind_ok in H. destruct H as ([[g1 th1] st] & W & H).
  apply (while_ev (fun s => fst (fst s))) in W.
  - destruct W as (W & _). cbn [fst] in W.
    destruct (Rltb h th1); [|injection H as <-; exact W].
    unfold correct_layer_split in H. crunch.
    all: match goal with H : update_node _ _ _ _ _ _ = Ok _ |- _ => apply update_node_ev in H; destruct H as (H & _) end.
    all: eapply same_clock_trans; [exact W|]; eapply same_clock_trans; [eassumption|]; repeat split.
  - clear. intros [[g2 th2] st2] [[g3 th3] st3] Hb. cbn [correct_layer_body fst] in *. crunch.
    all: try (eapply merge_nodes_ev; eassumption). apply evolves_refl.
Qed.

Lemma log_profile_ev fuel c g g' : log_profile fuel c g = Ok g' -> evolves g g'.
Proof.
  unfold log_profile; intros H. apply bind_ok in H. destruct H as (hs & _ & H).
  apply bind_ok in H. destruct H as ([[[g1 i1] h1] l1] & W & H).
  apply bind_ok in H. destruct H as (th & _ & H). apply bind_ok in H. destruct H as (sh & _ & H).
  apply bind_ok in H. destruct H as (ix & _ & H).
  apply bind_ok in H. destruct H as ([[[g2 i2] h2] l2] & W2 & H). injection H as <-.
  apply (while_ev (fun s => fst (fst (fst s)))) in W.
  apply (while_ev (fun s => fst (fst (fst s)))) in W2.
  - cbn [fst] in *. chain.
  - clear. intros [[[g i] h] l] [[[g' i'] h'] l'] Hb. cbn [log_ice_body fst] in *. crunch.
    + eapply correct_layer_ev; eassumption.
    + eapply merge_nodes_ev; eassumption.
    + apply evolves_refl.
  - clear. intros [[[g i] h] l] [[[g' i'] h'] l'] Hb. cbn [log_snow_body fst] in *. crunch.
    + eapply correct_layer_ev; eassumption.
    + eapply merge_nodes_ev; eassumption.
    + apply evolves_refl.
Qed.

Lemma adaptive_profile_ev fuel c g g' : adaptive_profile fuel c g = Ok g' -> evolves g g'.
Proof.
  unfold adaptive_profile, adaptive_snow; intros H.
  apply bind_ok in H. destruct H as ([[g1 i1] m1] & W & H).
  apply (while_ev (fun s => fst (fst s))) in W; cbn [fst] in W.
  2:{ clear. intros [[g i] m] [[g' i'] m'] Hb. cbn [adapt_body fst] in *. crunch.
      - eapply merge_nodes_ev; eassumption.
      - eapply remove_node_ev; eassumption.
      - apply evolves_refl. }
  apply bind_ok in H. destruct H as (k & _ & H). apply bind_ok in H. destruct H as (h & _ & H).
  apply bind_ok in H. destruct H as ([g2 i2] & E & H).
  apply bind_ok in H. destruct H as ([g3 i3] & W3 & H).
  apply correct_layer_ev in H.
  apply (while_ev fst) in W3; cbn [fst] in W3.
  2:{ clear. intros [g i] [g' i'] Hb. cbn [adapt_ice_body fst] in *. crunch.
      - eapply merge_nodes_ev; eassumption.
      - apply evolves_refl. }
  crunch; [|chain].
  match goal with E : correct_layer _ _ _ _ _ = Ok _ |- _ => apply correct_layer_ev in E end. chain.
Qed.

Lemma update_grid_ev fuel c g g' : update_grid fuel c g = Ok g' -> evolves g g'.
Proof.
  unfold update_grid; intros H. apply bind_ok in H. destruct H as (g1 & E & H).
  assert (evolves g g1).
  { clear H. crunch; [eapply log_profile_ev; eassumption|eapply adaptive_profile_ev; eassumption|apply evolves_refl]. }
  clear E. crunch; [ev1|]; chain.
Qed.

Lemma percolation_ev g w g' q : percolation g w = Ok (g', q) -> evolves g g'.
Proof.
  unfold percolation; intros H.
  apply bind_ok in H. destruct H as (h0 & _ & H). apply bind_ok in H. destruct H as (w1 & _ & H).
  apply bind_ok in H. destruct H as (w0 & _ & H). apply bind_ok in H. destruct H as (g1 & E1 & H).
  apply bind_ok in H. destruct H as (g2 & E2 & H).
  apply (for_ev (fun g => g)) in E2.
  - unfold get_runoff in H. crunch. repeat ev1. chain.
  - clear. intros i g g' H. unfold percolation_body in H. crunch; repeat ev1; chain.
Qed.

Lemma refreezing_ev c g g' q : refreezing c g = Ok (g', q) -> evolves g g'.
Proof.
  unfold refreezing; intros H. apply bind_ok in H. destruct H as (ph & _ & H).
  apply (for_ev fst) in H; [exact H|]. clear.
  intros i [g a] [g' a'] H. unfold refreezing_body in H. cbn [fst]. crunch; repeat ev1; chain.
Qed.

Lemma heat_ev fuel c g dt g' : solveHeatEquation fuel c g dt = Ok g' -> evolves g g'.
Proof.
  unfold solveHeatEquation, set_temperature, set_profile; intros H.
  do 5 (apply bind_ok in H; destruct H as (? & _ & H)).
  apply (for_ev (fun g => g)) in H; [exact H|]. clear.
  intros i g g' H. crunch. ev1. chain.
Qed.

Lemma densification_ev c g s dt g' : densification c g s dt = Ok g' -> evolves g g'.
Proof.
  unfold densification; intros H. crunch; [| | |apply evolves_refl].
  - unfold method_Boone in H. apply bind_ok in H. destruct H as (p & _ & H).
    apply bind_ok in H. destruct H as (k & _ & H). apply bind_ok in H. destruct H as (x & W & H).
    injection H as <-. apply (for_ev fst) in W; [exact W|]. clear.
    intros i [g a] [g' a'] H. unfold boone_body in H. cbn [fst]. crunch; repeat ev1; chain.
  - unfold method_Vionnet in H. apply bind_ok in H. destruct H as (p & _ & H).
    apply bind_ok in H. destruct H as (k & _ & H). apply bind_ok in H. destruct H as (x & W & H).
    injection H as <-. apply (for_ev fst) in W; [exact W|]. clear.
    intros i [g a] [g' a'] H. unfold vionnet_body in H. cbn [fst]. crunch; repeat ev1; chain.
  - unfold method_empirical in H. apply bind_ok in H. destruct H as (p & _ & H).
    apply bind_ok in H. destruct H as (k & _ & H).
    apply (for_ev (fun g => g)) in H; [exact H|]. clear.
    intros i g g' H. unfold empirical_body in H. crunch; repeat ev1; chain.
Qed.

Lemma penetrating_ev c g SWnet dt g' m si : penetrating_radiation c g SWnet dt = Ok (g', m, si) -> evolves g g'.
Proof.
  unfold penetrating_radiation, method_Bintanja; intros H.
  destruct (String.eqb _ _); [|discriminate].
  apply bind_ok in H. destruct H as (d & _ & H). apply bind_ok in H. destruct H as (r & _ & H).
  destruct (absorbed_flux _ _ _ _) as [Si E]. apply bind_ok in H. destruct H as (A & _ & H).
  apply bind_ok in H. destruct H as ([[g1 rem] me] & W & H).
  apply (for_ev (fun s => fst (fst s))) in W; cbn [fst] in W.
  - crunch; repeat ev1; chain.
  - clear. intros i [[g rm] me] [[g' rm'] me'] H. unfold bintanja_body in H. cbn [fst]. crunch; repeat ev1; chain.
Qed.

Lemma shortwave_ev c g SWnet dt g' m si : shortwave_below c g SWnet dt = Ok (g', m, si) -> evolves g g'.
Proof. unfold shortwave_below; intros H. crunch; [eapply penetrating_ev; eassumption|apply evolves_refl]. Qed.

Lemma update_surface_ev c wrf nw mn g a SWnet g' fn Ts f :
  update_surface_temperature c wrf nw mn g a SWnet = Ok (g', fn, Ts, f) -> evolves g g'.
Proof.
  unfold update_surface_temperature; intros H.
  apply bind_ok in H. destruct H as (B & _ & H). apply bind_ok in H. destruct H as (tp & _ & H).
  apply bind_ok in H. destruct H as ([x fv] & _ & H). crunch. ev1. chain.
Qed.

(** ** One time step taken apart *)

Inductive stepped (fuel : nat) (c : Consts) (sw : Switches) (sv : Solvers) (dt : R)
  (max_layers : Z) (z : R) (d : Data) (inp : Inputs) (t : Z) (s : State) : State -> Output -> Prop :=
| stepped_intro T2 U2 rho snowf rrr raw SNOWFALL RAIN Gt g2 g3 alpha albedo_snow z0
    g4 sm Gp RH2 PRES lwin n g5 fn Ts f m melt g8 Q wr g9 g10 sh th pr ratio me :
    py_get (d_T2 d) t = Ok T2 ->
    py_get (d_U2 d) t = Ok U2 ->
    fresh_snow_density c T2 U2 = Ok rho ->
    opt_get (i_SNOWF inp) t = Ok snowf ->
    opt_get (i_RRR inp) t = Ok rrr ->
    snow_and_rain c rho T2 snowf rrr = Ok raw ->
    threshold_precipitation c rho raw = Ok (SNOWFALL, RAIN) ->
    py_get (d_G d) t = Ok Gt ->
    update_grid fuel c (lay_snow c (s_grid s) SNOWFALL rho T2 dt) = Ok g2 ->
    updateAlbedo c g2 (s_surface_temperature s) (s_albedo_snow s) = Ok (g3, alpha, albedo_snow) ->
    updateRoughness c g3 = Ok z0 ->
    shortwave_below c g3 (Rmax Gt 0 * (1 - alpha)) dt = Ok (g4, sm, Gp) ->
    py_get (d_RH2 d) t = Ok RH2 ->
    py_get (d_PRES d) t = Ok PRES ->
    opt_get (i_LWin inp) t = Ok lwin ->
    opt_get (i_N inp) t = Ok n ->
    update_surface_temperature c (sw_WRF_X_CSPY sw) (sv_newton sv) (sv_minimize sv) g4
      (mkAtm dt z z0 T2 RH2 PRES U2 RAIN (i_SLOPE inp) lwin n)
      (Rmax Gt 0 * (1 - alpha) - Gp) = Ok (g5, fn, Ts, f) ->
    mass_fluxes c Ts (f_LE f) dt = Ok m ->
    me = available_melt_energy (Rmax Gt 0 * (1 - alpha) - Gp) f ->
    fdiv (me * dt) (1000 * c_lat_heat_melting c) = Ok melt ->
    water_step fuel c g5 melt m RAIN = Ok (g8, Q, wr) ->
    solveHeatEquation fuel c g8 dt = Ok g9 ->
    densification c g9 (i_SLOPE inp) dt = Ok g10 ->
    fdiv rho (c_water_density c) = Ok ratio ->
    get_total_snowheight c g10 = Ok sh ->
    get_total_height g10 = Ok th ->
    (if sw_WRF_X_CSPY sw then check_profiles c max_layers g10 ;; Ok None
     else if sw_full_field sw then p <- store_profiles c max_layers g10 ;; Ok (Some p)
     else Ok None) = Ok pr ->
    stepped fuel c sw sv dt max_layers z d inp t s
      (mkState g10 Ts albedo_snow
         (s_MB_cum s + (SNOWFALL * ratio - melt + m_sublimation m + m_deposition m + m_evaporation m
                        + (wr - sm))))
      (mkOutput RAIN (SNOWFALL * ratio) (f_Li f) (f_Lo f) (f_H f) (f_LE f) (f_B f) (f_QRR f)
         (SNOWFALL * ratio - melt + m_sublimation m + m_deposition m + m_evaporation m + (wr - sm))
         (SNOWFALL * ratio - melt + m_sublimation m + m_deposition m + m_evaporation m)
         Q sh th Ts alpha (get_number_layers g10) me (wr - sm)
         (m_evaporation m) (m_sublimation m) (m_condensation m) (m_deposition m) wr
         sm z0 melt (f_MOL f) (g_new_snow_height g10) (g_new_snow_timestamp g10)
         (g_old_snow_timestamp g10) pr).

Lemma core_step_inv fuel c sw sv dt ml z d inp t s s' o :
  core_step fuel c sw sv (dt, ml, z) d inp t s = Ok (s', o) ->
  stepped fuel c sw sv dt ml z d inp t s s' o.
Proof.
  unfold core_step; intros H.
  repeat match type of H with
  | bind ?m _ = Ok _ =>
      lazymatch m with
      | (if sw_WRF_X_CSPY sw then _ else _) => fail
      | _ => apply bind_ok in H;
             let x := fresh "x" in let E := fresh "E" in
             destruct H as (x & E & H); repeat match goal with y : (_ * _)%type |- _ => destruct y end
      end
  end.
  all: match goal with _ => idtac end.
  unfold get_fresh_snow_props in H. apply bind_ok in H. destruct H as (pr & Epr & H).
  injection H as <- <-.
  econstructor; try eassumption. reflexivity.
Qed.
